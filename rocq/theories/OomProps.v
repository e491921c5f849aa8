(** Property C213: what happens when the system has no memory. *)
From Coq Require Import List Arith Lia Bool.
From Verif Require Import Base BaseLemmas Store StoreLemmas StaticVectorModel StaticVectorSpec
  StaticVectorProofs VectorModel VectorSpec VectorProofs VectorProps ListModel PointersModel OomModel.
From Verif Require StringModel.
Import ListNotations.

(** ** Vector *)

(** resize is left out: even with memory it can return without having had any effect (C13). *)
Definition not_resize {A} (op : vec_op A) : Prop := match op with VResize _ => False | _ => True end.

(** A condition on every call and the contents at its time. *)
Fixpoint calls_meet {A} (dflt : A) (P : list A -> vec_op A -> Prop) (l : list A)
  (ops : list (vec_op A)) : Prop :=
  match ops with
  | [] => True
  | op :: ops => P l op /\ calls_meet dflt P (seq_step dflt l op) ops
  end.

Section Vector.
  Context {A : Type}.
  Variable m : mode.
  Variable moved : A -> A.
  Variable dflt : A.
  Variable answers : nat -> memory.

  Notation mk l rest k := (SVec (St (map (@Some A) l ++ rest) k) (length l)).

  Lemma direct_ok l rest lost c op :
    length l + length rest = c -> asks (Vec (mk l rest lost) c) op = false ->
    not_resize op -> (forall n, op <> VReserve n) -> vec_valid_op l op ->
    m = Trivial \/ vec_tail_range l op ->
    vpost m rest lost (vec_no_leak l op)
      (vec_step m moved dflt NoMemory 1 (Vec (mk l rest lost) c) op) (seq_step dflt l op) c.
  Proof.
    intros Hc Ha Hr Hn Hv Hm. revert Ha. unfold asks, vec_size, vc_tail. cbn [vc_arr sv_tail vc_capacity].
    destruct op; cbn [vec_step seq_step vec_no_leak vec_valid_op vec_tail_range not_resize] in *; intros Ha.
    - apply Nat.eqb_neq in Ha. apply push_direct; lia.
    - apply Nat.eqb_neq in Ha. apply push_direct; lia.
    - apply (vpost_lift m c); auto. apply popBack_ok; auto.
    - apply negb_false_iff, Nat.ltb_lt in Ha. apply insert_direct; auto.
    - destruct (Nat.eqb_spec (length xs) 0) as [E|E].
      + apply length_zero_iff_nil in E. subst xs. cbn [vec_insert_range length Nat.eqb].
        unfold insert_at. cbn [app]. rewrite firstn_skipn. apply vpost_same; auto.
      + cbn [negb andb] in Ha. apply negb_false_iff, Nat.leb_le in Ha. apply insert_range_direct; auto.
    - apply negb_false_iff, Nat.ltb_lt in Ha. apply emplace_direct; auto.
    - apply (vpost_lift m c); auto. apply erase_ok; auto.
    - apply (vpost_lift m c); auto. apply erase_range_ok; tauto.
    - apply (vpost_lift m c); auto. apply clean_ok; auto.
    - destruct (Hn n eq_refl).
    - contradiction.
  Qed.

  Lemma reserve_any l rest lost c n k : length l + length rest = c -> exists v,
    reserve_then m answers k (Vec (mk l rest lost) c) n = Ok (v, if c <? n then S k else k)
    /\ (if match answers k with NoMemory => true | _ => false end then
          v = Vec (mk l rest lost) c
        else vpost m rest lost True (Ok v) l (Nat.max c n)).
  Proof.
    intros Hc. unfold reserve_then. cbn [vc_capacity].
    assert (answers k = NoMemory \/ answers k <> NoMemory) as [E|E]
      by (destruct (answers k); auto; right; discriminate).
    - rewrite E. eexists. split; [|reflexivity]. unfold vec_reserve. cbn [vc_capacity].
      destruct (c <? n); reflexivity.
    - destruct (reserve_ok m (answers k) E l rest lost n c Hc) as (r' & k' & E1 & R).
      rewrite E1. cbn [bind]. eexists. split; [reflexivity|].
      destruct (answers k); try congruence; exists r', k'; auto.
  Qed.

  (** One call that returns. *)
  Lemma step_any op : not_resize op -> forall fuel k l rest lost c v k',
    length l + length rest = c -> vec_valid_op l op -> m = Trivial \/ vec_tail_range l op ->
    step_then m moved dflt answers fuel k (Vec (mk l rest lost) c) op = Ok (v, k') ->
    exists c', vpost m rest lost (vec_no_leak l op) (Ok v) (seq_step dflt l op) c'.
  Proof.
    intros Hr. induction fuel as [|f IH]; intros k l rest lost c v k' Hc Hv Hm E; [discriminate|].
    cbn [step_then] in E. destruct (asks (Vec (mk l rest lost) c) op) eqn:Ea.
    - destruct (reserve_any l rest lost c (asked (Vec (mk l rest lost) c) op) k Hc) as (v1 & E1 & H1).
      rewrite E1 in E. cbn [bind] in E.
      destruct (match answers k with NoMemory => true | _ => false end).
      + subst v1. eapply IH; eauto.
      + destruct H1 as (r1 & k1 & E2 & L1 & C1). injection E2 as ->.
        destruct (IH _ _ _ _ _ _ _ L1 Hv Hm E) as (c' & r2 & k2 & E3 & L2 & C2).
        exists c', r2, k2. split; auto. split; auto. intros Em Hn HR.
        destruct (C1 Em I HR) as [HR1 ->]. auto.
    - destruct op as [| | | | | | | | |n|];
        try (contradiction Hr);
        try (destruct (direct_ok l rest lost c _ Hc Ea Hr ltac:(discriminate) Hv Hm)
               as (r1 & k1 & E1 & L1 & C1);
             cbn [vec_step] in E, E1; rewrite E1 in E; cbn [bind] in E; injection E as <- <-;
             exists c, r1, k1; auto).
      destruct (reserve_any l rest lost c n k Hc) as (v1 & E1 & H1). rewrite E1 in E.
      injection E as <- _. destruct (match answers k with NoMemory => true | _ => false end).
      + exists c. subst v1. exists rest, lost. auto.
      + destruct H1 as (r1 & k1 & E2 & L1 & C1). exists (Nat.max c n), r1, k1. split; auto.
  Qed.

  Lemma run_any fuel : forall ops k l rest lost c v k',
    length l + length rest = c -> Forall not_resize ops -> positions_valid dflt l ops ->
    m = Trivial \/ calls_meet dflt vec_tail_range l ops ->
    run_then m moved dflt answers fuel k (Vec (mk l rest lost) c) ops = Ok (v, k') ->
    exists c', vpost m rest lost (calls_meet dflt vec_no_leak l ops) (Ok v)
      (fold_left (seq_step dflt) ops l) c'.
  Proof.
    induction ops as [|op ops IH]; intros k l rest lost c v k' Hc Hr Hp Hm E; cbn [run_then fold_left] in *.
    - injection E as <- _. exists c, rest, lost. auto.
    - inversion Hr as [|? ? Hr1 Hr2]; subst. destruct Hp as [Hp1 Hp2].
      destruct (step_then m moved dflt answers fuel k _ op) as [[v1 k1]| |] eqn:E1; try discriminate.
      cbn [bind] in E.
      destruct (step_any op Hr1 _ _ _ _ _ _ _ _ eq_refl Hp1 ltac:(destruct Hm as [?|[? ?]]; auto) E1)
        as (c1 & r1 & l1 & E2 & L1 & C1). injection E2 as ->.
      destruct (IH _ _ _ _ _ _ _ L1 Hr2 Hp2 ltac:(destruct Hm as [?|[? ?]]; auto) E)
        as (c2 & r2 & l2 & E3 & L2 & C2).
      exists c2, r2, l2. split; auto. split; auto. cbn [calls_meet]. intros Em [H1 H2] HR.
      destruct (C1 Em H1 HR) as [HR1 ->]. auto.
  Qed.

  (** A call that asks is answered before long. *)
  Variable d : nat.
  Hypothesis often : forall k, exists j, j < d /\ answers (k + j) <> NoMemory.

  Lemma step_returns op l : ordinary op -> vec_valid_op l op ->
    m = Trivial \/ vec_tail_range l op ->
    forall rest lost c k, length l + length rest = c -> c <> 1 ->
    exists v c' k', step_then m moved dflt answers (S d) k (Vec (mk l rest lost) c) op = Ok (v, k')
      /\ vpost m rest lost (vec_no_leak l op) (Ok v) (seq_step dflt l op) c' /\ c' <> 1.
  Proof.
    intros Ho Hv Hm rest lost c k Hc H1.
    assert (Hr : not_resize op) by (destruct op; cbn in *; auto).
    destruct (asks (Vec (mk l rest lost) c) op) eqn:Ea.
    2:{ cbn [step_then]. rewrite Ea.
        destruct op as [| | | | | | | | |n|];
        try (contradiction Hr);
        try (destruct (direct_ok l rest lost c _ Hc Ea Hr ltac:(discriminate) Hv Hm)
               as (r1 & k1 & E1 & L1 & C1);
             cbn [vec_step] in E1; cbn [vec_step]; rewrite E1; cbn [bind];
             eexists _, c, k; split; [reflexivity|]; split; [exists r1, k1; auto|assumption]).
        destruct (reserve_any l rest lost c n k Hc) as (v1 & E1 & Hq). rewrite E1. cbn in Ho.
        destruct (match answers k with NoMemory => true | _ => false end).
        - exists v1, c. eexists. split; [reflexivity|]. split; [|assumption]. subst v1.
          exists rest, lost. auto.
        - exists v1, (Nat.max c n). eexists. split; [reflexivity|]. split; [|lia].
          destruct Hq as (r1 & k1 & E2 & L1 & C1). exists r1, k1. auto. }
    destruct (often k) as (j & Hj & Hm1). remember (S d) as fuel eqn:Hf.
    assert (Hfuel : j < fuel - 1) by lia. clear Hf Hj. revert k fuel Hm1 Hfuel.
    induction j as [|j IH]; intros k fuel Hm1 Hfuel; destruct fuel as [|f]; try lia;
      cbn [step_then]; rewrite Ea;
      destruct (reserve_any l rest lost c (asked (Vec (mk l rest lost) c) op) k Hc) as (v1 & E1 & Hq);
      rewrite E1; cbn [bind]; destruct (answers k) eqn:Ek.
    3:{ rewrite Nat.add_0_r in Hm1. congruence. }
    5:{ subst v1. apply IH; [|lia].
        assert (Hlt : (c <? asked (Vec (mk l rest lost) c) op) = true).
        { apply Nat.ltb_lt. revert Ea. unfold asks, asked, vec_size, vc_tail.
          cbn [vc_arr sv_tail vc_capacity]. rewrite next_capacity_grow. pose proof (grow_gt c H1).
          destruct op; intros Ea; try discriminate; try lia.
          apply andb_true_iff in Ea as [Ea _]. apply negb_true_iff, Nat.eqb_neq in Ea. lia. }
        rewrite Hlt. rewrite Nat.add_succ_r in Hm1. exact Hm1. }
    all: destruct f as [|f]; [lia|]; destruct Hq as (r1 & k1 & E2 & L1 & C1); injection E2 as ->;
      set (c1 := Nat.max c (asked (Vec (mk l rest lost) c) op)) in *;
      assert (Hc1 : c1 <> 1 /\ asks (Vec (mk l r1 k1) c1) op = false)
        by (subst c1; clear - Hc H1 Ea Ho; revert Ea; unfold asks, asked, vec_size, vc_tail;
            cbn [vc_arr sv_tail vc_capacity]; rewrite next_capacity_grow; pose proof (grow_gt c H1);
            pose proof (grow_ne1 c H1);
            destruct op; intros Ea; try discriminate; try contradiction;
            (split; [cbn [ordinary] in Ho; lia|]);
            [apply Nat.eqb_neq; apply Nat.eqb_eq in Ea; lia
            |apply Nat.eqb_neq; apply Nat.eqb_eq in Ea; lia
            |apply negb_false_iff, Nat.ltb_lt; apply negb_true_iff, Nat.ltb_ge in Ea; lia
            |apply andb_false_iff; right; apply negb_false_iff, Nat.leb_le;
             apply andb_true_iff in Ea as [_ Ea]; apply negb_true_iff, Nat.leb_gt in Ea; lia
            |apply negb_false_iff, Nat.ltb_lt; apply negb_true_iff, Nat.ltb_ge in Ea; lia]);
      destruct Hc1 as [Hc1 Ea1];
      cbn [step_then]; rewrite Ea1.
    all: destruct op; cbn [asks] in Ea; try discriminate Ea; try contradiction.
    all: lazymatch goal with |- context[vec_step _ _ _ _ _ _ ?op] =>
      destruct (direct_ok l r1 k1 c1 op L1 Ea1 Hr ltac:(discriminate) Hv Hm) as (r2 & k2 & E3 & L2 & C2) end;
      rewrite E3; cbn [bind]; eexists _, c1, _; (split; [reflexivity|]); (split; [|exact Hc1]);
      exists r2, k2; (split; [reflexivity|]); (split; [exact L2|]);
      intros Em Hn HR; destruct (C1 Em I HR) as [HR1 ->]; auto.
  Qed.

  Lemma run_returns : forall ops k l rest lost c,
    length l + length rest = c -> c <> 1 -> Forall ordinary ops -> positions_valid dflt l ops ->
    m = Trivial \/ calls_meet dflt vec_tail_range l ops ->
    exists v k', run_then m moved dflt answers (S d) k (Vec (mk l rest lost) c) ops = Ok (v, k').
  Proof.
    induction ops as [|op ops IH]; intros k l rest lost c Hc H1 Ho Hp Hm; cbn [run_then]; eauto.
    inversion Ho as [|? ? Ho1 Ho2]; subst. destruct Hp as [Hp1 Hp2].
    destruct (step_returns op l Ho1 Hp1 ltac:(destruct Hm as [?|[? ?]]; auto) rest lost _ k eq_refl H1)
      as (v & c' & k' & E & (r1 & l1 & E1 & L1 & _) & Hc').
    rewrite E. cbn [bind]. injection E1 as ->.
    eapply IH; eauto. destruct Hm as [?|[? ?]]; auto.
  Qed.
End Vector.

(** Whatever the system answers and whenever: a history of calls that return leaves exactly the
    elements it should, nothing is lost by a refusal. *)
Theorem C213_vector_partial :
  forall (A : Type) (m : mode) (moved : A -> A) (dflt : A) (answers : nat -> memory) fuel
    (ops : list (vec_op A)) v k,
    Forall not_resize ops -> positions_valid dflt [] ops ->
    m = Trivial \/ calls_meet dflt vec_tail_range [] ops ->
    run_then m moved dflt answers fuel 0 vec_new ops = Ok (v, k) ->
    vec_elements v = Ok (seq_run dflt ops)
    /\ vec_size v = length (seq_run dflt ops)
    /\ vec_size v <= vc_capacity v
    /\ (m = Tracked -> calls_meet dflt vec_no_leak [] ops -> vec_destructor m v = Ok 0).
Proof.
  intros A m moved dflt answers fuel ops v k Hr Hp Hm E. rewrite new_rep in E.
  destruct (run_any m moved dflt answers fuel ops 0 [] [] 0 0 v k eq_refl Hr Hp Hm E)
    as (c & r & lost & E1 & L & C). injection E1 as ->. fold (seq_run dflt ops) in *.
  split; [apply vec_elements_ok|]. split; [reflexivity|]. split.
  - unfold vec_size, vc_tail. cbn [vc_arr sv_tail vc_capacity]. lia.
  - intros Em Hn. destruct (C Em Hn) as [HR ->]; [constructor|]. apply vec_destructor_ok; auto.
Qed.

(** The calls return if no [d] answers in a row are refusals. *)
Theorem C213_retry_partial :
  forall (A : Type) (m : mode) (moved : A -> A) (dflt : A) (answers : nat -> memory) d
    (ops : list (vec_op A)),
    (forall k, exists j, j < d /\ answers (k + j) <> NoMemory) ->
    Forall ordinary ops -> positions_valid dflt [] ops ->
    m = Trivial \/ calls_meet dflt vec_tail_range [] ops ->
    exists v k, run_then m moved dflt answers (S d) 0 vec_new ops = Ok (v, k)
      /\ vec_elements v = Ok (seq_run dflt ops).
Proof.
  intros A m moved dflt answers d ops Ha Ho Hp Hm.
  destruct (run_returns m moved dflt answers d Ha ops 0 [] [] 0 0 eq_refl ltac:(lia) Ho Hp Hm) as (v & k & E).
  rewrite <- new_rep in E. exists v, k. split; auto.
  apply (C213_vector_partial A m moved dflt answers (S d) ops v k); auto.
  clear - Ho. induction Ho as [|op ops H1 H2 IH]; constructor; auto. destruct op; cbn in *; auto.
Qed.

(** Every third answer is good, the others are refusals; a history that grows twice. *)
Example C213_vector_case :
  let answers k := if k mod 3 =? 2 then Fresh else NoMemory in
  let ops := [VPush 1; VInsertRange 1 [2; 3; 4; 5; 6; 7; 8; 9; 10]; VErase 0; VReserve 40; VPop] in
  (forall k, exists j, j < 3 /\ answers (k + j) <> NoMemory)
  /\ Forall ordinary ops /\ Forall not_resize ops /\ positions_valid 0 [] ops
  /\ seq_run 0 ops = [2; 3; 4; 5; 6; 7; 8; 9]
  /\ exists v, run_then Trivial (fun x => x) 0 answers 4 0 vec_new ops = Ok (v, 7)
       /\ vc_capacity v = 17.
Proof.
  cbn zeta. split.
  { intros k. exists (2 - k mod 3). pose proof (Nat.mod_upper_bound k 3 ltac:(lia)) as B.
    split; [lia|]. replace ((k + (2 - k mod 3)) mod 3) with 2; [discriminate|].
    pose proof (Nat.div_mod k 3 ltac:(lia)) as D.
    replace (k + (2 - k mod 3)) with (2 + (k / 3) * 3) by lia.
    rewrite Nat.mod_add by lia. reflexivity. }
  split. { repeat constructor; cbn; lia. } split. { repeat constructor. }
  split. { cbn. lia. } split; [reflexivity|].
  eexists. vm_compute. split; reflexivity.
Qed.

(** reserve says whether there is memory: afterwards the capacity is what was asked for, or nothing
    at all has changed and the capacity is less. *)
Theorem C213_reserve_partial :
  forall (A : Type) (m : mode) (answers : nat -> memory) k (v v' : vec A) n k',
    reserve_then m answers k v n = Ok (v', k') ->
    (n <= vc_capacity v' <-> n <= vc_capacity v \/ answers k <> NoMemory)
    /\ (vc_capacity v' < n -> v' = v).
Proof.
  intros A m answers k v v' n k' E. unfold reserve_then, vec_reserve in E.
  destruct (Nat.ltb_spec (vc_capacity v) n) as [H|H].
  - destruct (answers k) eqn:Ea.
    + cbn [bind] in E. injection E as <- _. cbn [vc_capacity]. split; [|lia].
      split; intros; [right; discriminate|lia].
    + destruct (load_range _ _ _) as [xs| |]; try discriminate.
      cbn [bind] in E. destruct (destroy_range _ _ _ _) as [s| |]; try discriminate.
      cbn [bind] in E. injection E as <- _. cbn [vc_capacity]. split; [|lia].
      split; intros; [right; discriminate|lia].
    + cbn [bind] in E. injection E as <- _. split; auto. split; [lia|]. intros [?|?]; [lia|congruence].
  - cbn [bind] in E. injection E as <- _. split; [|lia]. split; auto.
Qed.

Example C213_reserve_case :
  let v := Vec (SVec (St [Some 4; Some 6] 0) 2) 2 in
  reserve_then Tracked (fun _ => NoMemory) 5 v 3 = Ok (v, 6)
  /\ reserve_then Tracked (fun _ => Fresh) 5 v 3
     = Ok (Vec (SVec (St [Some 4; Some 6; None] 0) 2) 3, 6).
Proof. split; reflexivity. Qed.

(** Every other call that needs memory never returns while there is none: it calls itself, for ever. *)
Theorem C213_vector_refuted :
  forall (A : Type) (m : mode) (moved : A -> A) (dflt : A) (v : vec A) op,
    asks v op = true ->
    forall fuel k, step_then m moved dflt (fun _ => NoMemory) fuel k v op = Diverge.
Proof.
  intros A m moved dflt v op Ha. induction fuel as [|f IH]; intros k; [reflexivity|].
  cbn [step_then]. rewrite Ha. unfold reserve_then, vec_reserve.
  destruct (vc_capacity v <? asked v op); cbn [bind]; apply IH.
Qed.

(** In particular the first pushBack of all. *)
Example C213_vector_refuted_case : asks (A := nat) vec_new (VPush 1) = true
  /\ asks (A := nat) vec_new (VInsertRange 0 [7]) = true /\ asks (A := nat) vec_new (VResize 3) = true.
Proof. repeat split. Qed.

(** A copy of a vector with elements writes through the null pointer; a vector made with a size has
    that size, and no element. *)
Theorem C213_construct_refuted :
  forall (A : Type) (m : mode) (x : A) (xs : list A),
    copy_no_memory m (x :: xs) = UB
    /\ forall n, 0 < n ->
         0 < vec_size (of_size_no_memory (A := A) n)
         /\ forall i, vec_index (of_size_no_memory (A := A) n) i = UB.
Proof.
  intros A m x xs. split; [reflexivity|]. intros n Hn. split.
  - unfold vec_size, vc_tail, of_size_no_memory. cbn [vc_arr sv_tail].
    apply Nat.div_str_pos. lia.
  - intros i. destruct i; reflexivity.
Qed.

(** The calls here are those of VectorModel when every answer is the same. *)
Section Same.
  Context {A : Type}.
  Variable m : mode.
  Variable moved : A -> A.
  Variable dflt : A.

  Lemma push_all_room mem f mem' f' : forall (xs : list A) v,
    length xs + vc_tail v <= vc_capacity v ->
    vec_push_all m mem (S f) v xs = vec_push_all m mem' (S f') v xs.
  Proof.
    induction xs as [|x xs IH]; intros v H; cbn [vec_push_all length] in *; [reflexivity|].
    unfold vec_pushBack. cbn [vec_pushBack_ref vref_value bind].
    destruct (Nat.eqb_spec (vc_tail v) (vc_capacity v)); [lia|]. cbn [negb].
    destruct (st_construct m (vc_store v) (vc_tail v) x); cbn [bind]; auto.
    apply IH. unfold vc_tail in *. cbn [vc_arr sv_tail vc_capacity]. lia.
  Qed.

  (** A call that does not ask does not depend on the memory. *)
  Lemma direct_same mem f (v : vec A) op : asks v op = false -> (forall n, op <> VReserve n) ->
    vec_step m moved dflt mem (S f) v op = vec_step m moved dflt NoMemory 1 v op.
  Proof.
    unfold asks. intros Ha Hn.
    assert (P : forall x, vc_tail v =? vc_capacity v = false ->
      vec_pushBack m mem (S f) v x = vec_pushBack m NoMemory 1 v x).
    { intros x E. unfold vec_pushBack. cbn [vec_pushBack_ref]. rewrite E. reflexivity. }
    destruct op; cbn [vec_step]; auto.
    - apply negb_false_iff in Ha. unfold vec_insert. cbn [vec_insert_ref]. rewrite Ha.
      destruct (it =? vc_tail v); [|reflexivity]. apply P.
      apply Nat.ltb_lt in Ha. apply Nat.eqb_neq. unfold vec_size in Ha. lia.
    - cbn [vec_insert_range]. destruct (length xs =? 0); [reflexivity|].
      cbn [negb andb] in Ha. apply negb_false_iff in Ha. rewrite Ha.
      destruct (it =? vc_tail v); [|reflexivity]. apply push_all_room.
      apply Nat.leb_le in Ha. unfold vec_size in Ha. lia.
    - apply negb_false_iff in Ha. cbn [vec_emplace]. rewrite Ha.
      destruct (it =? vc_tail v); [|reflexivity]. apply P.
      apply Nat.ltb_lt in Ha. apply Nat.eqb_neq. unfold vec_size in Ha. lia.
    - destruct (Hn n eq_refl).
    - cbn [vec_resize]. destruct (vec_size v <? n); [|reflexivity]. cbn [andb] in Ha. rewrite Ha.
      destruct (n <? vc_capacity v); reflexivity.
  Qed.

  (** A call that asks. *)
  Lemma asking_same mem f (v : vec A) op : asks v op = true ->
    vec_step m moved dflt mem (S f) v op
    = bind (vec_reserve m mem v (asked v op)) (fun v => vec_step m moved dflt mem f v op).
  Proof.
    unfold asks. intros Ha. destruct op; try discriminate; cbn [vec_step asked].
    - unfold vec_pushBack. cbn [vec_pushBack_ref]. rewrite Ha. reflexivity.
    - unfold vec_pushBack. cbn [vec_pushBack_ref]. rewrite Ha. reflexivity.
    - apply negb_true_iff in Ha. unfold vec_insert. cbn [vec_insert_ref]. rewrite Ha. reflexivity.
    - apply andb_true_iff in Ha as [H1 H2]. apply negb_true_iff in H1, H2. cbn [vec_insert_range].
      rewrite H1, H2. reflexivity.
    - apply negb_true_iff in Ha. cbn [vec_emplace]. rewrite Ha. reflexivity.
    - apply andb_true_iff in Ha as [H1 H2]. cbn [vec_resize]. rewrite H1, H2.
      destruct (Nat.ltb_spec n (vc_capacity v)); [|reflexivity].
      apply Nat.ltb_lt in H2. lia.
  Qed.

  Lemma direct_then mem f k (v : vec A) op : asks v op = false ->
    exists k', match op with
      | VReserve n => reserve_then m (fun _ => mem) k v n
      | _ => bind (vec_step m moved dflt NoMemory 1 v op) (fun v => Ok (v, k))
      end = bind (vec_step m moved dflt mem (S f) v op) (fun v' => Ok (v', k')).
  Proof.
    intros Ha.
    assert (D : (forall n, op <> VReserve n) ->
      bind (vec_step m moved dflt NoMemory 1 v op) (fun v => Ok (v, k))
      = bind (vec_step m moved dflt mem (S f) v op) (fun v' => Ok (v', k))).
    { intros H. rewrite (direct_same mem f v op Ha H). reflexivity. }
    destruct op as [| | | | | | | | |n|]; try (exists k; apply D; intros ?; discriminate).
    eexists. cbn [vec_step]. reflexivity.
  Qed.
End Same.

Theorem C213_same_answers :
  forall (A : Type) (m : mode) (moved : A -> A) (dflt : A) (mem : memory) f k (v : vec A) op,
    exists k', step_then m moved dflt (fun _ => mem) (S f) k v op
      = bind (vec_step m moved dflt mem (S f) v op) (fun v' => Ok (v', k')).
Proof.
  intros A m moved dflt mem f. induction f as [|f IH]; intros k v op; cbn [step_then];
    destruct (asks v op) eqn:Ea.
  - exists k. rewrite (asking_same m moved dflt mem _ v op Ea). unfold reserve_then.
    destruct (vec_reserve m mem v (asked v op)) as [v1| |]; cbn [bind]; try reflexivity.
    destruct op; discriminate Ea || reflexivity.
  - exact (direct_then m moved dflt mem 0 k v op Ea).
  - rewrite (asking_same m moved dflt mem _ v op Ea). unfold reserve_then.
    destruct (vec_reserve m mem v (asked v op)) as [v1| |]; cbn [bind];
      [apply IH|exists k; reflexivity|exists k; reflexivity].
  - exact (direct_then m moved dflt mem (S f) k v op Ea).
Qed.

Example C213_same_case :
  step_then Trivial (fun x => x) 0 (fun _ => Fresh) 2 0 vec_new (VPush 7)
  = bind (vec_step Trivial (fun x => x) 0 Fresh 2 vec_new (VPush 7)) (fun v => Ok (v, 1))
  /\ exists v, vec_step Trivial (fun x => x) 0 Fresh 2 vec_new (VPush 7) = Ok v
       /\ vec_elements v = Ok [7].
Proof. split; [reflexivity|]. eexists. split; reflexivity. Qed.

(** ** String *)

(** A string that has to grow when there is no memory: it says that it has the capacity asked for and
    its old length, but all its characters are lost, and even destroying it follows the null
    pointer. *)
Theorem C213_string_refuted :
  forall (A : Type) (nul : A) (s : StringModel.str A) b n,
    StringModel.s_buf s = Some b -> StringModel.s_cap s < n ->
    exists s', resize_no_memory nul s n = Ok s'
      /\ StringModel.str_capacity s' = n /\ StringModel.str_length s' = StringModel.str_length s
      /\ (forall i, StringModel.str_at s' i = UB)
      /\ str_destroy nul s' = UB.
Proof.
  intros A nul s b n Hb Hn. unfold resize_no_memory. rewrite Hb.
  destruct (Nat.ltb_spec (StringModel.s_cap s) n); [|lia].
  eexists. split; [reflexivity|]. repeat split.
  unfold str_destroy, StringModel.str_clean. cbn [StringModel.s_cap].
  destruct (Nat.eqb_spec n 0); [lia|]. reflexivity.
Qed.

(** A string made of a text, a copy, and the first growth of an empty string write through the null
    pointer. *)
Theorem C213_string_new_refuted :
  forall (A : Type) (nul : A) (is_nul : A -> bool) n,
    resize_no_memory nul (StringModel.str_new (A := A)) n = UB
    /\ (forall text rest, is_nul nul = true -> Forall (fun c => is_nul c = false) text ->
          from_raw_no_memory nul is_nul (Some (text ++ nul :: rest)) = UB)
    /\ (forall src xs, StringModel.str_chars src = Ok xs ->
          copy_string_no_memory nul src = UB).
Proof.
  intros A nul is_nul n. split; [reflexivity|]. split.
  - intros text rest Hnul Ht. unfold from_raw_no_memory. cbn [StringModel.raw_length].
    assert (StringModel.scan is_nul (text ++ nul :: rest) = Ok (length text)) as ->.
    { induction Ht as [|c text Hc Ht IH]; cbn [app StringModel.scan length].
      - rewrite Hnul. reflexivity.
      - rewrite Hc, IH. reflexivity. }
    cbn [bind]. destruct text as [|c text]; [reflexivity|].
    unfold StringModel.raw_read. cbn [length].
    destruct (Nat.leb_spec (S (length text)) (length ((c :: text) ++ nul :: rest)));
      [|rewrite app_length in *; cbn [length] in *; lia].
    reflexivity.
  - intros src xs E. unfold copy_string_no_memory. rewrite E. cbn [bind].
    destruct xs; reflexivity.
Qed.

Example C213_string_case :
  let s := StringModel.Str (Some [Some 104; Some 105; Some 0]) 3 2 in
  StringModel.str_chars s = Ok [104; 105] /\ StringModel.s_cap s < 5
  /\ resize_no_memory 0 s 5 = Ok (StringModel.Str None 5 2).
Proof. cbn zeta. repeat split; cbn; lia. Qed.

(** ** List *)

(** Every insertion follows the null pointer, in every list (nothing lies at the null pointer). *)
Theorem C213_list_refuted :
  forall (A : Type) (h : heap A) (l : dlist), hp_cell h Null = None ->
    push_back_no_memory h l = UB
    /\ push_front_no_memory h l = UB
    /\ forall it, insert_no_memory h l it = UB.
Proof.
  intros A h l Hn.
  assert (G : forall p q, ptr_eqb p Null = false ->
    (forall h', set_prev h p q = Ok h' -> hp_cell h' Null = None)
    /\ (forall h', set_next h p q = Ok h' -> hp_cell h' Null = None)).
  { intros p q Hp. unfold set_prev, set_next, get.
    destruct (hp_cell h p); split; intros h' E; try discriminate; injection E as <-;
      unfold put; cbn [hp_cell]; rewrite Hp; exact Hn. }
  assert (N : forall (h' : heap A) q, hp_cell h' Null = None -> set_prev h' Null q = UB /\ set_next h' Null q = UB).
  { intros h' q E. unfold set_prev, set_next, get. rewrite E. auto. }
  assert (E1 : forall h' : heap A, update_links h' (DL (dl_id l) Null Null) = UB
    \/ hp_cell h' Null <> None).
  { intros h'. destruct (hp_cell h' Null) eqn:E; [right; congruence|left].
    unfold update_links, update_head_links. cbn [dl_id dl_head].
    unfold set_next at 1, get. destruct (hp_cell h' (PostFirst (dl_id l))); [|reflexivity].
    cbn [bind]. unfold set_prev, get, put. cbn [hp_cell ptr_eqb]. rewrite E. reflexivity. }
  split; [|split].
  - unfold push_back_no_memory. destruct (ptr_eqb (dl_head l) Null).
    + destruct (E1 h) as [->|?]; [reflexivity|contradiction].
    + destruct (N h (dl_tail l) Hn) as [-> _]. reflexivity.
  - unfold push_front_no_memory. destruct (ptr_eqb (dl_head l) Null) eqn:Eh.
    + destruct (E1 h) as [->|?]; [reflexivity|contradiction].
    + destruct (set_prev h (dl_head l) Null) as [h1| |] eqn:E2; cbn [bind].
      * destruct (N h1 (dl_head l)) as [_ ->]; [|reflexivity].
        apply (proj1 (G (dl_head l) Null Eh) _ E2).
      * reflexivity.
      * unfold set_prev, get in E2. destruct (hp_cell h (dl_head l)); discriminate.
  - intros it. unfold insert_no_memory. destruct (get h it) as [n| |] eqn:E; cbn [bind].
    + destruct (set_next h (n_prev n) Null) as [h1| |] eqn:E2; cbn [bind].
      * destruct (ptr_eqb (n_prev n) Null) eqn:Ep.
        -- assert (n_prev n = Null) as Ep' by (destruct (n_prev n); cbn in Ep; congruence).
           rewrite Ep' in E2. destruct (N h Null Hn) as [_ X]. congruence.
        -- destruct (N h1 (n_prev n)) as [-> _]; [|reflexivity].
           apply (proj2 (G (n_prev n) Null Ep) _ E2).
      * reflexivity.
      * unfold set_next, get in E2. destruct (hp_cell h (n_prev n)); discriminate.
    + reflexivity.
    + unfold get in E. destruct (hp_cell h it); discriminate.
Qed.

(** A list of two elements. *)
Example C213_list_case : exists h l,
  list_history 0 50 [LPushBack 1; LPushBack 2] = Ok (h, l) /\ hp_cell h Null = None
  /\ list_forward 50 h l = Ok [1; 2].
Proof. do 2 eexists. vm_compute. repeat split. Qed.

(** ** Pointers *)

(** A UniquePointer made without memory says that it is empty, holds no object and can be destroyed;
    nothing else has changed. *)
Theorem C213_unique_partial :
  forall (A : Type) (w : uworld A) p, nth_error (u_vars w) p = Some Absent ->
    exists w', unique_no_memory w p = Ok w'
      /\ u_bool w' p = Ok false /\ u_objs w' = u_objs w
      /\ (forall q, q <> p -> nth_error (u_vars w') q = nth_error (u_vars w) q)
      /\ u_destroy w' p = Ok w.
Proof.
  intros A w p Hp. unfold unique_no_memory, u_fresh. rewrite Hp. cbn [bind].
  eexists. split; [reflexivity|]. assert (p < length (u_vars w)) by (apply nth_error_Some; congruence).
  unfold u_bool, u_destroy, u_clean, u_field, u_set. cbn [u_vars u_objs].
  rewrite nth_error_upd_eq by assumption. cbn [bind]. split; [reflexivity|]. split; [reflexivity|].
  split.
  - intros q Hq. apply nth_error_upd_neq. congruence.
  - cbn [u_vars u_objs]. f_equal. destruct w as [objs vars]. cbn [u_vars u_objs] in *. f_equal.
    clear - Hp. revert vars Hp. induction p as [|p IH]; intros [|v vars] Hp; cbn in *; try discriminate.
    + congruence.
    + f_equal. auto.
Qed.

Example C213_unique_case :
  unique_no_memory (UW [Some 7] [Present (Some 0); Absent]) 1
  = Ok (UW [Some 7] [Present (Some 0); Present None]).
Proof. reflexivity. Qed.

(** A SharedPointer made without memory cannot even be asked. *)
Theorem C213_shared_refuted :
  forall (A : Type) (w : sworld A) p, nth_error (s_vars w) p = Some SAbsent ->
    exists w', shared_no_memory w p = Ok w' /\ s_bool w' p = UB /\ s_deref w' p = UB
      /\ exists w'', s_destroy w' p = Ok w''.
Proof.
  intros A w p Hp. unfold shared_no_memory, s_fresh. rewrite Hp. cbn [bind].
  eexists. split; [reflexivity|]. assert (p < length (s_vars w)) by (apply nth_error_Some; congruence).
  unfold s_bool, s_deref, s_destroy, s_clean, s_field, s_set. cbn [s_vars s_objs].
  rewrite nth_error_upd_eq by assumption. cbn [bind]. repeat split. eauto.
Qed.

Example C213_shared_case :
  nth_error (s_vars (SW (A := nat) [] [SAbsent])) 0 = Some SAbsent.
Proof. reflexivity. Qed.

Print Assumptions C213_vector_partial.
Print Assumptions C213_same_answers.
Print Assumptions C213_retry_partial.
Print Assumptions C213_reserve_partial.
Print Assumptions C213_vector_refuted.
Print Assumptions C213_construct_refuted.
Print Assumptions C213_string_refuted.
Print Assumptions C213_string_new_refuted.
Print Assumptions C213_list_refuted.
Print Assumptions C213_unique_partial.
Print Assumptions C213_shared_refuted.
