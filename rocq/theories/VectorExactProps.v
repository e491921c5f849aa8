(** Property C13, completed: how every history of a Vector ends. *)
From Coq Require Import List Arith Lia Bool.
From Verif Require Import Base BaseLemmas Store StoreLemmas StaticVectorModel StaticVectorSpec
  StaticVectorProofs VectorModel VectorSpec VectorProofs VectorExactSpec.
Import ListNotations.

Section Exact.
  Context {A : Type}.
  Variable m : mode.
  Variable moved : A -> A.
  Variable dflt : A.
  Variable mem : memory.
  Hypothesis Hmem : mem <> NoMemory.

  Notation mk l rest k := (SVec (St (map (@Some A) l ++ rest) k) (length l)).

  (** The vector has the contents [l] and room for [c] elements. *)
  Definition vrep (c : nat) (l : list A) (v : vec A) : Prop :=
    exists rest k, v = Vec (mk l rest k) c /\ length l + length rest = c.

  Definition ends (e : vending A) (r : outcome (vec A)) : Prop :=
    match e with
    | VWorks c l => exists v, r = Ok v /\ vrep c l v
    | VBreaks => r = UB
    | VHangs => r = Diverge
    | VBadPosition => True
    end.

  Lemma vpost_ends rest k P r l c : vpost m rest k P r l c -> ends (VWorks c l) r.
  Proof. intros (r' & k' & -> & L & _). cbn. eexists. split; eauto. exists r', k'. auto. Qed.

  Lemma reserve_one l rest k : vec_reserve m mem (Vec (mk l rest k) 1) (next_capacity 1)
    = Ok (Vec (mk l rest k) 1).
  Proof. reflexivity. Qed.

  (** A vector with one element and room for one. *)
  Lemma push_hangs l rest k x f : length l = 1 ->
    vec_pushBack m mem f (Vec (mk l rest k) 1) x = Diverge.
  Proof.
    intros H. unfold vec_pushBack. induction f as [|f IH]; cbn [vec_pushBack_ref]; auto.
    unfold vc_tail at 1. cbn [vc_arr sv_tail vc_capacity]. rewrite H. cbn [Nat.eqb negb].
    rewrite <- H at 1. rewrite reserve_one. cbn [bind survive]. rewrite H in *. exact IH.
  Qed.
  Lemma insert_hangs l rest k p x f : length l = 1 ->
    vec_insert m moved dflt mem f (Vec (mk l rest k) 1) p x = Diverge.
  Proof.
    intros H. unfold vec_insert. induction f as [|f IH]; cbn [vec_insert_ref]; auto.
    unfold vec_size, vc_tail at 1. cbn [vc_arr sv_tail vc_capacity]. rewrite H. cbn [Nat.ltb Nat.leb].
    rewrite <- H at 1. rewrite reserve_one. cbn [bind survive]. rewrite H in *. exact IH.
  Qed.
  Lemma emplace_hangs l rest k p x f : length l = 1 ->
    vec_emplace m moved dflt mem f (Vec (mk l rest k) 1) p x = Diverge.
  Proof.
    intros H. induction f as [|f IH]; cbn [vec_emplace]; auto.
    unfold vec_size, vc_tail at 1. cbn [vc_arr sv_tail vc_capacity]. rewrite H. cbn [Nat.ltb Nat.leb].
    rewrite <- H at 1. rewrite reserve_one. cbn [bind]. rewrite H in *. exact IH.
  Qed.
  Lemma resize_hangs l rest k n f : length l < n -> 1 < n ->
    vec_resize m dflt mem f (Vec (mk l rest k) 1) n = Diverge.
  Proof.
    intros H Hn. induction f as [|f IH]; cbn [vec_resize]; auto.
    unfold vec_size, vc_tail at 1. cbn [vc_arr sv_tail vc_capacity].
    destruct (Nat.ltb_spec (length l) n); [|lia]. destruct (Nat.ltb_spec n 1); [lia|].
    destruct (Nat.ltb_spec 1 n); [|lia]. rewrite reserve_one. cbn [bind]. exact IH.
  Qed.

  (** resize to exactly the capacity it gets. *)
  Lemma resize_same n : forall f l rest k c, length l + length rest = c ->
    length l < n -> c <> 1 \/ n <= 1 -> n <= f + c -> grow_until f c n = n ->
    vpost m rest k True (vec_resize m dflt mem (S f) (Vec (mk l rest k) c) n) l n.
  Proof.
    induction f as [|f IH]; intros l rest k c Hc Hl Hg Hf Hn; cbn [vec_resize];
      unfold vec_size, vc_tail at 1; cbn [vc_arr sv_tail vc_capacity].
    all: destruct (Nat.ltb_spec (length l) n) as [_|?]; [|lia].
    all: destruct (Nat.ltb_spec n c) as [H1|H1]; [rewrite grow_until_stop in Hn by lia; lia|].
    all: destruct (Nat.ltb_spec c n) as [H2|H2]; [|replace n with c by lia; apply vpost_same; auto].
    - cbn in Hf. lia.
    - cbn [grow_until] in *. destruct (Nat.ltb_spec c n) as [_|?]; [|lia].
      rewrite next_capacity_grow. assert (c <> 1) as Hc1 by lia. pose proof (grow_gt c Hc1).
      eapply vpost_weaken with (P := True /\ True); [auto|].
      eapply vpost_bind with (P2 := True).
      { pose proof (reserve_ok m mem Hmem l rest k (grow c) c Hc) as R.
        rewrite Nat.max_r in R by lia. exact R. }
      intros r1 k1 L1. pose proof (grow_ne1 c Hc1). apply IH; auto; try lia.
  Qed.

  Lemma really_ok c l v op f : vrep c l v -> depth [op] <= f ->
    ends (vec_really m dflt c l op) (vec_step m moved dflt mem f v op).
  Proof.
    intros (rest & k & -> & Hc) Hf.
    assert (exists f', f = S (S f')) as (f' & ->).
    { destruct f as [|[|f]]; cbn in Hf; eauto. all: exfalso; destruct op; lia. }
    destruct op; cbn [vec_step vec_really].
    - unfold one_more. pose proof (push_ok m mem Hmem l rest k c x f' Hc) as P.
      destruct (Nat.ltb_spec (length l) c).
      + eapply vpost_ends, P. auto.
      + destruct (Nat.eqb_spec c 1) as [->|]; [apply push_hangs; lia|]. eapply vpost_ends, P. auto.
    - unfold one_more. pose proof (push_ok m mem Hmem l rest k c x f' Hc) as P.
      destruct (Nat.ltb_spec (length l) c).
      + eapply vpost_ends, P. auto.
      + destruct (Nat.eqb_spec c 1) as [->|]; [apply push_hangs; lia|]. eapply vpost_ends, P. auto.
    - eapply vpost_ends, vpost_lift; [reflexivity|]. apply popBack_ok; auto.
    - destruct (Nat.leb_spec it (length l)); [|exact I]. unfold one_more.
      pose proof (insert_ok' m moved dflt mem Hmem l rest k c it x f' Hc) as P.
      destruct (Nat.ltb_spec (length l) c).
      + eapply vpost_ends, P; auto.
      + destruct (Nat.eqb_spec c 1) as [->|]; [apply insert_hangs; lia|]. eapply vpost_ends, P; auto.
    - destruct (Nat.leb_spec it (length l)); [|exact I]. unfold some_more.
      pose proof (insert_range_ok' m moved dflt mem Hmem l rest k c it xs f' Hc H) as P.
      destruct (Nat.leb_spec (length xs + length l) c); [eapply vpost_ends, P|].
      destruct (Nat.eqb_spec (length xs) 0); [lia|]. eapply vpost_ends, P.
    - destruct (Nat.leb_spec it (length l)); [|exact I]. unfold one_more.
      pose proof (emplace_ok m moved dflt mem Hmem l rest k c it x f' Hc) as P.
      destruct (Nat.ltb_spec (length l) c).
      + eapply vpost_ends, P; auto.
      + destruct (Nat.eqb_spec c 1) as [->|]; [apply emplace_hangs; lia|]. eapply vpost_ends, P; auto.
    - destruct (Nat.leb_spec it (length l)); [|exact I].
      eapply vpost_ends, vpost_lift; [reflexivity|]. apply erase_ok; auto.
    - destruct (Nat.leb_spec b e); [|exact I]. destruct (Nat.leb_spec e (length l)); [|exact I].
      cbn [andb]. destruct (inner_range m b e (length l)) eqn:Ei.
      + unfold inner_range in Ei. destruct m; [discriminate|].
        apply andb_true_iff in Ei as [E1 E2]. apply Nat.ltb_lt in E1, E2.
        cbn [ends]. unfold vec_erase_range, vec_lift. cbn [vc_arr]. rewrite erase_range_UB; auto.
      + eapply vpost_ends, vpost_lift; [reflexivity|]. apply erase_range_ok; auto.
        unfold inner_range in Ei. destruct m; auto. right.
        apply andb_false_iff in Ei. rewrite !Nat.ltb_ge in Ei. lia.
    - eapply vpost_ends, vpost_lift; [reflexivity|]. apply clean_ok; auto.
    - eapply vpost_ends, reserve_ok; auto.
    - destruct (Nat.leb_spec n (length l)) as [Hl|Hl].
      { cbn [vec_resize]. unfold vec_size, vc_tail. cbn [vc_arr sv_tail].
        destruct (Nat.ltb_spec (length l) n); [lia|]. eapply vpost_ends, vpost_same with (P := True); auto. }
      cbn in Hf. destruct ((c =? 1) && (1 <? n)) eqn:Eh.
      { apply andb_true_iff in Eh as [E1 E2]. apply Nat.eqb_eq in E1. apply Nat.ltb_lt in E2. rewrite E1.
        cbn [ends]. apply resize_hangs; auto. }
      assert (Hg : c <> 1 \/ n <= 1).
      { apply andb_false_iff in Eh. rewrite Nat.eqb_neq, Nat.ltb_ge in Eh. exact Eh. }
      assert (grow_until (S f') c n = grow_until n c n) as G.
      { replace (S f') with (n + (S f' - n)) by lia.
        destruct (Nat.eq_dec c 1) as [->|Hne].
        - rewrite !grow_until_stop by lia. reflexivity.
        - apply grow_until_more; lia. }
      rewrite <- G. destruct (Nat.eqb_spec (grow_until (S f') c n) n).
      + eapply vpost_ends, resize_same; eauto. lia.
      + eapply vpost_ends, resize_ok; eauto. lia.
  Qed.

  Lemma story_ok f : forall ops c l v, vrep c l v -> depth ops <= f ->
    ends (vec_story m dflt c l ops) (vec_run m moved dflt mem f v ops).
  Proof.
    induction ops as [|op ops IH]; intros c l v R Hf; cbn [vec_story vec_run].
    - exists v. auto.
    - assert (Hd : depth [op] <= f /\ depth ops <= f).
      { pose proof (depth_ge ops). unfold depth in *. cbn [fold_right] in *. destruct op; lia. }
      destruct Hd as [D1 D2]. pose proof (really_ok c l v op f R D1) as S.
      destruct (vec_really m dflt c l op); cbn [ends] in S.
      + destruct S as (v1 & -> & R1). cbn [bind]. apply IH; auto.
      + rewrite S. reflexivity.
      + rewrite S. reflexivity.
      + exact I.
  Qed.
End Exact.

(** Every history, for every element type: if all positions are in the vector when they are used, the
    history either ends with exactly these contents and this capacity, or in undefined behaviour, or
    in a call that does not return - and the specification says which. *)
Theorem C13_exact_partial :
  forall (A : Type) (m : mode) (moved : A -> A) (dflt : A) (mem : memory) (ops : list (vec_op A)) fuel,
    mem <> NoMemory -> depth ops <= fuel ->
    match vec_story m dflt 0 [] ops with
    | VWorks c l => exists v, vec_run m moved dflt mem fuel vec_new ops = Ok v
        /\ vec_elements v = Ok l /\ vec_size v = length l /\ vc_capacity v = c /\ length l <= c
    | VBreaks => vec_run m moved dflt mem fuel vec_new ops = UB
    | VHangs => vec_run m moved dflt mem fuel vec_new ops = Diverge
    | VBadPosition => True
    end.
Proof.
  intros A m moved dflt mem ops fuel Hmem Hf.
  assert (R : vrep 0 [] (@vec_new A)). { exists [], 0. split; reflexivity. }
  pose proof (story_ok m moved dflt mem Hmem fuel ops 0 [] _ R Hf) as S.
  destruct (vec_story m dflt 0 [] ops); cbn [ends] in S; auto.
  destruct S as (v & E & rest & k & -> & L). eexists. split; [exact E|].
  split; [apply vec_elements_ok|]. split; [reflexivity|]. split; [reflexivity|]. lia.
Qed.

(** Histories of each kind. *)
Example C13_exact_case :
  vec_story Tracked 0 0 [] [VResize 5; VPush 7; VInsert 1 9; VErase 0; VEraseRange 2 6; VReserve 3]
    = VWorks 8 [9; 0]
  /\ vec_story Trivial 0 0 [] [VPush 7; VResize 8; VResize 9] = VWorks 12 [7; 0; 0; 0; 0; 0; 0; 0; 0]
  /\ vec_story Trivial 0 0 [] [VPush 7; VResize 8] = VWorks 8 [7]
  /\ vec_story Tracked 0 0 [] [VInsertRange 0 [1; 2; 3]; VEraseRange 0 2; VPush 4] = VBreaks
  /\ vec_story Tracked 0 0 [] [VInsertRange 0 [1]; VPop; VPush 5; VEmplace 0 6] = VHangs
  /\ vec_story Tracked 0 0 [] [VReserve 1; VResize 2] = VHangs
  /\ vec_story Trivial 0 0 [] [VPush 1; VErase 2] = VBadPosition.
Proof. repeat split; vm_compute; reflexivity. Qed.

Print Assumptions C13_exact_partial.
