(** Theorems about the growth of a Vector: C207, C208. *)
From Coq Require Import List Arith Bool Lia.
From Verif Require Import Base BaseLemmas Store StaticVectorModel StaticVectorSpec StaticVectorProofs
  VectorModel VectorSpec VectorProofs GrowthSpec.
Import ListNotations.
Local Open Scope outcome_scope.

Section Within.
  Context {A : Type}.
  Variable m : mode.
  Variable moved : A -> A.
  Variable dflt : A.
  Variable mem : memory.
  Notation mk l rest k := (SVec (St (map (@Some A) l ++ rest) k) (length l)).

  Lemma within_step l rest k c op f : length l + length rest = c -> within c l op ->
    exists rest' k', vec_step m moved dflt mem (S (S f)) (Vec (mk l rest k) c) op
                     = Ok (Vec (mk (seq_step dflt l op) rest' k') c)
      /\ length (seq_step dflt l op) + length rest' = c.
  Proof.
    intros Hc W.
    assert (R : forall op, (forall M, vec_step m moved dflt M (S (S f)) (Vec (mk l rest k) c) op
                            = vec_step m moved dflt Realloc (S (S f)) (Vec (mk l rest k) c) op) ->
      vec_valid c l op -> vec_tail_range l op -> depth [op] <= S (S f) -> cap_step c l op = c ->
      exists rest' k', vec_step m moved dflt mem (S (S f)) (Vec (mk l rest k) c) op
                       = Ok (Vec (mk (seq_step dflt l op) rest' k') c)
        /\ length (seq_step dflt l op) + length rest' = c).
    { intros o E V T D C. rewrite E.
      destruct (step_ok' m moved dflt Realloc ltac:(discriminate) l rest k c o (S (S f)) Hc V (or_intror T) D)
        as (r & k' & E' & L & _). rewrite C in *. exists r, k'. auto. }
    destruct op as [x|x| |it x|it xs|it x|it|b e| |n|n]; cbn [within vec_step seq_step] in *.
    1, 2: destruct (push_direct m mem l rest k c x (S f) Hc W) as (r & k' & E & L & _); exists r, k'; auto.
    - apply (R VPop); [reflexivity| | | |]; cbn; auto; try lia. split; exact I.
    - destruct W as [W1 W2].
      destruct (insert_direct m moved dflt mem l rest k c it x (S f) Hc W2 W1) as (r & k' & E & L & _).
      exists r, k'. auto.
    - destruct W as [W1 W2].
      destruct (insert_range_direct m moved dflt mem l rest k c it xs (S f) Hc W2 W1) as (r & k' & E & L & _).
      exists r, k'. auto.
    - destruct W as [W1 W2].
      destruct (emplace_direct m moved dflt mem l rest k c it x (S f) Hc W2 W1) as (r & k' & E & L & _).
      exists r, k'. auto.
    - apply (R (VErase it)); [reflexivity| | | |]; cbn; auto; try lia. split; [exact W|exact I].
    - destruct W as [W1 W2]. apply (R (VEraseRange b e)); [reflexivity| | | |]; cbn; auto; try lia.
      split; [exact W1|exact I].
    - apply (R VClean); [reflexivity| | | |]; cbn; auto; try lia. split; exact I.
    - exists rest, k. split; [|exact Hc]. unfold vec_reserve. cbn [vc_capacity].
      destruct (Nat.ltb_spec c n); [lia|reflexivity].
    - destruct (Nat.ltb_spec (length l) n) as [Hn|Hn].
      2:{ exists rest, k. replace (n - length l) with 0 by lia. cbn [repeat]. rewrite app_nil_r.
          split; [|exact Hc]. cbn [vec_resize]. unfold vec_size, vc_tail. cbn [vc_arr sv_tail].
          destruct (Nat.ltb_spec (length l) n); [lia|reflexivity]. }
      destruct W as [W|W]; [lia|].
      assert (E : vec_resize m dflt mem (S (S f)) (Vec (mk l rest k) c) n
                  = vec_resize m dflt Realloc (S (S f)) (Vec (mk l rest k) c) n).
      { cbn [vec_resize]. cbn [vc_capacity]. destruct (Nat.ltb_spec n c); [reflexivity|lia]. }
      rewrite E.
      assert (G : forall f, grow_until f c n = c).
      { intros [|f']; [reflexivity|]. cbn [grow_until]. destruct (Nat.ltb_spec c n); [lia|reflexivity]. }
      destruct (resize_ok m dflt Realloc ltac:(discriminate) n (S f) l rest k c Hc Hn ltac:(lia) ltac:(lia))
        as (r & k' & E' & L & _).
      { rewrite G. lia. }
      rewrite G in *. exists r, k'. auto.
  Qed.

  (** Calls in a row, the contents always within [c]. *)
  Fixpoint within_all (c : nat) (l : list A) (ops : list (vec_op A)) : Prop :=
    match ops with
    | [] => True
    | op :: ops => within c l op /\ within_all c (seq_step dflt l op) ops
    end.

  Lemma within_run f ops : forall l rest k c, length l + length rest = c -> within_all c l ops ->
    exists rest' k', vec_run m moved dflt mem (S (S f)) (Vec (mk l rest k) c) ops
                     = Ok (Vec (mk (fold_left (seq_step dflt) ops l) rest' k') c)
      /\ length (fold_left (seq_step dflt) ops l) + length rest' = c.
  Proof.
    induction ops as [|op ops IH]; intros l rest k c Hc W.
    - exists rest, k. cbn. auto.
    - destruct W as [W1 W2]. destruct (within_step l rest k c op f Hc W1) as (r1 & k1 & E1 & L1).
      destruct (IH _ r1 k1 c L1 W2) as (r2 & k2 & E2 & L2). exists r2, k2.
      cbn [vec_run fold_left]. rewrite E1. cbn [bind]. auto.
  Qed.
End Within.

(** C207. After any history and reserve(n), as long as the vector holds at most n elements, adding and
    removing elements works whether or not there is memory left ([late]), gives the sequence that is
    expected, and capacity() stays. *)
Theorem C207_reserved :
  forall (A : Type) (m : mode) (moved : A -> A) (dflt : A) (mem late : memory)
         (ops later : list (vec_op A)) (n fuel : nat),
    mem <> NoMemory -> vec_along dflt vec_valid 0 [] ops ->
    m = Trivial \/ vec_along dflt (fun _ => vec_tail_range) 0 [] ops ->
    depth ops <= fuel -> within_all dflt n (seq_run dflt ops) later ->
    exists v w, vec_run m moved dflt mem fuel vec_new (ops ++ [VReserve n]) = Ok v
      /\ n <= vc_capacity v
      /\ vec_run m moved dflt late fuel v later = Ok w
      /\ vec_elements w = Ok (fold_left (seq_step dflt) later (seq_run dflt ops))
      /\ vc_capacity w = vc_capacity v.
Proof.
  intros A m moved dflt mem late ops later n fuel Hmem Hv Hm Hf W.
  destruct (run_ok' m moved dflt mem Hmem fuel ops [] [] 0 0 eq_refl Hv Hm Hf)
    as (c & r & k & E & L & _).
  assert (R0 : vec_new = Vec (SVec (St (map (@Some A) [] ++ []) 0) 0) 0) by reflexivity.
  rewrite R0. cbn [length] in E.
  destruct (VectorProofs.reserve_ok m mem Hmem (seq_run dflt ops) r k n c L) as (r1 & k1 & E1 & L1 & _).
  assert (exists f, fuel = S (S f)) as (f & ->).
  { pose proof (depth_ge ops). destruct fuel as [|[|f]]; try lia. eauto. }
  assert (W' : within_all dflt (Nat.max c n) (seq_run dflt ops) later).
  { clear - W. revert W. generalize (seq_run dflt ops) as l. induction later as [|o os IH]; intros l; cbn [within_all].
    - auto.
    - intros [W1 W2]. split; [|apply IH, W2]. destruct o; cbn [within] in *; try lia; auto. }
  destruct (within_run m moved dflt late f later _ r1 k1 (Nat.max c n) L1 W') as (r2 & k2 & E2 & L2).
  eexists. eexists. split.
  - assert (Ap : forall o1 o2 v, vec_run m moved dflt mem (S (S f)) v (o1 ++ o2)
             = let! u := vec_run m moved dflt mem (S (S f)) v o1 in vec_run m moved dflt mem (S (S f)) u o2).
    { induction o1 as [|o o1 IH]; intros o2 v; [reflexivity|]. cbn [app vec_run].
      destruct (vec_step m moved dflt mem (S (S f)) v o); cbn [bind]; auto. }
    rewrite Ap. unfold seq_run in *. rewrite E. cbn [bind vec_run vec_step]. rewrite E1. cbn [bind]. reflexivity.
  - cbn [vc_capacity]. split; [lia|]. split; [exact E2|]. split; [apply vec_elements_ok|reflexivity].
Qed.

(** Three elements, room for five reserved, two more inserted without memory, one removed and another
    pushed. *)
Example C207_case :
  let ops := [VPush 1; VPush 2; VPush 3] in
  let later := [VInsert 1 7; VPush 4; VErase 0; VPush 5; VReserve 4; VEraseRange 3 5; VResize 4] in
  vec_along 0 vec_valid 0 [] ops /\ within_all 0 5 (seq_run 0 ops) later
  /\ fold_left (seq_step 0) later (seq_run 0 ops) = [7; 2; 3; 0].
Proof. cbn. repeat split; first [exact I|lia|left; lia|right; lia|idtac]. Qed.
(** Without room and without memory a push never returns: the condition is needed. *)
Example C207_condition_needed : forall fuel,
  vec_pushBack Trivial NoMemory fuel (Vec (SVec (St [Some 1; Some 2] 0) 2) 2) 3 = Diverge.
Proof. intros fuel. unfold vec_pushBack. induction fuel as [|f IH]; [reflexivity|]. cbn. exact IH. Qed.

Section Amortised.
  Context {A : Type}.
  Variable m : mode.
  Variable mem : memory.
  Hypothesis Hmem : mem <> NoMemory.
  Notation mk l rest k := (SVec (St (map (@Some A) l ++ rest) k) (length l)).

  Lemma grow_big c : 2 <= c -> 4 * c <= 3 * grow c.
  Proof.
    intros H. unfold grow. destruct (Nat.eqb_spec c 0); [lia|].
    pose proof (Nat.div_mod (c * 3) 2). pose proof (Nat.mod_upper_bound (c * 3) 2). 
    assert (c * 3 / 2 * 2 + 1 >= c * 3) by lia.
    destruct (Nat.eq_dec c 2) as [->|]; [cbn; lia|]. lia.
  Qed.

  Lemma amortised xs : forall l rest k c f, length l + length rest = c -> c <> 1 ->
    exists v n g, vec_push_all m mem (S (S f)) (Vec (mk l rest k) c) xs = Ok v
      /\ vec_elements v = Ok (l ++ xs)
      /\ moves m mem (S (S f)) (Vec (mk l rest k) c) xs = Ok n
      /\ growths m mem (S (S f)) (Vec (mk l rest k) c) xs = Ok g
      /\ (n = 0 \/ n + 3 * c <= 4 * (length l + length xs))
      /\ (g = 0 \/ (1 <= length l + length xs /\ 4 ^ (g - 1) * Nat.max 1 c <= 3 ^ (g - 1) * (length l + length xs)))
      /\ (vc_capacity v <= Nat.max c (Nat.max 8 ((length l + length xs) * 3 / 2))).
  Proof.
    induction xs as [|x xs IH]; intros l rest k c f Hc N.
    - exists (Vec (mk l rest k) c), 0, 0. cbn [vec_push_all moves growths vc_capacity].
      rewrite app_nil_r. repeat split; auto; try lia. apply vec_elements_ok.
    - destruct (push_ok m mem Hmem l rest k c x f Hc (or_intror N)) as (r1 & k1 & E1 & L1 & _).
      set (c1 := if length l <? c then c else grow c) in *.
      assert (N1 : c1 <> 1) by (unfold c1; destruct (length l <? c); [exact N|apply grow_ne1, N]).
      destruct (IH (l ++ [x]) r1 k1 c1 f L1 N1) as (v & n & g & P & El & M & G & Bn & Bg & Bc).
      rewrite <- app_assoc in El. cbn [app] in El.
      rewrite app_length in *. cbn [length] in *.
      replace (length l + 1 + length xs) with (length l + S (length xs)) in * by lia.
      cbn [vec_push_all moves growths]. rewrite E1. cbn [bind]. rewrite M, G. cbn [bind vc_capacity].
      exists v. eexists. eexists. repeat (split; [first [exact P|exact El|reflexivity]|]).
      unfold vec_size, vc_tail. cbn [vc_arr sv_tail].
      assert (Cs : (length l < c /\ c1 = c) \/ (length l = c /\ c1 = grow c)).
      { unfold c1. destruct (Nat.ltb_spec (length l) c); [left|right]; split; auto. lia. }
      destruct Cs as [[Ll Ec]|[Ll Ec]].
      + rewrite Ec, Nat.eqb_refl. cbn [Nat.add]. rewrite Ec in *. repeat split; auto.
      + rewrite Ec in *. pose proof (grow_gt c N) as Gt. destruct (Nat.eqb_spec (grow c) c); [lia|].
        assert (S c <= length l + S (length xs)) by lia.
        assert (C2 : c = 0 \/ 2 <= c) by lia.
        split; [|split].
        * right. destruct C2 as [->|C2].
          { rewrite Ll. destruct Bn; lia. }
          { pose proof (grow_big c C2). destruct Bn; lia. }
        * right. split; [lia|]. destruct Bg as [->|[_ Bg]].
          { cbn [Nat.add Nat.sub Nat.pow]. lia. }
          { destruct g as [|g]; [cbn [Nat.add Nat.sub Nat.pow]; lia|].
            replace (1 + S g - 1) with (S g) by lia.
            replace (S g - 1) with g in Bg by lia. rewrite !Nat.pow_succ_r'.
            set (s := length l + S (length xs)) in *. clearbody s.
            assert (4 * Nat.max 1 c <= 3 * Nat.max 1 (grow c)) as GB.
            { destruct C2 as [->|C2]; [cbn; lia|]. pose proof (grow_big c C2). lia. }
            generalize dependent (Nat.max 1 (grow c)). intros G' Bg GB.
            generalize dependent (Nat.max 1 c). intros c' GB.
            assert (4 ^ g * (4 * c') <= 4 ^ g * (3 * G')) by (apply Nat.mul_le_mono_l; exact GB).
            clear - Bg H0. nia. }
        * assert (grow c <= Nat.max 8 ((length l + S (length xs)) * 3 / 2)).
          { unfold grow. destruct (Nat.eqb_spec c 0); [lia|]. 
            assert (c * 3 / 2 <= (length l + S (length xs)) * 3 / 2) by (apply Nat.div_le_mono; lia). lia. }
          lia.
  Qed.
End Amortised.

(** C208. After any history that leaves a capacity other than 1, pushing any number of elements moves
    at most four times as many elements to new memory as the vector holds in the end, asks for memory
    at most logarithmically often, and does not leave more than half of the size unused. *)
Theorem C208_amortised_partial :
  forall (A : Type) (m : mode) (moved : A -> A) (dflt : A) (mem : memory) (ops : list (vec_op A))
         (xs : list A) (fuel : nat) (v : vec A),
    mem <> NoMemory -> vec_along dflt vec_valid 0 [] ops ->
    m = Trivial \/ vec_along dflt (fun _ => vec_tail_range) 0 [] ops -> depth ops <= fuel ->
    vec_run m moved dflt mem fuel vec_new ops = Ok v -> vc_capacity v <> 1 ->
    exists w n g, vec_push_all m mem fuel v xs = Ok w
      /\ vec_elements w = Ok (seq_run dflt ops ++ xs)
      /\ moves m mem fuel v xs = Ok n /\ n <= 4 * (vec_size v + length xs)
      /\ growths m mem fuel v xs = Ok g
      /\ (g = 0 \/ 4 ^ (g - 1) <= 3 ^ (g - 1) * (vec_size v + length xs))
      /\ vc_capacity w <= Nat.max (vc_capacity v) (Nat.max 8 ((vec_size v + length xs) * 3 / 2)).
Proof.
  intros A m moved dflt mem ops xs fuel v Hmem Hv Hm Hf E N.
  destruct (run_ok' m moved dflt mem Hmem fuel ops [] [] 0 0 eq_refl Hv Hm Hf)
    as (c & r & k & E' & L & _).
  assert (R0 : vec_new = Vec (SVec (St (map (@Some A) [] ++ []) 0) 0) 0) by reflexivity.
  rewrite R0 in E. cbn [length] in E'. rewrite E' in E. injection E as <-. cbn [vc_capacity] in N.
  assert (exists f, fuel = S (S f)) as (f & ->).
  { pose proof (depth_ge ops). destruct fuel as [|[|f]]; try lia. eauto. }
  destruct (amortised m mem Hmem xs _ r k c f L N) as (w & n & g & P & El & M & G & Bn & Bg & Bc).
  exists w, n, g. unfold vec_size, vc_tail. cbn [vc_arr sv_tail vc_capacity].
  split; [exact P|]. split; [exact El|]. split; [exact M|]. split; [destruct Bn; lia|].
  split; [exact G|]. split; [|exact Bc].
  destruct Bg as [->|[S1 Bg]]; [left; reflexivity|right].
  etransitivity; [|exact Bg]. rewrite <- (Nat.mul_1_r (4 ^ (g - 1))) at 1.
  apply Nat.mul_le_mono_l. lia.
Qed.
(** A hundred elements pushed to an empty vector: eight requests for memory, 255 elements moved. *)
Example C208_case :
  vec_along 0 vec_valid 0 [] [] /\ vec_run Tracked id 0 Fresh 2 vec_new [] = Ok vec_new
  /\ vc_capacity (@vec_new nat) <> 1
  /\ moves Tracked Fresh 2 vec_new (repeat 7 100) = Ok 255
  /\ growths Tracked Fresh 2 vec_new (repeat 7 100) = Ok 8.
Proof. repeat split; try exact I; try discriminate; vm_compute; reflexivity. Qed.

(** C208 is false for a vector whose capacity is 1: it does not grow, and the push never returns. *)
Theorem C208_one_refuted :
  forall (A : Type) (m : mode) (moved : A -> A) (dflt : A) (mem : memory) (x y : A) (fuel : nat),
    mem <> NoMemory -> exists v,
    vec_run m moved dflt mem 2 vec_new [VReserve 1; VPush x] = Ok v /\ vc_capacity v = 1
    /\ vec_pushBack m mem fuel v y = Diverge.
Proof.
  intros A m moved dflt mem x y fuel Hmem.
  assert (D : forall k, vec_pushBack m mem fuel (Vec (SVec (St [Some x] k) 1) 1) y = Diverge).
  { intros k. unfold vec_pushBack. induction fuel as [|f IH]; [reflexivity|]. cbn. exact IH. }
  destruct m, mem; try congruence; eexists; (split; [reflexivity|split; [reflexivity|apply D]]).
Qed.

Print Assumptions C207_reserved.
Print Assumptions C208_amortised_partial.
Print Assumptions C208_one_refuted.
