(** Property C52: HybridVector behaves as a sequence across the switch of storage. *)
From Coq Require Import List Arith ZArith Lia Bool.
From Verif Require Import Base BaseLemmas Store StoreLemmas StaticVectorModel StaticVectorSpec
  StaticVectorProofs VectorModel VectorSpec VectorProofs HybridVectorModel HybridVectorSpec
  HybridVectorProofs.
Import ListNotations.

(** What is missing from C52: insertions that leave the fixed part at a position other than 0,
    insertions into a container that holds nothing, and visiting such a container. They fail,
    see below. For every other history the contents are the mathematical sequence, whether
    the elements have destructors or not. *)
Theorem C52_sequence_partial :
  forall (A : Type) (m : mode) (moved : A -> A) (dflt : A) (mem : memory) (cap : nat)
         (ops : list (hv_op A)),
    mem <> NoMemory ->
    hv_along (fun k l op => hv_valid_op l op /\ insertion_works cap k l op
                            /\ (m = Trivial \/ no_inner_range l op)) cap Nowhere [] ops ->
    exists h, hv_run m moved dflt mem cap hv_new ops = Ok h
      /\ hv_size h = length (hseq_run ops)
      /\ (forall i x, nth_error (hseq_run ops) i = Some x -> hv_index h i = Ok x)
      /\ place_of h = place_run cap ops
      /\ (place_run cap ops <> Nowhere -> hv_elements h = Ok (hseq_run ops)).
Proof.
  intros A m moved dflt mem cap ops Hmem Ha.
  destruct (run_hv m moved dflt mem Hmem cap ops Nowhere [] HUnset eq_refl Ha) as (h & E & R).
  change (fold_left hseq_step ops []) with (hseq_run ops) in R.
  change (snd _) with (place_run cap ops) in R.
  exists h. split; [exact E|]. split; [exact (size_hv _ _ _ _ R)|].
  split; [intros i x; exact (index_hv _ _ _ _ i x R)|].
  split; [exact (place_hv _ _ _ _ R)|]. exact (elements_hv _ _ _ _ R).
Qed.

(** Pushing, popping, erasing and cleaning always work, for trivially copyable elements. *)
Definition no_insertion {A} (op : hv_op A) : Prop :=
  match op with
  | HInsert _ _ | HInsertRange _ _ | HEmplace _ _ => False
  | _ => True
  end.
Fixpoint hv_positions_valid {A} (l : list A) (ops : list (hv_op A)) : Prop :=
  match ops with
  | [] => True
  | op :: ops => hv_valid_op l op /\ hv_positions_valid (hseq_step l op) ops
  end.

Lemma no_insertion_along A cap (ops : list (hv_op A)) : forall k l,
  Forall no_insertion ops -> hv_positions_valid l ops ->
  hv_along (fun k l op => hv_valid_op l op /\ insertion_works cap k l op
                          /\ (Trivial = Trivial \/ no_inner_range l op)) cap k l ops.
Proof.
  induction ops as [|op ops IH]; intros k l Hn Hv; cbn [hv_along]; auto.
  inversion Hn; subst. destruct Hv. split; [|apply IH; auto].
  repeat split; auto. destruct op; cbn in *; tauto.
Qed.

Theorem C52_without_insertions_partial :
  forall (A : Type) (moved : A -> A) (dflt : A) (mem : memory) (cap : nat)
         (ops : list (hv_op A)),
    mem <> NoMemory -> Forall no_insertion ops -> hv_positions_valid [] ops ->
    exists h, hv_run Trivial moved dflt mem cap hv_new ops = Ok h
      /\ hv_size h = length (hseq_run ops)
      /\ (forall i x, nth_error (hseq_run ops) i = Some x -> hv_index h i = Ok x)
      /\ (hseq_run ops <> [] -> hv_elements h = Ok (hseq_run ops)).
Proof.
  intros A moved dflt mem cap ops Hmem Hn Hv.
  pose proof (no_insertion_along A cap ops Nowhere [] Hn Hv) as Ha.
  destruct (run_hv Trivial moved dflt mem Hmem cap ops Nowhere [] HUnset eq_refl Ha)
    as (h & E & R).
  change (fold_left hseq_step ops []) with (hseq_run ops) in R.
  exists h. split; [exact E|]. split; [exact (size_hv _ _ _ _ R)|].
  split; [intros i x; exact (index_hv _ _ _ _ i x R)|].
  intros Hne. apply (elements_hv cap (snd (fold_left (fun s op =>
    (hseq_step (fst s) op, place_step cap (snd s) (fst s) op)) ops ([], Nowhere)))); auto.
  intros Ek. rewrite Ek in R. destruct h; cbn in R; try tauto.
Qed.

(** A copy made at any time has the same elements, in the same kind of storage. *)
Theorem C52_copy :
  forall (A : Type) (m : mode) (moved : A -> A) (dflt : A) (mem : memory) (cap : nat)
         (ops : list (hv_op A)),
    mem <> NoMemory ->
    hv_along (fun k l op => hv_valid_op l op /\ insertion_works cap k l op
                            /\ (m = Trivial \/ no_inner_range l op)) cap Nowhere [] ops ->
    exists h h', hv_run m moved dflt mem cap hv_new ops = Ok h
      /\ hv_copy m cap h = Ok h'
      /\ place_of h' = place_of h
      /\ hv_size h' = length (hseq_run ops)
      /\ (place_run cap ops <> Nowhere -> hv_elements h' = Ok (hseq_run ops)).
Proof.
  intros A m moved dflt mem cap ops Hmem Ha.
  destruct (run_hv m moved dflt mem Hmem cap ops Nowhere [] HUnset eq_refl Ha) as (h & E & R).
  change (fold_left hseq_step ops []) with (hseq_run ops) in R.
  change (snd _) with (place_run cap ops) in R.
  destruct (copy_hv m cap _ _ _ R) as (h' & E' & P & S & V).
  exists h, h'. rewrite (place_hv _ _ _ _ R). auto.
Qed.

Example C52_case :
  let ops := [HPush 1; HPush 2; HPush 3; HInsert 0 9; HInsert 3 8; HErase 1; HErase 0; HErase 0;
              HInsert 1 7; HEmplace 3 5; HInsertRange 2 [4; 4]; HEraseRange 1 5; HPop] in
  hv_along (fun k l op => hv_valid_op l op /\ insertion_works 3 k l op
              /\ (Trivial = Trivial \/ no_inner_range l op)) 3 Nowhere [] ops
  /\ hseq_run (firstn 5 ops) = [9; 1; 2; 8; 3] /\ place_run 3 (firstn 5 ops) = Dynamic
  /\ hseq_run (firstn 8 ops) = [8; 3] /\ place_run 3 (firstn 8 ops) = Fixed
  /\ hseq_run (firstn 11 ops) = [8; 7; 4; 4; 3; 5] /\ place_run 3 (firstn 11 ops) = Dynamic
  /\ hseq_run ops = [8] /\ place_run 3 ops = Fixed.
Proof.
  cbv zeta. split; [|vm_compute; repeat split; reflexivity].
  cbn. repeat (first [split | intro]); try reflexivity; try lia; try discriminate;
    try (left; reflexivity).
Qed.

Example C52_no_insertion_case :
  let ops := [HPush 1; HPush 2; HPush 3; HErase 1; HErase 0; HErase 0; HPush 7; HClean; HPush 8] in
  Forall no_insertion ops /\ hv_positions_valid [] ops
  /\ hseq_run (firstn 6 ops) = [] /\ hseq_run ops = [8]
  /\ place_run 2 (firstn 3 ops) = Dynamic /\ place_run 2 (firstn 6 ops) = Nowhere.
Proof. cbv zeta. split; [repeat constructor|]. cbn; repeat split; lia || reflexivity. Qed.

(** ** Refutations *)

Lemma pushes_along A cap m (l : list A) : forall k l0,
  hv_along (fun k l op => hv_valid_op l op /\ insertion_works cap k l op
                          /\ (m = Trivial \/ no_inner_range l op)) cap k l0 (map HPush l).
Proof.
  induction l; intros; cbn [map hv_along]; auto. cbn. repeat split; auto.
Qed.

Lemma pushes_seq A (l : list A) : forall l0,
  fold_left hseq_step (map HPush l) l0 = l0 ++ l.
Proof.
  induction l as [|x l IH]; intros l0; cbn [map fold_left hseq_step].
  - rewrite app_nil_r. reflexivity.
  - rewrite IH, <- app_assoc. reflexivity.
Qed.

Lemma pushes_place A cap (l : list A) : forall l0 k,
  l <> [] \/ k = Fixed -> k = Nowhere /\ l0 = [] \/ k = Fixed ->
  length l0 + length l <= cap ->
  snd (fold_left (fun s op => (hseq_step (fst s) op, place_step cap (snd s) (fst s) op))
         (map HPush l) (l0, k)) = Fixed.
Proof.
  induction l as [|x l IH]; intros l0 k Hl Hk Hc; cbn [map fold_left fst snd hseq_step place_step].
  - destruct Hl; congruence.
  - cbn [length] in Hc.
    assert (E : grow_place cap (length l0) 1 k = Fixed).
    { destruct Hk as [[-> ->]| ->]; cbn [grow_place length] in *.
      - destruct (Nat.eqb_spec cap 0); [lia|reflexivity].
      - destruct (Nat.leb_spec (length l0 + 1) cap); [reflexivity|lia]. }
    rewrite E. apply IH; auto. rewrite app_length. cbn. lia.
Qed.

Lemma fixed_after_pushes A m moved dflt mem cap (l : list A) :
  mem <> NoMemory -> l <> [] -> length l <= cap ->
  exists h, hv_run m moved dflt mem cap hv_new (map HPush l) = Ok h /\ hrep cap Fixed l h.
Proof.
  intros Hmem Hl Hc.
  destruct (run_hv m moved dflt mem Hmem cap (map HPush l) Nowhere [] HUnset eq_refl
              (pushes_along A cap m l Nowhere [])) as (h & E & R).
  exists h. split; [exact E|]. rewrite pushes_seq, pushes_place in R; cbn [app length]; auto.
Qed.

Lemma run_snoc A m moved dflt mem cap (ops : list (hv_op A)) op : forall h,
  hv_run m moved dflt mem cap h (ops ++ [op])
  = (let! h' := hv_run m moved dflt mem cap h ops in hv_step m moved dflt mem cap h' op).
Proof.
  induction ops as [|o ops IH]; intros h; cbn [hv_run app].
  - cbn [bind]. destruct (hv_step m moved dflt mem cap h op); reflexivity.
  - destruct (hv_step m moved dflt mem cap h o); cbn [bind]; auto.
Qed.

(** Inserting into a full fixed part anywhere but at the front uses a position before the
    beginning of the vector. *)
Theorem C52_insert_full_refuted :
  forall (A : Type) (m : mode) (moved : A -> A) (dflt : A) (mem : memory) (l : list A)
         (p : nat) (x : A),
    mem <> NoMemory -> 0 < p -> p <= length l ->
    hv_run m moved dflt mem (length l) hv_new (map HPush l ++ [HInsert p x]) = UB.
Proof.
  intros A m moved dflt mem l p x Hmem Hp Hl.
  destruct (fixed_after_pushes A m moved dflt mem (length l) l) as (h & E & R); auto.
  { destruct l; [cbn in Hl; lia|discriminate]. }
  rewrite run_snoc, E. cbn [bind hv_step].
  rewrite (at_hv _ _ _ _ p R Hl). cbn [bind hv_insert_at].
  destruct (useVector_ok m mem Hmem _ _ _ R) as (r & j & EV & L).
  destruct h as [|a|v]; cbn [hrep] in R; try tauto. destruct R as (r0 & j0 & Ea & L0).
  assert (Ez : sv_size a = length l /\ sv_capacity a = length l).
  { subst a. rewrite sv_size_mk, sv_capacity_mk. auto. }
  destruct Ez as [E1 E2]. rewrite E1, E2, Nat.ltb_irrefl. rewrite EV.
  cbn [bind hv_begin hi_minus hi_add hv_insert_at hi_vec].
  destruct (Z.leb_spec 0 (0 + (0 - Z.of_nat p))); [lia|]. reflexivity.
Qed.

(** The same for a range that fills the fixed part or does not fit. *)
Theorem C52_insert_range_refuted :
  forall (A : Type) (m : mode) (moved : A -> A) (dflt : A) (mem : memory) (cap : nat)
         (l : list A) (p : nat) (xs : list A),
    mem <> NoMemory -> 0 < p -> p <= length l -> length l <= cap ->
    cap <= length l + length xs ->
    hv_run m moved dflt mem cap hv_new (map HPush l ++ [HInsertRange p xs]) = UB.
Proof.
  intros A m moved dflt mem cap l p xs Hmem Hp Hl Hc Hx.
  destruct (fixed_after_pushes A m moved dflt mem cap l) as (h & E & R); auto.
  { destruct l; [cbn in Hl; lia|discriminate]. }
  rewrite run_snoc, E. cbn [bind hv_step].
  rewrite (at_hv _ _ _ _ p R Hl). cbn [bind hv_insert_range_at].
  destruct (useVector_ok m mem Hmem _ _ _ R) as (r & j & EV & L).
  destruct h as [|a|v]; cbn [hrep] in R; try tauto. destruct R as (r0 & j0 & Ea & L0).
  assert (Ez : sv_size a = length l /\ sv_capacity a = cap).
  { subst a. rewrite sv_size_mk, sv_capacity_mk. auto. }
  destruct Ez as [E1 E2]. rewrite E1, E2.
  destruct (Nat.ltb_spec (length xs) (cap - length l)); [lia|]. rewrite EV.
  cbn [bind hv_begin hi_minus hi_add hv_insert_range_at hi_vec].
  destruct (Z.leb_spec 0 (0 + (0 - Z.of_nat p))); [lia|]. reflexivity.
Qed.

(** Inserting at the beginning of a new container uses a null iterator. *)
Theorem C52_insert_new_refuted :
  forall (A : Type) (m : mode) (moved : A -> A) (dflt : A) (mem : memory) (cap : nat) (x : A),
    0 < cap ->
    hv_run m moved dflt mem cap hv_new [HInsert 0 x] = UB
    /\ hv_run m moved dflt mem cap hv_new [HEmplace 0 x] = UB.
Proof.
  intros A m moved dflt mem cap x Hc. unfold hv_new.
  cbn [hv_run hv_step hv_at hv_begin bind hv_insert_at hv_emplace_at].
  destruct (useArray_new (A := A) m cap) as (h & E & R). rewrite E. cbn [bind].
  destruct h as [|a|v]; cbn [hrep] in R; try tauto. destruct R as (r0 & j0 & -> & L0).
  rewrite sv_size_mk, sv_capacity_mk. rewrite L0. cbn [length].
  destruct (Nat.ltb_spec 0 cap); [|lia]. destruct (Nat.eqb_spec cap 0); [lia|].
  split; reflexivity.
Qed.

(** Inserting a range there is ignored. *)
Theorem C52_insert_range_new_refuted :
  forall (A : Type) (m : mode) (moved : A -> A) (dflt : A) (mem : memory) (cap : nat)
         (xs : list A),
    exists h, hv_run m moved dflt mem cap hv_new [HInsertRange 0 xs] = Ok h /\ hv_size h = 0.
Proof. intros. exists HUnset. split; reflexivity. Qed.

(** In whatever state a HybridVector is, the iterators of a place measure distances: [begin() + i] and
    [begin() + j] are [i - j] apart and equal only if [i = j], going on by the distance leads from one
    to the other, and end() is size() after begin(). *)
Theorem C52_iterators_partial :
  forall (A : Type) (h : hybrid A) (i j : Z),
    hi_minus (hv_end h) (hv_begin h) = Z.of_nat (hv_size h)
    /\ (place_of h <> Nowhere ->
        exists it jt, hi_add (hv_begin h) i = Ok it /\ hi_add (hv_begin h) j = Ok jt
          /\ hi_minus it jt = (i - j)%Z /\ (hi_eq it jt = true <-> i = j)
          /\ hi_add jt (hi_minus it jt) = Ok it
          /\ hi_eq (hv_begin h) (hv_end h) = (hv_size h =? 0)).
Proof.
  intros A h i j. split.
  - destruct h as [|a|v]; cbn [hi_minus hv_end hv_begin hv_size]; [reflexivity| |];
      unfold sv_size, vec_size; rewrite Z.sub_0_r; reflexivity.
  - intros P. destruct h as [|a|v]; [exfalso; apply P; reflexivity| |];
      cbn [hv_begin hv_end hi_add hv_size]; do 2 eexists; (split; [reflexivity|]); (split; [reflexivity|]);
      cbn [hi_minus hi_eq hi_add]; (split; [lia|]); (split; [rewrite Z.eqb_eq; split; lia|]);
      (split; [f_equal; f_equal; lia|]); unfold sv_size, vec_size;
      match goal with |- context [Z.of_nat ?n] => destruct n end; reflexivity.
Qed.

(** A new container, and one from which everything was erased, cannot be visited: its begin is
    not equal to its end, and is read. *)
Theorem C52_visit_empty_refuted :
  forall (A : Type) (m : mode) (moved : A -> A) (dflt : A) (mem : memory) (cap : nat)
         (l : list A),
    mem <> NoMemory -> length l <= cap ->
    exists h, hv_run m moved dflt mem cap hv_new (map HPush l ++ [HEraseRange 0 (length l)])
              = Ok h
      /\ hseq_run (map HPush l ++ [HEraseRange 0 (length l)]) = []
      /\ hv_size h = 0 /\ hi_eq (hv_begin h) (hv_end h) = false /\ hv_elements h = UB.
Proof.
  intros A m moved dflt mem cap l Hmem Hc.
  assert (Eseq : hseq_run (map HPush l ++ [HEraseRange 0 (length l)]) = []).
  { unfold hseq_run. rewrite fold_left_app, pushes_seq. cbn. unfold erase_at.
    rewrite skipn_all. reflexivity. }
  destruct l as [|y l'].
  { exists HUnset. cbn in *. repeat split; auto. }
  set (l := y :: l') in *.
  destruct (fixed_after_pushes A m moved dflt mem cap l) as (h & E & R); auto.
  { subst l. discriminate. }
  rewrite run_snoc, E. cbn [bind hv_step].
  destruct (erase_range_hv m moved cap Fixed l h 0 (length l) R) as (h1 & E1 & R1); auto; try lia.
  assert (Ee : erase_at 0 (length l) l = []).
  { unfold erase_at. rewrite skipn_all. reflexivity. }
  rewrite Ee in R1. cbn in R1. rewrite E1. exists h1.
  destruct h1; cbn in R1; try contradiction. repeat split; auto.
Qed.

(** Pushing a reference to an element of the full container reads freed memory. *)
Theorem C52_push_own_element_refuted :
  forall (A : Type) (m : mode) (moved : A -> A) (dflt : A) (mem : memory) (l : list A) (i : nat),
    mem <> NoMemory -> i < length l ->
    exists h, hv_run m moved dflt mem (length l) hv_new (map HPush l) = Ok h
      /\ hv_pushBack_ref m mem (length l) 3 h (VOwn i) = UB.
Proof.
  intros A m moved dflt mem l i Hmem Hi.
  destruct (fixed_after_pushes A m moved dflt mem (length l) l) as (h & E & R); auto.
  { destruct l; [cbn in Hi; lia|discriminate]. }
  exists h. split; [exact E|]. cbn [hv_pushBack_ref].
  destruct (useVector_ok m mem Hmem _ _ _ R) as (r & j & EV & L).
  destruct h as [|a|v]; cbn [hrep] in R; try tauto. destruct R as (r0 & j0 & Ea & L0).
  assert (Ez : sv_size a = length l /\ sv_capacity a = length l).
  { subst a. rewrite sv_size_mk, sv_capacity_mk. auto. }
  destruct Ez as [E1 E2]. rewrite E1, E2, Nat.ltb_irrefl, EV.
  cbn [bind lost hv_pushBack_ref]. change vfuel with 2. cbn [vec_pushBack_ref].
  unfold vc_tail. cbn [vc_arr sv_tail vc_capacity].
  destruct (Nat.eqb_spec (length l) (length l * 2)); [lia|]. reflexivity.
Qed.

Print Assumptions C52_sequence_partial.
Print Assumptions C52_without_insertions_partial.
Print Assumptions C52_copy.
Print Assumptions C52_insert_full_refuted.
Print Assumptions C52_insert_range_refuted.
Print Assumptions C52_insert_new_refuted.
Print Assumptions C52_insert_range_new_refuted.
Print Assumptions C52_visit_empty_refuted.
Print Assumptions C52_push_own_element_refuted.
Print Assumptions C52_iterators_partial.
