(** Property C231: comparisons of the iterators of HybridVector follow the positions. *)
From Coq Require Import List Arith ZArith Lia Bool.
From Verif Require Import Base BaseLemmas Store StoreLemmas StaticVectorModel StaticVectorSpec
  StaticVectorProofs VectorModel VectorSpec VectorProofs HybridVectorModel HybridVectorSpec
  HybridVectorProofs HybridVectorProps HybridOrderModel HybridOrderSpec.
Import ListNotations.

(** In whatever state a HybridVector is that holds or held elements, every operator answers what it says
    about the positions. *)
Theorem C231_order_partial :
  forall (A : Type) (h : hybrid A) (i j : Z) (op : hcompare),
    place_of h <> Nowhere ->
    exists it jt b, hi_add (hv_begin h) i = Ok it /\ hi_add (hv_begin h) j = Ok jt
      /\ hi_compare op it jt = Ok b /\ (b = true <-> relation_of op i j).
Proof.
  intros A h i j op P. destruct h as [|a|v]; [exfalso; apply P; reflexivity| |];
    destruct op; (do 3 eexists; split; [reflexivity|]; split; [reflexivity|]); cbn [hi_compare hi_order hi_eq pointer_compare relation_of hv_begin];
    (split; [reflexivity|]); rewrite ?negb_true_iff, ?Z.eqb_eq, ?Z.eqb_neq, ?Z.ltb_lt, ?Z.gtb_lt, ?Z.leb_le, ?Z.geb_le;
    lia.
Qed.

Section Reached.
  Context {A : Type}.
  Variable cap : nat.
  Variable k : place.
  Variable l : list A.
  Variable h : hybrid A.
  Hypothesis H : hrep cap k l h.
  Hypothesis Hk : k <> Nowhere.

  Lemma iter_add i d : (0 <= Z.of_nat i + d)%Z ->
    hi_add (iter k i) d = Ok (iter k (Z.to_nat (Z.of_nat i + d))).
  Proof. intros L. destruct k; [congruence| |]; cbn; rewrite Z2Nat.id by exact L; reflexivity. Qed.

  Lemma iter_less i j : hi_compare HLess (iter k i) (iter k j) = Ok (i <? j).
  Proof.
    destruct k; [congruence| |]; cbn [iter hi_compare hi_order pointer_compare]; f_equal;
      (destruct (Z.ltb_spec (Z.of_nat i) (Z.of_nat j)), (Nat.ltb_spec i j); auto; lia).
  Qed.
  Lemma iter_greater i j : hi_compare HGreater (iter k i) (iter k j) = Ok (j <? i).
  Proof.
    destruct k; [congruence| |]; cbn [iter hi_compare hi_order pointer_compare]; f_equal;
      (destruct (Z.gtb_spec (Z.of_nat i) (Z.of_nat j)), (Nat.ltb_spec j i); auto; lia).
  Qed.

  Lemma upwards_ok : forall l2 l1, l = l1 ++ l2 -> forall f, length l2 < f ->
    upwards f h (iter k (length l1)) = Ok l2.
  Proof.
    induction l2 as [|x l2 IH]; intros l1 E f F; (destruct f; [cbn in F; lia|]); cbn [upwards];
      rewrite (end_hv _ _ _ _ H), iter_less; cbn [bind].
    - rewrite E, app_nil_r, Nat.ltb_irrefl. reflexivity.
    - replace (length l1 <? length l) with true
        by (symmetry; apply Nat.ltb_lt; rewrite E, app_length; cbn; lia).
      rewrite (deref_hv cap k l h (length l1) x H)
        by (rewrite E, nth_error_app2, Nat.sub_diag by lia; reflexivity).
      cbn [bind]. rewrite iter_add by lia. cbn [bind].
      replace (Z.to_nat (Z.of_nat (length l1) + 1)) with (length (l1 ++ [x]))
        by (rewrite app_length; cbn [length]; lia).
      rewrite IH; [reflexivity|rewrite E, <- app_assoc; reflexivity|cbn in F; lia].
  Qed.

  Lemma downwards_ok : forall l1 l2, l = rev l1 ++ l2 -> forall f, length l1 < f ->
    downwards f h (iter k (length l1)) = Ok l1.
  Proof.
    induction l1 as [|x l1 IH]; intros l2 E f F; (destruct f; [cbn in F; lia|]); cbn [downwards];
      rewrite (begin_hv _ _ _ _ H), iter_greater; cbn [bind].
    - reflexivity.
    - replace (0 <? length (x :: l1)) with true by reflexivity.
      rewrite iter_add by (cbn [length]; lia). cbn [bind].
      replace (Z.to_nat (Z.of_nat (length (x :: l1)) + -1)) with (length l1) by (cbn [length]; lia).
      cbn [rev] in E. rewrite <- app_assoc in E. cbn [app] in E.
      rewrite (deref_hv cap k l h (length l1) x H)
        by (rewrite E, nth_error_app2, rev_length, Nat.sub_diag by (rewrite rev_length; lia); reflexivity).
      cbn [bind]. rewrite (IH (x :: l2) E); [reflexivity|cbn in F; lia].
  Qed.

  Lemma subscript_ok i n x : (i < length l) -> (0 <= Z.of_nat i + n)%Z ->
    nth_error l (Z.to_nat (Z.of_nat i + n)) = Some x ->
    hi_subscript h (iter k i) n = Ok x.
  Proof.
    intros L P E. unfold hi_subscript.
    destruct (nth_error l i) as [y|] eqn:Y; [|apply nth_error_None in Y; lia].
    rewrite (deref_hv cap k l h i y H Y). cbn [bind]. rewrite iter_add by exact P. cbn [bind].
    exact (deref_hv cap k l h _ x H E).
  Qed.
End Reached.

(** After every history of C52 that leaves the container with a place, a loop that goes up while [it < end()]
    visits the sequence, one that goes down while [it > begin()] visits it backwards, and the subscript of an
    iterator counts from its position, in both directions. *)
Theorem C231_loops_partial :
  forall (A : Type) (m : mode) (moved : A -> A) (dflt : A) (mem : memory) (cap : nat)
         (ops : list (hv_op A)),
    mem <> NoMemory ->
    hv_along (fun k l op => hv_valid_op l op /\ insertion_works cap k l op
                            /\ (m = Trivial \/ no_inner_range l op)) cap Nowhere [] ops ->
    place_run cap ops <> Nowhere ->
    exists h, hv_run m moved dflt mem cap hv_new ops = Ok h
      /\ (forall fuel, length (hseq_run ops) < fuel ->
            upwards fuel h (hv_begin h) = Ok (hseq_run ops)
            /\ downwards fuel h (hv_end h) = Ok (rev (hseq_run ops)))
      /\ (forall i n x, i < length (hseq_run ops) -> (0 <= Z.of_nat i + n)%Z ->
            nth_error (hseq_run ops) (Z.to_nat (Z.of_nat i + n)) = Some x ->
            exists it, hi_add (hv_begin h) (Z.of_nat i) = Ok it /\ hi_subscript h it n = Ok x).
Proof.
  intros A m moved dflt mem cap ops Hmem Ha Hk.
  destruct (run_hv m moved dflt mem Hmem cap ops Nowhere [] HUnset eq_refl Ha) as (h & E & R).
  change (fold_left hseq_step ops []) with (hseq_run ops) in R.
  change (snd _) with (place_run cap ops) in R.
  exists h. split; [exact E|]. split.
  - intros fuel F. rewrite (begin_hv _ _ _ _ R), (end_hv _ _ _ _ R). split.
    + exact (upwards_ok cap _ _ h R Hk _ [] eq_refl fuel F).
    + rewrite <- (rev_length (hseq_run ops)).
      apply (downwards_ok cap _ _ h R Hk (rev (hseq_run ops)) []); [rewrite rev_involutive, app_nil_r; reflexivity|].
      rewrite rev_length. exact F.
  - intros i n x L P N. exists (iter (place_run cap ops) i). split.
    + rewrite (begin_hv _ _ _ _ R), (iter_add cap _ _ h R Hk) by lia. f_equal. f_equal. lia.
    + exact (subscript_ok cap _ _ h R Hk i n x L P N).
Qed.

(** If the container holds nothing yet, comparing its begin() with its end() reads through a null pointer,
    and so does the loop. *)
Theorem C231_unset_refuted :
  forall (A : Type) (op : hcompare) (h : hybrid A) (fuel : nat),
    place_of h = Nowhere -> op <> HEqual -> op <> HNotEqual ->
    hi_compare op (hv_begin h) (hv_end h) = UB
    /\ upwards (S fuel) h (hv_begin h) = UB /\ downwards (S fuel) h (hv_end h) = UB.
Proof.
  intros A op h fuel P N1 N2. destruct h as [|a|v]; try discriminate.
  repeat split; destruct op; try congruence; reflexivity.
Qed.

(** An iterator that was taken before the elements moved to dynamic memory stands in no order to those taken
    afterwards: it is neither before, nor after, nor at any of them. *)
Theorem C231_moved_refuted :
  forall (A : Type) (m : mode) (moved : A -> A) (dflt : A) (mem : memory) (l : list A) (x : A),
    mem <> NoMemory -> l <> [] ->
    exists h h', hv_run m moved dflt mem (length l) hv_new (map HPush l) = Ok h
      /\ hv_run m moved dflt mem (length l) hv_new (map HPush (l ++ [x])) = Ok h'
      /\ forall (i j : Z) (op : hcompare), exists before after,
           hi_add (hv_begin h) i = Ok before /\ hi_add (hv_begin h') j = Ok after
           /\ hi_compare op before after = Ok (match op with HNotEqual => true | _ => false end)
           /\ hi_compare op after before = Ok (match op with HNotEqual => true | _ => false end).
Proof.
  intros A m moved dflt mem l x Hmem Hl.
  destruct (fixed_after_pushes A m moved dflt mem (length l) l Hmem Hl (le_n _)) as (h & E & R).
  destruct (step_hv m moved dflt mem Hmem (length l) Fixed l h (HPush x) R I I (or_intror I)) as (h' & E' & R').
  assert (K : place_step (length l) Fixed l (HPush x) = Dynamic).
  { cbn [place_step grow_place]. destruct (Nat.leb_spec (length l + 1) (length l)); [lia|reflexivity]. }
  rewrite K in R'. exists h, h'. split; [exact E|]. split.
  - rewrite map_app. cbn [map]. rewrite run_snoc, E. exact E'.
  - intros i j op. rewrite (begin_hv _ _ _ _ R), (begin_hv _ _ _ _ R'). do 2 eexists.
    split; [reflexivity|]. split; [reflexivity|]. destruct op; split; reflexivity.
Qed.

Example C231_case :
  let ops := [HPush 5; HPush 6; HInsert 0 4; HPush 7] in
  hv_along (fun k l op => hv_valid_op l op /\ insertion_works 2 k l op
                          /\ (Tracked = Trivial \/ no_inner_range l op)) 2 Nowhere [] ops
  /\ place_run 2 ops = Dynamic /\ hseq_run ops = [4; 5; 6; 7].
Proof. cbn. repeat split; auto; try discriminate; try lia; intros; lia. Qed.

Print Assumptions C231_order_partial.
Print Assumptions C231_loops_partial.
Print Assumptions C231_unset_refuted.
Print Assumptions C231_moved_refuted.
