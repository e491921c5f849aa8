(** Theorems about CircularVector: C205. *)
From Coq Require Import List Arith ZArith Bool Lia.
From Verif Require Import Base CircularVectorModel.
Import ListNotations.

(** However a CircularVector came to be, it holds nothing: its memory has no object. *)
Lemma made_raw A (v : cvec A) : cv_made v ->
  cv_head v = 0 /\ cv_tail v = 0
  /\ (cv_array v = None \/ exists n, cv_array v = Some (raw A n)).
Proof.
  induction 1; cbn; auto.
  - split; auto. split; auto. right. eauto.
  - split; auto. split; auto. right. eauto.
Qed.

(** A CircularVector made of the range [xs] does not have the size of the range, and none of the
    elements can be read, for every range that is not empty. *)
Theorem C205_range_refuted :
  forall (A : Type) (x : A) (xs : list A),
    let v := cv_of_range (x :: xs) in
    cv_made v /\ cv_size v = 0 /\ cv_size v <> length (x :: xs)
    /\ (forall i, cv_index v i = UB)
    /\ cv_get_capacity v = (Z.of_nat (length (x :: xs)) mod 2 ^ 64)%Z.
Proof.
  intros A x xs v. split; [constructor|]. split; [reflexivity|]. split; [discriminate|]. split.
  - intros i. unfold v, cv_index, cv_of_range. cbn [cv_array cv_head]. unfold load, raw.
    destruct (nth_error (repeat None (length (x :: xs) + 1)) (0 + i)) as [[y|]|] eqn:E; auto.
    apply nth_error_In, repeat_spec in E. discriminate.
  - unfold v, cv_get_capacity, cv_of_range. cbn [cv_capacity]. f_equal. lia.
Qed.

(** No CircularVector ever has an element: the only calls that can be made leave it empty. *)
Theorem C205_always_empty_partial :
  forall (A : Type) (v : cvec A), cv_made v ->
    cv_size v = 0 /\ (forall i, cv_index v i = UB) /\ cv_destroyed v = 0.
Proof.
  intros A v H. destruct (made_raw A v H) as (H1 & H2 & H3).
  unfold cv_size, cv_index. rewrite H1, H2. split; [reflexivity|]. split; [|reflexivity].
  intros i. destruct H3 as [->|(n & ->)]; auto. unfold load, raw.
  destruct (nth_error (repeat None n) (0 + i)) as [[y|]|] eqn:E; auto.
  apply nth_error_In, repeat_spec in E. discriminate.
Qed.

(** A new one (and one that was moved from) says it has room for 2^64 - 1 elements and owns no
    memory; a copy has room for none, whatever the source had room for. *)
Theorem C205_capacity_refuted :
  forall (A : Type) (v : cvec A), cv_made v ->
    (cv_get_capacity (@cv_new A) = 2 ^ 64 - 1)%Z /\ cv_array (@cv_new A) = None
    /\ (cv_get_capacity (snd (cv_move v)) = 2 ^ 64 - 1)%Z /\ cv_array (snd (cv_move v)) = None
    /\ cv_get_capacity (cv_copy v) = 0%Z.
Proof.
  intros A v H. destruct (made_raw A v H) as (H1 & H2 & _).
  repeat split. unfold cv_copy, cv_size. rewrite H1, H2. reflexivity.
Qed.

(** Assignment is never defined. *)
Theorem C205_assignment_refuted :
  forall (A : Type) (v w : cvec A), cv_assign v w = UB.
Proof. reflexivity. Qed.

Example C205_case :
  cv_made (cv_copy (fst (cv_move (cv_of_range [1; 2; 3]))))
  /\ cv_size (cv_of_range [1; 2; 3]) = 0 /\ cv_get_capacity (cv_of_range [1; 2; 3]) = 3%Z.
Proof. split; [repeat constructor|]. split; reflexivity. Qed.

Print Assumptions C205_range_refuted.
Print Assumptions C205_always_empty_partial.
Print Assumptions C205_capacity_refuted.
Print Assumptions C205_assignment_refuted.
