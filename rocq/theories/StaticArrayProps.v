(** Property C09 (StaticArray). *)
From Coq Require Import List Arith Lia Bool.
From Verif Require Import Base BaseLemmas StaticArrayModel.
Import ListNotations.

Lemma copy_advancing_ok {A} (xs : list A) : forall (pre post : list (option A)) mid,
  length mid = length xs ->
  sa_copy_advancing (map Some xs) (length pre) (pre ++ mid ++ post)
  = Ok (pre ++ map Some xs ++ post).
Proof.
  induction xs as [|x xs IH]; intros pre post mid L; destruct mid as [|c mid]; try discriminate;
    cbn [map sa_copy_advancing app]; auto.
  unfold sa_set, write. rewrite app_length. cbn [length].
  destruct (Nat.ltb_spec (length pre) (length pre + S (length (mid ++ post)))); [|lia].
  cbn [bind]. rewrite upd_app_mid.
  change (pre ++ Some x :: mid ++ post) with (pre ++ [Some x] ++ mid ++ post).
  rewrite app_assoc. replace (S (length pre)) with (length (pre ++ [Some x]))
    by (rewrite app_length; cbn; lia).
  rewrite IH by (cbn in L; lia). rewrite <- app_assoc. reflexivity.
Qed.

Lemma copy_still_ok {A} (xs : list A) : forall (c : option A) post,
  sa_copy_still (map Some xs) 0 (c :: post)
  = Ok (match rev xs with [] => c | x :: _ => Some x end :: post).
Proof.
  induction xs as [|x xs IH]; intros c post; cbn [map sa_copy_still rev]; auto.
  unfold sa_set, write. cbn. rewrite IH. destruct (rev xs); reflexivity.
Qed.

(** C09 refuted for every array of at least two elements whose second elements differ:
    assignment does not copy the second element. *)
Theorem C09_assignment_refuted :
  forall (A : Type) (a0 a1 b0 b1 : A) (as_ bs : list A),
    length as_ = length bs -> a1 <> b1 ->
    exists r, sa_assign (map Some (a0 :: a1 :: as_)) (map Some (b0 :: b1 :: bs)) = Ok r
      /\ sa_get r 1 = Ok a1 /\ sa_get (map Some (b0 :: b1 :: bs)) 1 <> Ok a1.
Proof.
  intros A a0 a1 b0 b1 as_ bs L Hn. unfold sa_assign.
  rewrite !map_length. cbn [length]. rewrite L, Nat.leb_refl.
  change (map Some (a0 :: a1 :: as_)) with (Some a0 :: map Some (a1 :: as_)).
  rewrite copy_still_ok. eexists. split; [reflexivity|]. split; [reflexivity|].
  cbn. congruence.
Qed.

(** C09: what assignment does, exactly: the first element becomes the last one of the
    source, the others keep their values. *)
Theorem C09_assignment_partial :
  forall (A : Type) (a0 : A) (as_ bs : list A) (b : A),
    length as_ = length bs ->
    sa_assign (map Some (a0 :: as_)) (map Some (bs ++ [b])) = Ok (map Some (b :: as_)).
Proof.
  intros A a0 as_ bs b L. unfold sa_assign.
  rewrite !map_length, app_length. cbn [length]. rewrite L.
  replace (length bs + 1 <=? S (length bs)) with true.
  2:{ symmetry. apply Nat.leb_le. lia. }
  change (map Some (a0 :: as_)) with (Some a0 :: map Some as_).
  rewrite copy_still_ok, rev_app_distr. reflexivity.
Qed.

(** C09: in particular assignment is right for arrays of one element. *)
Corollary C09_assignment_single :
  forall (A : Type) (a b : A), sa_assign [Some a] [Some b] = Ok [Some b].
Proof. intros A a b. exact (C09_assignment_partial A a [] [] b eq_refl). Qed.

(** C09 refuted: reading the second element of a clone of a trivial type is UB. *)
Theorem C09_clone_refuted :
  forall (A : Type) (a0 a1 : A) (as_ : list A),
    (let! r := sa_clone None (map Some (a0 :: a1 :: as_)) in sa_get r 1) = UB.
Proof.
  intros A a0 a1 as_. unfold sa_clone, sa_new. rewrite map_length. cbn [length repeat].
  rewrite copy_still_ok. reflexivity.
Qed.

(** C09 refuted: moving assignment always ends in UB (no return statement). *)
Theorem C09_move_assignment_refuted :
  forall (A : Type) (xs ys : list A),
    length xs = length ys -> sa_assign_move (map Some xs) (map Some ys) = UB.
Proof.
  intros A xs ys L. unfold sa_assign_move. rewrite !map_length, L, Nat.leb_refl.
  pose proof (copy_advancing_ok ys [] [] (map Some xs)) as H.
  cbn [app length] in H. rewrite app_nil_r in H. rewrite H; auto. rewrite map_length; auto.
Qed.

(** C09: copy construction is right. *)
Theorem C09_copy_constructor :
  forall (A : Type) (fresh : option A) (xs : list A),
    sa_copy fresh (length xs) (map Some xs) = Ok (map Some xs).
Proof.
  intros A fresh xs. unfold sa_copy, sa_new. rewrite map_length, Nat.leb_refl.
  pose proof (copy_advancing_ok xs [] [] (repeat fresh (length xs))) as H.
  cbn [app length] in H. rewrite !app_nil_r in H. apply H. apply repeat_length.
Qed.

(** C09: the constructor from an initializer list fills the first elements; the others stay
    as new; a list longer than the array is written past its end. *)
Theorem C09_initializer_partial :
  forall (A : Type) (fresh : option A) (cap : nat) (xs : list A),
    (length xs <= cap ->
       sa_of_list fresh cap xs = Ok (map Some xs ++ repeat fresh (cap - length xs)))
    /\ (cap < length xs -> sa_of_list fresh cap xs = UB).
Proof.
  intros A fresh cap xs. unfold sa_of_list, sa_new. split; intros L.
  - pose proof (copy_advancing_ok xs [] (repeat fresh (cap - length xs)) (repeat fresh (length xs))) as H.
    cbn [app length] in H. rewrite <- repeat_app in H.
    replace (length xs + (cap - length xs)) with cap in H by lia.
    apply H. apply repeat_length.
  - rewrite <- (firstn_skipn cap xs).
    destruct (skipn cap xs) as [|y ys] eqn:Es.
    { apply (f_equal (@length A)) in Es. rewrite skipn_length in Es. cbn in Es. lia. }
    assert (E : forall zs it (a : list (option A)), it + length zs = length a ->
       sa_copy_advancing (map Some (zs ++ y :: ys)) it a = UB).
    { induction zs as [|z zs IH]; intros it a Hl; cbn [app map sa_copy_advancing];
        unfold sa_set, write.
      - cbn in Hl. destruct (Nat.ltb_spec it (length a)); [lia|]. reflexivity.
      - cbn in Hl. destruct (Nat.ltb_spec it (length a)); [|lia]. cbn [bind].
        apply IH. rewrite upd_length. lia. }
    apply E. rewrite repeat_length, firstn_length. lia.
Qed.

Example C09_initializer_case :
  sa_of_list (Some 0) 4 [7; 8] = Ok [Some 7; Some 8; Some 0; Some 0]
  /\ sa_of_list (Some 0) 1 [7; 8] = UB.
Proof. split; reflexivity. Qed.

(** C09: equality decides element-wise equality. *)
Theorem C09_equality :
  forall (A : Type) (eqA : A -> A -> bool) (xs ys : list A),
    (forall x y, eqA x y = true <-> x = y) ->
    exists b, sa_eq eqA (map Some xs) (map Some ys) = Ok b /\ (b = true <-> xs = ys).
Proof.
  intros A eqA xs ys Heq. unfold sa_eq. rewrite !map_length.
  destruct (Nat.eqb_spec (length xs) (length ys)) as [L|L]; cbn [negb].
  2:{ exists false. split; auto. split; [discriminate|]. congruence. }
  enough (forall pre, length xs = length ys ->
    exists b, sa_eq_from eqA (map Some xs) (map Some (pre ++ ys)) (length pre) = Ok b
       /\ (b = true <-> xs = ys)) as H by (apply (H [] L)).
  clear L. revert ys. induction xs as [|x xs IH]; intros [|y ys] pre L; try discriminate.
  - exists true. cbn. tauto.
  - cbn [map sa_eq_from]. unfold sa_get. rewrite nth_error_map', nth_error_app2 by lia.
    rewrite Nat.sub_diag. cbn [nth_error option_map bind].
    destruct (eqA x y) eqn:E.
    + apply Heq in E. subst y. destruct (IH ys (pre ++ [x])) as (b & Eb & Hb).
      { cbn in L; lia. }
      exists b. rewrite <- app_assoc, app_length, Nat.add_1_r in Eb. split; auto.
      rewrite Hb. split; congruence.
    + exists false. split; auto. split; [discriminate|]. intros [= -> _].
      assert (eqA y y = true) by (apply Heq; auto). congruence.
Qed.

(** C09: reset gives every element its default value. *)
Theorem C09_reset :
  forall (A : Type) (dflt : A) (a : list (option A)),
    sa_reset dflt a = Ok (repeat (Some dflt) (length a)).
Proof.
  intros A dflt a. unfold sa_reset.
  enough (forall n pre a, length a = n ->
     sa_reset_from dflt n (length pre) (pre ++ a) = Ok (pre ++ repeat (Some dflt) n)) as H.
  { apply (H (length a) []); auto. }
  clear a. induction n as [|n IH]; intros pre a L; destruct a as [|c a]; try discriminate;
    cbn [sa_reset_from repeat]; auto.
  unfold sa_set, write. rewrite app_length. cbn [length].
  destruct (Nat.ltb_spec (length pre) (length pre + S (length a))); [|lia].
  cbn [bind]. rewrite upd_app_mid.
  change (pre ++ Some dflt :: a) with (pre ++ [Some dflt] ++ a). rewrite app_assoc.
  replace (S (length pre)) with (length (pre ++ [Some dflt])) by (rewrite app_length; cbn; lia).
  rewrite IH by (cbn in L; lia). rewrite <- app_assoc. reflexivity.
Qed.

Example C09_case :
  sa_assign [Some 1; Some 2; Some 3] [Some 4; Some 5; Some 6] = Ok [Some 6; Some 2; Some 3]
  /\ sa_copy None 3 [Some 4; Some 5; Some 6] = Ok [Some 4; Some 5; Some 6]
  /\ sa_eq Nat.eqb [Some 4; Some 5] [Some 4; Some 6] = Ok false
  /\ sa_eq Nat.eqb [Some 4; Some 5] [Some 4; Some 5] = Ok true.
Proof. repeat split. Qed.

Print Assumptions C09_assignment_refuted.
Print Assumptions C09_assignment_partial.
Print Assumptions C09_assignment_single.
Print Assumptions C09_clone_refuted.
Print Assumptions C09_move_assignment_refuted.
Print Assumptions C09_copy_constructor.
Print Assumptions C09_equality.
Print Assumptions C09_reset.
Print Assumptions C09_initializer_partial.
