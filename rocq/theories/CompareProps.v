(** Comparisons of iterators (C226) and of objects that refer to or hold others (C227). *)
From Coq Require Import List Bool ZArith Lia.
From Verif Require Import Base BaseLemmas PointersModel OptionalModel VariantModel Ipv4Model IteratorsModel
  CompareModel CompareSpec VariantSpec VariantProps.
Import ListNotations.
Local Open Scope Z_scope.

(** * C226: iterators compare equal exactly when they are at the same position *)

Lemma holds_numbers op a b : compare_numbers op a b = true <-> holds op a b.
Proof. destruct op; cbn; rewrite ?negb_true_iff, ?Z.eqb_eq, ?Z.eqb_neq, ?Z.ltb_lt, ?Z.leb_le; lia. Qed.

Lemma klass_beq_refl k : klass_beq k k = true.
Proof. destruct k; reflexivity. Qed.

(** What holds: two iterators of one class, the left one not const, of every container and in both
    directions. *)
Theorem C226_same_class_partial :
  forall k c a b,
  an_iterator k ->
  right Equal (It k false a) (It k c b) /\ right NotEqual (It k false a) (It k c b).
Proof.
  intros k c a b H.
  split; (eexists; split; [| apply (holds_numbers _ a b)]);
    unfold an_iterator, linear, list_forward in H;
    repeat match goal with H : _ \/ _ |- _ => destruct H end; subst; reflexivity.
Qed.

Example C226_same_class_case : an_iterator LinearIterator /\ an_iterator ListConstReverse.
Proof. unfold an_iterator, linear. auto 10. Qed.

(** Which comparisons of iterators that go forward over an Array, a Vector or a String are right: exactly
    those of two iterators of one class, on the left one that is not const, or by [>]. *)
Theorem C226_exact_partial :
  forall op k1 c1 k2 c2,
  linear k1 -> linear k2 ->
  ((forall a b, a <> 0 -> b <> 0 -> right op (It k1 c1 a) (It k2 c2 b)) <->
   k1 = k2 /\ (c1 = false \/ op = Greater)).
Proof.
  intros op k1 c1 k2 c2 H1 H2. split.
  - intro R.
    assert (R1 := R 1 2 ltac:(lia) ltac:(lia)). assert (R2 := R 2 1 ltac:(lia) ltac:(lia)).
    assert (R3 := R 1 1 ltac:(lia) ltac:(lia)).
    clear R. unfold right in *. cbn [it_at] in *.
    destruct R1 as (b1 & E1 & R1), R2 as (b2 & E2 & R2), R3 as (b3 & E3 & R3).
    destruct H1 as [-> | ->], H2 as [-> | ->], c1, op; cbn in *;
      try (split; [reflexivity | auto]; fail);
      exfalso; injection E1 as <-; injection E2 as <-; injection E3 as <-;
      destruct R1 as [A1 B1], R2 as [A2 B2], R3 as [A3 B3];
      solve [ assert (false = true) by (apply B1; lia); discriminate
            | assert (false = true) by (apply B2; lia); discriminate
            | assert (false = true) by (apply B3; lia); discriminate
            | specialize (A1 eq_refl); lia | specialize (A2 eq_refl); lia | specialize (A3 eq_refl); lia ].
  - intros (<- & H) a b _ _. exists (compare_numbers op a b). split; [| apply (holds_numbers op a b)].
    destruct H1 as [-> | ->], H as [H | H]; subst; try destruct op; try destruct c1; reflexivity.
Qed.

Example C226_exact_case : linear LinearIterator /\ linear LinearConstIterator.
Proof. unfold linear. auto. Qed.

(** The same for a List, where == and != are all there is; for the rest the answer is never right. *)
Theorem C226_exact_list_partial :
  forall op k1 c1 k2 c2,
  list_forward k1 -> list_forward k2 ->
  ((forall a b, a <> 0 -> b <> 0 -> right op (It k1 c1 a) (It k2 c2 b)) <->
   k1 = k2 /\ c1 = false /\ (op = Equal \/ op = NotEqual)).
Proof.
  intros op k1 c1 k2 c2 H1 H2. split.
  - intro R.
    assert (R1 := R 1 2 ltac:(lia) ltac:(lia)). assert (R2 := R 2 1 ltac:(lia) ltac:(lia)).
    assert (R3 := R 1 1 ltac:(lia) ltac:(lia)).
    clear R. unfold right in *. cbn [it_at] in *.
    destruct R1 as (b1 & E1 & R1), R2 as (b2 & E2 & R2), R3 as (b3 & E3 & R3).
    destruct H1 as [-> | ->], H2 as [-> | ->], c1, op; cbn in *;
      try (split; [reflexivity | split; [reflexivity | auto]]; fail);
      exfalso; injection E1 as <-; injection E2 as <-; injection E3 as <-;
      destruct R1 as [A1 B1], R2 as [A2 B2], R3 as [A3 B3];
      solve [ assert (false = true) by (apply B1; lia); discriminate
            | assert (false = true) by (apply B2; lia); discriminate
            | assert (false = true) by (apply B3; lia); discriminate
            | specialize (A1 eq_refl); lia | specialize (A2 eq_refl); lia | specialize (A3 eq_refl); lia ].
  - intros (<- & -> & H) a b _ _. exists (compare_numbers op a b). split; [| apply (holds_numbers op a b)].
    destruct H1 as [-> | ->], H as [H | H]; subst; reflexivity.
Qed.

(** What fails: an iterator and a const iterator are equal, wherever they are; so are two iterators if the
    left one is const. *)
Theorem C226_mixed_refuted :
  forall k1 c1 k2 c2 a b,
  an_iterator k1 -> an_iterator k2 -> k1 <> k2 -> a <> 0 -> b <> 0 ->
  compare_iterators Equal (It k1 c1 a) (It k2 c2 b) = Some true /\
  compare_iterators NotEqual (It k1 c1 a) (It k2 c2 b) = Some false /\
  compare_iterators Less (It k1 c1 a) (It k2 c2 b) = Some false.
Proof.
  intros k1 c1 k2 c2 a b H1 H2 D Ha Hb.
  assert (B : forall op, member_viable op (k1, c1) (k2, c2) = false).
  { intro op. unfold member_viable. cbn [fst snd]. destruct (member_operator k1 op); [| reflexivity].
    destruct (klass_beq k1 k2) eqn:E; [| reflexivity].
    apply internal_klass_dec_bl in E. contradiction. }
  assert (V : forall k, converts_to_bool k = true) by (intros []; reflexivity).
  unfold compare_iterators, chosen, operand_of. cbn [it_class it_const].
  rewrite !B, !V. cbn [fst andb]. unfold compare_bools, iterator_bool. cbn [it_at].
  rewrite (proj2 (Z.eqb_neq a 0) Ha), (proj2 (Z.eqb_neq b 0) Hb). auto.
Qed.

Example C226_mixed_case :
  LinearIterator <> LinearConstIterator /\
  compare_iterators Equal (It LinearIterator false 5) (It LinearConstIterator false 9) = Some true.
Proof. split; [discriminate | reflexivity]. Qed.

Theorem C226_const_refuted :
  forall k c a b,
  an_iterator k -> a <> 0 -> b <> 0 ->
  compare_iterators Equal (It k true a) (It k c b) = Some true /\
  compare_iterators NotEqual (It k true a) (It k c b) = Some false.
Proof.
  intros k c a b H Ha Hb.
  unfold compare_iterators, operand_of. cbn [it_class it_const].
  assert (C : chosen Equal (k, true) (k, c) = Some ByBool /\ chosen NotEqual (k, true) (k, c) = Some ByBool).
  { unfold an_iterator, linear, list_forward in H.
    repeat match goal with H : _ \/ _ |- _ => destruct H end; subst; split; reflexivity. }
  destruct C as [-> ->]. unfold compare_bools, iterator_bool. cbn [it_at].
  rewrite (proj2 (Z.eqb_neq a 0) Ha), (proj2 (Z.eqb_neq b 0) Hb). auto.
Qed.

Example C226_const_case :
  compare_iterators Equal (It ListIterator true 5) (It ListIterator false 9) = Some true.
Proof. reflexivity. Qed.

Lemma same_member k c a b :
  an_iterator k ->
  compare_iterators NotEqual (It k false a) (It k c b) = Some (negb (a =? b)).
Proof.
  intro H. unfold an_iterator, linear, list_forward in H.
  repeat match goal with H : _ \/ _ |- _ => destruct H end; subst; reflexivity.
Qed.

(** Loops. With two iterators of one class, the body runs for every position, in order. *)
Theorem C226_loop_partial :
  forall k c last route,
  an_iterator k -> ~ In last route ->
  loop k (It k c last) route = Ok route.
Proof.
  intros k c last route H. induction route as [| p rest IH]; intro N; cbn [loop it_at].
  - rewrite same_member by exact H. rewrite Z.eqb_refl. reflexivity.
  - rewrite same_member by exact H.
    rewrite (proj2 (Z.eqb_neq p last)) by (intros ->; apply N; left; reflexivity).
    cbn [negb]. rewrite IH by (intro I; apply N; right; exact I). reflexivity.
Qed.

Example C226_loop_case :
  ~ In 14 [10; 11; 12; 13] /\
  loop LinearIterator (It LinearIterator true 14) [10; 11; 12; 13] = Ok [10; 11; 12; 13].
Proof. split; [intros [H | [H | [H | [H | []]]]]; discriminate | reflexivity]. Qed.

(** From begin() to cend(), the body runs for no element; and the same with a const end(), if the
    condition is written the other way round. *)
Theorem C226_loop_refuted :
  forall k1 k2 c last route,
  an_iterator k1 -> an_iterator k2 -> Forall (fun p => p <> 0) route -> last <> 0 ->
  (k1 <> k2 -> loop k1 (It k2 c last) route = Ok [] /\ loop_swapped k1 (It k2 c last) route = Ok []) /\
  loop_swapped k1 (It k1 true last) route = Ok [].
Proof.
  intros k1 k2 c last route H1 H2 F L. split.
  - intro D. split; destruct F as [| p rest P F]; cbn [loop loop_swapped it_at].
    + destruct (C226_mixed_refuted k1 false k2 c last last H1 H2 D L L) as (_ & -> & _). reflexivity.
    + destruct (C226_mixed_refuted k1 false k2 c p last H1 H2 D P L) as (_ & -> & _). reflexivity.
    + destruct (C226_mixed_refuted k2 c k1 false last last H2 H1 (not_eq_sym D) L L) as (_ & -> & _).
      reflexivity.
    + destruct (C226_mixed_refuted k2 c k1 false last p H2 H1 (not_eq_sym D) L P) as (_ & -> & _).
      reflexivity.
  - destruct F as [| p rest P F]; cbn [loop_swapped it_at].
    + destruct (C226_const_refuted k1 false last last H1 L L) as (_ & ->). reflexivity.
    + destruct (C226_const_refuted k1 false last p H1 L P) as (_ & ->). reflexivity.
Qed.

Example C226_loop_refuted_case :
  loop LinearIterator (It LinearConstIterator false 14) [10; 11; 12; 13] = Ok [].
Proof. reflexivity. Qed.

(** * C227: smart pointers, Optionals, Variants and addresses are equal exactly when they refer to or hold
    the same *)

Lemma bools_equal x y : compare_bools Equal x y = eqb x y.
Proof. destruct x, y; reflexivity. Qed.

(** UniquePointer. What the answer is: whether both are empty, or neither is. *)
Theorem C227_unique_partial :
  forall A (w : uworld A) cp p cq q o1 o2,
  nth_error (u_vars w) p = Some (Present o1) -> nth_error (u_vars w) q = Some (Present o2) ->
  exists b, compare_unique Equal w cp p cq q = Some (Ok b) /\
    compare_unique NotEqual w cp p cq q = Some (Ok (negb b)) /\
    (b = true <-> (o1 = None <-> o2 = None)).
Proof.
  intros A w cp p cq q o1 o2 H1 H2. unfold compare_unique. cbn -[compare_bools].
  unfold compare_by_bool, u_bool, u_field. rewrite H1, H2. cbn [bind]. eexists.
  split; [reflexivity|]. split.
  - destruct o1, o2; reflexivity.
  - destruct o1, o2; cbn; split; intro H; try tauto; try discriminate.
    + split; discriminate.
    + destruct H as [_ H]. discriminate (H eq_refl).
    + destruct H as [H _]. discriminate (H eq_refl).
Qed.

(** What fails: pointers to two different objects are equal. *)
Theorem C227_unique_refuted :
  forall A (w : uworld A) cp p cq q x y,
  p <> q -> nth_error (u_vars w) p = Some Absent -> nth_error (u_vars w) q = Some Absent ->
  exists w1 w2, u_new w p x = Ok w1 /\ u_new w1 q y = Ok w2 /\
    u_deref w2 p = Ok x /\ u_deref w2 q = Ok y /\
    compare_unique Equal w2 cp p cq q = Some (Ok true) /\
    compare_unique NotEqual w2 cp p cq q = Some (Ok false).
Proof.
  intros A w cp p cq q x y D Hp Hq.
  unfold u_new at 1, u_fresh. rewrite Hp. cbn [bind]. eexists. eexists. split; [reflexivity|].
  unfold u_new, u_fresh. cbn [u_vars u_objs].
  rewrite nth_error_upd_neq by auto. rewrite Hq. cbn [bind]. split; [reflexivity|].
  assert (Lp : (p < length (u_vars w))%nat) by (apply nth_error_Some; congruence).
  assert (Lq : (q < length (u_vars w))%nat) by (apply nth_error_Some; congruence).
  set (w2 := UW _ _).
  assert (Fp : nth_error (u_vars w2) p = Some (Present (Some (length (u_objs w))))).
  { unfold w2. cbn [u_vars]. rewrite nth_error_upd_neq by auto. apply nth_error_upd_eq. exact Lp. }
  assert (Fq : nth_error (u_vars w2) q = Some (Present (Some (length (u_objs w ++ [Some x]))))).
  { unfold w2. cbn [u_vars]. apply nth_error_upd_eq. rewrite upd_length. exact Lq. }
  split; [| split].
  - unfold u_deref, u_field. rewrite Fp. cbn [bind]. unfold w2. cbn [u_objs].
    rewrite nth_error_app1 by (rewrite app_length; cbn; lia).
    rewrite nth_error_app2, Nat.sub_diag by lia. reflexivity.
  - unfold u_deref, u_field. rewrite Fq. cbn [bind]. unfold w2. cbn [u_objs].
    rewrite nth_error_app2, Nat.sub_diag by lia. reflexivity.
  - destruct (C227_unique_partial A w2 cp p cq q _ _ Fp Fq) as (b & E1 & E2 & B).
    rewrite E1, E2. replace b with true; [auto|].
    symmetry. apply B. split; discriminate.
Qed.

Example C227_unique_case :
  nth_error (u_vars (u_start (A := nat) 2)) 0 = Some Absent /\
  nth_error (u_vars (u_start (A := nat) 2)) 1 = Some Absent.
Proof. split; reflexivity. Qed.

(** SharedPointer. A const pointer and its copy are equal. *)
Theorem C227_shared_partial :
  forall A (w : sworld A) cp p cq q i c x,
  nth_error (s_vars w) q = Some (SPresent (To i)) -> nth_error (s_objs w) i = Some (Some (c, x)) ->
  nth_error (s_vars w) p = Some SAbsent ->
  exists w', s_copy w p q = Ok w' /\ s_deref w' p = Ok x /\ s_deref w' q = Ok x /\
    compare_shared Equal w' cp p cq q = Some (Ok true) /\
    compare_shared NotEqual w' cp p cq q = Some (Ok false).
Proof.
  intros A w cp p cq q i c x Hq Ho Hp.
  assert (D : p <> q) by (intros ->; congruence).
  assert (Lp : (p < length (s_vars w))%nat) by (apply nth_error_Some; congruence).
  assert (Li : (i < length (s_objs w))%nat) by (apply nth_error_Some; congruence).
  unfold s_copy, s_fresh, s_field. rewrite Hp, Hq. cbn [bind]. unfold s_incr, s_get.
  unfold s_set. cbn [s_objs s_vars]. rewrite Ho. cbn [bind]. eexists. split; [reflexivity|].
  set (w' := SW _ _).
  assert (Fp : s_field w' p = Ok (To i)).
  { unfold s_field, w'. cbn [s_vars]. rewrite nth_error_upd_eq by exact Lp. reflexivity. }
  assert (Fq : s_field w' q = Ok (To i)).
  { unfold s_field, w'. cbn [s_vars]. rewrite nth_error_upd_neq by auto. rewrite Hq. reflexivity. }
  assert (G : s_get w' (To i) = Ok (i, size_t (c + 1), x)).
  { unfold s_get, w'. cbn [s_objs]. rewrite nth_error_upd_eq by exact Li. reflexivity. }
  unfold s_deref. rewrite Fp, Fq. cbn [bind]. rewrite G. cbn [bind snd].
  split; [reflexivity|]. split; [reflexivity|].
  unfold compare_shared. cbn -[compare_bools]. unfold compare_by_bool, s_bool. rewrite Fp, Fq.
  split; reflexivity.
Qed.

Example C227_shared_case :
  let w := SW [Some (0, 5)] [SPresent (To 0); SAbsent] in
  nth_error (s_vars w) 0 = Some (SPresent (To 0)) /\ nth_error (s_objs w) 0 = Some (Some (0, 5)) /\
  nth_error (s_vars w) 1 = Some SAbsent.
Proof. repeat split. Qed.

(** What fails: pointers to two different objects are equal; and after a move, to compare the two is UB. *)
Theorem C227_shared_refuted :
  forall A (w : sworld A) cp p cq q i j c x d y,
  nth_error (s_vars w) p = Some (SPresent (To i)) -> nth_error (s_vars w) q = Some (SPresent (To j)) ->
  nth_error (s_objs w) i = Some (Some (c, x)) -> nth_error (s_objs w) j = Some (Some (d, y)) ->
  s_deref w p = Ok x /\ s_deref w q = Ok y /\
  compare_shared Equal w cp p cq q = Some (Ok true) /\
  compare_shared NotEqual w cp p cq q = Some (Ok false).
Proof.
  intros A w cp p cq q i j c x d y Hp Hq Hi Hj.
  unfold s_deref, s_field. rewrite Hp, Hq. cbn [bind s_get]. rewrite Hi, Hj. cbn [bind snd].
  split; [reflexivity|]. split; [reflexivity|].
  unfold compare_shared. cbn -[compare_bools]. unfold compare_by_bool, s_bool, s_field. rewrite Hp, Hq.
  split; reflexivity.
Qed.

Example C227_shared_refuted_case :
  let w := SW [Some (0, 5); Some (0, 6)] [SPresent (To 0); SPresent (To 1)] in
  nth_error (s_vars w) 0 = Some (SPresent (To 0)) /\ nth_error (s_vars w) 1 = Some (SPresent (To 1)) /\
  nth_error (s_objs w) 0 = Some (Some (0, 5)) /\ nth_error (s_objs w) 1 = Some (Some (0, 6)).
Proof. repeat split. Qed.

Theorem C227_shared_moved_refuted :
  forall A (w : sworld A) op cp p cq q m,
  nth_error (s_vars w) q = Some (SPresent m) -> nth_error (s_vars w) p = Some SAbsent ->
  exists w', s_move w p q = Ok w' /\
    compare_shared op w' cp p cq q = Some UB /\ compare_shared op w' cq q cp p = Some UB.
Proof.
  intros A w op cp p cq q m Hq Hp.
  assert (D : p <> q) by (intros ->; congruence).
  assert (Lq : (q < length (s_vars w))%nat) by (apply nth_error_Some; congruence).
  unfold s_move, s_fresh, s_field, s_set. rewrite Hp, Hq. cbn [bind s_vars s_objs].
  eexists. split; [reflexivity|]. set (w' := SW _ _).
  assert (Fp : exists m', s_field w' p = Ok m').
  { unfold s_field, w'. cbn [s_vars]. rewrite nth_error_upd_neq by auto.
    rewrite nth_error_upd_eq by (apply nth_error_Some; congruence). eauto. }
  assert (Fq : s_field w' q = Ok Nil).
  { unfold s_field, w'. cbn [s_vars]. rewrite nth_error_upd_eq by (rewrite upd_length; exact Lq).
    reflexivity. }
  destruct Fp as (m' & Fp).
  unfold compare_shared, chosen, member_viable. cbn [fst snd member_operator converts_to_bool andb].
  unfold compare_by_bool, s_bool. rewrite Fp, Fq. cbn [bind]. split; destruct m'; reflexivity.
Qed.

(** Optional. What the answer is: whether both hold a value, or neither does. *)
Theorem C227_optional_partial :
  forall V (w : oworld V) cp p cq q v u,
  ovar w p = Ok v -> ovar w q = Ok u ->
  exists b, compare_optional Equal w cp p cq q = Some (Ok b) /\
    compare_optional NotEqual w cp p cq q = Some (Ok (negb b)) /\
    (b = true <-> (o_fill v = true <-> o_fill u = true)).
Proof.
  intros V w cp p cq q v u Hv Hu. unfold compare_optional. cbn -[compare_bools]. rewrite Hv, Hu.
  cbn [bind]. eexists. split; [reflexivity|].
  destruct (o_fill v), (o_fill u); (split; [reflexivity | cbn; intuition congruence]).
Qed.

Example C227_optional_case :
  ovar (OW [Some (OR true (Some 3)); Some (OR false None)] 1 0) 0 = Ok (OR true (Some 3)).
Proof. reflexivity. Qed.

(** What fails: two Optionals that hold values are equal, whatever the values; and one is equal to the
    number 1 if it holds a value, to 0 if it holds none, and to no other number. *)
Theorem C227_optional_refuted :
  forall V (w : oworld V) cp p cq q x y,
  p <> q -> nth_error (ow_vars w) p = Some None -> nth_error (ow_vars w) q = Some None ->
  exists w1 w2, o_from w p x = Ok w1 /\ o_from w1 q y = Ok w2 /\
    o_get w2 p = Ok x /\ o_get w2 q = Ok y /\
    compare_optional Equal w2 cp p cq q = Some (Ok true) /\
    compare_optional NotEqual w2 cp p cq q = Some (Ok false) /\
    (forall n, compare_optional_number Equal w2 p n = Ok (1 =? n)).
Proof.
  intros V w cp p cq q x y D Hp Hq.
  assert (Lp : (p < length (ow_vars w))%nat) by (apply nth_error_Some; congruence).
  assert (Lq : (q < length (ow_vars w))%nat) by (apply nth_error_Some; congruence).
  unfold o_from at 1, ofresh. rewrite Hp. cbn [bind]. do 2 eexists. split; [reflexivity|].
  unfold o_from, ofresh, o_construct. cbn [ow_vars ow_made ow_gone].
  rewrite nth_error_upd_neq by auto. rewrite Hq. cbn [bind]. split; [reflexivity|].
  set (w2 := OW _ _ _).
  assert (Fp : ovar w2 p = Ok (OR true (Some x))).
  { unfold ovar, w2. cbn [ow_vars]. rewrite nth_error_upd_neq by auto.
    rewrite nth_error_upd_eq by exact Lp. reflexivity. }
  assert (Fq : ovar w2 q = Ok (OR true (Some y))).
  { unfold ovar, w2. cbn [ow_vars]. rewrite nth_error_upd_eq by (rewrite upd_length; exact Lq).
    reflexivity. }
  unfold o_get, compare_optional, compare_optional_number.
  cbn -[compare_bools compare_numbers ovar]. rewrite Fp, Fq. cbn [bind].
  repeat split; reflexivity.
Qed.

Example C227_optional_refuted_case :
  nth_error (ow_vars (V := nat) (OW [None; None] 0 0)) 0 = Some None.
Proof. reflexivity. Qed.

(** Variant. If the left one is not const, the alternatives and the values are compared: for two set
    variables of any program (C28). *)
Theorem C227_variant_partial :
  forall (V : Type) (mv : V -> V) (eqv : nat -> V -> V -> bool) (ts : list nat) (n : nat)
         (os : list (v_op V)) p q t x u y,
  Z.of_nat (length ts) < 2 ^ 63 ->
  v_ok mv ts (repeat None n) os ->
  holds_in (v_result mv ts (repeat None n) os) p (Some (t, x)) ->
  holds_in (v_result mv ts (repeat None n) os) q (Some (u, y)) ->
  exists w v1 v2, v_run mv ts (v_start n) os = Ok w /\ var w p = Ok v1 /\ var w q = Ok v2 /\
    forall c,
    compare_variant eqv Equal ts false v1 c v2 = Some (Ok ((t =? u)%nat && eqv t x y)) /\
    compare_variant eqv NotEqual ts false v1 c v2 = Some (Ok (negb ((t =? u)%nat && eqv t x y))).
Proof.
  intros V mv eqv ts n os p q t x u y L D Hp Hq.
  destruct (C28_equality_partial V mv eqv ts n os p q t x u y L D Hp Hq) as (w & v1 & v2 & E & E1 & E2 & R).
  exists w, v1, v2. repeat (split; [assumption|]). intro c. unfold compare_variant. cbn -[v_equal].
  rewrite R. split; reflexivity.
Qed.

Example C227_variant_case :
  let os := [VFrom 0 7 100; VFrom 1 8 100]%nat in
  v_ok (fun x => x) [7; 8]%nat (repeat None 2) os /\
  holds_in (v_result (fun x => x) [7; 8]%nat (repeat None 2) os) 0 (Some (7, 100))%nat /\
  holds_in (v_result (fun x => x) [7; 8]%nat (repeat None 2) os) 1 (Some (8, 100))%nat.
Proof. repeat split; cbn; auto; try reflexivity; try (eexists; reflexivity). Qed.

(** What fails: if it is const, any two that are set are equal. *)
Theorem C227_variant_refuted :
  forall (V : Type) (eqv : nat -> V -> V -> bool) ts v cu u,
  v_is_set v = true -> v_is_set u = true ->
  compare_variant eqv Equal ts true v cu u = Some (Ok true) /\
  compare_variant eqv NotEqual ts true v cu u = Some (Ok false).
Proof.
  intros V eqv ts v cu u Hv Hu. unfold compare_variant. cbn -[compare_bools v_is_set].
  rewrite Hv, Hu. split; reflexivity.
Qed.

Example C227_variant_refuted_case :
  let eqv := fun _ => Nat.eqb in
  compare_variant eqv Equal [7; 8]%nat true (VR 0 (Some (7, 1)%nat)) true (VR 1 (Some (8, 2)%nat))
  = Some (Ok true).
Proof. reflexivity. Qed.

(** Ipv4. What the answer is: whether both are valid, or neither is. *)
Theorem C227_ipv4_partial :
  forall ca a cb b,
  exists r, compare_ipv4 Equal ca a cb b = Some r /\ compare_ipv4 NotEqual ca a cb b = Some (negb r) /\
    (r = true <-> (ip_bool a = true <-> ip_bool b = true)).
Proof.
  intros ca a cb b. unfold compare_ipv4. cbn -[compare_bools ip_bool]. eexists. split; [reflexivity|].
  destruct (ip_bool a), (ip_bool b); (split; [reflexivity | cbn; intuition congruence]).
Qed.

(** What fails: any two addresses and ports are equal. *)
Definition octets (l : list Z) : Prop := length l = 4%nat /\ Forall (fun n => 0 <= n <= 255) l.

Lemma octets_bool l port : octets l -> ip_bool (Ip l port) = true.
Proof.
  intros (_ & F). unfold ip_bool. cbn [ip_numbers]. induction F as [| n r H F IH]; [reflexivity|].
  cbn [all_octets]. rewrite (proj2 (Z.leb_le 0 n)), (proj2 (Z.leb_le n 255)) by lia. exact IH.
Qed.

Theorem C227_ipv4_refuted :
  forall ca cb numbers1 port1 numbers2 port2,
  octets numbers1 -> octets numbers2 ->
  exists a b, ip_of_numbers numbers1 port1 = Ok a /\ ip_of_numbers numbers2 port2 = Ok b /\
    ip_numbers a = numbers1 /\ ip_port a = port1 /\ ip_numbers b = numbers2 /\ ip_port b = port2 /\
    compare_ipv4 Equal ca a cb b = Some true /\ compare_ipv4 NotEqual ca a cb b = Some false.
Proof.
  intros ca cb n1 p1 n2 p2 O1 O2.
  assert (M : forall l p, octets l -> ip_of_numbers l p = Ok (Ip l p)).
  { intros l p (L & _). destruct l as [| a [| b [| c [| d [| ? ?]]]]]; try discriminate L. reflexivity. }
  exists (Ip n1 p1), (Ip n2 p2). rewrite !M by assumption.
  repeat (split; [reflexivity|]). unfold compare_ipv4. cbn -[compare_bools ip_bool].
  rewrite !octets_bool by assumption. split; reflexivity.
Qed.

Example C227_ipv4_case : octets [127; 0; 0; 1] /\ octets [10; 1; 2; 3].
Proof. split; split; try reflexivity; repeat (apply Forall_cons || apply Forall_nil); lia. Qed.

Print Assumptions C226_same_class_partial.
Print Assumptions C226_exact_partial.
Print Assumptions C226_exact_list_partial.
Print Assumptions C226_mixed_refuted.
Print Assumptions C226_const_refuted.
Print Assumptions C226_loop_partial.
Print Assumptions C226_loop_refuted.
Print Assumptions C227_unique_partial.
Print Assumptions C227_unique_refuted.
Print Assumptions C227_shared_partial.
Print Assumptions C227_shared_refuted.
Print Assumptions C227_shared_moved_refuted.
Print Assumptions C227_optional_partial.
Print Assumptions C227_optional_refuted.
Print Assumptions C227_variant_partial.
Print Assumptions C227_variant_refuted.
Print Assumptions C227_ipv4_partial.
Print Assumptions C227_ipv4_refuted.
