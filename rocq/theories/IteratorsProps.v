(** Properties C39 and C40 (iterators). *)
From Coq Require Import ZArith Bool Lia List.
From Verif Require Import IteratorsModel.
Import ListNotations.
Local Open Scope Z_scope.

(** In a reverse traversal the element with the higher index is met first. *)
Definition met_before (a b : Z) : Prop := a > b.

(** C39 refuted: [<] is not irreflexive and [<=] is not reflexive, at every position; [>=]
    and [>] likewise. *)
Theorem C39_reverse_order_refuted :
  forall a, rev_lt a a = true /\ rev_gt a a = true /\ rev_le a a = false /\ rev_ge a a = false.
Proof.
  intros a. unfold rev_lt, rev_gt, rev_le, rev_ge.
  repeat split; rewrite ?Z.geb_leb, ?Z.gtb_ltb; try apply Z.leb_refl; try apply Z.ltb_irrefl.
Qed.

(** C39 for distinct iterators. *)
Theorem C39_reverse_order_partial :
  forall a b, a <> b ->
    (rev_lt a b = true <-> met_before a b)
    /\ (rev_gt a b = true <-> met_before b a)
    /\ (rev_le a b = true <-> met_before a b)
    /\ (rev_ge a b = true <-> met_before b a).
Proof.
  intros a b Hn. unfold rev_lt, rev_gt, rev_le, rev_ge, met_before.
  rewrite Z.geb_leb, Z.gtb_ltb, !Z.leb_le, !Z.ltb_lt. lia.
Qed.

(** C39: ++ moves to the element met next, and offsets agree with repeated ++. *)
Theorem C39_reverse_steps :
  forall a n, met_before a (rev_inc a)
    /\ (forall c, met_before a c -> c = rev_inc a \/ met_before (rev_inc a) c)
    /\ rev_plus_assign a (Z.of_nat n) = Nat.iter n rev_inc a
    /\ rev_minus_assign a (Z.of_nat n) = Nat.iter n rev_dec a
    /\ rev_index a (Z.of_nat n) = rev_plus_assign a (Z.of_nat n)
    /\ rev_dec (rev_inc a) = a.
Proof.
  intros a n. unfold met_before, rev_inc, rev_dec, rev_plus_assign, rev_minus_assign, rev_index.
  assert (forall n, Nat.iter n (fun it => it - 1) a = a - Z.of_nat n) as H1.
  { induction n0; cbn [Nat.iter nat_rect]; [lia|]. unfold Nat.iter in IHn0. rewrite IHn0. lia. }
  assert (forall n, Nat.iter n (fun it => it + 1) a = a + Z.of_nat n) as H2.
  { induction n0; cbn [Nat.iter nat_rect]; [lia|]. unfold Nat.iter in IHn0. rewrite IHn0. lia. }
  rewrite H1, H2. repeat split; lia.
Qed.

(** C39 refuted: the difference of two reverse iterators has the wrong sign. *)
Theorem C39_reverse_difference_refuted :
  forall a n, rev_difference (rev_plus_assign a n) a = - n.
Proof. intros. unfold rev_difference, rev_plus_assign. lia. Qed.

Example C39_case :
  rev_lt 7 3 = true /\ rev_lt 3 7 = false /\ rev_gt 3 7 = true /\ 7 <> 3
  /\ rev_difference (rev_plus_assign 7 2) 7 = -2.
Proof. repeat split; discriminate. Qed.

(** C40. The position [n] steps after [it] in the buffer [first, last). *)
Definition circ_at (first last it n : Z) : Z := first + (it - first + n) mod (last - first).

Section C40.
  Variables first last it : Z.
  Hypothesis Hin : first <= it < last.

  Lemma circ_at_range n : first <= circ_at first last it n < last.
  Proof. unfold circ_at. pose proof (Z.mod_pos_bound (it - first + n) (last - first)). lia. Qed.

  Lemma circ_at_0 : circ_at first last it 0 = it.
  Proof. unfold circ_at. rewrite Z.mod_small; lia. Qed.

  Lemma mod_at k (n d r : Z) : n = k * d + r -> 0 <= r < d -> n mod d = r.
  Proof. intros E Hr. symmetry. apply (Z.mod_unique n d k r); lia. Qed.

  Lemma circ_inc_step : circ_inc first last it = circ_at first last it 1.
  Proof.
    unfold circ_inc, circ_at. destruct (Z.eqb_spec (it + 1) last).
    - rewrite (mod_at 1 _ _ 0); lia.
    - rewrite (mod_at 0 _ _ (it - first + 1)); lia.
  Qed.

  Lemma circ_dec_step : circ_dec first last it = circ_at first last it (-1).
  Proof.
    unfold circ_dec, circ_at. destruct (Z.eqb_spec (it - 1) (first - 1)).
    - rewrite (mod_at (-1) _ _ (last - first - 1)); lia.
    - rewrite (mod_at 0 _ _ (it - first + -1)); lia.
  Qed.

  Lemma rem_nonneg n : 0 <= n -> Z.rem n (last - first) = n mod (last - first).
  Proof. intros. apply Z.rem_mod_nonneg; lia. Qed.

  Lemma circ_plus_at n : 0 <= n -> circ_plus first last it n = circ_at first last it n.
  Proof.
    intros Hn. unfold circ_plus, circ_at. rewrite rem_nonneg by lia.
    set (d := last - first) in *.
    pose proof (Z.mod_pos_bound n d ltac:(lia)) as Hb.
    rewrite Z.geb_leb.
    pose proof (Z.div_mod n d ltac:(lia)) as Hdm.
    set (r := n mod d) in *. set (q := n / d) in *.
    destruct (Z.leb_spec last (it + r)).
    - rewrite (mod_at (q + 1) _ _ (it - last + r)); try lia.
    - rewrite (mod_at q _ _ (it - first + r)); try lia.
  Qed.

  Lemma circ_minus_at n : 0 <= n -> circ_minus first last it n = circ_at first last it (- n).
  Proof.
    intros Hn. unfold circ_minus, circ_at. rewrite rem_nonneg by lia.
    set (d := last - first) in *.
    pose proof (Z.mod_pos_bound n d ltac:(lia)) as Hb.
    pose proof (Z.div_mod n d ltac:(lia)) as Hdm.
    set (r := n mod d) in *. set (q := n / d) in *.
    destruct (Z.ltb_spec (it - r) first).
    - rewrite (mod_at (- q - 1) _ _ (it - first - r + d)); try lia.
    - rewrite (mod_at (- q) _ _ (it - first - r)); try lia.
  Qed.

  Lemma circ_at_at m n :
    circ_at first last (circ_at first last it m) n = circ_at first last it (m + n).
  Proof.
    unfold circ_at. f_equal.
    replace (first + (it - first + m) mod (last - first) - first + n)
      with ((it - first + m) mod (last - first) + n) by lia.
    rewrite Zplus_mod_idemp_l. f_equal. lia.
  Qed.
End C40.

(** C40. ++ repeated [n] times and += [n] move an iterator of the buffer [n] positions on,
    modulo the buffer size; -- and -= move it back; for every buffer, position and
    non-negative [n]. *)
Theorem C40_circular_steps :
  forall (first last it : Z) (n : nat), first <= it < last ->
    Nat.iter n (circ_inc first last) it = circ_at first last it (Z.of_nat n)
    /\ circ_plus first last it (Z.of_nat n) = circ_at first last it (Z.of_nat n)
    /\ Nat.iter n (circ_dec first last) it = circ_at first last it (- Z.of_nat n)
    /\ circ_minus first last it (Z.of_nat n) = circ_at first last it (- Z.of_nat n)
    /\ first <= circ_at first last it (Z.of_nat n) < last.
Proof.
  intros first last it n Hin. split; [|split; [|split; [|split]]].
  - induction n as [|n IH].
    + rewrite circ_at_0; auto.
    + cbn [Nat.iter nat_rect]. unfold Nat.iter in IH. rewrite IH.
      rewrite circ_inc_step by (apply circ_at_range; auto).
      rewrite circ_at_at by auto. f_equal. lia.
  - apply circ_plus_at; auto; lia.
  - induction n as [|n IH].
    + rewrite circ_at_0; auto.
    + cbn [Nat.iter nat_rect]. unfold Nat.iter in IH. rewrite IH.
      rewrite circ_dec_step by (apply circ_at_range; auto).
      rewrite circ_at_at by auto. f_equal. lia.
  - apply circ_minus_at; auto; lia.
  - apply circ_at_range; auto.
Qed.

(** C40. The difference of two iterators of the buffer is a distance between them. *)
Theorem C40_circular_difference :
  forall first last a b, first <= a < last -> first <= b < last ->
    circ_plus first last b (circ_difference a b) = a
    /\ circ_at first last b (circ_difference a b) = a.
Proof.
  intros first last a b Ha Hb. unfold circ_plus, circ_difference, circ_at.
  assert (E : Z.rem (a - b) (last - first) = a - b).
  { destruct (Z_le_gt_dec b a).
    - apply Z.rem_small. lia.
    - replace (a - b) with (- (b - a)) by lia. rewrite Z.rem_opp_l by lia.
      rewrite Z.rem_small by lia. lia. }
  rewrite E. split.
  - destruct (Z.geb_spec (b + (a - b)) last); lia.
  - replace (b - first + (a - b)) with (a - first) by lia. rewrite Z.mod_small by lia. lia.
Qed.

Example C40_circular_difference_case :
  circ_difference 3 8 = -5 /\ circ_plus 2 10 8 (-5) = 3.
Proof. split; reflexivity. Qed.

(** C40. -= undoes += (and -- undoes ++). *)
Theorem C40_circular_inverse :
  forall first last it n, first <= it < last -> 0 <= n ->
    circ_minus first last (circ_plus first last it n) n = it
    /\ circ_plus first last (circ_minus first last it n) n = it
    /\ circ_dec first last (circ_inc first last it) = it
    /\ circ_inc first last (circ_dec first last it) = it.
Proof.
  intros first last it n Hin Hn.
  rewrite circ_plus_at, circ_minus_at with (it := it) by auto.
  rewrite circ_inc_step, circ_dec_step with (it := it) by auto.
  pose proof (circ_at_range first last it Hin) as HR.
  rewrite circ_minus_at, circ_plus_at, circ_dec_step, circ_inc_step by auto.
  rewrite !circ_at_at by auto.
  rewrite !Z.add_opp_diag_r, !Z.add_opp_diag_l. rewrite circ_at_0 by auto. auto.
Qed.

(** C40 refuted for operator[]: on wrap-around it denotes the element that far from the end of the
    buffer instead of the one [n] steps ahead, in every buffer and from every position (but for
    one value of [n mod size]), ... *)
Theorem C40_circular_index_refuted :
  forall first last it n, first <= it < last -> 0 <= n -> last - it < n mod (last - first) ->
    circ_index first last it n = last - n mod (last - first)
    /\ circ_at first last it n = it + n mod (last - first) - (last - first)
    /\ (2 * (n mod (last - first)) <> 2 * last - it - first ->
        circ_index first last it n <> circ_at first last it n).
Proof.
  intros first last it n Hin Hn Hw.
  assert (E1 : circ_index first last it n = last - n mod (last - first)).
  { unfold circ_index. rewrite rem_nonneg with (it := it) by auto.
    rewrite Z.gtb_ltb. destruct (Z.ltb_spec (last - it) (n mod (last - first))); lia. }
  assert (E2 : circ_at first last it n = it + n mod (last - first) - (last - first)).
  { rewrite <- circ_plus_at by auto. unfold circ_plus. rewrite rem_nonneg with (it := it) by auto.
    rewrite Z.geb_leb. destruct (Z.leb_spec last (it + n mod (last - first))); lia. }
  rewrite E1, E2. repeat split. lia.
Qed.
Example C40_circular_index_case :
  0 <= 3 < 4 /\ 4 - 3 < 2 mod (4 - 0) /\ 2 * (2 mod (4 - 0)) <> 2 * 4 - 3 - 0 /\
  circ_index 0 4 3 2 = 2 /\ circ_at 0 4 3 2 = 1.
Proof. repeat split; (reflexivity || discriminate). Qed.

(** ... and exactly at the boundary it denotes the element past the end of the buffer, in
    every buffer and position (except the first). *)
Theorem C40_circular_index_overrun_refuted :
  forall first last it, first < it < last -> circ_index first last it (last - it) = last.
Proof.
  intros first last it Hin. unfold circ_index.
  rewrite Z.rem_small by lia. rewrite Z.gtb_ltb, Z.ltb_irrefl. lia.
Qed.

(** C40, operator[] exactly: right when no wrap-around happens; on wrap-around it denotes
    [first + (size - n mod size)], which is right only for one value of n. *)
Theorem C40_circular_index_partial :
  forall first last it n, first <= it < last -> 0 <= n ->
    n mod (last - first) <> last - it ->
    (circ_index first last it n = circ_at first last it n
     <-> n mod (last - first) < last - it \/ 2 * (n mod (last - first)) = 2 * last - it - first).
Proof.
  intros first last it n Hin Hn Hb.
  rewrite <- circ_plus_at by auto.
  unfold circ_index, circ_plus. rewrite rem_nonneg with (it := it) by auto.
  pose proof (Z.mod_pos_bound n (last - first) ltac:(lia)).
  set (r := n mod (last - first)) in *.
  rewrite Z.gtb_ltb, Z.geb_leb.
  destruct (Z.ltb_spec (last - it) r), (Z.leb_spec last (it + r)); lia.
Qed.

(** C40 refuted for negative offsets: += -1 leaves the buffer at its first element. *)
Theorem C40_circular_negative_refuted :
  forall first last, first + 1 < last -> circ_plus first last first (-1) = first - 1.
Proof.
  intros first last H. unfold circ_plus.
  replace (Z.rem (-1) (last - first)) with (-1).
  2:{ change (-1) with (- (1)). rewrite Z.rem_opp_l by lia. rewrite Z.rem_small by lia. lia. }
  rewrite Z.geb_leb. destruct (Z.leb_spec last (first + -1)); lia.
Qed.

(** C40, negative offsets exactly: += and -= are right as long as they do not cross the end of the
    buffer on their way; if they do, the iterator leaves the buffer. *)
Theorem C40_circular_negative_partial :
  forall first last it n, first <= it < last -> 0 <= n ->
    (if n mod (last - first) <=? it - first
     then circ_plus first last it (- n) = circ_at first last it (- n)
     else circ_plus first last it (- n) = it - n mod (last - first)
          /\ circ_plus first last it (- n) < first) /\
    (if n mod (last - first) <? last - it
     then circ_minus first last it (- n) = circ_at first last it n
     else circ_minus first last it (- n) = it + n mod (last - first)
          /\ last <= circ_minus first last it (- n)).
Proof.
  intros first last it n Hin Hn.
  assert (R : Z.rem (- n) (last - first) = - (n mod (last - first))).
  { rewrite Z.rem_opp_l by lia. rewrite Z.rem_mod_nonneg by lia. reflexivity. }
  pose proof (Z.mod_pos_bound n (last - first) ltac:(lia)) as B.
  split.
  - destruct (Z.leb_spec (n mod (last - first)) (it - first)) as [H|H].
    + rewrite <- circ_minus_at by auto. unfold circ_plus, circ_minus. rewrite R.
      rewrite Z.rem_mod_nonneg by lia. rewrite Z.geb_leb.
      destruct (Z.leb_spec last (it + - (n mod (last - first)))); [lia|].
      destruct (Z.ltb_spec (it - n mod (last - first)) first); lia.
    + unfold circ_plus. rewrite R, Z.geb_leb.
      destruct (Z.leb_spec last (it + - (n mod (last - first)))); lia.
  - destruct (Z.ltb_spec (n mod (last - first)) (last - it)) as [H|H].
    + rewrite <- circ_plus_at by auto. unfold circ_plus, circ_minus. rewrite R.
      rewrite Z.rem_mod_nonneg by lia. rewrite Z.geb_leb.
      destruct (Z.leb_spec last (it + n mod (last - first))); [lia|].
      destruct (Z.ltb_spec (it - - (n mod (last - first))) first); lia.
    + unfold circ_minus. rewrite R.
      destruct (Z.ltb_spec (it - - (n mod (last - first))) first); lia.
Qed.
Example C40_circular_negative_case :
  circ_plus 0 4 2 (-5) = 1 /\ circ_plus 0 4 2 (-3) = -1 /\ circ_minus 0 4 2 (-5) = 3 /\ circ_minus 0 4 2 (-3) = 5.
Proof. repeat split. Qed.

(** C40 refuted for postfix ++ and --: they do not wrap around. *)
Theorem C40_circular_postfix_refuted :
  forall first last, first < last ->
    circ_post_inc (last - 1) = last /\ circ_at first last (last - 1) 1 = first
    /\ circ_post_dec first = first - 1.
Proof.
  intros first last H. unfold circ_post_inc, circ_post_dec, circ_at.
  rewrite (mod_at 1 _ _ 0) by lia. lia.
Qed.

Example C40_case :
  Nat.iter 5 (circ_inc 0 4) 2 = 3 /\ circ_plus 0 4 2 5 = 3 /\ circ_minus 0 4 2 5 = 1
  /\ circ_at 0 4 2 5 = 3 /\ circ_index 0 4 1 2 = 3
  /\ circ_index 10 16 13 4 = 12 /\ circ_at 10 16 13 4 = 11.
Proof. repeat split. Qed.

Print Assumptions C39_reverse_order_refuted.
Print Assumptions C39_reverse_order_partial.
Print Assumptions C39_reverse_steps.
Print Assumptions C39_reverse_difference_refuted.
Print Assumptions C40_circular_steps.
Print Assumptions C40_circular_inverse.
Print Assumptions C40_circular_index_refuted.
Print Assumptions C40_circular_index_overrun_refuted.
Print Assumptions C40_circular_index_partial.
Print Assumptions C40_circular_negative_refuted.
Print Assumptions C40_circular_negative_partial.
Print Assumptions C40_circular_postfix_refuted.
Print Assumptions C40_circular_difference.
