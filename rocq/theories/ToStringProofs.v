(** Proofs about toString. *)
From Coq Require Import List Arith ZArith Bool Lia.
From Verif Require Import Base BaseLemmas Store StringModel StringSpec StringProofs
  ToStringModel ToStringSpec.
Import ListNotations.
Open Scope Z_scope.

(** The instantiation reached after 18 steps is the one the code specialises, 111-126. *)
Lemma checker_specialised : forall v,
  checker 18 0 9 1 v
  = if (0 <=? v) && (v <=? 9) then 1%nat
    else checker 17 9 99 2 v.
Proof. reflexivity. Qed.
Lemma checker_last : forall v,
  checker 1 99999999999999999 999999999999999999 18 v
  = if (99999999999999999 <=? v) && (v <=? 999999999999999999) then 18%nat
    else checker 0 999999999999999999 9999999999999999999 19 v.
Proof. reflexivity. Qed.

Lemma pow10_pos : forall n, 0 < 10 ^ Z.of_nat n.
Proof. intros. apply Z.pow_pos_nonneg; lia. Qed.
Lemma pow10_S : forall n, 10 ^ Z.of_nat (S n) = 10 * 10 ^ Z.of_nat n.
Proof. intros. rewrite Nat2Z.inj_succ, Z.pow_succ_r; lia. Qed.

Lemma checker_ok : forall k mn mx b v, mx = 10 ^ Z.of_nat b - 1 -> mn <= v -> (1 <= b)%nat ->
  v < 10 ^ Z.of_nat (b + k + 1) ->
  let r := checker k mn mx b v in
  (b <= r)%nat /\ v < 10 ^ Z.of_nat r /\ (r = b \/ 10 ^ Z.of_nat (r - 1) <= v).
Proof.
  induction k as [|k IH]; intros mn mx b v E Hm Hb Hv; cbn [checker].
  - destruct (Z.leb_spec mn v); [|lia]. cbn [andb]. destruct (Z.leb_spec v mx).
    + repeat split; auto; lia.
    + replace (b + 1)%nat with (b + 0 + 1)%nat by lia. split; [lia|]. split; [exact Hv|].
      right. replace (b + 0 + 1 - 1)%nat with b by lia. lia.
  - destruct (Z.leb_spec mn v); [|lia]. cbn [andb]. destruct (Z.leb_spec v mx).
    + repeat split; auto; lia.
    + destruct (IH mx (mx * 10 + 9) (b + 1)%nat v) as (H1 & H2 & H3).
      * rewrite E. replace (b + 1)%nat with (S b) by lia. rewrite pow10_S. lia.
      * lia.
      * lia.
      * replace (b + 1 + k + 1)%nat with (b + S k + 1)%nat by lia. exact Hv.
      * split; [lia|]. split; [exact H2|]. right. destruct H3 as [->|H3]; [|exact H3].
        replace (b + 1 - 1)%nat with b by lia. lia.
Qed.

Lemma digits_ok : forall v, 0 <= v < 2 ^ 64 ->
  let r := checker 18 0 9 1 v in
  (1 <= r <= 20)%nat /\ v < 10 ^ Z.of_nat r /\ (r = 1%nat \/ 10 ^ Z.of_nat (r - 1) <= v).
Proof.
  intros v Hv r. destruct (checker_ok 18 0 9 1 v) as (H1 & H2 & H3); auto; try lia.
  fold r in H1, H2, H3. split; [|auto]. split; [exact H1|].
  destruct H3 as [->|H3]; [lia|]. destruct (le_lt_dec r 20) as [|G]; auto. exfalso.
  assert (10 ^ Z.of_nat 20 <= 10 ^ Z.of_nat (r - 1)) by (apply Z.pow_le_mono_r; lia).
  assert (2 ^ 64 < 10 ^ Z.of_nat 20) by reflexivity. lia.
Qed.

Lemma dec_loop_ok : forall n m, (m + n <= 19)%nat ->
  dec_loop n (10 ^ Z.of_nat m) = 10 ^ Z.of_nat (m + n).
Proof.
  induction n as [|n IH]; intros m H; cbn [dec_loop].
  - rewrite Nat.add_0_r. reflexivity.
  - rewrite Z.mod_small.
    + replace (10 ^ Z.of_nat m * 10) with (10 ^ Z.of_nat (S m)) by (rewrite pow10_S; lia).
      rewrite IH by lia. f_equal. lia.
    + pose proof (pow10_pos m). split; [lia|].
      replace (10 ^ Z.of_nat m * 10) with (10 ^ Z.of_nat (S m)) by (rewrite pow10_S; lia).
      assert (10 ^ Z.of_nat (S m) <= 10 ^ Z.of_nat 19) by (apply Z.pow_le_mono_r; lia).
      assert (10 ^ Z.of_nat 19 < 2 ^ 64) by reflexivity. lia.
Qed.

(** The digits of [v], [n] of them. *)
Fixpoint digits (n : nat) (v : Z) : list Z :=
  match n with
  | O => []
  | S n' => v / 10 ^ Z.of_nat n' :: digits n' (v mod 10 ^ Z.of_nat n')
  end.

Lemma digits_range : forall n v, 0 <= v < 10 ^ Z.of_nat n ->
  Forall (fun d => 0 <= d <= 9) (digits n v).
Proof.
  induction n as [|n IH]; intros v H; cbn [digits]; constructor.
  - rewrite pow10_S in H. pose proof (pow10_pos n). split; [apply Z.div_pos; lia|].
    assert (v / 10 ^ Z.of_nat n < 10); [|lia]. apply Z.div_lt_upper_bound; lia.
  - apply IH. apply Z.mod_pos_bound. apply pow10_pos.
Qed.

Lemma digits_length : forall n v, length (digits n v) = n.
Proof. induction n; intros; cbn; auto. Qed.

Lemma number_from : forall ds acc,
  fold_left (fun acc d => 10 * acc + d) ds acc
  = acc * 10 ^ Z.of_nat (length ds) + number ds.
Proof.
  induction ds as [|d ds IH]; intros acc; cbn [fold_left length].
  - unfold number. cbn. lia.
  - unfold number. cbn [fold_left]. rewrite IH, (IH (10 * 0 + d)), pow10_S. lia.
Qed.

Lemma number_digits : forall n v, 0 <= v < 10 ^ Z.of_nat n -> number (digits n v) = v.
Proof.
  induction n as [|n IH]; intros v H; cbn [digits].
  - cbn in *. unfold number. cbn. lia.
  - unfold number. cbn [fold_left]. rewrite number_from, digits_length, IH.
    + pose proof (pow10_pos n). rewrite (Z.div_mod v (10 ^ Z.of_nat n)) at 3 by lia. lia.
    + apply Z.mod_pos_bound. apply pow10_pos.
Qed.

Lemma convert_small : forall t v, int_ok t -> in_range t v -> convert_to t v = v.
Proof.
  intros [sg w] v Hw Hv. unfold int_ok, in_range, convert_to in *. cbn [is_signed width] in *.
  assert (P : 0 < 2 ^ (w - 1)) by (apply Z.pow_pos_nonneg; [lia|]; cbn in Hw; lia).
  assert (D : 2 ^ w = 2 * 2 ^ (w - 1)).
  { rewrite <- Z.pow_succ_r by (cbn in Hw; lia). f_equal. lia. }
  destruct sg; cbn [andb].
  - destruct (Z.leb_spec 0 v).
    + rewrite Z.mod_small by lia. destruct (Z.leb_spec (2 ^ (w - 1)) v); lia.
    + assert (E : v mod 2 ^ w = v + 2 ^ w).
      { symmetry. apply Z.mod_unique with (q := -1); lia. }
      rewrite E. destruct (Z.leb_spec (2 ^ (w - 1)) (v + 2 ^ w)); lia.
  - apply Z.mod_small. lia.
Qed.

Lemma range_64 : forall t v, int_ok t -> in_range t v -> 0 <= v -> 0 <= v < 2 ^ 64.
Proof.
  intros [sg w] v Hw Hv H0. unfold int_ok, in_range in *. cbn [is_signed width] in *.
  cbn in Hw. assert (2 ^ w <= 2 ^ 64) by (apply Z.pow_le_mono_r; lia).
  destruct sg; [|lia]. assert (2 ^ (w - 1) <= 2 ^ 64) by (apply Z.pow_le_mono_r; lia). lia.
Qed.

Lemma range_smaller : forall t v v', in_range t v -> 0 <= v' <= v -> in_range t v'.
Proof.
  intros [sg w] v v' H H'. unfold in_range in *. cbn [is_signed width] in *. destruct sg; [|lia].
  assert (0 <= 2 ^ (w - 1)) by (apply Z.pow_nonneg; lia). lia.
Qed.

Lemma push_any : forall fuel s l c x, rep 0 s l c -> (2 <= c)%nat -> (1 <= fuel)%nat ->
  exists s' c', str_push_back_move 0 fuel s x = Ok s' /\ rep 0 s' (l ++ [x]) c' /\ (2 <= c')%nat.
Proof.
  intros fuel s l c x R Hc F. pose proof (push_move_ok 0 fuel s l c x R F) as P.
  destruct (length l + 1 <? c)%nat.
  - destruct P as (s' & E & R'). eauto.
  - destruct (Nat.leb_spec 2 c); [|lia]. destruct P as (s' & E & R').
    exists s', (c * 3 / 2)%nat. pose proof (grown_gt c H). repeat split; auto. lia.
Qed.

Lemma digit_loop_ok : forall fuel t n s l c v, int_ok t -> in_range t v -> 0 <= v ->
  v < 10 ^ Z.of_nat n -> rep 0 s l c -> (2 <= c)%nat -> (1 <= fuel)%nat -> (n <= 20)%nat ->
  exists s' c', digit_loop fuel n t s v (10 ^ Z.of_nat (n - 1)) = Ok s'
    /\ rep 0 s' (l ++ map (fun d => 48 + d) (digits n v)) c'.
Proof.
  intros fuel t. induction n as [|n IH]; intros s l c v Ht Hr H0 Hv R Hc F Hn; cbn [digit_loop].
  - exists s, c. cbn. rewrite app_nil_r. auto.
  - replace (S n - 1)%nat with n by lia. pose proof (pow10_pos n) as P.
    destruct (Z.eqb_spec (10 ^ Z.of_nat n) 0); [lia|].
    rewrite (Z.mod_small v) by (apply (range_64 t); auto).
    pose proof (digits_range (S n) v (conj H0 Hv)) as DR. cbn [digits] in DR.
    apply Forall_inv in DR. rewrite (Z.mod_small (48 + _)) by lia.
    destruct (push_any fuel s l c (48 + v / 10 ^ Z.of_nat n) R Hc F) as (s1 & c1 & E1 & R1 & Hc1).
    rewrite E1. cbn [bind].
    pose proof (Z.mod_pos_bound v (10 ^ Z.of_nat n) P) as MB.
    assert (MR : in_range t (v mod 10 ^ Z.of_nat n)).
    { apply (range_smaller t v); auto. split; [lia|]. apply Z.mod_le; lia. }
    rewrite convert_small by auto.
    assert (ED : n = 0%nat \/ 10 ^ Z.of_nat n / 10 = 10 ^ Z.of_nat (n - 1)).
    { destruct n as [|n]; [left; auto|right]. rewrite pow10_S, Z.mul_comm, Z.div_mul by lia.
      f_equal. lia. }
    destruct ED as [->|ED].
    + cbn [digit_loop]. exists s1, c1. split; [reflexivity|]. cbn [digits map]. exact R1.
    + rewrite ED. destruct (IH s1 _ c1 _ Ht MR (proj1 MB) (proj2 MB) R1 Hc1 F) as (s2 & c2 & E2 & R2);
        [lia|]. exists s2, c2. split; [exact E2|]. rewrite <- app_assoc in R2. exact R2.
Qed.

Lemma abs_range : forall t v, in_range t v -> is_signed t = true -> v < 0 ->
  v <> - 2 ^ (width t - 1) -> in_range t (- v).
Proof. intros t v H S Hn Hm. unfold in_range in *. rewrite S in *. lia. Qed.

Lemma negate_ok : forall t v, int_ok t -> in_range t v -> is_signed t = true -> v < 0 ->
  v <> - 2 ^ (width t - 1) -> negate t v = Ok (- v).
Proof.
  intros t v Hw H S Hn Hm. pose proof (abs_range t v H S Hn Hm) as HA.
  unfold negate. replace (v * -1) with (- v) by lia.
  rewrite (convert_small t (- v)) by auto. destruct (width t <? 32); auto. rewrite S. cbn [andb].
  unfold in_range in HA. rewrite S in HA. destruct (Z.leb_spec (2 ^ (width t - 1)) (- v)); [lia|auto].
Qed.

Lemma unsigned_same : forall t v, int_ok t -> in_range t v -> 0 <= v ->
  convert_to (IntType false (width t)) v = v.
Proof.
  intros t v Hw H H0. apply convert_small; [exact Hw|]. unfold in_range in *. cbn [is_signed width].
  destruct (is_signed t); [|exact H].
  unfold int_ok in Hw. cbn in Hw.
  assert (2 ^ (width t - 1) <= 2 ^ width t) by (apply Z.pow_le_mono_r; lia). lia.
Qed.

Lemma head_digit : forall n v, 10 ^ Z.of_nat n <= v < 10 ^ Z.of_nat (S n) ->
  hd 1 (digits (S n) v) <> 0.
Proof.
  intros n v H. cbn [digits hd]. pose proof (pow10_pos n) as P.
  assert (1 <= v / 10 ^ Z.of_nat n) by (apply Z.div_le_lower_bound; lia). lia.
Qed.

Lemma decimal_digits : forall v, 0 <= v < 2 ^ 64 ->
  let r := checker 18 0 9 1 v in
  Forall (fun d => 0 <= d <= 9) (digits r v) /\ number (digits r v) = v
  /\ digits r v <> [] /\ (hd 1 (digits r v) = 0 -> digits r v = [0]).
Proof.
  intros v Hv r. destruct (digits_ok v Hv) as (H1 & H2 & H3). fold r in H1, H2, H3.
  split; [apply digits_range; lia|]. split; [apply number_digits; lia|].
  destruct r as [|r]; [lia|]. split; [discriminate|]. intros E.
  destruct H3 as [H3|H3].
  - injection H3 as ->. cbn in *. rewrite Z.div_1_r in *. congruence.
  - exfalso. apply (head_digit r v); auto. replace (S r - 1)%nat with r in H3 by lia. lia.
Qed.

Lemma two_digits : forall v, 10 <= v < 2 ^ 64 -> (2 <= checker 18 0 9 1 v)%nat.
Proof.
  intros v Hv. destruct (digits_ok v) as (H1 & H2 & H3); [lia|].
  destruct (Nat.eq_dec (checker 18 0 9 1 v) 1) as [E|]; [|lia]. rewrite E in H2.
  change (10 ^ Z.of_nat 1) with 10 in H2. lia.
Qed.

Lemma new_rep : rep 0 (@str_new Z) [] 0.
Proof. left. auto. Qed.

Lemma to_string_ok : forall fuel t v, int_ok t -> in_range t v -> (1 <= fuel)%nat ->
  (is_signed t = true -> v <> - 2 ^ (width t - 1)) -> v < 0 \/ 10 <= v ->
  exists s l c, to_string fuel t v = Ok s /\ rep 0 s l c /\ decimal v l.
Proof.
  intros fuel t v Ht Hr F Hm Hd. unfold to_string, buffer_size.
  destruct (Z.ltb_spec v 0) as [Neg|Pos].
  - assert (S : is_signed t = true).
    { unfold in_range in Hr. destruct (is_signed t); auto. lia. }
    rewrite S. cbn [andb]. specialize (Hm S).
    rewrite negate_ok by auto. cbn [bind].
    pose proof (abs_range t v Hr S Neg Hm) as HA.
    rewrite unsigned_same by (auto; lia).
    pose proof (range_64 t (- v) Ht HA ltac:(lia)) as H64.
    destruct (digits_ok (- v) H64) as (H1 & H2 & H3).
    destruct (decimal_digits (- v) H64) as (D1 & D2 & D3 & D4).
    set (r := checker 18 0 9 1 (- v)) in *.
    destruct (reserve_ok 0 str_new [] 0 (1 + r)%nat new_rep) as (s0 & E0 & R0); [lia|].
    rewrite E0. cbn [bind].
    destruct (push_any fuel s0 [] (0 + (1 + r)) 45 R0) as (s1 & c1 & E1 & R1 & Hc1); [lia|auto|].
    rewrite E1. cbn [bind]. replace (1 + r - 1)%nat with r by lia.
    replace (dec_loop (r - 1) 1) with (10 ^ Z.of_nat (r - 1)).
    2:{ symmetry. apply (dec_loop_ok (r - 1) 0). lia. }
    destruct (digit_loop_ok fuel t r s1 [45] c1 (- v) Ht HA) as (s2 & c2 & E2 & R2);
      auto; try lia.
    exists s2. eexists. exists c2. split; [exact E2|]. split; [exact R2|].
    exists (digits r (- v)). destruct (Z.ltb_spec v 0); [|lia].
    rewrite Z.abs_neq by lia. auto.
  - assert (10 <= v) by lia. rewrite andb_false_r. cbn [bind].
    pose proof (range_64 t v Ht Hr Pos) as H64.
    destruct (digits_ok v H64) as (H1 & H2 & H3).
    destruct (decimal_digits v H64) as (D1 & D2 & D3 & D4).
    pose proof (two_digits v ltac:(lia)) as T2.
    set (r := checker 18 0 9 1 v) in *.
    destruct (reserve_ok 0 str_new [] 0 r new_rep) as (s0 & E0 & R0); [lia|].
    rewrite E0. cbn [bind].
    replace (dec_loop (r - 1) 1) with (10 ^ Z.of_nat (r - 1)).
    2:{ symmetry. apply (dec_loop_ok (r - 1) 0). lia. }
    destruct (digit_loop_ok fuel t r s0 [] (0 + r) v Ht Hr) as (s2 & c2 & E2 & R2);
      auto; try lia.
    exists s2. eexists. exists c2. split; [exact E2|]. split; [exact R2|].
    exists (digits r v). destruct (Z.ltb_spec v 0); [lia|].
    rewrite Z.abs_eq by lia. auto.
Qed.

Lemma to_string_digit : forall fuel t v, int_ok t -> 0 <= v <= 9 -> (1 <= fuel)%nat ->
  to_string fuel t v = UB.
Proof.
  intros fuel t v Ht Hv F. unfold to_string, buffer_size.
  destruct (Z.ltb_spec v 0); [lia|]. rewrite andb_false_r. cbn [bind].
  assert (checker 18 0 9 1 v = 1%nat) as ->.
  { cbn [checker]. destruct (Z.leb_spec 0 v); [|lia]. destruct (Z.leb_spec v 9); [|lia]. reflexivity. }
  destruct (reserve_ok 0 str_new [] 0 1%nat new_rep) as (s0 & E0 & R0); [lia|].
  rewrite E0. cbn [bind]. cbn [digit_loop]. change (dec_loop (1 - 1) 1) with 1.
  destruct (Z.eqb_spec 1 0); [lia|].
  pose proof (push_move_ok 0 fuel s0 [] (0 + 1) ((48 + v mod 2 ^ 64 / 1) mod 256) R0 F) as P.
  cbn [length Nat.add Nat.ltb Nat.leb] in P. rewrite P. reflexivity.
Qed.
