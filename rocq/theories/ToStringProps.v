(** Theorems about toString: C22, C23. *)
From Coq Require Import List Arith ZArith Bool Lia.
From Verif Require Import Base BaseLemmas Store StringModel StringSpec StringProofs
  ToStringModel ToStringSpec ToStringProofs.
Import ListNotations.
Open Scope Z_scope.

(** C22 and C23, proved part: every value of every integer type except the smallest value
    of a signed type and the numbers 0 .. 9. *)
Theorem C22_to_string_partial :
  forall (t : int_type) (v : Z) (fuel : nat),
    int_ok t -> in_range t v ->
    ~ (is_signed t = true /\ v = - 2 ^ (width t - 1)) -> ~ (0 <= v <= 9) ->
    (1 <= fuel)%nat ->
    exists s l cap, to_string fuel t v = Ok s /\ holds 0 s l cap /\ decimal v l.
Proof.
  intros t v fuel Ht Hr Hm Hd F.
  destruct (to_string_ok fuel t v Ht Hr F) as (s & l & c & E & R & D).
  { intros S E. apply Hm. auto. }
  { lia. }
  exists s, l, c. split; [exact E|]. split; [apply rep_holds; exact R|exact D].
Qed.

Example C22_to_string_case :
  (let! s := to_string 5 (IntType true 32) (-120345) in str_chars s)
    = Ok [45; 49; 50; 48; 51; 52; 53]
  /\ (let! s := to_string 5 (IntType false 64) 18446744073709551615 in str_chars s)
    = Ok [49; 56; 52; 52; 54; 55; 52; 52; 48; 55; 51; 55; 48; 57; 53; 53; 49; 54; 49; 53]
  /\ int_ok (IntType false 64) /\ in_range (IntType false 64) 18446744073709551615.
Proof.
  split; [vm_compute; reflexivity|]. split; [vm_compute; reflexivity|].
  split; [vm_compute; tauto|vm_compute; split; [discriminate|reflexivity]].
Qed.

(** The decimal notation of a number is unique, so the theorem above determines the
    characters. *)
Theorem C22_decimal_unique :
  forall (v : Z) (l1 l2 : list Z), decimal v l1 -> decimal v l2 -> l1 = l2.
Proof.
  intros v l1 l2 (d1 & -> & F1 & N1 & E1 & Z1) (d2 & -> & F2 & N2 & E2 & Z2). f_equal. f_equal.
  assert (V : number d1 = number d2) by congruence. clear N1 N2 v.
  assert (Bd : forall ds, Forall (fun d => 0 <= d <= 9) ds -> 0 <= number ds < 10 ^ Z.of_nat (length ds)).
  { induction ds as [|d ds IH]; intros F; [cbn; lia|]. inversion F; subst. specialize (IH H2).
    unfold number. cbn [fold_left length]. rewrite number_from, pow10_S.
    pose proof (pow10_pos (length ds)). nia. }
  assert (Hd0 : forall ds, ds <> [] -> Forall (fun d => 0 <= d <= 9) ds -> hd 1 ds <> 0 ->
    10 ^ Z.of_nat (length ds - 1) <= number ds).
  { intros [|d ds] NE F H; [congruence|]. cbn [hd] in H. inversion F; subst.
    pose proof (Bd ds H3) as B. unfold number. cbn [fold_left length].
    replace (S (length ds) - 1)%nat with (length ds) by lia. rewrite number_from.
    pose proof (pow10_pos (length ds)). nia. }
  assert (Len : forall a b, a <> [] -> b <> [] -> Forall (fun d => 0 <= d <= 9) a ->
    Forall (fun d => 0 <= d <= 9) b -> (hd 1 a = 0 -> a = [0]) -> (hd 1 b = 0 -> b = [0]) ->
    number a = number b -> (length a <= length b)%nat).
  { intros a b Na Nb Fa Fb Za Zb En.
    destruct (Z.eq_dec (hd 1 a) 0) as [H|H].
    - rewrite (Za H). destruct b; [congruence|]. cbn. lia.
    - pose proof (Hd0 a Na Fa H) as L. pose proof (Bd b Fb) as U.
      destruct (le_lt_dec (length a) (length b)) as [|G]; auto. exfalso.
      assert (10 ^ Z.of_nat (length b) <= 10 ^ Z.of_nat (length a - 1)) by (apply Z.pow_le_mono_r; lia).
      lia. }
  assert (EL : length d1 = length d2).
  { apply Nat.le_antisymm; apply Len; auto. }
  clear - V EL F1 F2 Bd. revert d2 EL V F2. induction d1 as [|x d1 IH]; intros [|y d2] EL V F2;
    try discriminate; auto.
  inversion F1; inversion F2; subst. injection EL as EL.
  unfold number in V. cbn [fold_left] in V. rewrite !number_from, EL in V.
  pose proof (Bd d1 H2) as B1. pose proof (Bd d2 H6) as B2. rewrite EL in B1.
  assert (x = y) as -> by nia. f_equal. apply IH; auto. lia.
Qed.

(** C22, refutation. The smallest value of every signed type: int and long overflow,
    short and signed char give characters that are not the number. *)
Theorem C22_minimum_refuted :
  forall (fuel : nat), (1 <= fuel)%nat ->
    to_string fuel (IntType true 32) (- 2 ^ 31) = UB
    /\ to_string fuel (IntType true 64) (- 2 ^ 63) = UB
    /\ exists s16 s8 l16 l8,
         to_string fuel (IntType true 16) (- 2 ^ 15) = Ok s16
         /\ to_string fuel (IntType true 8) (- 2 ^ 7) = Ok s8
         /\ str_chars s16 = Ok l16 /\ str_chars s8 = Ok l8
         /\ ~ decimal (- 2 ^ 15) l16 /\ ~ decimal (- 2 ^ 7) l8.
Proof.
  intros [|fuel] F; [lia|]. split; [reflexivity|]. split; [reflexivity|].
  assert (G : forall v l, decimal v l -> v < 0 -> Forall (fun c => 45 <= c <= 57) l).
  { intros v l (ds & -> & Fd & _) Hv. destruct (Z.ltb_spec v 0); [|lia].
    apply Forall_app. split; [constructor; [lia|constructor]|].
    clear - Fd. induction Fd as [|d ds Hd _ IH]; constructor; auto; lia. }
  eexists. eexists. eexists. eexists.
  split; [vm_compute; reflexivity|]. split; [vm_compute; reflexivity|].
  split; [vm_compute; reflexivity|]. split; [vm_compute; reflexivity|].
  split; intros D; apply G in D; try reflexivity;
    repeat match goal with H : Forall _ (_ :: _) |- _ => inversion H; clear H; subst end; lia.
Qed.

(** C23, refutation. Every number 0 .. 9 of every type is written past the end of the
    buffer. *)
Theorem C23_one_digit_refuted :
  forall (t : int_type) (v : Z) (fuel : nat),
    int_ok t -> 0 <= v <= 9 -> (1 <= fuel)%nat -> in_range t v /\ to_string fuel t v = UB.
Proof.
  intros t v fuel Ht Hv F. split; [|apply to_string_digit; auto].
  unfold int_ok, in_range in *. cbn in Ht.
  assert (2 ^ 7 <= 2 ^ (width t - 1)) by (apply Z.pow_le_mono_r; lia).
  assert (2 ^ 8 <= 2 ^ width t) by (apply Z.pow_le_mono_r; lia).
  change (2 ^ 7) with 128 in *. change (2 ^ 8) with 256 in *.
  destruct (is_signed t); lia.
Qed.

Example C23_one_digit_refuted_case :
  int_ok (IntType true 32) /\ to_string 5 (IntType true 32) 7 = UB.
Proof. split; [vm_compute; tauto|vm_compute; reflexivity]. Qed.

Print Assumptions C22_to_string_partial.
Print Assumptions C22_decimal_unique.
Print Assumptions C22_minimum_refuted.
Print Assumptions C23_one_digit_refuted.
