(** C163 - C165: theorems about byte_t and integer iterators. *)
From Coq Require Import List ZArith Lia Bool.
From Verif Require Import Base IntegralModel IntegralProps ByteModel ByteSpec.
Import ListNotations.
Local Open Scope Z_scope.

(** * C163: byte_t *)

Lemma cast_byte_is x : is_byte (cast uichar x).
Proof. unfold is_byte, cast. cbn [it_signed it_bits uichar]. assert (B := Z.mod_pos_bound x (2 ^ 8)). lia. Qed.

Lemma cast_byte_bit x i : 0 <= i < 8 -> Z.testbit (cast uichar x) i = Z.testbit x i.
Proof. intros H. unfold cast. cbn [it_signed it_bits uichar]. apply Z.mod_pow2_bits_low. lia. Qed.

Lemma cast_bit t x i : library_type t -> 0 <= i < 8 -> Z.testbit (cast t x) i = Z.testbit x i.
Proof.
  intros L H. destruct (lib_pos t L) as [P Q].
  assert (N : 8 <= it_bits t) by (unfold library_type in L; cbn in L; lia).
  unfold cast. destruct (it_signed t).
  - rewrite <- (Z.mod_pow2_bits_low (_ - _) (it_bits t) i) by lia.
    rewrite <- (Z.mod_pow2_bits_low x (it_bits t) i) by lia. f_equal.
    rewrite Zminus_mod_idemp_l. f_equal. lia.
  - apply Z.mod_pow2_bits_low. lia.
Qed.

Lemma promoted_lib t : library_type t -> library_type (promoted t).
Proof.
  unfold promoted, library_type. intros L. destruct (it_bits t <? 32); [cbn; tauto|exact L].
Qed.

Lemma byte_high b i : is_byte b -> 8 <= i -> Z.testbit b i = false.
Proof.
  intros [A B] H. destruct (Z.eq_dec b 0) as [->|N]; [apply Z.bits_0|].
  apply Z.bits_above_log2; [exact A|]. assert (Z.log2 b < 8); [|lia].
  apply Z.log2_lt_pow2; lia.
Qed.

Lemma bits_eq a b : (forall i, 0 <= i < 8 -> Z.testbit a i = b i) ->
  bits_of a = [b 0; b 1; b 2; b 3; b 4; b 5; b 6; b 7].
Proof. intros H. unfold bits_of. cbn [seq map]. rewrite !H by lia. reflexivity. Qed.

Lemma bitop_ok f g t b v : library_type t ->
  (forall i, Z.testbit (f b v) i = g (Z.testbit b i) (Z.testbit v i)) ->
  bits_of (byte_bitop f t b v) = bits_zip g (bits_of b) (bits_of v) /\ is_byte (byte_bitop f t b v).
Proof.
  intros L H. split; [|apply cast_byte_is]. unfold byte_bitop.
  rewrite (bits_eq _ (fun i => g (Z.testbit b i) (Z.testbit v i))); [reflexivity|].
  intros i R. rewrite cast_byte_bit, cast_bit by auto using promoted_lib. apply H.
Qed.

Lemma upto24 n : 0 <= n <= 24 -> In n [0;1;2;3;4;5;6;7;8;9;10;11;12;13;14;15;16;17;18;19;20;21;22;23;24].
Proof. intros H. cbn. lia. Qed.

Lemma shl_ok b n : is_byte b -> 0 <= n <= 24 ->
  exists r, byte_shl b n = Ok r /\ is_byte r /\ bits_of r = firstn 8 (repeat false (Z.to_nat n) ++ bits_of b).
Proof.
  intros B H. unfold byte_shl.
  rewrite (proj2 (Z.ltb_ge n 0)), (proj2 (Z.leb_gt 32 n)) by lia. cbn [orb].
  assert (P : 0 < 2 ^ n <= 2 ^ 24) by (split; [apply Z.pow_pos_nonneg; lia|apply Z.pow_le_mono_r; lia]).
  rewrite (proj2 (Z.leb_gt _ _)) by (unfold is_byte in B; nia).
  eexists. split; [reflexivity|]. split; [apply cast_byte_is|].
  rewrite (bits_eq _ (fun i => Z.testbit b (i - n))).
  2: { intros i R. rewrite cast_byte_bit by exact R. rewrite cast_bit; [|cbn; tauto|exact R].
       rewrite Z.mul_pow2_bits by lia. reflexivity. }
  unfold bits_of. cbn [seq map]. 
  destruct (upto24 n H) as [<-|[<-|[<-|[<-|[<-|[<-|[<-|[<-|K]]]]]]]]; try reflexivity.
  assert (N : 8 <= n) by (cbn in K; lia).
  rewrite !(Z.testbit_neg_r b) by lia.
  replace (Z.to_nat n) with (8 + (Z.to_nat n - 8))%nat by lia. rewrite repeat_app. reflexivity.
Qed.

Lemma shr_ok b n : is_byte b -> 0 <= n <= 24 ->
  exists r, byte_shr b n = Ok r /\ is_byte r /\ bits_of r = firstn 8 (skipn (Z.to_nat n) (bits_of b) ++ repeat false 8).
Proof.
  intros B H. unfold byte_shr.
  rewrite (proj2 (Z.ltb_ge n 0)), (proj2 (Z.leb_gt 32 n)) by lia. cbn [orb].
  eexists. split; [reflexivity|]. split; [apply cast_byte_is|].
  rewrite (bits_eq _ (fun i => Z.testbit b (i + n))).
  2: { intros i R. rewrite cast_byte_bit by exact R. rewrite Z.div_pow2_bits by lia. reflexivity. }
  unfold bits_of. cbn [seq map].
  assert (H8 := byte_high b 8 B ltac:(lia)). assert (H9 := byte_high b 9 B ltac:(lia)).
  assert (H10 := byte_high b 10 B ltac:(lia)). assert (H11 := byte_high b 11 B ltac:(lia)).
  assert (H12 := byte_high b 12 B ltac:(lia)). assert (H13 := byte_high b 13 B ltac:(lia)).
  assert (H14 := byte_high b 14 B ltac:(lia)).
  destruct (upto24 n H) as [<-|[<-|[<-|[<-|[<-|[<-|[<-|[<-|K]]]]]]]];
    try (cbn -[Z.testbit];
         rewrite ?H8, ?H9, ?H10, ?H11, ?H12, ?H13, ?H14; reflexivity).
  assert (N : 8 <= n) by (cbn in K; lia).
  rewrite !(byte_high b) by (exact B || lia).
  replace (Z.to_nat n) with (8 + (Z.to_nat n - 8))%nat by lia.
  destruct (Z.to_nat n - 8)%nat; reflexivity.
Qed.

Lemma byte_step_ok b o : is_byte b -> op_allowed o ->
  exists r, byte_step b o = Ok r /\ is_byte r /\ bits_of r = bits_step (bits_of b) o.
Proof.
  intros B H. destruct o; cbn [byte_step op_allowed bits_step] in *.
  - apply shl_ok; assumption.
  - apply shr_ok; assumption.
  - destruct H as [L _]. eexists. split; [reflexivity|].
    destruct (bitop_ok Z.lor orb t b v L) as [E F]; [intros; apply Z.lor_spec|]. split; assumption.
  - destruct H as [L _]. eexists. split; [reflexivity|].
    destruct (bitop_ok Z.land andb t b v L) as [E F]; [intros; apply Z.land_spec|]. split; assumption.
  - destruct H as [L _]. eexists. split; [reflexivity|].
    destruct (bitop_ok Z.lxor xorb t b v L) as [E F]; [intros; apply Z.lxor_spec|]. split; assumption.
  - eexists. split; [reflexivity|]. split; [apply cast_byte_is|].
    rewrite (bits_eq _ (fun i => negb (Z.testbit b i))); [reflexivity|].
    intros i R. unfold byte_not. rewrite cast_byte_bit by exact R. apply Z.lnot_spec. lia.
Qed.

(** Any sequence of operations works on the eight bits of the byte. *)
Theorem C163_operators : forall os b,
  is_byte b -> Forall op_allowed os ->
  exists r, byte_run b os = Ok r /\ is_byte r /\ bits_of r = fold_left bits_step os (bits_of b).
Proof.
  induction os as [|o os IH]; intros b B F; cbn [byte_run fold_left].
  - exists b. auto.
  - inversion F as [|x y A G]; subst. destruct (byte_step_ok b o B A) as [r [E [C D]]].
    rewrite E. cbn [bind]. destruct (IH r C G) as [q [E' [C' D']]]. exists q.
    rewrite D in D'. auto.
Qed.
Example C163_operators_case :
  is_byte 178 /\ Forall op_allowed [BShl 3; BXor (IT 32 true) (-1); BAnd (IT 8 false) 60; BNot; BShr 1] /\
  byte_run 178 [BShl 3; BXor (IT 32 true) (-1); BAnd (IT 8 false) 60; BNot; BShr 1] = Ok 105.
Proof.
  repeat split; try (unfold is_byte; lia).
  repeat (constructor; [cbn; unfold in_type, library_type; cbn; repeat split; try tauto; lia|]). constructor.
Qed.

(** Exactly which shifts are defined; the ones that are move the bits. (Int has 32 bits, and in C++14
    the shifted value must fit in an unsigned int.) *)
Theorem C163_shifts : forall b n, is_byte b ->
  (0 <= n <= 31 -> b * 2 ^ n <= 4294967295 ->
     exists r, byte_step b (BShl n) = Ok r /\ is_byte r
       /\ bits_of r = firstn 8 (repeat false (Z.to_nat n) ++ bits_of b))
  /\ (0 <= n <= 31 ->
     exists r, byte_step b (BShr n) = Ok r /\ is_byte r
       /\ bits_of r = firstn 8 (skipn (Z.to_nat n) (bits_of b) ++ repeat false 8))
  /\ (n < 0 \/ 31 < n -> byte_step b (BShl n) = UB /\ byte_step b (BShr n) = UB)
  /\ (4294967295 < b * 2 ^ n -> byte_step b (BShl n) = UB).
Proof.
  intros b n B. cbn [byte_step]. split; [|split; [|split]].
  - intros H F. unfold byte_shl.
    rewrite (proj2 (Z.ltb_ge n 0)), (proj2 (Z.leb_gt 32 n)) by lia. cbn [orb].
    change (2 ^ 32) with 4294967296. rewrite (proj2 (Z.leb_gt _ _)) by lia.
    eexists. split; [reflexivity|]. split; [apply cast_byte_is|].
    rewrite (bits_eq _ (fun i => Z.testbit b (i - n))).
    2: { intros i R. rewrite cast_byte_bit by exact R. rewrite cast_bit; [|cbn; tauto|exact R].
         rewrite Z.mul_pow2_bits by lia. reflexivity. }
    unfold bits_of. cbn [seq map].
    destruct (Z_lt_ge_dec n 8) as [L|G].
    + assert (K : n = 0 \/ n = 1 \/ n = 2 \/ n = 3 \/ n = 4 \/ n = 5 \/ n = 6 \/ n = 7) by lia.
      destruct K as [->|[->|[->|[->|[->|[->|[->| ->]]]]]]]; reflexivity.
    + rewrite !(Z.testbit_neg_r b) by lia.
      replace (Z.to_nat n) with (8 + (Z.to_nat n - 8))%nat by lia. rewrite repeat_app. reflexivity.
  - intros H. destruct (Z_le_gt_dec n 24) as [L|G]; [apply shr_ok; [exact B|lia]|]. unfold byte_shr.
    rewrite (proj2 (Z.ltb_ge n 0)), (proj2 (Z.leb_gt 32 n)) by lia. cbn [orb].
    eexists. split; [reflexivity|]. split; [apply cast_byte_is|].
    rewrite (bits_eq _ (fun i => Z.testbit b (i + n))).
    2: { intros i R. rewrite cast_byte_bit by exact R. rewrite Z.div_pow2_bits by lia. reflexivity. }
    unfold bits_of. cbn [seq map]. rewrite !(byte_high b) by (exact B || lia).
    replace (Z.to_nat n) with (8 + (Z.to_nat n - 8))%nat by lia.
    destruct (Z.to_nat n - 8)%nat; reflexivity.
  - intros H. unfold byte_shl, byte_shr.
    assert (E : (n <? 0) || (32 <=? n) = true).
    { apply orb_true_iff. destruct H; [left; apply Z.ltb_lt; lia|right; apply Z.leb_le; lia]. }
    rewrite E. auto.
  - intros H. unfold byte_shl. destruct ((n <? 0) || (32 <=? n)); [reflexivity|].
    change (2 ^ 32) with 4294967296. rewrite (proj2 (Z.leb_le _ _)) by lia. reflexivity.
Qed.
Example C163_shifts_case : is_byte 3 /\ 3 * 2 ^ 30 <= 4294967295 /\ 4294967295 < 3 * 2 ^ 31
  /\ byte_step 3 (BShl 30) = Ok 0 /\ byte_step 3 (BShl 31) = UB /\ byte_step 200 (BShr 3) = Ok 25.
Proof. unfold is_byte. repeat split; cbn; lia. Qed.

(** A byte is determined by its bits. *)
Theorem C163_determined : forall a b, is_byte a -> is_byte b -> bits_of a = bits_of b -> a = b.
Proof.
  intros a b A B E. apply Z.bits_inj'. intros n H.
  destruct (Z_lt_ge_dec n 8) as [L|G].
  - unfold bits_of in E. cbn [seq map] in E. injection E as E0 E1 E2 E3 E4 E5 E6 E7.
    cbn in E0, E1, E2, E3, E4, E5, E6, E7.
    assert (C : n = 0 \/ n = 1 \/ n = 2 \/ n = 3 \/ n = 4 \/ n = 5 \/ n = 6 \/ n = 7) by lia.
    destruct C as [->|[->|[->|[->|[->|[->|[->| ->]]]]]]]; assumption.
  - rewrite !byte_high by (assumption || lia). reflexivity.
Qed.
Example C163_determined_case : is_byte 165 /\ bits_of 165 = [true; false; true; false; false; true; false; true].
Proof. split; [unfold is_byte; lia|reflexivity]. Qed.

(** Conversion to any integer type and back gives the same byte; small values survive the other
    way round. *)
Theorem C163_conversions : forall t,
  library_type t ->
  (forall b, is_byte b -> to_byte t (to_integer t b) = b) /\
  (forall v, in_type t v -> 0 <= v <= 255 -> to_integer t (to_byte t v) = v) /\
  (forall v, is_byte (to_byte t v) /\ bits_of (to_byte t v) = bits_of v).
Proof.
  intros t L. split; [|split].
  - intros b B. apply C163_determined; [apply cast_byte_is|exact B|].
    rewrite (bits_eq _ (Z.testbit b)); [reflexivity|].
    intros i R. unfold to_byte, to_integer. rewrite cast_byte_bit, cast_bit by auto. reflexivity.
  - intros v I R. unfold to_integer, to_byte.
    rewrite (cast_id uichar v); [apply cast_id; assumption|cbn; tauto|unfold in_type; cbn; lia].
  - intros v. split; [apply cast_byte_is|]. rewrite (bits_eq _ (Z.testbit v)); [reflexivity|].
    intros i R. unfold to_byte. apply cast_byte_bit. exact R.
Qed.
Example C163_conversions_case :
  library_type (IT 8 true) /\ to_integer (IT 8 true) 200 = -56 /\ to_byte (IT 8 true) (-56) = 200.
Proof. repeat split; cbn; tauto. Qed.

(** * C164: loops over integer iterators *)

Lemma promoted_wide t : library_type t -> it_min (promoted t) <= it_min t /\ it_max t <= it_max (promoted t).
Proof.
  unfold library_type, promoted. destruct t as [n s]. cbn [it_bits]. intros L.
  destruct L as [<-|[<-|[<-|[<-|[]]]]]; destruct s; cbn; lia.
Qed.

Lemma inc_ok t x : library_type t -> it_min t <= x -> x < it_max t -> it_inc t x = Ok (x + 1).
Proof.
  intros L A B. unfold it_inc, arith. assert (W := promoted_wide t L).
  assert (LP := promoted_lib t L).
  destruct (it_signed (promoted t)) eqn:E.
  - unfold in_typeb. rewrite !(proj2 (Z.leb_le _ _)) by lia. cbn [andb bind].
    rewrite cast_id; [reflexivity|exact L|unfold in_type; lia].
  - cbn [bind]. replace ((x + 1) mod 2 ^ it_bits (promoted t)) with (x + 1).
    + rewrite cast_id; [reflexivity|exact L|unfold in_type; lia].
    + unfold it_min, it_max in W. rewrite E in W. symmetry. apply Z.mod_small. 
      assert (U : it_min t = 0).
      { unfold promoted in E. destruct (it_bits t <? 32); [discriminate|]. unfold it_min. rewrite E. reflexivity. }
      unfold it_max in *. lia.
Qed.

Lemma integers_cons a n : integers a (S n) = a :: integers (a + 1) n.
Proof.
  unfold integers. cbn [seq map]. f_equal; [lia|]. rewrite <- seq_shift, map_map. apply map_ext.
  intros i. lia.
Qed.

(** The loop sees exactly the integers from the first one up to, not including, the last one, in
    order, and the values it computes stay within the type. *)
Theorem C164_loop : forall t n a fuel,
  library_type t -> in_type t a -> in_type t (a + Z.of_nat n) -> (n <= fuel)%nat ->
  it_loop fuel t a (a + Z.of_nat n) = Ok (integers a n).
Proof.
  intros t n. induction n as [|n IH]; intros a fuel L A B F.
  - destruct fuel; cbn [it_loop]; unfold it_ne; rewrite (proj2 (Z.eqb_eq _ _)) by lia; reflexivity.
  - destruct fuel as [|fuel]; [lia|]. cbn [it_loop]. unfold it_ne, it_deref.
    rewrite (proj2 (Z.eqb_neq _ _)) by lia. cbn [negb].
    unfold in_type in A, B.
    rewrite inc_ok by (auto; lia). cbn [bind].
    replace (a + Z.of_nat (S n)) with (a + 1 + Z.of_nat n) by lia.
    rewrite IH by (auto; unfold in_type; lia). cbn [bind]. rewrite integers_cons. reflexivity.
Qed.
Example C164_loop_case :
  library_type (IT 8 false) /\ in_type (IT 8 false) 250 /\ in_type (IT 8 false) (250 + Z.of_nat 5) /\
  it_loop 5 (IT 8 false) 250 255 = Ok [250; 251; 252; 253; 254].
Proof. unfold library_type, in_type; cbn. repeat split; (tauto || lia). Qed.

(** Steps and orderings. *)
Theorem C164_post_increment : forall t x,
  library_type t -> in_type t x -> in_type t (x + 1) -> it_post_inc t x = Ok (x, x + 1).
Proof.
  intros t x L A B. unfold it_post_inc, in_type in *. rewrite inc_ok by (auto; lia). reflexivity.
Qed.
Theorem C164_order : forall x y,
  (it_lt x y = true <-> x < y) /\ (it_gt x y = true <-> x > y) /\
  (it_le x y = true <-> x <= y) /\ (it_ge x y = true <-> x >= y) /\ (it_ne x y = true <-> x <> y).
Proof.
  intros x y. unfold it_lt, it_gt, it_le, it_ge, it_ne.
  rewrite negb_true_iff, Z.eqb_neq, !Z.ltb_lt, !Z.leb_le. lia.
Qed.
Example C164_post_increment_case : it_post_inc (IT 16 true) (-1) = Ok (-1, 0) /\ it_lt (-1) 0 = true.
Proof. split; reflexivity. Qed.

(** * C165: arithmetic on integer iterators *)

Lemma common_lib t u : library_type t -> library_type u -> library_type (common t u).
Proof.
  intros A B. assert (P := promoted_lib t A). assert (Q := promoted_lib u B).
  unfold common. destruct (Bool.eqb _ _); [destruct (_ <? _); assumption|].
  destruct (it_signed (promoted t)); destruct (_ <=? _); assumption.
Qed.

Lemma common_cases t u : library_type t -> library_type u ->
  if it_signed (common t u)
  then (it_min (common t u) <= it_min t /\ it_max t <= it_max (common t u)) /\
       (it_min (common t u) <= it_min u /\ it_max u <= it_max (common t u))
  else it_bits t <= it_bits (common t u).
Proof.
  unfold library_type. destruct t as [n s], u as [m r]. cbn [it_bits]. intros A B.
  destruct A as [<-|[<-|[<-|[<-|[]]]]]; destruct B as [<-|[<-|[<-|[<-|[]]]]]; destruct s, r; cbn; lia.
Qed.

Lemma cast_cong t x y : library_type t -> (x - y) mod 2 ^ it_bits t = 0 -> cast t x = cast t y.
Proof.
  intros L H. destruct (lib_pos t L) as [P Q]. assert (R : 0 < 2 ^ it_bits t) by (apply Z.pow_pos_nonneg; lia).
  apply Z.mod_divide in H; [|lia]. destruct H as [k H].
  assert (E : x = y + k * 2 ^ it_bits t) by lia. subst x. unfold cast.
  destruct (it_signed t).
  - f_equal. rewrite <- (Z.mod_add (y + 2 ^ (it_bits t - 1)) k) by lia. f_equal. lia.
  - apply Z.mod_add. lia.
Qed.

Lemma cast_mod_wide t n x : library_type t -> it_bits t <= n -> cast t (x mod 2 ^ n) = cast t x.
Proof.
  intros L H. destruct (lib_pos t L) as [P Q]. apply cast_cong; [exact L|].
  assert (R : 0 < 2 ^ it_bits t) by (apply Z.pow_pos_nonneg; lia).
  assert (N : 0 < 2 ^ n) by (apply Z.pow_pos_nonneg; lia).
  rewrite (Z.mod_eq x (2 ^ n)) by lia.
  replace (x - 2 ^ n * (x / 2 ^ n) - x) with (- (x / 2 ^ n) * 2 ^ (n - it_bits t) * 2 ^ it_bits t).
  - apply Z.mod_mul. lia.
  - replace (2 ^ n) with (2 ^ (n - it_bits t) * 2 ^ it_bits t); [lia|].
    rewrite <- Z.pow_add_r by lia. f_equal. lia.
Qed.

Lemma step_ok t u x v (f : Z -> Z -> Z) :
  (f = Z.add \/ f = Z.sub) -> library_type t -> library_type u -> in_type t x -> in_type u v ->
  in_type t (f x v) ->
  (let! y := arith (common t u) (f (cast (common t u) x) (cast (common t u) v)) in Ok (cast t y)) = Ok (f x v).
Proof.
  intros F A B X V R. assert (C := common_lib t u A B). assert (K := common_cases t u A B).
  unfold arith. destruct (it_signed (common t u)) eqn:E.
  - unfold in_type in *. rewrite (cast_id (common t u) x), (cast_id (common t u) v) by (auto; unfold in_type; lia).
    unfold in_typeb. rewrite !(proj2 (Z.leb_le _ _)) by lia. cbn [andb bind].
    rewrite cast_id by (auto; unfold in_type; lia). reflexivity.
  - cbn [bind]. rewrite cast_mod_wide by auto. f_equal.
    unfold cast at 2 3. rewrite E.
    transitivity (cast t (f x v)); [|apply cast_id; assumption].
    rewrite <- (cast_mod_wide t (it_bits (common t u))) by auto.
    rewrite <- (cast_mod_wide t (it_bits (common t u)) (f x v)) by auto. f_equal.
    destruct F as [-> | ->]; [symmetry; apply Zplus_mod|symmetry; apply Zminus_mod].
Qed.

(** Moving by an integer of any type. *)
Theorem C165_move_partial : forall t u x v,
  library_type t -> library_type u -> in_type t x -> in_type u v ->
  (in_type t (x + v) -> it_plus t u x v = Ok (x + v)) /\
  (in_type t (x - v) -> it_minus t u x v = Ok (x - v)).
Proof.
  intros t u x v A B X V. split; intros R; unfold it_plus, it_minus.
  - apply (step_ok t u x v Z.add); auto.
  - apply (step_ok t u x v Z.sub); auto.
Qed.
Example C165_move_case :
  in_type (IT 32 false) 5 /\ in_type (IT 8 true) (-3) /\ in_type (IT 32 false) (5 + -3) /\
  it_plus (IT 32 false) (IT 8 true) 5 (-3) = Ok 2.
Proof. unfold in_type; cbn. repeat split; lia. Qed.

(** The difference is right for the types narrower than int; for int and long unless it
    overflows; for the unsigned types if the first is not the smaller one (64 bits: nor too far
    away). *)
Theorem C165_difference_partial : forall t x y,
  library_type t -> in_type t x -> in_type t y ->
  it_bits t < 32 \/ (it_signed t = true /\ in_type t (x - y)) \/
  (it_signed t = false /\ y <= x /\ x - y < 2 ^ 63) ->
  it_difference t x y = Ok (x - y).
Proof.
  intros t x y L X Y H. unfold it_difference, promoted.
  destruct (Z.ltb_spec (it_bits t) 32) as [N|N].
  - assert (R : - 2 ^ 31 <= x - y < 2 ^ 31).
    { unfold library_type in L. destruct t as [n s]. cbn [it_bits] in *.
      unfold in_type in X, Y.
      destruct L as [<-|[<-|[<-|[<-|[]]]]]; destruct s; cbn in *; lia. }
    unfold arith, in_typeb. cbn [it_signed it_bits it_min it_max]. 
    unfold it_min, it_max. cbn [it_signed it_bits]. change (32 - 1) with 31.
    rewrite !(proj2 (Z.leb_le _ _)) by lia. cbn [andb bind].
    rewrite cast_id; [reflexivity|cbn; tauto|unfold in_type; cbn; lia].
  - assert (B : it_bits t = 32 \/ it_bits t = 64) by (unfold library_type in L; cbn in L; lia).
    unfold arith. destruct (it_signed t) eqn:E.
    + destruct H as [H|[[_ H]|[H _]]]; [lia| |discriminate].
      unfold in_typeb. unfold in_type in H. rewrite !(proj2 (Z.leb_le _ _)) by lia. cbn [andb bind].
      rewrite cast_id; [reflexivity|cbn; tauto|].
      unfold in_type, it_min, it_max in *. rewrite E in H. cbn.
      destruct B as [W|W]; rewrite W in H; cbn in H; lia.
    + destruct H as [H|[[H _]|[_ [H K]]]]; [lia|discriminate|]. cbn [bind].
      rewrite Z.mod_small.
      * rewrite cast_id; [reflexivity|cbn; tauto|unfold in_type; cbn; lia].
      * unfold in_type, it_min, it_max in X, Y. rewrite E in X, Y. lia.
Qed.
Example C165_difference_case :
  library_type (IT 16 false) /\ in_type (IT 16 false) 3 /\ in_type (IT 16 false) 5 /\
  it_difference (IT 16 false) 3 5 = Ok (-2).
Proof. unfold library_type, in_type; cbn. repeat split; (tauto || lia). Qed.

(** With 32 unsigned bits every negative difference is wrong: the result is positive. *)
Theorem C165_uint_refuted : forall x y,
  in_type (IT 32 false) x -> in_type (IT 32 false) y -> x < y ->
  it_difference (IT 32 false) x y = Ok (2 ^ 32 + (x - y)) /\ 2 ^ 32 + (x - y) <> x - y.
Proof.
  intros x y X Y H. unfold in_type in X, Y. cbn in X, Y. split; [|lia].
  unfold it_difference, promoted, arith. cbn [it_bits it_signed Z.ltb Z.compare Pos.compare Pos.compare_cont bind].
  replace ((x - y) mod 2 ^ 32) with (2 ^ 32 + (x - y)).
  - f_equal. change (2 ^ 32) with 4294967296.
    apply cast_id; [unfold library_type; cbn [it_bits In]; tauto|].
    unfold in_type. change (it_min (IT 64 true)) with (-9223372036854775808).
    change (it_max (IT 64 true)) with 9223372036854775807. lia.
  - symmetry. change (2 ^ 32) with 4294967296. rewrite <- (Z.mod_add (x - y) 1) by lia. rewrite Z.mod_small by lia. lia.
Qed.
Example C165_uint_case : it_difference (IT 32 false) 3 5 = Ok 4294967294.
Proof. reflexivity. Qed.

(** A loop from a larger to a smaller integer of the type int or long overflows. *)
Theorem C165_backward_refuted : forall t n last fuel,
  library_type t -> it_signed t = true -> 32 <= it_bits t ->
  it_min t <= last < it_max t - Z.of_nat n -> (n < fuel)%nat ->
  it_loop fuel t (it_max t - Z.of_nat n) last = UB.
Proof.
  intros t n. induction n as [|n IH]; intros last fuel L S N [A B] F; destruct fuel as [|fuel]; try lia;
    cbn [it_loop]; unfold it_ne, it_deref; rewrite (proj2 (Z.eqb_neq _ _)) by lia; cbn [negb].
  - unfold it_inc, arith, promoted. rewrite (proj2 (Z.ltb_ge _ _)) by lia. rewrite S.
    unfold in_typeb. rewrite (proj2 (Z.leb_gt (it_max t - Z.of_nat 0 + 1) _)) by lia.
    rewrite andb_false_r. reflexivity.
  - rewrite inc_ok; [|exact L|lia|lia]. cbn [bind].
    replace (it_max t - Z.of_nat (Datatypes.S n) + 1) with (it_max t - Z.of_nat n) by lia.
    rewrite IH; try assumption; try lia. reflexivity.
Qed.
Example C165_backward_case : it_loop 9 (IT 32 true) 2147483640 5 = UB.
Proof. vm_compute. reflexivity. Qed.

Print Assumptions C163_operators.
Print Assumptions C163_shifts.
Print Assumptions C163_determined.
Print Assumptions C163_conversions.
Print Assumptions C164_loop.
Print Assumptions C164_post_increment.
Print Assumptions C164_order.
Print Assumptions C165_move_partial.
Print Assumptions C165_difference_partial.
Print Assumptions C165_uint_refuted.
Print Assumptions C165_backward_refuted.
