(** C41, C66: theorems about AsIntegralType. *)
From Coq Require Import List ZArith Lia Bool.
From Verif Require Import Base IntegralModel.
Import ListNotations.
Local Open Scope Z_scope.

(** The integer types of the library: 8, 16, 32 and 64 bits, signed or not. *)
Definition library_type (t : int_type) : Prop := In (it_bits t) [8; 16; 32; 64].

Lemma pow_pred n : 0 < n -> 2 ^ n = 2 * 2 ^ (n - 1).
Proof. intros H. rewrite <- Z.pow_succ_r by lia. f_equal. lia. Qed.

Lemma lib_pos t : library_type t -> 0 < it_bits t /\ 0 < 2 ^ (it_bits t - 1).
Proof.
  unfold library_type. cbn. intros H. split; [lia|]. apply Z.pow_pos_nonneg; lia.
Qed.

Lemma cast_id t x : library_type t -> in_type t x -> cast t x = x.
Proof.
  intros L. destruct (lib_pos t L) as [P Q]. assert (E := pow_pred (it_bits t) P).
  unfold in_type, it_min, it_max, cast. destruct (it_signed t); intros H.
  - rewrite Z.mod_small by lia. lia.
  - apply Z.mod_small. lia.
Qed.

Lemma cast_in t x : library_type t -> in_type t (cast t x).
Proof.
  intros L. destruct (lib_pos t L) as [P Q]. assert (E := pow_pred (it_bits t) P).
  unfold in_type, it_min, it_max, cast. destruct (it_signed t).
  - assert (B := Z.mod_pos_bound (x + 2 ^ (it_bits t - 1)) (2 ^ it_bits t)). lia.
  - assert (B := Z.mod_pos_bound x (2 ^ it_bits t)). lia.
Qed.

(** * C41: comparison *)

(** Two wrapped integers of the same type. *)
Theorem C41_compare_partial : forall a b,
  (am_eq a b = true <-> a = b) /\ (am_ne a b = true <-> a <> b) /\
  (am_gt a b = true <-> a > b) /\ (am_lt a b = true <-> a < b).
Proof.
  intros a b. unfold am_eq, am_ne, am_gt, am_lt.
  rewrite negb_true_iff, Z.eqb_eq, Z.eqb_neq, !Z.ltb_lt. lia.
Qed.

(** A wrapped integer of type [t] and an integer of type [u], when each value is a value of
    both types. *)
Theorem C41_compare_mixed_partial : forall t u a b,
  library_type t -> library_type u -> in_type t a -> in_type u b ->
  (in_type u a -> (ai_eq t u a b = true <-> a = b)) /\
  (in_type t b -> (ai_ne t u a b = true <-> a <> b) /\
                  (ai_gt t u a b = true <-> a > b) /\
                  (ai_lt t u a b = true <-> a < b)).
Proof.
  intros t u a b Lt Lu Ha Hb. unfold ai_eq, ai_ne, ai_gt, ai_lt. split.
  - intros H. rewrite (cast_id u a), Z.eqb_eq; auto. reflexivity.
  - intros H. rewrite (cast_id t b); auto.
    rewrite negb_true_iff, Z.eqb_neq, !Z.ltb_lt. lia.
Qed.

Example C41_compare_case :
  library_type (IT 8 false) /\ library_type (IT 32 true) /\ in_type (IT 8 false) 200 /\
  in_type (IT 32 true) 200 /\ ai_eq (IT 8 false) (IT 32 true) 200 200 = true.
Proof.
  unfold library_type, in_type; cbn.
  repeat split; (tauto || lia || reflexivity).
Qed.

(** >= and <= leave out equality: of two equal values, neither holds. *)
Theorem C41_ge_le_refuted : forall t u a,
  library_type t -> in_type t a ->
  am_ge a a = false /\ am_le a a = false /\ ai_ge t u a a = false /\ ai_le t u a a = false.
Proof.
  intros t u a L H. unfold am_ge, am_le, ai_ge, ai_le. rewrite (cast_id t a) by auto.
  rewrite !Z.ltb_irrefl. auto.
Qed.

(** For different values they are right. *)
Theorem C41_ge_le_partial : forall a b, a <> b ->
  (am_ge a b = true <-> a >= b) /\ (am_le a b = true <-> a <= b).
Proof. intros a b N. unfold am_ge, am_le. rewrite !Z.ltb_lt. lia. Qed.

Example C41_ge_le_case :
  library_type (IT 32 true) /\ in_type (IT 32 true) (-5) /\ -5 <> 6.
Proof. unfold library_type, in_type; cbn. repeat split; (tauto || lia). Qed.

(** A value that does not fit the type of the other operand: it counts as equal (and, when
    the other operand fits [t], at the same time as not equal) to a different number. *)
Theorem C41_eq_mixed_refuted : forall t u a,
  library_type t -> library_type u -> in_type t a -> ~ in_type u a ->
  exists b, in_type u b /\ a <> b /\ ai_eq t u a b = true /\
    (in_type t b -> ai_ne t u a b = true).
Proof.
  intros t u a Lt Lu Ha Hn. exists (cast u a).
  assert (I := cast_in u a Lu). split; [exact I|].
  assert (N : a <> cast u a) by (intros E; apply Hn; rewrite E; exact I).
  split; [exact N|]. unfold ai_eq, ai_ne. rewrite Z.eqb_refl. split; [reflexivity|].
  intros H. rewrite (cast_id t) by auto. apply negb_true_iff, Z.eqb_neq. exact N.
Qed.

Example C41_eq_mixed_case :
  in_type (IT 32 true) 300 /\ ~ in_type (IT 8 false) 300 /\
  ai_eq (IT 32 true) (IT 8 false) 300 44 = true /\ ai_ne (IT 32 true) (IT 8 false) 300 44 = true.
Proof. unfold in_type; cbn. repeat split; (lia || reflexivity). Qed.

(** * C66: arithmetic *)

Lemma arith_ok t x : library_type t -> in_type t x -> arith t x = Ok x.
Proof.
  intros L. destruct (lib_pos t L) as [P Q]. assert (E := pow_pred (it_bits t) P).
  unfold in_type, it_min, it_max, arith, in_typeb, it_min, it_max.
  destruct (it_signed t); intros H.
  - rewrite (proj2 (Z.leb_le _ _)) by lia. rewrite (proj2 (Z.leb_le _ _)) by lia. reflexivity.
  - rewrite Z.mod_small by lia. reflexivity.
Qed.

Lemma promoted_lib t : library_type t -> library_type (promoted t).
Proof.
  unfold promoted. destruct (it_bits t <? 32); auto. intros _. cbn. tauto.
Qed.
Lemma promoted_in t x : library_type t -> in_type t x -> in_type (promoted t) x.
Proof.
  unfold library_type, promoted. cbn [In].
  destruct (Z.ltb_spec (it_bits t) 32) as [K|K]; auto. intros L.
  assert (B : it_bits t = 8 \/ it_bits t = 16) by lia. clear L K.
  unfold in_type, it_min, it_max. destruct t as [n s]. cbn [it_bits it_signed] in *.
  destruct B as [-> | ->]; destruct s; cbn; lia.
Qed.

Lemma arith_promoted t x : library_type t -> in_type t x ->
  (let! y := arith (promoted t) x in Ok (cast t y)) = Ok x.
Proof.
  intros L H. rewrite arith_ok; [|apply promoted_lib|apply promoted_in]; auto.
  cbn [bind]. rewrite cast_id; auto.
Qed.

(** Whenever the exact result is a value of the type, it is the result. *)
Theorem C66_arithmetic_partial : forall t a b,
  library_type t -> in_type t a -> in_type t b ->
  (in_type t (a + b) -> ai_add t a b = Ok (a + b)) /\
  (in_type t (a - b) -> ai_sub t a b = Ok (a - b)) /\
  (in_type t (a * b) -> ai_mul t a b = Ok (a * b)) /\
  (b <> 0 -> in_type t (Z.quot a b) -> ai_div t a b = Ok (Z.quot a b)).
Proof.
  intros t a b L Ha Hb. unfold ai_add, ai_sub, ai_mul, ai_div.
  split; [|split; [|split]]; intros; try (apply arith_promoted; auto).
  destruct (Z.eqb_spec b 0); [contradiction|]. apply arith_promoted; auto.
Qed.

Example C66_arithmetic_case :
  library_type (IT 16 true) /\ in_type (IT 16 true) (-300) /\ in_type (IT 16 true) 100 /\
  in_type (IT 16 true) (-300 * 100) /\ ai_mul (IT 16 true) (-300) 100 = Ok (-30000).
Proof. unfold library_type, in_type; cbn. repeat split; (tauto || lia || reflexivity). Qed.

Lemma cast_mod t x y : it_signed t = false -> x mod 2 ^ it_bits t = y mod 2 ^ it_bits t ->
  cast t x = y mod 2 ^ it_bits t.
Proof. unfold cast. intros ->. auto. Qed.

(** Unsigned types wrap around: addition and subtraction always, multiplication for all widths
    except 16. *)
Theorem C66_wrap_partial : forall t a b,
  library_type t -> it_signed t = false -> in_type t a -> in_type t b ->
  ai_add t a b = Ok ((a + b) mod 2 ^ it_bits t) /\
  ai_sub t a b = Ok ((a - b) mod 2 ^ it_bits t) /\
  (it_bits t <> 16 -> ai_mul t a b = Ok ((a * b) mod 2 ^ it_bits t)).
Proof.
  intros [n s] a b L S Ha Hb. cbn [it_signed it_bits] in *. subst s.
  unfold library_type in L. cbn [it_bits In] in L.
  unfold in_type, it_min, it_max in Ha, Hb. cbn [it_signed it_bits] in Ha, Hb.
  unfold ai_add, ai_sub, ai_mul, promoted, cast. cbn [it_bits it_signed].
  assert (W : forall x, arith (IT 32 true) x = if in_typeb (IT 32 true) x then Ok x else UB)
    by reflexivity.
  assert (I : forall x, - 2 ^ 31 <= x < 2 ^ 31 -> in_typeb (IT 32 true) x = true).
  { intros x Hx. unfold in_typeb, it_min, it_max. cbn [it_signed it_bits].
    change (32 - 1) with 31.
    rewrite (proj2 (Z.leb_le _ _)) by lia. rewrite (proj2 (Z.leb_le _ _)) by lia. reflexivity. }
  destruct L as [<- |[<- |[<- |[<- |[]]]]]; cbn [Z.ltb Z.compare Pos.compare Pos.compare_cont].
  - change (2 ^ 8) with 256 in *. rewrite !W, !I by nia. auto.
  - change (2 ^ 16) with 65536 in *. rewrite !W. rewrite (I (a + b)), (I (a - b)) by lia.
    split; [reflexivity|]. split; [reflexivity|]. intros N. exfalso. apply N. reflexivity.
  - unfold arith. cbn [it_signed it_bits bind]. rewrite !Z.mod_mod by lia. auto.
  - unfold arith. cbn [it_signed it_bits bind]. rewrite !Z.mod_mod by lia. auto.
Qed.

(** 16-bit unsigned multiplication is done in int and overflows: undefined whenever the
    product reaches 2^31. *)
Theorem C66_mul16_refuted : forall a b,
  in_type (IT 16 false) a -> in_type (IT 16 false) b -> 2 ^ 31 <= a * b ->
  ai_mul (IT 16 false) a b = UB.
Proof.
  intros a b _ _ H. unfold ai_mul, promoted, arith, in_typeb, it_min, it_max.
  cbn [it_bits it_signed Z.ltb Z.compare Pos.compare Pos.compare_cont].
  change (32 - 1) with 31. rewrite (proj2 (Z.leb_gt (a * b) (2 ^ 31 - 1))) by lia.
  rewrite andb_false_r. reflexivity.
Qed.

Example C66_mul16_case :
  in_type (IT 16 false) 65535 /\ in_type (IT 16 false) 40000 /\ 2 ^ 31 <= 65535 * 40000.
Proof. unfold in_type; cbn. lia. Qed.

(** Shifts and | of values that are not negative: as for the numbers, when the result fits. *)
Theorem C66_shift_partial : forall t a n,
  library_type t -> in_type t a -> 0 <= a -> 0 <= n < it_bits t ->
  (in_type t (a * 2 ^ n) -> ai_shl t a n = Ok (a * 2 ^ n)) /\
  ai_shr t a n = Ok (a / 2 ^ n).
Proof.
  intros t a n L Ha H0 Hn.
  assert (Lp := promoted_lib t L). assert (Pb : it_bits t <= it_bits (promoted t)).
  { unfold promoted. destruct (Z.ltb_spec (it_bits t) 32); cbn; lia. }
  assert (P2 : 0 < 2 ^ n) by (apply Z.pow_pos_nonneg; lia).
  split.
  - intros H. unfold ai_shl.
    assert (Ip := promoted_in t _ L H).
    rewrite (proj2 (Z.ltb_ge n 0)) by lia. rewrite (proj2 (Z.leb_gt _ _)) by lia. cbn [orb].
    assert (Pos : 0 <= a * 2 ^ n) by nia.
    destruct (lib_pos _ Lp) as [B1 B2]. assert (E := pow_pred _ B1).
    unfold in_type, it_min, it_max in Ip.
    destruct (it_signed (promoted t)) eqn:S.
    + rewrite (proj2 (Z.ltb_ge a 0)) by lia. rewrite (proj2 (Z.leb_gt _ _)) by lia. cbn [orb].
      rewrite (cast_id (promoted t)); auto.
      * rewrite cast_id; auto.
      * unfold in_type, it_min, it_max. rewrite S. lia.
    + rewrite Z.mod_small by lia. rewrite cast_id; auto.
  - unfold ai_shr. rewrite (proj2 (Z.ltb_ge n 0)) by lia.
    rewrite (proj2 (Z.leb_gt _ _)) by lia. cbn [orb]. f_equal. apply cast_id; auto.
    assert (a / 2 ^ n <= a) by (apply Z.div_le_upper_bound; nia).
    assert (0 <= a / 2 ^ n) by (apply Z.div_pos; lia).
    destruct (lib_pos t L) as [B1 B2].
    unfold in_type, it_min, it_max in *. destruct (it_signed t); lia.
Qed.

Example C66_shift_case :
  in_type (IT 8 false) 5 /\ in_type (IT 8 false) (5 * 2 ^ 4) /\
  ai_shl (IT 8 false) 5 4 = Ok 80 /\ ai_shr (IT 8 false) 80 3 = Ok 10.
Proof. unfold in_type; cbn. repeat split; (lia || reflexivity). Qed.

(** | of two values is a value of the type, and its bits are the bits of the operands. *)
Theorem C66_or : forall t a b,
  library_type t -> in_type t a -> in_type t b ->
  exists c, ai_or t a b = Ok c /\ in_type t c /\
    forall n, 0 <= n -> Z.testbit c n = Z.testbit a n || Z.testbit b n.
Proof.
  intros t a b L Ha Hb. exists (Z.lor a b).
  assert (I : in_type t (Z.lor a b)).
  { destruct (lib_pos t L) as [P Q]. assert (E := pow_pred (it_bits t) P).
    unfold in_type, it_min, it_max in *. destruct (it_signed t).
    - (* signed: x is in range iff shifting out the value bits leaves 0 or -1 *)
      set (k := it_bits t - 1) in *.
      assert (K : 0 <= k) by (unfold k; lia).
      assert (P2 : 0 < 2 ^ k) by (apply Z.pow_pos_nonneg; lia).
      assert (S1 : forall x, - 2 ^ k <= x <= 2 ^ k - 1 -> Z.shiftr x k = 0 \/ Z.shiftr x k = -1).
      { intros x Hx. rewrite Z.shiftr_div_pow2 by lia.
        destruct (Z_lt_le_dec x 0).
        - right. symmetry. apply Z.div_unique with (r := x + 2 ^ k); lia.
        - left. apply Z.div_small. lia. }
      assert (S2 : forall x, Z.shiftr x k = 0 \/ Z.shiftr x k = -1 -> - 2 ^ k <= x <= 2 ^ k - 1).
      { intros x Hx. rewrite Z.shiftr_div_pow2 in Hx by lia.
        pose proof (Z.div_mod x (2 ^ k)). pose proof (Z.mod_pos_bound x (2 ^ k)). nia. }
      apply S2. rewrite Z.shiftr_lor.
      destruct (S1 a Ha) as [-> | ->], (S1 b Hb) as [-> | ->]; cbn; auto.
    - assert (0 <= Z.lor a b) by (apply Z.lor_nonneg; lia).
      split; [assumption|].
      assert (Z.lor a b < 2 ^ it_bits t); [|lia].
      destruct (Z.eq_dec (Z.lor a b) 0) as [-> |N]; [apply Z.pow_pos_nonneg; lia|].
      apply Z.log2_lt_pow2; [lia|]. rewrite Z.log2_lor by lia.
      apply Z.max_lub_lt.
      + destruct (Z.eq_dec a 0) as [-> |]; [cbn; lia|]. apply Z.log2_lt_pow2; lia.
      + destruct (Z.eq_dec b 0) as [-> |]; [cbn; lia|]. apply Z.log2_lt_pow2; lia. }
  unfold ai_or. rewrite cast_id by auto. split; [reflexivity|]. split; [exact I|].
  intros n _. apply Z.lor_spec.
Qed.

Example C66_or_case :
  in_type (IT 8 true) (-128) /\ in_type (IT 8 true) 5 /\ ai_or (IT 8 true) (-128) 5 = Ok (-123).
Proof. unfold in_type; cbn. repeat split; (lia || reflexivity). Qed.

(** Converting to another type and back loses nothing when the value is in both types. *)
Theorem C66_convert : forall t u a,
  library_type t -> library_type u -> in_type t a -> in_type u a ->
  ai_to u a = a /\ ai_from t (ai_to u a) = a.
Proof.
  intros t u a Lt Lu Ht Hu. unfold ai_to, ai_from.
  rewrite (cast_id u a) by auto. split; [reflexivity|]. apply cast_id; auto.
Qed.

Print Assumptions C41_compare_partial.
Print Assumptions C41_compare_mixed_partial.
Print Assumptions C41_ge_le_refuted.
Print Assumptions C41_ge_le_partial.
Print Assumptions C41_eq_mixed_refuted.
Print Assumptions C66_arithmetic_partial.
Print Assumptions C66_wrap_partial.
Print Assumptions C66_mul16_refuted.
Print Assumptions C66_shift_partial.
Print Assumptions C66_convert.
Print Assumptions C66_or.
