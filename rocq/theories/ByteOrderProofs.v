(** Lemmas for ByteOrderProps.v *)
From Coq Require Import ZArith List Lia.
From Verif Require Import BitsModel ByteOrderModel ByteOrderSpec.
Import ListNotations.
Local Open Scope Z_scope.

(** ** Bytes of integers *)

Definition is_byte (b : Z) : Prop := 0 <= b < 256.

Definition le_val (bs : list Z) : Z := fold_right (fun b acc => b + 256 * acc) 0 bs.

Lemma byte_of_range v i : is_byte (byte_of v i).
Proof. unfold is_byte, byte_of. apply Z.mod_pos_bound. lia. Qed.

Lemma byte_of_0 v : byte_of v 0 = v mod 256.
Proof. unfold byte_of. change (256 ^ Z.of_nat 0) with 1. rewrite Z.div_1_r. auto. Qed.

Lemma byte_of_S v i : byte_of v (S i) = byte_of (v / 256) i.
Proof.
  unfold byte_of. rewrite Nat2Z.inj_succ, Z.pow_succ_r by lia.
  rewrite Z.div_div by lia. reflexivity.
Qed.

Lemma le_bytes_S n v : le_bytes (S n) v = (v mod 256) :: le_bytes n (v / 256).
Proof.
  unfold le_bytes. cbn [seq map]. rewrite byte_of_0. f_equal.
  rewrite <- seq_shift, map_map. apply map_ext. intros. apply byte_of_S.
Qed.

Lemma le_bytes_length n v : length (le_bytes n v) = n.
Proof. unfold le_bytes. rewrite map_length, seq_length. auto. Qed.

Lemma bytes_in_length o n v : length (bytes_in o n v) = n.
Proof. destruct o; cbn; unfold be_bytes; rewrite ?rev_length; apply le_bytes_length. Qed.

Lemma le_bytes_byte n v : Forall is_byte (le_bytes n v).
Proof. apply Forall_forall. intros x H. apply in_map_iff in H as [i [<- _]]. apply byte_of_range. Qed.

Lemma le_bytes_le_val bs :
  Forall is_byte bs -> le_bytes (length bs) (le_val bs) = bs.
Proof.
  induction 1 as [|b bs Hb _ IH]; auto.
  cbn [length le_val fold_right]. fold (le_val bs). rewrite le_bytes_S.
  unfold is_byte in Hb. f_equal.
  - rewrite Z.mul_comm, Z.mod_add by lia. apply Z.mod_small; lia.
  - rewrite Z.mul_comm, Z.div_add by lia. rewrite Z.div_small by lia. auto.
Qed.

Lemma le_val_le_bytes n v :
  0 <= v < 256 ^ Z.of_nat n -> le_val (le_bytes n v) = v.
Proof.
  revert v; induction n as [|n IH]; intros v H.
  - cbn in *. lia.
  - rewrite le_bytes_S. cbn [le_val fold_right]. fold (le_val (le_bytes n (v / 256))).
    rewrite Nat2Z.inj_succ, Z.pow_succ_r in H by lia.
    rewrite IH.
    + pose proof (Z.div_mod v 256). lia.
    + split. apply Z.div_pos; lia. apply Z.div_lt_upper_bound; lia.
Qed.

Lemma le_val_range bs : Forall is_byte bs -> 0 <= le_val bs < 256 ^ Z.of_nat (length bs).
Proof.
  induction 1 as [|b bs Hb _ IH]; cbn -[Z.mul Z.pow Z.of_nat]; [lia|].
  fold (le_val bs). rewrite Nat2Z.inj_succ, Z.pow_succ_r by lia.
  unfold is_byte in Hb. lia.
Qed.

Lemma le_bytes_mod n v : le_bytes n (v mod 256 ^ Z.of_nat n) = le_bytes n v.
Proof.
  revert v; induction n as [|n IH]; intros v; auto.
  rewrite !le_bytes_S. rewrite Nat2Z.inj_succ, Z.pow_succ_r by lia.
  assert (0 < 256 ^ Z.of_nat n) by (apply Z.pow_pos_nonneg; lia).
  rewrite Z.rem_mul_r by lia. f_equal.
  - rewrite Z.mul_comm, Z.mod_add by lia. apply Z.mod_mod; lia.
  - rewrite (Z.mul_comm 256), Z.div_add by lia.
    rewrite (Z.div_small (v mod 256)) by (apply Z.mod_pos_bound; lia).
    rewrite Z.add_0_l. apply IH.
Qed.

(** ** Machine operations *)

Lemma pow256 n : 256 ^ Z.of_nat n = 2 ^ (8 * Z.of_nat n).
Proof. rewrite Z.pow_mul_r by lia. reflexivity. Qed.

Lemma land_mask v n :
  0 <= n -> Z.land v (255 * 2 ^ n) = ((v / 2 ^ n) mod 256) * 2 ^ n.
Proof.
  intros Hn.
  change 256 with (2 ^ 8). rewrite <- (Z.land_ones _ 8) by lia.
  rewrite <- Z.shiftr_div_pow2 by lia.
  rewrite <- !Z.shiftl_mul_pow2 by lia.
  change 255 with (Z.ones 8).
  apply Z.bits_inj'. intros m Hm.
  rewrite Z.land_spec, !Z.shiftl_spec by lia.
  destruct (Z.ltb_spec m n).
  - rewrite !(Z.testbit_neg_r _ (m - n)) by lia. apply Bool.andb_false_r.
  - rewrite Z.land_spec, Z.shiftr_spec by lia. do 2 f_equal. lia.
Qed.

Lemma lor_add a b k :
  0 <= k -> 0 <= b < 2 ^ k -> Z.lor (a * 2 ^ k) b = a * 2 ^ k + b.
Proof.
  intros Hk Hb.
  assert (Z.land (a * 2 ^ k) b = 0) as Hl.
  { apply Z.bits_inj'. intros m Hm. rewrite Z.bits_0, Z.land_spec.
    destruct (Z.ltb_spec m k).
    - rewrite Z.mul_pow2_bits_low by lia. reflexivity.
    - assert (Z.testbit b m = false) as ->; [|apply Bool.andb_false_r].
      apply Z.testbit_false; [lia|].
      rewrite Z.div_small; [reflexivity|].
      split; [lia|]. eapply Z.lt_le_trans; [apply Hb|]. apply Z.pow_le_mono_r; lia. }
  rewrite Z.add_nocarry_lxor by auto. symmetry. apply Z.lxor_lor. auto.
Qed.

Lemma shr_mul a n m : 0 <= m <= n -> Z.shiftr (a * 2 ^ n) m = a * 2 ^ (n - m).
Proof.
  intros H. rewrite Z.shiftr_div_pow2 by lia.
  replace n with (n - m + m) at 1 by lia. rewrite Z.pow_add_r, Z.mul_assoc by lia.
  apply Z.div_mul. apply Z.pow_nonzero; lia.
Qed.

Lemma shl_mul w a n m :
  0 <= n -> 0 <= m -> 0 <= a < 256 -> n + m + 8 <= w ->
  shl w (a * 2 ^ n) m = a * 2 ^ (n + m).
Proof.
  intros Hn Hm Ha Hw. unfold shl, trunc.
  rewrite Z.shiftl_mul_pow2, <- Z.mul_assoc, <- Z.pow_add_r by lia.
  apply Z.mod_small. split.
  - apply Z.mul_nonneg_nonneg; [lia|]. apply Z.pow_nonneg; lia.
  - apply Z.lt_le_trans with (256 * 2 ^ (n + m)).
    + apply Z.mul_lt_mono_pos_r; [apply Z.pow_pos_nonneg; lia|lia].
    + change 256 with (2 ^ 8). rewrite <- Z.pow_add_r by lia.
      apply Z.pow_le_mono_r; lia.
Qed.

Definition b_ (v n : Z) : Z := (v / 2 ^ n) mod 256.

Lemma b_range v n : 0 <= b_ v n < 256.
Proof. apply Z.mod_pos_bound; lia. Qed.

Lemma land_b v n m : 0 <= n -> m = 255 * 2 ^ n -> Z.land v m = b_ v n * 2 ^ n.
Proof. intros H ->. apply land_mask; auto. Qed.

Lemma byte_of_b v i : byte_of v i = b_ v (8 * Z.of_nat i).
Proof. unfold byte_of, b_. rewrite pow256. reflexivity. Qed.

Ltac masks v :=
  repeat match goal with
  | |- context [Z.land v ?m] =>
    match eval vm_compute in m with
    | 255 => rewrite (land_b v 0 m) by (try lia; reflexivity)
    | 65280 => rewrite (land_b v 8 m) by (try lia; reflexivity)
    | 16711680 => rewrite (land_b v 16 m) by (try lia; reflexivity)
    | 4278190080 => rewrite (land_b v 24 m) by (try lia; reflexivity)
    | 1095216660480 => rewrite (land_b v 32 m) by (try lia; reflexivity)
    | 280375465082880 => rewrite (land_b v 40 m) by (try lia; reflexivity)
    | 71776119061217280 => rewrite (land_b v 48 m) by (try lia; reflexivity)
    | 18374686479671623680 => rewrite (land_b v 56 m) by (try lia; reflexivity)
    end
  end.

Lemma reverse16_eq v : reverseBytes16 v = le_val (rev (le_bytes 2 v)).
Proof.
  unfold reverseBytes16. cbv zeta. masks v.
  change (trunc 16 (Z.shiftl (b_ v 0 * 2 ^ 0) 8)) with (shl 16 (b_ v 0 * 2 ^ 0) 8).
  rewrite shl_mul by (try apply b_range; lia).
  rewrite shr_mul by lia.
  unfold le_bytes. cbn [seq map rev app le_val fold_right].
  rewrite !byte_of_b.
  change (8 * Z.of_nat 0) with 0. change (8 * Z.of_nat 1) with 8.
  pose proof (b_range v 0). pose proof (b_range v 8).
  change (0 + 8) with 8. change (8 - 8) with 0.
  rewrite lor_add by lia.
  unfold trunc. rewrite Z.mod_small by lia. lia.
Qed.

Lemma reverse32_eq v : reverseBytes32 v = le_val (rev (le_bytes 4 v)).
Proof.
  unfold reverseBytes32. cbv zeta. masks v.
  rewrite !shl_mul by (try apply b_range; lia).
  rewrite !shr_mul by lia.
  unfold le_bytes. cbn [seq map rev app le_val fold_right].
  rewrite !byte_of_b.
  change (8 * Z.of_nat 0) with 0. change (8 * Z.of_nat 1) with 8.
  change (8 * Z.of_nat 2) with 16. change (8 * Z.of_nat 3) with 24.
  pose proof (b_range v 0). pose proof (b_range v 8).
  pose proof (b_range v 16). pose proof (b_range v 24).
  set (b0 := b_ v 0) in *. set (b1 := b_ v 8) in *.
  set (b2 := b_ v 16) in *. set (b3 := b_ v 24) in *.
  change (0 + 24) with 24. change (8 + 8) with 16. change (16 - 8) with 8.
  change (24 - 24) with 0.
  rewrite (lor_add b0 (b1 * 2 ^ 16) 24) by lia.
  replace (b0 * 2 ^ 24 + b1 * 2 ^ 16) with ((b0 * 256 + b1) * 2 ^ 16) by lia.
  rewrite (lor_add _ (b2 * 2 ^ 8) 16) by lia.
  replace ((b0 * 256 + b1) * 2 ^ 16 + b2 * 2 ^ 8)
    with (((b0 * 256 + b1) * 256 + b2) * 2 ^ 8) by lia.
  rewrite (lor_add _ (b3 * 2 ^ 0) 8) by lia. lia.
Qed.

Lemma reverse64_eq v : reverseBytes64 v = le_val (rev (le_bytes 8 v)).
Proof.
  unfold reverseBytes64. cbv zeta. masks v.
  rewrite !shl_mul by (try apply b_range; lia).
  rewrite !shr_mul by lia.
  unfold le_bytes. cbn [seq map rev app le_val fold_right].
  rewrite !byte_of_b.
  change (8 * Z.of_nat 0) with 0. change (8 * Z.of_nat 1) with 8.
  change (8 * Z.of_nat 2) with 16. change (8 * Z.of_nat 3) with 24.
  change (8 * Z.of_nat 4) with 32. change (8 * Z.of_nat 5) with 40.
  change (8 * Z.of_nat 6) with 48. change (8 * Z.of_nat 7) with 56.
  pose proof (b_range v 0). pose proof (b_range v 8).
  pose proof (b_range v 16). pose proof (b_range v 24).
  pose proof (b_range v 32). pose proof (b_range v 40).
  pose proof (b_range v 48). pose proof (b_range v 56).
  set (b0 := b_ v 0) in *. set (b1 := b_ v 8) in *.
  set (b2 := b_ v 16) in *. set (b3 := b_ v 24) in *.
  set (b4 := b_ v 32) in *. set (b5 := b_ v 40) in *.
  set (b6 := b_ v 48) in *. set (b7 := b_ v 56) in *.
  change (0 + 56) with 56. change (8 + 40) with 48. change (16 + 24) with 40.
  change (24 + 8) with 32. change (32 - 8) with 24. change (40 - 24) with 16.
  change (48 - 40) with 8. change (56 - 56) with 0.
  rewrite (lor_add b0 (b1 * 2 ^ 48) 56) by lia.
  replace (b0 * 2 ^ 56 + b1 * 2 ^ 48) with ((b0 * 256 + b1) * 2 ^ 48) by lia.
  set (c1 := b0 * 256 + b1) in *.
  rewrite (lor_add c1 (b2 * 2 ^ 40) 48) by lia.
  replace (c1 * 2 ^ 48 + b2 * 2 ^ 40) with ((c1 * 256 + b2) * 2 ^ 40) by lia.
  set (c2 := c1 * 256 + b2) in *.
  rewrite (lor_add c2 (b3 * 2 ^ 32) 40) by lia.
  replace (c2 * 2 ^ 40 + b3 * 2 ^ 32) with ((c2 * 256 + b3) * 2 ^ 32) by lia.
  set (c3 := c2 * 256 + b3) in *.
  rewrite (lor_add c3 (b4 * 2 ^ 24) 32) by lia.
  replace (c3 * 2 ^ 32 + b4 * 2 ^ 24) with ((c3 * 256 + b4) * 2 ^ 24) by lia.
  set (c4 := c3 * 256 + b4) in *.
  rewrite (lor_add c4 (b5 * 2 ^ 16) 24) by lia.
  replace (c4 * 2 ^ 24 + b5 * 2 ^ 16) with ((c4 * 256 + b5) * 2 ^ 16) by lia.
  set (c5 := c4 * 256 + b5) in *.
  rewrite (lor_add c5 (b6 * 2 ^ 8) 16) by lia.
  replace (c5 * 2 ^ 16 + b6 * 2 ^ 8) with ((c5 * 256 + b6) * 2 ^ 8) by lia.
  set (c6 := c5 * 256 + b6) in *.
  rewrite (lor_add c6 (b7 * 2 ^ 0) 8) by lia. lia.
Qed.

(** ** The conversion functions *)

Lemma reverseUnsigned_eq w v :
  0 <= v < 2 ^ bits w ->
  reverseUnsigned w v = le_val (rev (le_bytes (size_of w) v)).
Proof.
  intros H; destruct w; cbn [reverseUnsigned size_of bits] in *.
  - unfold reverseBytes8, le_bytes. cbn [seq map rev app le_val fold_right].
    rewrite byte_of_0, Z.mod_small by lia. lia.
  - apply reverse16_eq.
  - apply reverse32_eq.
  - apply reverse64_eq.
Qed.

Lemma bits_pow w : 2 ^ bits w = 256 ^ Z.of_nat (size_of w).
Proof. destruct w; reflexivity. Qed.

Lemma reverseUnsigned_bytes w v :
  0 <= v < 2 ^ bits w ->
  le_bytes (size_of w) (reverseUnsigned w v) = rev (le_bytes (size_of w) v).
Proof.
  intros H. rewrite reverseUnsigned_eq by auto.
  rewrite <- (le_bytes_length (size_of w) v) at 1.
  rewrite <- rev_length. apply le_bytes_le_val.
  apply Forall_rev. apply le_bytes_byte.
Qed.

Lemma reverseUnsigned_range w v :
  0 <= v < 2 ^ bits w -> 0 <= reverseUnsigned w v < 2 ^ bits w.
Proof.
  intros H. rewrite reverseUnsigned_eq, bits_pow by auto.
  rewrite <- (le_bytes_length (size_of w) v) at 3.
  rewrite <- rev_length. apply le_val_range. apply Forall_rev, le_bytes_byte.
Qed.

Lemma to_unsigned_range w v : 0 <= to_unsigned (bits w) v < 2 ^ bits w.
Proof. apply Z.mod_pos_bound. destruct w; reflexivity. Qed.

Lemma to_signed_range w v :
  - 2 ^ (bits w - 1) <= to_signed (bits w) v < 2 ^ (bits w - 1).
Proof.
  unfold to_signed. pose proof (to_unsigned_range w v) as H. unfold to_unsigned in H.
  destruct (Z.ltb_spec (v mod 2 ^ bits w) (2 ^ (bits w - 1))).
  - destruct w; cbn [bits] in *; lia.
  - destruct w; cbn [bits] in *; lia.
Qed.

Lemma to_signed_mod w v : to_signed (bits w) v mod 2 ^ bits w = v mod 2 ^ bits w.
Proof.
  unfold to_signed. destruct (_ <? _).
  - apply Z.mod_mod. destruct w; discriminate.
  - rewrite <- (Z.mod_add _ 1) by (destruct w; discriminate).
    rewrite Z.mul_1_l, Z.sub_add. apply Z.mod_mod. destruct w; discriminate.
Qed.

Lemma le_bytes_congr w v1 v2 :
  v1 mod 2 ^ bits w = v2 mod 2 ^ bits w ->
  le_bytes (size_of w) v1 = le_bytes (size_of w) v2.
Proof.
  intros H. rewrite bits_pow in H.
  rewrite <- (le_bytes_mod _ v1), <- (le_bytes_mod _ v2), H. reflexivity.
Qed.

Lemma reverseBytes_bytes t v :
  in_range t v ->
  le_bytes (size_of (it_width t)) (reverseBytes t v)
  = rev (le_bytes (size_of (it_width t)) v).
Proof.
  destruct t as [w s]; unfold in_range, reverseBytes; cbn [it_width it_signed].
  destruct s; intros H.
  - rewrite (le_bytes_congr _ _ (reverseUnsigned w (to_unsigned (bits w) v)))
      by apply to_signed_mod.
    rewrite reverseUnsigned_bytes by apply to_unsigned_range.
    f_equal. apply le_bytes_congr. unfold to_unsigned.
    apply Z.mod_mod. destruct w; discriminate.
  - apply reverseUnsigned_bytes; auto.
Qed.

Lemma reverseBytes_range t v : in_range t v -> in_range t (reverseBytes t v).
Proof.
  destruct t as [w s]; unfold in_range, reverseBytes; cbn [it_width it_signed].
  destruct s; intros H.
  - apply to_signed_range.
  - apply reverseUnsigned_range; auto.
Qed.

(** Values of a type are determined by their bytes. *)
Lemma in_range_congr t v1 v2 :
  in_range t v1 -> in_range t v2 ->
  v1 mod 2 ^ bits (it_width t) = v2 mod 2 ^ bits (it_width t) -> v1 = v2.
Proof.
  destruct t as [w s]; unfold in_range; cbn [it_width it_signed]. destruct s; intros H1 H2 E.
  - assert ((v1 + 2 ^ (bits w - 1)) mod 2 ^ bits w = (v2 + 2 ^ (bits w - 1)) mod 2 ^ bits w).
    { rewrite <- Zplus_mod_idemp_l, E, Zplus_mod_idemp_l. auto. }
    rewrite !Z.mod_small in H by (destruct w; cbn [bits] in *; lia). lia.
  - rewrite !Z.mod_small in E by auto. auto.
Qed.

Lemma bytes_mod_val w v :
  le_val (le_bytes (size_of w) v) = v mod 2 ^ bits w.
Proof.
  rewrite <- le_bytes_mod, <- bits_pow. apply le_val_le_bytes.
  rewrite <- bits_pow. apply to_unsigned_range.
Qed.

Lemma bytes_inj t v1 v2 :
  in_range t v1 -> in_range t v2 ->
  le_bytes (size_of (it_width t)) v1 = le_bytes (size_of (it_width t)) v2 -> v1 = v2.
Proof.
  intros H1 H2 E. apply (in_range_congr t); auto.
  rewrite <- !bytes_mod_val, E. reflexivity.
Qed.

Lemma ToNeedOrder_range c n t v : in_range t v -> in_range t (ToNeedOrder c n t v).
Proof. destruct c, n; cbn; auto using reverseBytes_range. Qed.

Lemma ToNeedOrder_bytes c n t v :
  in_range t v ->
  bytes_in c (size_of (it_width t)) (ToNeedOrder c n t v)
  = bytes_in n (size_of (it_width t)) v.
Proof.
  intros H. destruct c, n; cbn; auto; unfold be_bytes;
    rewrite reverseBytes_bytes by auto; rewrite ?rev_involutive; reflexivity.
Qed.

Lemma bytes_in_inj o t v1 v2 :
  in_range t v1 -> in_range t v2 ->
  bytes_in o (size_of (it_width t)) v1 = bytes_in o (size_of (it_width t)) v2 -> v1 = v2.
Proof.
  intros H1 H2 E. apply (bytes_inj t); auto. destruct o; cbn in E; auto.
  unfold be_bytes in E. rewrite <- (rev_involutive (le_bytes _ v1)), E.
  apply rev_involutive.
Qed.

Lemma reverseBytes_involutive t v :
  in_range t v -> reverseBytes t (reverseBytes t v) = v.
Proof.
  intros H. apply (bytes_inj t); auto using reverseBytes_range.
  rewrite !reverseBytes_bytes by auto using reverseBytes_range.
  apply rev_involutive.
Qed.

Lemma ToNeedOrder_back c n t v :
  in_range t v -> ToNeedOrder n c t (ToNeedOrder c n t v) = v.
Proof. intros H; destruct c, n; cbn; auto using reverseBytes_involutive. Qed.

Lemma CompileTime_agrees w v r :
  0 <= v < 2 ^ bits w ->
  CompileTimeReverseBytes w v = Some r -> r = reverseUnsigned w v.
Proof.
  intros H; destruct w; cbn; try discriminate; intros [= <-]; auto.
  cbn [bits] in H.
  unfold CompileTimeReverseBytes16, reverseBytes16. cbv zeta. f_equal. f_equal.
  unfold trunc. apply Z.mod_small. masks v.
  rewrite shr_mul by lia. pose proof (b_range v 8). lia.
Qed.
