(** Lemmas for WideIntProps.v *)
From Coq Require Import ZArith List Lia Arith Bool.
From Verif Require Import Base BitsModel ByteOrderModel ByteOrderSpec ByteOrderProofs
  SerializationModel SerializationSpec SerializationProofs SerializationProps
  WideIntModel WideIntSpec.
Import ListNotations.

Lemma number_acc d : forall a,
  fold_left (fun a b => a * 256 + b)%Z d a = (a * 256 ^ Z.of_nat (length d) + number d)%Z.
Proof.
  induction d as [|b d IH]; intros a; [cbn; lia|].
  unfold number. cbn [fold_left length]. rewrite !IH.
  rewrite Nat2Z.inj_succ, Z.pow_succ_r by lia. ring.
Qed.

Lemma number_app d1 d2 :
  number (d1 ++ d2) = (number d1 * 256 ^ Z.of_nat (length d2) + number d2)%Z.
Proof. unfold number at 1. rewrite fold_left_app, number_acc. reflexivity. Qed.

Lemma number_rev d : number (rev d) = le_val d.
Proof.
  induction d as [|b d IH]; [reflexivity|].
  cbn [rev]. rewrite number_app, IH. cbn [length]. unfold number. cbn [fold_left le_val fold_right].
  fold (le_val d). change (256 ^ Z.of_nat 1)%Z with 256%Z. lia.
Qed.

Lemma number_le_val d : number d = le_val (rev d).
Proof. rewrite <- number_rev, rev_involutive. reflexivity. Qed.

Lemma number_range n d : wide n d -> (0 <= number d < 256 ^ Z.of_nat n)%Z.
Proof.
  intros [L F]. rewrite number_le_val, <- L, <- rev_length. apply le_val_range.
  apply Forall_rev. exact F.
Qed.

Lemma number_be_bytes n v : number (be_bytes n v) = (v mod 256 ^ Z.of_nat n)%Z.
Proof.
  unfold be_bytes. rewrite number_rev, <- le_bytes_mod. apply le_val_le_bytes.
  apply Z.mod_pos_bound. apply Z.pow_pos_nonneg; lia.
Qed.

Lemma be_bytes_number n d : wide n d -> be_bytes n (number d) = d.
Proof.
  intros [L F]. unfold be_bytes. rewrite number_le_val.
  rewrite <- L, <- rev_length, le_bytes_le_val by (apply Forall_rev; exact F).
  apply rev_involutive.
Qed.

Lemma be_bytes_length n v : length (be_bytes n v) = n.
Proof. unfold be_bytes. rewrite rev_length. apply le_bytes_length. Qed.

Lemma be_bytes_wide n v : wide n (be_bytes n v).
Proof.
  split; [apply be_bytes_length|]. unfold be_bytes. apply Forall_rev. apply le_bytes_byte.
Qed.

Lemma wide_app n1 n2 d1 d2 : wide n1 d1 -> wide n2 d2 -> wide (n1 + n2) (d1 ++ d2).
Proof. intros [L1 F1] [L2 F2]. split; [rewrite app_length; lia|apply Forall_app; auto]. Qed.

Lemma wide_split n k d : wide n d -> k <= n -> wide (n - k) (firstn (n - k) d) /\ wide k (skipn (n - k) d).
Proof.
  intros [L F] H. rewrite <- (firstn_skipn (n - k) d) in F. apply Forall_app in F as [F1 F2].
  repeat split; auto; [rewrite firstn_length|rewrite skipn_length]; lia.
Qed.

Lemma le_bytes_app a b v : le_bytes (a + b) v = le_bytes a v ++ le_bytes b (v / 256 ^ Z.of_nat a).
Proof.
  revert v. induction a as [|a IH]; intros v.
  - cbn [Nat.add]. cbn [Z.of_nat]. rewrite Z.pow_0_r, Z.div_1_r. reflexivity.
  - cbn [Nat.add]. rewrite !le_bytes_S, IH. cbn [app]. do 2 f_equal.
    f_equal. rewrite Z.div_div by (try apply Z.pow_pos_nonneg; lia). f_equal.
    rewrite Nat2Z.inj_succ, Z.pow_succ_r by lia. reflexivity.
Qed.

Lemma significant_low sz n v :
  n <= sz -> significant BE sz n (sz - n) v = be_bytes n v.
Proof.
  intros H. unfold significant, be_bytes.
  replace sz with (n + (sz - n)) at 2 by lia.
  rewrite le_bytes_app, rev_app_distr.
  rewrite skipn_app_exact by (rewrite rev_length, le_bytes_length; reflexivity).
  apply firstn_all2. rewrite rev_length, le_bytes_length. lia.
Qed.

Lemma make_same host t v size off :
  makeSpecializedValue host host t v size off = SV (mem_of host t v) size off.
Proof. unfold makeSpecializedValue. destruct host; reflexivity. Qed.

(** The array after initialisation: the bytes of the value at the end, as many as fit; the
    other bytes keep their contents. *)
Lemma operatorInit_ok host t array v :
  in_range t v ->
  operatorInit host t array v
  = Ok (firstn (length array - size_of (it_width t)) array
        ++ be_bytes (Nat.min (length array) (size_of (it_width t))) v).
Proof.
  intros R. unfold operatorInit, VALUE_INIT_SIZE, SERIALIZER_OFFSET, VALUE_OFFSET.
  set (n := length array). set (sz := size_of (it_width t)).
  rewrite <- make_same.
  destruct (Nat.leb_spec sz n) as [H|H].
  - cbn [Nat.eqb]. rewrite serialize_sv_ok; cbn [s_data s_offset]; fold sz; try lia; auto.
    cbn [bind]. rewrite Nat.min_r by lia. cbn [s_data].
    replace 0 with (sz - sz) at 1 by lia. rewrite significant_low by lia.
    replace (n - sz + sz) with n by lia. unfold n. rewrite skipn_all, app_nil_r. reflexivity.
  - replace (Nat.eqb (sz - n) 0) with false by (symmetry; apply Nat.eqb_neq; lia).
    rewrite serialize_sv_ok; cbn [s_data s_offset]; fold sz; try lia; auto.
    cbn [bind s_data]. rewrite Nat.min_l by lia. rewrite significant_low by lia.
    cbn [firstn Nat.add]. unfold n. rewrite skipn_all, app_nil_r.
    replace (length array - sz) with 0 by (unfold n in *; lia). reflexivity.
Qed.

Lemma convert_to_range t x : in_range t (convert_to t x).
Proof.
  unfold in_range, convert_to. destruct (it_signed t); [apply to_signed_range|apply to_unsigned_range].
Qed.

Lemma convert_to_mod t x :
  (convert_to t x mod 2 ^ bits (it_width t) = x mod 2 ^ bits (it_width t))%Z.
Proof.
  unfold convert_to. destruct (it_signed t); [apply to_signed_mod|].
  unfold to_unsigned. apply Z.mod_mod. destruct (it_width t); discriminate.
Qed.

Lemma convert_to_id t v : in_range t v -> convert_to t v = v.
Proof.
  intros R. apply (in_range_congr t); auto using convert_to_range, convert_to_mod.
Qed.

Lemma convert_to_congr t x y :
  (x mod 2 ^ bits (it_width t) = y mod 2 ^ bits (it_width t))%Z -> convert_to t x = convert_to t y.
Proof.
  intros E. apply (in_range_congr t); auto using convert_to_range.
  rewrite !convert_to_mod. exact E.
Qed.

Lemma as_type_id t v : in_range t v -> as_type t v = v.
Proof.
  intros R. pose proof (convert_to_id t v R) as E. unfold convert_to in E. unfold as_type.
  destruct (it_signed t); auto.
Qed.

Lemma sv_value_same host t mem size off :
  sv_value host host t (SV mem size off) = val_of host t mem.
Proof. unfold sv_value. destruct host; reflexivity. Qed.

Lemma small_in_range t v n :
  (0 <= v < 256 ^ Z.of_nat n)%Z -> n < size_of (it_width t) -> in_range t v.
Proof.
  intros R H.
  assert (256 ^ Z.of_nat n <= 2 ^ (bits (it_width t) - 1))%Z as B.
  { replace (256 ^ Z.of_nat n)%Z with (2 ^ (8 * Z.of_nat n))%Z by (symmetry; apply pow256).
    apply Z.pow_le_mono_r; [lia|]. destruct (it_width t); cbn [size_of] in H; cbn [bits]; lia. }
  assert (2 ^ (bits (it_width t) - 1) <= 2 ^ bits (it_width t))%Z
    by (apply Z.pow_le_mono_r; lia).
  assert (0 < 2 ^ (bits (it_width t) - 1))%Z
    by (apply Z.pow_pos_nonneg; destruct (it_width t); cbn; lia).
  unfold in_range. destruct (it_signed t); lia.
Qed.

Lemma wi_convert_ok host t n d :
  wide n d -> wi_convert host t d = Ok (convert_to t (number d)).
Proof.
  intros W. unfold wi_convert, VALUE_INIT_SIZE, SERIALIZER_OFFSET, VALUE_OFFSET.
  pose proof (proj1 W) as L. rewrite L. set (sz := size_of (it_width t)).
  destruct (Nat.leb_spec sz n) as [H|H].
  - cbn [Nat.eqb]. destruct (wide_split n sz d W H) as [W1 W2].
    set (pre := firstn (n - sz) d) in *. set (low := skipn (n - sz) d) in *.
    set (v := convert_to t (number low)).
    assert (low = significant BE sz sz 0 v) as E.
    { replace 0 with (sz - sz) by lia. rewrite significant_low by lia.
      rewrite <- (be_bytes_number sz low W2). unfold be_bytes. f_equal.
      unfold sz, v. apply le_bytes_congr. symmetry. apply convert_to_mod. }
    pose proof (deserialize_sv_ok host BE host t v sz 0 pre [] d) as D.
    unfold sz in D at 1 2. rewrite Nat.add_0_r in D. fold sz in D.
    rewrite (proj1 W1) in D.
    change (makeSpecializedValueEmpty host t sz 0) with (SV (mem_of host t 0) sz 0) in D.
    rewrite D; [|apply convert_to_range|lia|]; clear D.
    2: { fold sz. rewrite app_nil_r. rewrite <- E. unfold pre, low. symmetry. apply firstn_skipn. }
    cbn [bind sv_mem]. f_equal. rewrite <- (sv_value_same host t _ sz 0).
    unfold sz. rewrite sv_value_blank; [|apply convert_to_range|lia].
    rewrite C05_full_selection by apply convert_to_range.
    unfold v. apply convert_to_congr. unfold pre, low.
    rewrite <- (firstn_skipn (n - sz) d) at 2. fold pre low. rewrite number_app, (proj1 W2).
    rewrite bits_pow. fold sz. rewrite Z.add_comm, Z.mod_add; auto.
    apply Z.pow_nonzero; lia.
  - replace (Nat.eqb (sz - n) 0) with false by (symmetry; apply Nat.eqb_neq; lia).
    pose proof (number_range n d W) as NR.
    pose proof (small_in_range t (number d) n NR H) as R.
    pose proof (deserialize_sv_ok host BE host t (number d) n (sz - n) [] [] d R) as D.
    change (makeSpecializedValueEmpty host t n (sz - n))
      with (SV (mem_of host t 0) n (sz - n)) in D.
    cbn [length app] in D. rewrite D; fold sz; try lia.
    2: { rewrite app_nil_r, significant_low by lia. symmetry. apply be_bytes_number; auto. }
    cbn [bind sv_mem]. f_equal. rewrite <- (sv_value_same host t _ n (sz - n)).
    unfold sz. rewrite sv_value_blank; [|exact R|fold sz; lia]. fold sz.
    unfold select. replace (sz - (sz - n) - n) with 0 by lia. cbn [Z.of_nat].
    rewrite Z.pow_0_r, Z.div_1_r, Z.mul_1_r, Z.mod_small by lia.
    rewrite as_type_id, convert_to_id; auto.
Qed.

Lemma number_not d n :
  wide n d -> wide n (operatorBitwiseNegation d)
  /\ (number (operatorBitwiseNegation d) = 256 ^ Z.of_nat n - 1 - number d)%Z.
Proof.
  intros [<- F]. split.
  - split; [apply map_length|]. unfold operatorBitwiseNegation. apply Forall_forall. intros b B.
    apply in_map_iff in B as (x & <- & _). apply Z.mod_pos_bound. lia.
  - induction F as [|b d B F IH] using Forall_ind; [reflexivity|].
    change (b :: d) with ([b] ++ d). unfold operatorBitwiseNegation. rewrite map_app.
    fold (operatorBitwiseNegation d). rewrite !number_app, IH.
    unfold operatorBitwiseNegation. rewrite map_length. cbn [map app length].
    rewrite Nat2Z.inj_succ, Z.pow_succ_r by lia.
    assert (forall x, number [x] = x) as N1 by (intros; unfold number; cbn; lia).
    rewrite !N1.
    assert (Z.lnot b mod 256 = 255 - b)%Z as ->.
    { unfold Z.lnot. rewrite <- Z.sub_1_r. symmetry. apply Z.mod_unique with (-1)%Z; lia. }
    ring.
Qed.
