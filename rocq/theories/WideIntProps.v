(** Properties C99 - C103 (wide integers). *)
From Coq Require Import ZArith List Lia Arith Bool.
From Verif Require Import Base BitsModel ByteOrderModel ByteOrderSpec ByteOrderProofs
  SerializationModel SerializationSpec SerializationProofs
  WideIntModel WideIntSpec WideIntProofs.
Import ListNotations.

Lemma count_bytes_multiple BITS :
  BITS mod 8 = 0 -> (256 ^ Z.of_nat (COUNT_BYTES BITS) = 2 ^ Z.of_nat BITS)%Z.
Proof.
  intros H. unfold COUNT_BYTES. rewrite H. cbn [Nat.eqb]. rewrite pow256. f_equal.
  pose proof (Nat.div_mod BITS 8). lia.
Qed.

Lemma reset_wide n d : wide n d -> wi_reset d = repeat 0%Z n.
Proof.
  intros [<- _]. induction d as [|b d IH]; [reflexivity|]. cbn. f_equal. exact IH.
Qed.

Lemma number_zeros n : number (repeat 0%Z n) = 0%Z.
Proof.
  induction n as [|n IH]; [reflexivity|].
  change (repeat 0%Z (S n)) with ([0%Z] ++ repeat 0%Z n). rewrite number_app, IH. reflexivity.
Qed.

Lemma wide_zeros n : wide n (repeat 0%Z n).
Proof.
  split; [apply repeat_length|]. apply Forall_forall. intros b B. apply repeat_spec in B. lia.
Qed.

(** What an assignment stores, for every operand and every size. *)
Lemma assign_ok host t n d v :
  wide n d -> in_range t v ->
  exists d', wi_assign host t d v = Ok d' /\ wide n d'
  /\ number d' = (v mod 256 ^ Z.of_nat (Nat.min n (size_of (it_width t))))%Z.
Proof.
  intros W R. unfold wi_assign. rewrite (reset_wide n d W), operatorInit_ok by auto.
  rewrite repeat_length. set (sz := size_of (it_width t)).
  eexists. split; [reflexivity|].
  assert (firstn (n - sz) (repeat 0%Z n) = repeat 0%Z (n - sz)) as ->.
  { rewrite firstn_repeat. f_equal. lia. }
  split.
  - replace n with ((n - sz) + Nat.min n sz) at 1 by lia.
    apply wide_app; [apply wide_zeros|apply be_bytes_wide].
  - rewrite number_app, number_zeros, number_be_bytes. lia.
Qed.

(** C99: assigning an integer to a wide integer of BITS bits stores its value modulo 2^BITS.
    Proved when BITS is a multiple of 8 and the integer is not negative or is at least as
    wide as the wide integer. *)
Theorem C99_assign_partial :
  forall (host : order) (BITS : nat) (d : list Z) (t : ity) (v : Z),
    BITS mod 8 = 0 ->
    wide (COUNT_BYTES BITS) d -> in_range t v ->
    (0 <= v)%Z \/ (Z.of_nat BITS <= bits (it_width t))%Z ->
    exists d',
      wi_assign host t d v = Ok d' /\ wide (COUNT_BYTES BITS) d'
      /\ number d' = (v mod 2 ^ Z.of_nat BITS)%Z.
Proof.
  intros host BITS d t v M W R C.
  destruct (assign_ok host t _ d v W R) as (d' & E & W' & N).
  exists d'. repeat split; try apply W'; auto. rewrite N.
  rewrite <- count_bytes_multiple by auto.
  set (n := COUNT_BYTES BITS) in *. set (sz := size_of (it_width t)).
  destruct (Nat.le_gt_cases n sz) as [H|H]; [rewrite Nat.min_l by lia; reflexivity|].
  rewrite Nat.min_r by lia.
  assert (0 <= v)%Z as P.
  { destruct C as [C|C]; auto. exfalso. revert H. unfold n, sz, COUNT_BYTES. rewrite M.
    cbn [Nat.eqb]. pose proof (Nat.div_mod BITS 8). 
    assert (bits (it_width t) = 8 * Z.of_nat (size_of (it_width t)))%Z
      by (destruct (it_width t); reflexivity). lia. }
  assert (v < 256 ^ Z.of_nat sz)%Z as B.
  { unfold sz. rewrite <- bits_pow. unfold in_range in R. destruct (it_signed t); [|lia].
    assert (2 ^ (bits (it_width t) - 1) <= 2 ^ bits (it_width t))%Z
      by (apply Z.pow_le_mono_r; lia). lia. }
  assert (256 ^ Z.of_nat sz <= 256 ^ Z.of_nat n)%Z by (apply Z.pow_le_mono_r; lia).
  rewrite !Z.mod_small by lia. reflexivity.
Qed.

Lemma pow_lt_256 a b : a < b -> (256 * 256 ^ Z.of_nat a <= 256 ^ Z.of_nat b)%Z.
Proof.
  intros H. rewrite <- Z.pow_succ_r by lia. apply Z.pow_le_mono_r; lia.
Qed.

(** C99, what every assignment stores, exactly: as many bytes of the integer as both have, the rest is
    zero. *)
Theorem C99_exact_partial :
  forall (host : order) (BITS : nat) (d : list Z) (t : ity) (v : Z),
    wide (COUNT_BYTES BITS) d -> in_range t v ->
    exists d',
      wi_assign host t d v = Ok d' /\ wide (COUNT_BYTES BITS) d'
      /\ number d' = (v mod 2 ^ (8 * Z.min (Z.of_nat (COUNT_BYTES BITS)) (bits (it_width t) / 8)))%Z.
Proof.
  intros host BITS d t v W R. destruct (assign_ok host t _ d v W R) as (d' & E & W' & N).
  exists d'. split; [exact E|]. split; [exact W'|]. rewrite N. f_equal.
  replace (bits (it_width t) / 8)%Z with (Z.of_nat (size_of (it_width t))) by (destruct (it_width t); reflexivity).
  rewrite <- Nat2Z.inj_min. rewrite Z.pow_mul_r by lia. reflexivity.
Qed.
(** -2 as a short in three bytes. *)
Example C99_exact_case :
  wide (COUNT_BYTES 24) [9; 9; 9]%Z /\ in_range (IT W16 true) (-2)%Z /\
  wi_assign LE (IT W16 true) [9; 9; 9]%Z (-2)%Z = Ok [0; 255; 254]%Z.
Proof. repeat split; try (cbn; lia); try (repeat constructor; cbn; lia); try reflexivity. Qed.

(** C99 is false for every negative integer assigned to a wider wide integer, signed or
    unsigned: the upper bytes are cleared, not filled with the sign. *)
Theorem C99_negative_refuted :
  forall (host : order) (BITS : nat) (d : list Z) (t : ity) (v : Z),
    wide (COUNT_BYTES BITS) d -> in_range t v -> (v < 0)%Z ->
    size_of (it_width t) < COUNT_BYTES BITS ->
    exists d',
      wi_assign host t d v = Ok d'
      /\ wide_value true d' = (v + 2 ^ bits (it_width t))%Z
      /\ wide_value false d' = (v + 2 ^ bits (it_width t))%Z
      /\ (number d' mod 256 ^ Z.of_nat (COUNT_BYTES BITS)
          <> v mod 256 ^ Z.of_nat (COUNT_BYTES BITS))%Z.
Proof.
  intros host BITS d t v W R Neg H.
  destruct (assign_ok host t _ d v W R) as (d' & E & W' & N).
  set (n := COUNT_BYTES BITS) in *.
  rewrite Nat.min_r, <- bits_pow in N by lia.
  pose proof (bits_pow (it_width t)) as BP.
  pose proof (pow_lt_256 _ _ H) as PL.
  assert (- 2 ^ bits (it_width t) <= v)%Z as LB.
  { unfold in_range in R. destruct (it_signed t); [|lia].
    assert (2 ^ (bits (it_width t) - 1) <= 2 ^ bits (it_width t))%Z
      by (apply Z.pow_le_mono_r; lia). lia. }
  assert (number d' = v + 2 ^ bits (it_width t))%Z as N'.
  { rewrite N. symmetry. apply Z.mod_unique with (-1)%Z; lia. }
  exists d'. split; [exact E|].
  assert (wide_value true d' = number d') as ->.
  { unfold wide_value. rewrite (proj1 W'). cbn [andb].
    destruct (Z.leb_spec (256 ^ Z.of_nat n) (2 * number d')); [lia|reflexivity]. }
  repeat split; auto. rewrite N'.
  rewrite (Z.mod_small (v + _)) by lia.
  assert (v mod 256 ^ Z.of_nat n = v + 256 ^ Z.of_nat n)%Z as ->.
  { symmetry. apply Z.mod_unique with (-1)%Z; lia. }
  lia.
Qed.

(** C99 is false for every BITS that is not a multiple of 8: values of up to the next
    multiple are stored unreduced. *)
Theorem C99_bits_refuted :
  forall (host : order) (BITS : nat) (d : list Z) (t : ity),
    BITS mod 8 <> 0 -> wide (COUNT_BYTES BITS) d ->
    it_signed t = false -> (Z.of_nat BITS < bits (it_width t))%Z ->
    in_range t (2 ^ Z.of_nat BITS)
    /\ exists d',
      wi_assign host t d (2 ^ Z.of_nat BITS) = Ok d'
      /\ number d' = (2 ^ Z.of_nat BITS)%Z
      /\ (2 ^ Z.of_nat BITS mod 2 ^ Z.of_nat BITS)%Z = 0%Z.
Proof.
  intros host BITS d t M W S B.
  assert (0 < 2 ^ Z.of_nat BITS)%Z by (apply Z.pow_pos_nonneg; lia).
  assert (2 ^ Z.of_nat BITS < 2 ^ bits (it_width t))%Z by (apply Z.pow_lt_mono_r; lia).
  assert (in_range t (2 ^ Z.of_nat BITS)) as R by (unfold in_range; rewrite S; lia).
  split; [exact R|].
  destruct (assign_ok host t _ d _ W R) as (d' & E & W' & N).
  exists d'. split; [exact E|]. split; [|apply Z.mod_same; lia].
  rewrite N. apply Z.mod_small. split; [lia|].
  rewrite pow256. apply Z.pow_lt_mono_r; [lia|lia|].
  unfold COUNT_BYTES. destruct (Nat.eqb_spec (BITS mod 8) 0); [contradiction|].
  pose proof (Nat.div_mod BITS 8). pose proof (Nat.mod_upper_bound BITS 8).
  assert (bits (it_width t) = 8 * Z.of_nat (size_of (it_width t)))%Z
    by (destruct (it_width t); reflexivity). lia.
Qed.

Example C99_case :
  wi_assign LE (IT W64 true) (repeat 7%Z 5) 0x0807060504030201%Z = Ok [5; 4; 3; 2; 1]%Z
  /\ COUNT_BYTES 40 = 5 /\ COUNT_BYTES 12 = 2
  /\ wi_assign BE (IT W16 false) (repeat 7%Z 5) 0x1020%Z = Ok [0; 0; 0; 0x10; 0x20]%Z
  /\ wi_assign LE (IT W32 true) (repeat 7%Z 5) (-1)%Z = Ok [0; 255; 255; 255; 255]%Z
  /\ wi_assign LE (IT W16 false) (repeat 0%Z 2) (2 ^ 12)%Z = Ok [16; 0]%Z.
Proof. repeat split; reflexivity. Qed.

(** C100: a wide integer constructed from an integer is equal to one the integer was
    assigned to. Proved when the integer is at least as wide as the wide integer. *)
Theorem C100_construct_partial :
  forall (host : order) (BITS : nat) (u d : list Z) (t : ity) (v : Z),
    wide (COUNT_BYTES BITS) u -> wide (COUNT_BYTES BITS) d -> in_range t v ->
    COUNT_BYTES BITS <= size_of (it_width t) ->
    wi_construct host t u v = wi_assign host t d v.
Proof.
  intros host BITS u d t v U W R H. unfold wi_construct, wi_assign.
  rewrite (reset_wide _ d W), !operatorInit_ok by auto.
  rewrite repeat_length, (proj1 U).
  replace (COUNT_BYTES BITS - size_of (it_width t)) with 0 by lia. reflexivity.
Qed.

(** C100 is false in every other case: the upper bytes are never written, so the number
    depends on what was in the memory; only the lower part is the value. *)
Theorem C100_uninitialised_refuted :
  forall (host : order) (BITS : nat) (t : ity) (v : Z),
    in_range t v -> size_of (it_width t) < COUNT_BYTES BITS ->
    (forall u, wide (COUNT_BYTES BITS) u ->
       exists d, wi_construct host t u v = Ok d /\ wide (COUNT_BYTES BITS) d
       /\ (number d mod 2 ^ bits (it_width t) = v mod 2 ^ bits (it_width t))%Z
       /\ firstn (COUNT_BYTES BITS - size_of (it_width t)) d
          = firstn (COUNT_BYTES BITS - size_of (it_width t)) u)
    /\ exists u1 u2 d1 d2,
         wide (COUNT_BYTES BITS) u1 /\ wide (COUNT_BYTES BITS) u2
         /\ wi_construct host t u1 v = Ok d1 /\ wi_construct host t u2 v = Ok d2
         /\ number d1 <> number d2.
Proof.
  intros host BITS t v R H. set (n := COUNT_BYTES BITS) in *. set (sz := size_of (it_width t)) in *.
  assert (forall u, wide n u -> wi_construct host t u v = Ok (firstn (n - sz) u ++ be_bytes sz v)) as C.
  { intros u U. unfold wi_construct. rewrite operatorInit_ok by auto. rewrite (proj1 U).
    fold sz. rewrite Nat.min_r by lia. reflexivity. }
  split.
  - intros u U. exists (firstn (n - sz) u ++ be_bytes sz v).
    destruct (wide_split n sz u U ltac:(lia)) as [U1 U2].
    split; [apply C; auto|]. split; [|split].
    + replace n with (n - sz + sz) at 1 by lia. apply wide_app; [exact U1|apply be_bytes_wide].
    + rewrite number_app, be_bytes_length, number_be_bytes, bits_pow. fold sz.
      rewrite Z.add_comm, Z.mod_add by (apply Z.pow_nonzero; lia).
      apply Z.mod_mod. apply Z.pow_nonzero; lia.
    + rewrite firstn_app, (proj1 U1), Nat.sub_diag. cbn [firstn]. rewrite app_nil_r.
      rewrite firstn_firstn, Nat.min_id. reflexivity.
  - exists (repeat 0%Z n), (repeat 1%Z n).
    assert (wide n (repeat 1%Z n)) as W1.
    { split; [apply repeat_length|]. apply Forall_forall. intros b B.
      apply repeat_spec in B. lia. }
    exists (firstn (n - sz) (repeat 0%Z n) ++ be_bytes sz v),
           (firstn (n - sz) (repeat 1%Z n) ++ be_bytes sz v).
    repeat split; try apply repeat_length; try apply W1; try apply wide_zeros;
      try (apply C; auto using wide_zeros).
    rewrite !number_app, !firstn_repeat, number_zeros.
    replace (Nat.min (n - sz) n) with (S (n - sz - 1)) by lia.
    assert (forall k, 0 <= number (repeat 1%Z k))%Z as P.
    { intros k. assert (wide k (repeat 1%Z k)) as Wk.
      { split; [apply repeat_length|]. apply Forall_forall. intros b B.
        apply repeat_spec in B. lia. }
      apply number_range in Wk. lia. }
    assert (0 < number (repeat 1%Z (S (n - sz - 1))))%Z as Q.
    { change (repeat 1%Z (S (n - sz - 1))) with ([1%Z] ++ repeat 1%Z (n - sz - 1)).
      rewrite number_app. change (number [1%Z]) with 1%Z. specialize (P (n - sz - 1)).
      assert (0 < 256 ^ Z.of_nat (length (repeat 1 (n - sz - 1))))%Z
        by (apply Z.pow_pos_nonneg; lia). lia. }
    assert (0 < 256 ^ Z.of_nat (length (be_bytes sz v)))%Z by (apply Z.pow_pos_nonneg; lia).
    nia.
Qed.

Example C100_case :
  wi_construct LE (IT W64 true) (repeat 7%Z 5) 0x0102030405060708%Z = Ok [4; 5; 6; 7; 8]%Z
  /\ wi_construct LE (IT W16 true) [171; 205; 239; 1; 2]%Z 5%Z = Ok [171; 205; 239; 0; 5]%Z.
Proof. split; reflexivity. Qed.

(** C101: converting an unsigned wide integer to any integer type gives the value of that
    type that is congruent to the number. Unsigned wide integers: no exception. *)
Theorem C101_convert_unsigned :
  forall (host : order) (t : ity) (n : nat) (d : list Z),
    wide n d -> wi_convert host t d = Ok (convert_to t (wide_value false d)).
Proof. intros host t n d W. rewrite (wi_convert_ok host t n d W). reflexivity. Qed.

Lemma convert_sign t n d :
  wide n d -> size_of (it_width t) <= n ->
  convert_to t (wide_value true d) = convert_to t (number d).
Proof.
  intros W H. apply convert_to_congr. unfold wide_value. cbn [andb]. rewrite (proj1 W).
  destruct (Z.leb_spec (256 ^ Z.of_nat n) (2 * number d)); [|reflexivity].
  rewrite bits_pow. replace n with (n - size_of (it_width t) + size_of (it_width t)) by lia.
  rewrite Nat2Z.inj_add, Z.pow_add_r by lia.
  rewrite <- Z.add_opp_r, <- Z.mul_opp_l. apply Z.mod_add. apply Z.pow_nonzero; lia.
Qed.

(** C101, signed wide integers: proved when the type is not wider than the wide integer, or
    the number is not negative. *)
Theorem C101_convert_signed_partial :
  forall (host : order) (t : ity) (n : nat) (d : list Z),
    wide n d -> size_of (it_width t) <= n \/ (0 <= wide_value true d)%Z ->
    wi_convert host t d = Ok (convert_to t (wide_value true d)).
Proof.
  intros host t n d W C. rewrite (wi_convert_ok host t n d W). f_equal. symmetry.
  destruct C as [C|C]; [apply (convert_sign t n); auto|].
  f_equal. revert C. unfold wide_value. cbn [andb]. rewrite (proj1 W).
  destruct (Z.leb_spec (256 ^ Z.of_nat n) (2 * number d)); [|reflexivity].
  pose proof (number_range n d W). lia.
Qed.

(** C101 is false for every negative wide integer and every wider type: the result is
    positive. *)
Theorem C101_negative_refuted :
  forall (host : order) (t : ity) (n : nat) (d : list Z),
    wide n d -> n < size_of (it_width t) -> (wide_value true d < 0)%Z ->
    exists r, wi_convert host t d = Ok r /\ (0 < r)%Z
    /\ r <> convert_to t (wide_value true d).
Proof.
  intros host t n d W H Neg. pose proof (number_range n d W) as NR.
  assert (wide_value true d = number d - 256 ^ Z.of_nat n)%Z as V.
  { revert Neg. unfold wide_value. cbn [andb]. rewrite (proj1 W).
    destruct (Z.leb_spec (256 ^ Z.of_nat n) (2 * number d)); [reflexivity|lia]. }
  exists (number d). rewrite (wi_convert_ok host t n d W).
  rewrite convert_to_id by (apply (small_in_range t _ n); auto).
  split; [reflexivity|]. split.
  - revert Neg. unfold wide_value. cbn [andb]. rewrite (proj1 W).
    destruct (Z.leb_spec (256 ^ Z.of_nat n) (2 * number d)); [|lia].
    assert (0 < 256 ^ Z.of_nat n)%Z by (apply Z.pow_pos_nonneg; lia). lia.
  - intros E. apply (f_equal (fun x => x mod 2 ^ bits (it_width t))%Z) in E.
    rewrite convert_to_mod, V in E. pose proof (pow_lt_256 _ _ H) as PL.
    rewrite <- bits_pow in PL.
    assert (0 < 256 ^ Z.of_nat n)%Z by (apply Z.pow_pos_nonneg; lia).
    rewrite Z.mod_small in E by lia.
    assert ((number d - 256 ^ Z.of_nat n) mod 2 ^ bits (it_width t)
            = number d - 256 ^ Z.of_nat n + 2 ^ bits (it_width t))%Z as E'.
    { symmetry. apply Z.mod_unique with (-1)%Z; lia. }
    lia.
Qed.

(** C101: an integer that was assigned to a wide integer at least as wide comes back
    unchanged, negative or not. *)
Theorem C101_round_trip :
  forall (host : order) (t : ity) (n : nat) (d : list Z) (v : Z),
    wide n d -> in_range t v -> size_of (it_width t) <= n ->
    exists d', wi_assign host t d v = Ok d' /\ wi_convert host t d' = Ok v.
Proof.
  intros host t n d v W R H. destruct (assign_ok host t n d v W R) as (d' & E & W' & N).
  exists d'. split; [exact E|]. rewrite (wi_convert_ok host t n d' W'). f_equal.
  transitivity (convert_to t v); [|apply convert_to_id; exact R]. apply convert_to_congr.
  rewrite N, Nat.min_r, <- bits_pow by lia. apply Z.mod_mod.
  destruct (it_width t); discriminate.
Qed.

Example C101_case :
  wi_convert LE (IT W64 true) [5; 4; 3; 2; 1]%Z = Ok 0x0504030201%Z
  /\ wi_convert LE (IT W16 true) [5; 4; 3; 255; 254]%Z = Ok (-2)%Z
  /\ wide_value true [255; 255; 255; 255; 254]%Z = (-2)%Z
  /\ wi_convert LE (IT W64 true) [255; 255; 255; 255; 254]%Z = Ok (2 ^ 40 - 2)%Z.
Proof. repeat split; reflexivity. Qed.

(** C102: ~x is the bitwise complement of x. The result is right for every x. *)
Theorem C102_complement_partial :
  forall (n : nat) (d : list Z),
    wide n d ->
    wide n (snd (wi_not d)) /\ (number (snd (wi_not d)) = 256 ^ Z.of_nat n - 1 - number d)%Z.
Proof. intros n d W. apply (number_not d n W). Qed.

(** C102, x is left unchanged: false for every x; evaluating ~x changes x to ~x. *)
Theorem C102_operand_refuted :
  forall (n : nat) (d : list Z),
    wide n d -> 0 < n ->
    number (fst (wi_not d)) = (256 ^ Z.of_nat n - 1 - number d)%Z /\ fst (wi_not d) <> d.
Proof.
  intros n d W H. destruct (number_not d n W) as [_ N]. split; [exact N|].
  cbn [wi_not fst]. intros E. rewrite E in N.
  assert (256 ^ Z.of_nat n = 2 * (128 * 256 ^ Z.of_nat (n - 1)))%Z.
  { replace n with (S (n - 1)) at 1 by lia. rewrite Nat2Z.inj_succ, Z.pow_succ_r by lia. ring. }
  lia.
Qed.

(** C102: complementing twice gives the original number back. *)
Theorem C102_twice :
  forall (n : nat) (d : list Z), wide n d -> snd (wi_not (snd (wi_not d))) = d.
Proof.
  intros n d W. destruct (number_not d n W) as [W1 N1].
  destruct (number_not _ n W1) as [W2 N2]. cbn [wi_not snd].
  rewrite <- (be_bytes_number n _ W2), N2, N1.
  replace (256 ^ Z.of_nat n - 1 - (256 ^ Z.of_nat n - 1 - number d))%Z with (number d) by ring.
  apply be_bytes_number. exact W.
Qed.

Example C102_case :
  wi_not [0; 1; 254]%Z = ([255; 254; 1]%Z, [255; 254; 1]%Z).
Proof. reflexivity. Qed.

(** C103: the binary operators, the compound assignments and ++ / -- compute modulo 2^BITS.
    What holds: they all leave the left operand as it is and give it back, so the result is
    right exactly when the mathematical result is congruent to the left operand. *)
Theorem C103_operators_partial :
  forall (op : wop) (n : nat) (d : list Z) (y : Z),
    wide n d ->
    fst (wi_binary op d y) = d
    /\ ((number (snd (wi_binary op d y)) mod 256 ^ Z.of_nat n
         = meaning op (number d) y mod 256 ^ Z.of_nat n)%Z
        <-> (meaning op (number d) y mod 256 ^ Z.of_nat n = number d)%Z)
    /\ ((number (wi_compound op d y) mod 256 ^ Z.of_nat n
         = meaning op (number d) y mod 256 ^ Z.of_nat n)%Z
        <-> (meaning op (number d) y mod 256 ^ Z.of_nat n = number d)%Z).
Proof.
  intros op n d y W. pose proof (number_range n d W).
  unfold wi_binary, wi_compound. cbn [fst snd]. rewrite (Z.mod_small (number d)) by lia.
  split; [reflexivity|]. split; split; intros E; symmetry; exact E.
Qed.

(** C103 is false: adding or subtracting anything that is not a multiple of 2^BITS, and
    incrementing or decrementing anything, gives a wrong result. *)
Theorem C103_addition_refuted :
  forall (n : nat) (d : list Z) (y : Z),
    wide n d -> (y mod 256 ^ Z.of_nat n <> 0)%Z ->
    (number (snd (wi_binary WAdd d y)) mod 256 ^ Z.of_nat n
     <> (number d + y) mod 256 ^ Z.of_nat n)%Z
    /\ (number (snd (wi_binary WSub d y)) mod 256 ^ Z.of_nat n
        <> (number d - y) mod 256 ^ Z.of_nat n)%Z
    /\ (number (wi_compound WAdd d y) mod 256 ^ Z.of_nat n
        <> (number d + y) mod 256 ^ Z.of_nat n)%Z
    /\ (number (wi_compound WSub d y) mod 256 ^ Z.of_nat n
        <> (number d - y) mod 256 ^ Z.of_nat n)%Z.
Proof.
  intros n d y W Y. unfold wi_binary, wi_compound. cbn [snd].
  assert (256 ^ Z.of_nat n <> 0)%Z as P by (apply Z.pow_nonzero; lia).
  assert ((number d mod 256 ^ Z.of_nat n <> (number d + y) mod 256 ^ Z.of_nat n)%Z) as A.
  { intros E. apply Y. apply (f_equal (fun a => (a - number d mod 256 ^ Z.of_nat n)
      mod 256 ^ Z.of_nat n)%Z) in E.
    rewrite Z.sub_diag, Z.mod_0_l in E by exact P.
    rewrite <- Zminus_mod in E. replace (number d + y - number d)%Z with y in E by ring.
    symmetry. exact E. }
  assert ((number d mod 256 ^ Z.of_nat n <> (number d - y) mod 256 ^ Z.of_nat n)%Z) as B.
  { intros E. apply Y. apply (f_equal (fun a => (number d mod 256 ^ Z.of_nat n - a)
      mod 256 ^ Z.of_nat n)%Z) in E.
    rewrite Z.sub_diag, Z.mod_0_l in E by exact P.
    rewrite <- Zminus_mod in E. replace (number d - (number d - y))%Z with y in E by ring.
    symmetry. exact E. }
  auto.
Qed.

Theorem C103_increment_refuted :
  forall (n : nat) (d : list Z),
    wide n d -> 0 < n ->
    (number (wi_increment d) mod 256 ^ Z.of_nat n <> (number d + 1) mod 256 ^ Z.of_nat n)%Z
    /\ (number (wi_decrement d) mod 256 ^ Z.of_nat n <> (number d - 1) mod 256 ^ Z.of_nat n)%Z.
Proof.
  intros n d W H.
  destruct (C103_addition_refuted n d 1 W) as (A & B & _).
  - rewrite Z.mod_small; [lia|]. split; [lia|]. pose proof (pow_lt_256 0 n H). cbn in *. lia.
  - cbn [wi_binary snd] in A, B. auto.
Qed.

(** C103 is false: shifting a number out, masking with 0 and multiplying by 0 give a wrong
    result for every number other than 0. *)
Theorem C103_zero_refuted :
  forall (n : nat) (d : list Z),
    wide n d -> number d <> 0%Z ->
    meaning WAnd (number d) 0 = 0%Z /\ meaning WMul (number d) 0 = 0%Z
    /\ meaning WShr (number d) (8 * Z.of_nat n) = 0%Z
    /\ (meaning WShl (number d) (8 * Z.of_nat n) mod 256 ^ Z.of_nat n = 0)%Z
    /\ forall op y, number (snd (wi_binary op d y)) <> 0%Z /\ number (wi_compound op d y) <> 0%Z.
Proof.
  intros n d W N. pose proof (number_range n d W) as R. cbn [meaning].
  rewrite <- pow256. repeat split; auto.
  - apply Z.land_0_r.
  - apply Z.mul_0_r.
  - apply Z.div_small. exact R.
  - apply Z.mod_mul. apply Z.pow_nonzero; lia.
Qed.

Example C103_case :
  wide 2 [1; 2]%Z /\ snd (wi_binary WAdd [1; 2]%Z 5) = [1; 2]%Z
  /\ meaning WAdd (number [1; 2]%Z) 5 = 263%Z /\ number [1; 2]%Z = 258%Z.
Proof. repeat split; repeat constructor; lia. Qed.

Print Assumptions C99_assign_partial.
Print Assumptions C99_exact_partial.
Print Assumptions C99_negative_refuted.
Print Assumptions C99_bits_refuted.
Print Assumptions C100_construct_partial.
Print Assumptions C100_uninitialised_refuted.
Print Assumptions C101_convert_unsigned.
Print Assumptions C101_convert_signed_partial.
Print Assumptions C101_negative_refuted.
Print Assumptions C101_round_trip.
Print Assumptions C102_complement_partial.
Print Assumptions C102_operand_refuted.
Print Assumptions C102_twice.
Print Assumptions C103_operators_partial.
Print Assumptions C103_addition_refuted.
Print Assumptions C103_increment_refuted.
Print Assumptions C103_zero_refuted.
