(** C77-C79: reading and writing ranges through a file descriptor. *)
From Coq Require Import List Arith ZArith Lia Bool.
From Verif Require Import Base BaseLemmas StreamModel StreamSpec StreamProofs
  FileIoModel FileIoSpec FileIoProofs.
Import ListNotations.

Ltac ltb_true := match goal with |- context [?a <? ?b] =>
  replace (a <? b) with true by (symmetry; apply Nat.ltb_lt; lia) end.
Ltac ltb_false := match goal with |- context [?a <? ?b] =>
  replace (a <? b) with false by (symmetry; apply Nat.ltb_ge; lia) end.

(** * C77: reading *)

(** Linear ranges: right for every file, every range and every answer of the system. *)
Theorem C77_linear_partial : forall f m b e, b <= e <= length m ->
  exists f' m' count, file_read f m (Linear b e) = Ok (f', m', count)
    /\ read_right f m (Linear b e) f' m' count.
Proof.
  intros f m b e [H1 H2]. cbn [file_read]. rewrite fr_linear_ok by auto.
  destruct (Nat.ltb_spec b e) as [Hlt|Hge].
  - rewrite sys_read_ok by lia. do 3 eexists. split; [reflexivity|].
    set (n := e - b). set (a := fst (next_answer f n)).
    unfold read_right. cbn [f_output f_input]. split; [reflexivity|].
    destruct a as [|k]; cbn [got result put_some].
    + split; [lia|]. intros _. cbn [skipn firstn]. split; auto. apply put_nil.
    + split; [|lia]. intros _.
      set (j := Nat.min (Nat.min k n) (length (f_input f))).
      exists (firstn j (f_input f)). rewrite firstn_skipn. split; auto.
      rewrite firstn_length. split; [subst j; lia|]. cbn [places]. rewrite seq_length.
      split; [subst j n; lia|]. apply (put_filled m (Linear b e)). cbn. lia.
  - do 3 eexists. split; [reflexivity|]. unfold read_right. repeat split; auto; lia.
Qed.

Lemma circular_read f m b e : b < length m ->
  file_read f m (Circular b e) =
  (let! r := fr_linear f m b (length m) in
   let '(f, m, c0) := r in
   if negb (c0 =? INVALID_COUNT_BYTES)%Z then
     let! r := fr_linear f m 0 e in
     let '(f, m, c1) := r in
     if (c1 <? 0)%Z then Ok (f, m, c1) else Ok (f, m, (c0 + c1)%Z)
   else Ok (f, m, (c0 + INVALID_COUNT_BYTES)%Z)).
Proof. intros H. cbn [file_read]. unfold fr_circular. rewrite ranges_ok by auto. reflexivity. Qed.

(** Circular ranges: right when the range wraps, does not end exactly at the end of the ring,
    the first part is filled completely, and neither of the two system calls fails. *)
Theorem C77_wrapping_partial : forall input output k0 k1 l m b e,
  0 < e -> e < b -> b < length m -> length m - b <= k0 -> length m - b <= length input ->
  let f := File input output (AtMost k0 :: AtMost k1 :: l) in
  exists f' m' count, file_read f m (Circular b e) = Ok (f', m', count)
    /\ read_right f m (Circular b e) f' m' count
    /\ count = Z.of_nat (length m - b + Nat.min (Nat.min k1 e) (length input - (length m - b))).
Proof.
  intros input output k0 k1 l m b e He Heb Hb Hk0 Hin. set (n := length m) in *.
  cbv zeta. rewrite circular_read by auto. fold n. rewrite fr_linear_ok by lia. ltb_true.
  rewrite sys_read_ok by lia. unfold next_answer. cbn [f_answers fst snd f_input f_output got put_some result bind].
  replace (Nat.min (Nat.min k0 (n - b)) (length input)) with (n - b) by lia.
  set (m1 := put (seq b (n - b)) (firstn (n - b) input) m).
  assert (L1 : length m1 = n) by apply put_length.
  destruct (Z.eqb_spec (Z.of_nat (n - b)) INVALID_COUNT_BYTES) as [E|_];
    [unfold INVALID_COUNT_BYTES in E; lia|]. cbn [negb].
  rewrite fr_linear_ok by lia. ltb_true. rewrite sys_read_ok by lia.
  unfold next_answer. cbn [f_answers fst snd f_input f_output got put_some result bind].
  rewrite skipn_length, Nat.sub_0_r.
  set (k := Nat.min (Nat.min k1 e) (length input - (n - b))).
  destruct (Z.ltb_spec (Z.of_nat k) 0); [lia|].
  do 3 eexists. split; [reflexivity|]. split; [|lia].
  unfold read_right. cbn [f_output f_input]. split; auto. split; [|lia]. intros _.
  exists (firstn (n - b) input ++ firstn k (skipn (n - b) input)).
  rewrite <- app_assoc, firstn_skipn, firstn_skipn. split; auto.
  rewrite app_length, !firstn_length, skipn_length.
  split; [subst k; lia|]. rewrite wrap_places by lia. rewrite app_length, !seq_length.
  split; [subst k n; lia|].
  unfold m1. rewrite <- put_app by (rewrite firstn_length, seq_length; lia).
  fold n. rewrite <- wrap_places by lia. apply put_filled. cbn. lia.
Qed.

(** A range that ends exactly at the end of the ring: the read reports -1 although it has
    taken bytes from the file. *)
Theorem C77_end_of_ring_refuted : forall x input output m b, 0 < b -> b < length m ->
  let f := File (x :: input) output [] in
  exists f' m', file_read f m (Circular b 0) = Ok (f', m', (-1)%Z)
    /\ f_input f' <> f_input f /\ ~ read_right f m (Circular b 0) f' m' (-1).
Proof.
  intros x input output m b H0 Hb. set (n := length m) in *.
  cbv zeta. rewrite circular_read by auto. fold n. rewrite fr_linear_ok by lia. ltb_true.
  rewrite sys_read_ok by lia. unfold next_answer. cbn [f_answers fst snd f_input f_output got put_some result bind].
  rewrite Nat.min_id. set (k := Nat.min (n - b) (length (x :: input))).
  assert (Hk : 0 < k) by (subst k; cbn [length]; lia).
  destruct (Z.eqb_spec (Z.of_nat k) INVALID_COUNT_BYTES) as [E|_];
    [unfold INVALID_COUNT_BYTES in E; lia|]. cbn [negb].
  unfold fr_linear. cbn [Z.of_nat Z.sub Z.gtb Z.compare Z.opp Z.add bind].
  do 2 eexists. split; [reflexivity|].
  assert (N : skipn k (x :: input) <> x :: input).
  { intros E. apply (f_equal (@length Z)) in E. rewrite skipn_length in E. cbn [length] in *. lia. }
  cbn [f_input]. split; auto. intros (_ & _ & R). destruct R as [R _]; [lia|]. auto.
Qed.

(** The first system call transfers less than asked for: the bytes of the second one do not
    follow those of the first. *)
Theorem C77_short_refuted : forall input output k0 k1 l m b e y,
  e < b -> b < length m -> 0 < k0 -> k0 < length m - b -> 0 < k1 -> 0 < e ->
  nth_error input k0 = Some y -> nth_error m (b + k0) <> Some y ->
  let f := File input output (AtMost k0 :: AtMost k1 :: l) in
  exists f' m' count, file_read f m (Circular b e) = Ok (f', m', count)
    /\ ~ read_right f m (Circular b e) f' m' count.
Proof.
  intros input output k0 k1 l m b e y Heb Hb Hk0 Hk0' Hk1 He Hy Hm. set (n := length m) in *.
  assert (Hin : k0 < length input) by (apply nth_error_Some; congruence).
  cbv zeta. rewrite circular_read by auto. fold n. rewrite fr_linear_ok by lia. ltb_true.
  rewrite sys_read_ok by lia. unfold next_answer. cbn [f_answers fst snd f_input f_output got put_some result bind].
  replace (Nat.min (Nat.min k0 (n - b)) (length input)) with k0 by lia.
  set (m1 := put (seq b (n - b)) (firstn k0 input) m).
  assert (L1 : length m1 = n) by apply put_length.
  destruct (Z.eqb_spec (Z.of_nat k0) INVALID_COUNT_BYTES) as [E|_];
    [unfold INVALID_COUNT_BYTES in E; lia|]. cbn [negb].
  rewrite fr_linear_ok by lia. ltb_true. rewrite sys_read_ok by lia.
  unfold next_answer. cbn [f_answers fst snd f_input f_output got put_some result bind].
  rewrite skipn_length, Nat.sub_0_r.
  set (k := Nat.min (Nat.min k1 e) (length input - k0)).
  assert (Hk : 0 < k) by (subst k; lia).
  destruct (Z.ltb_spec (Z.of_nat k) 0); [lia|].
  do 3 eexists. split; [reflexivity|].
  intros (_ & R & _). destruct R as (xs & E & L & _ & (_ & F & _)); [lia|].
  cbn [f_input] in E. fold n in F.
  assert (P : nth_error (places n (Circular b e)) k0 = Some (b + k0)).
  { rewrite wrap_places by lia. rewrite nth_error_app1 by (rewrite seq_length; lia).
    rewrite (nth_error_nth' _ 0) by (rewrite seq_length; lia). rewrite seq_nth by lia. auto. }
  assert (X : nth_error xs k0 = Some y).
  { rewrite E in Hy. rewrite nth_error_app1 in Hy by lia. exact Hy. }
  specialize (F _ _ _ P X). apply Hm. rewrite <- F.
  rewrite put_other.
  2:{ intros K. apply (firstn_In_seq 0) in K. rewrite firstn_length in K. subst k. lia. }
  unfold m1. rewrite put_other; auto.
  intros K. rewrite firstn_length, Nat.min_l in K by lia.
  apply firstn_In_seq in K. lia.
Qed.

(** The second system call fails: the read reports -1 and the bytes of the first are lost. *)
Theorem C77_second_fails_refuted : forall x input output k0 l m b e,
  0 < e -> e < b -> b < length m -> 0 < k0 ->
  let f := File (x :: input) output (AtMost k0 :: Fails :: l) in
  exists f' m', file_read f m (Circular b e) = Ok (f', m', (-1)%Z)
    /\ f_input f' <> f_input f /\ ~ read_right f m (Circular b e) f' m' (-1).
Proof.
  intros x input output k0 l m b e He Heb Hb Hk0. set (n := length m) in *.
  cbv zeta. rewrite circular_read by auto. fold n. rewrite fr_linear_ok by lia. ltb_true.
  rewrite sys_read_ok by lia. unfold next_answer. cbn [f_answers fst snd f_input f_output got put_some result bind].
  set (k := Nat.min (Nat.min k0 (n - b)) (length (x :: input))).
  assert (Hk : 0 < k) by (subst k; cbn [length]; lia).
  set (m1 := put (seq b (n - b)) (firstn k (x :: input)) m).
  assert (L1 : length m1 = n) by apply put_length.
  destruct (Z.eqb_spec (Z.of_nat k) INVALID_COUNT_BYTES) as [E|_];
    [unfold INVALID_COUNT_BYTES in E; lia|]. cbn [negb].
  rewrite fr_linear_ok by lia. ltb_true. rewrite sys_read_ok by lia.
  unfold next_answer. cbn [f_answers fst snd f_input f_output got put_some result bind].
  replace (-1 <? 0)%Z with true by reflexivity.
  do 2 eexists. split; [reflexivity|]. cbn [f_input].
  assert (N : skipn 0 (skipn k (x :: input)) <> x :: input).
  { intros E. apply (f_equal (@length Z)) in E. cbn [skipn] in E. rewrite skipn_length in E.
    cbn [length] in *. lia. }
  split; auto. intros (_ & _ & R). destruct R as [R _]; [lia|]. auto.
Qed.

(** A range that does not wrap: bytes outside of it are overwritten. *)
Theorem C77_not_wrapping_refuted : forall input output m b e y,
  b <= e -> e < length m ->
  nth_error input (length m - 1 - b) = Some y -> nth_error m (length m - 1) <> Some y ->
  let f := File input output [AtMost (length m); AtMost 0] in
  exists f' m' count, file_read f m (Circular b e) = Ok (f', m', count)
    /\ ~ In (length m - 1) (places (length m) (Circular b e))
    /\ nth_error m' (length m - 1) <> nth_error m (length m - 1)
    /\ ~ read_right f m (Circular b e) f' m' count.
Proof.
  intros input output m b e y Hbe He Hy Hm. set (n := length m) in *.
  assert (Hin : n - 1 - b < length input) by (apply nth_error_Some; congruence).
  assert (NI : ~ In (n - 1) (places n (Circular b e))).
  { rewrite circular_places by lia. rewrite gap by lia. destruct (Nat.leb_spec b e); [|lia].
    intros K. apply in_map_iff in K as (i & E & Hi). apply in_seq in Hi.
    unfold CircularArrayProofs.ix in E. destruct (Nat.ltb_spec (b + i) n); lia. }
  cbv zeta. rewrite circular_read by (fold n; lia). fold n. rewrite fr_linear_ok by lia. ltb_true.
  rewrite sys_read_ok by lia. unfold next_answer. cbn [f_answers fst snd f_input f_output got put_some result bind].
  replace (Nat.min (Nat.min n (n - b)) (length input)) with (n - b) by lia.
  set (m1 := put (seq b (n - b)) (firstn (n - b) input) m).
  assert (L1 : length m1 = n) by apply put_length.
  assert (M1 : nth_error m1 (n - 1) = Some y).
  { unfold m1. apply (put_at _ _ _ (n - 1 - b)).
    - apply seq_NoDup.
    - intros p Hp. apply in_seq in Hp. fold n. lia.
    - rewrite (nth_error_nth' _ 0) by (rewrite seq_length; lia). rewrite seq_nth by lia. f_equal. lia.
    - rewrite nth_error_firstn' by lia. exact Hy. }
  destruct (Z.eqb_spec (Z.of_nat (n - b)) INVALID_COUNT_BYTES) as [E|_];
    [unfold INVALID_COUNT_BYTES in E; lia|]. cbn [negb].
  assert (W : forall f' m' c, nth_error m' (n - 1) = Some y ->
    ~ In (n - 1) (places n (Circular b e))
    /\ nth_error m' (n - 1) <> nth_error m (n - 1)
    /\ ~ read_right (File input output [AtMost n; AtMost 0]) m (Circular b e) f' m' c).
  { intros f' m' c Hm'. split; auto. split; [congruence|]. intros (_ & R1 & R2).
    destruct (Z.lt_ge_cases c 0) as [Hc|Hc].
    - destruct (R2 Hc) as [_ ->]. auto.
    - destruct (R1 Hc) as (xs & _ & _ & _ & (_ & _ & G)). fold n in G.
      rewrite G in Hm'; auto. intros K. apply NI.
      rewrite <- (firstn_skipn (length xs) (places n (Circular b e))). apply in_app_iff. auto. }
  rewrite fr_linear_ok by lia. destruct (Nat.ltb_spec 0 e).
  - rewrite sys_read_ok by lia.
    unfold next_answer. cbn [f_answers fst snd f_input f_output got put_some result bind].
    cbn [Nat.min firstn]. rewrite put_nil.
    destruct (Z.ltb_spec (Z.of_nat 0) 0); [lia|].
    do 3 eexists. split; [reflexivity|]. apply W; auto.
  - cbn [bind]. replace (-1 <? 0)%Z with true by reflexivity.
    do 3 eexists. split; [reflexivity|]. apply W; auto.
Qed.

Example C77_case :
  file_read (File [1;2;3;4;5]%Z [] [AtMost 9; AtMost 9]) [0;0;0;0;0;0]%Z (Circular 4 3)
    = Ok (File [] [] [], [3;4;5;0;1;2]%Z, 5%Z)
  /\ file_read (File [1;2;3;4;5]%Z [] [AtMost 1; AtMost 9]) [0;0;0;0;0;0]%Z (Circular 4 3)
    = Ok (File [5]%Z [] [], [2;3;4;0;1;0]%Z, 4%Z)
  /\ file_read (File [1;2;3;4;5;6]%Z [] []) [0;0;0;0;0;0]%Z (Circular 1 3)
    = Ok (File [] [] [], [6;1;2;3;4;5]%Z, 6%Z).
Proof. repeat split. Qed.

(** * C78: writing *)

Theorem C78_linear_partial : forall f m b e, b <= e <= length m ->
  exists f' count, file_write f m (Linear b e) = Ok (f', count)
    /\ write_right f m (Linear b e) f' count.
Proof.
  intros f m b e [H1 H2]. cbn [file_write]. rewrite fw_linear_ok by auto.
  destruct (Nat.ltb_spec b e) as [Hlt|Hge].
  - rewrite sys_write_ok by lia. do 2 eexists. split; [reflexivity|].
    set (n := e - b). set (a := fst (next_answer f n)).
    unfold write_right. cbn [f_output f_input]. split; [reflexivity|].
    destruct a as [|k]; cbn [sent result put_some].
    + split; [lia|]. intros _. cbn [seq map]. apply app_nil_r.
    + split; [|lia]. intros _. unfold bytes_of. cbn [places]. fold n.
      rewrite map_length, seq_length. split; [lia|]. rewrite Nat2Z.id.
      rewrite firstn_map, firstn_seq by lia. reflexivity.
  - do 2 eexists. split; [reflexivity|]. unfold write_right. repeat split; auto; lia.
Qed.

Lemma circular_write f m b e : b < length m ->
  file_write f m (Circular b e) =
  (let! r := fw_linear f m b (length m) in
   let '(f, c0) := r in
   if (negb (c0 =? INVALID_COUNT_BYTES)%Z && (Z.of_nat e - Z.of_nat 0 >? 0)%Z)%bool then
     let! r := fw_linear f m 0 e in
     let '(f, c1) := r in
     if (c1 <? 0)%Z then Ok (f, c1) else Ok (f, (c0 + c1)%Z)
   else Ok (f, (c0 + INVALID_COUNT_BYTES)%Z)).
Proof. intros H. cbn [file_write]. unfold fw_circular. rewrite ranges_ok by auto. reflexivity. Qed.

Theorem C78_wrapping_partial : forall input output k0 k1 l m b e,
  0 < e -> e < b -> b < length m -> length m - b <= k0 ->
  let f := File input output (AtMost k0 :: AtMost k1 :: l) in
  exists f' count, file_write f m (Circular b e) = Ok (f', count)
    /\ write_right f m (Circular b e) f' count
    /\ count = Z.of_nat (length m - b + Nat.min k1 e).
Proof.
  intros input output k0 k1 l m b e He Heb Hb Hk0. set (n := length m) in *.
  cbv zeta. rewrite circular_write by auto. fold n. rewrite fw_linear_ok by lia. ltb_true.
  rewrite sys_write_ok by lia. unfold next_answer. cbn [f_answers fst snd f_input f_output sent put_some result bind].
  replace (Nat.min k0 (n - b)) with (n - b) by lia.
  destruct (Z.eqb_spec (Z.of_nat (n - b)) INVALID_COUNT_BYTES) as [E|_];
    [unfold INVALID_COUNT_BYTES in E; lia|]. cbn [negb andb].
  rewrite Z.gtb_ltb. destruct (Z.ltb_spec 0 (Z.of_nat e - Z.of_nat 0)); [|lia].
  rewrite fw_linear_ok by lia. ltb_true. rewrite sys_write_ok by lia.
  unfold next_answer. cbn [f_answers fst snd f_input f_output sent put_some result bind].
  rewrite Nat.sub_0_r. destruct (Z.ltb_spec (Z.of_nat (Nat.min k1 e)) 0); [lia|].
  do 2 eexists. split; [reflexivity|]. split; [|lia].
  unfold write_right. cbn [f_output f_input]. split; auto. split; [|lia]. intros _.
  unfold bytes_of. fold n. rewrite wrap_places by lia. rewrite map_length, app_length, !seq_length.
  split; [lia|]. rewrite <- app_assoc. f_equal.
  replace (Z.to_nat (Z.of_nat (n - b) + Z.of_nat (Nat.min k1 e)))
    with (n - b + Nat.min k1 e) by lia.
  rewrite map_app, firstn_app, map_length, seq_length.
  rewrite firstn_all2 by (rewrite map_length, seq_length; lia). f_equal.
  replace (n - b + Nat.min k1 e - (n - b)) with (Nat.min k1 e) by lia.
  rewrite firstn_map, firstn_seq by lia. reflexivity.
Qed.

(** A range that ends exactly at the end of the ring: one byte too few is reported. *)
Theorem C78_end_of_ring_refuted : forall input output m b, 0 < b -> b < length m ->
  let f := File input output [] in
  exists f', file_write f m (Circular b 0) = Ok (f', Z.of_nat (length m - b) - 1)%Z
    /\ f_output f' = output ++ bytes_of m (Circular b 0)
    /\ length (bytes_of m (Circular b 0)) = length m - b
    /\ ~ write_right f m (Circular b 0) f' (Z.of_nat (length m - b) - 1).
Proof.
  intros input output m b H0 Hb. set (n := length m) in *.
  cbv zeta. rewrite circular_write by auto. fold n. rewrite fw_linear_ok by lia. ltb_true.
  rewrite sys_write_ok by lia. unfold next_answer. cbn [f_answers fst snd f_input f_output sent put_some result bind].
  rewrite Nat.min_id.
  replace (negb (Z.of_nat (n - b) =? INVALID_COUNT_BYTES)%Z && (Z.of_nat 0 - Z.of_nat 0 >? 0)%Z)%bool
    with false by (rewrite andb_false_r; reflexivity).
  eexists. split; [reflexivity|]. cbn [f_output].
  assert (B : bytes_of m (Circular b 0) = map (fun i => nth i m 0%Z) (seq b (n - b))).
  { unfold bytes_of. fold n. rewrite wrap_places by lia. cbn [seq]. rewrite app_nil_r. reflexivity. }
  rewrite B. split; auto. rewrite map_length, seq_length. split; auto.
  intros (_ & R & _). destruct R as [_ R]; [lia|]. cbn [f_output] in R. rewrite B in R.
  apply app_inv_head in R. apply (f_equal (@length Z)) in R.
  rewrite firstn_length, !map_length, !seq_length in R. lia.
Qed.

(** The first system call transfers less than asked for: a piece is missing from the middle of
    what was written. *)
Theorem C78_short_refuted : forall input output k0 k1 l m b e,
  0 < e -> e < b -> b < length m -> 0 < k0 -> k0 < length m - b -> 0 < k1 ->
  nth 0 m 0%Z <> nth (b + k0) m 0%Z ->
  let f := File input output (AtMost k0 :: AtMost k1 :: l) in
  exists f' count, file_write f m (Circular b e) = Ok (f', count)
    /\ ~ write_right f m (Circular b e) f' count.
Proof.
  intros input output k0 k1 l m b e He Heb Hb H0 Hk0 Hk1 D. set (n := length m) in *.
  cbv zeta. rewrite circular_write by auto. fold n. rewrite fw_linear_ok by lia. ltb_true.
  rewrite sys_write_ok by lia. unfold next_answer. cbn [f_answers fst snd f_input f_output sent put_some result bind].
  replace (Nat.min k0 (n - b)) with k0 by lia.
  destruct (Z.eqb_spec (Z.of_nat k0) INVALID_COUNT_BYTES) as [E|_];
    [unfold INVALID_COUNT_BYTES in E; lia|]. cbn [negb andb].
  rewrite Z.gtb_ltb. destruct (Z.ltb_spec 0 (Z.of_nat e - Z.of_nat 0)); [|lia].
  rewrite fw_linear_ok by lia. ltb_true. rewrite sys_write_ok by lia.
  unfold next_answer. cbn [f_answers fst snd f_input f_output sent put_some result bind].
  rewrite Nat.sub_0_r. destruct (Z.ltb_spec (Z.of_nat (Nat.min k1 e)) 0); [lia|].
  do 2 eexists. split; [reflexivity|].
  intros (_ & R & _). destruct R as [_ R]; [lia|]. cbn [f_output] in R.
  rewrite <- app_assoc in R. apply app_inv_head in R.
  apply (f_equal (fun l => nth_error l k0)) in R.
  rewrite nth_error_app2 in R by (rewrite map_length, seq_length; lia).
  rewrite map_length, seq_length, Nat.sub_diag in R.
  rewrite nth_error_firstn' in R by lia.
  unfold bytes_of in R. fold n in R. rewrite wrap_places in R by lia.
  rewrite !nth_error_map' in R. rewrite nth_error_app1 in R by (rewrite seq_length; lia).
  rewrite (nth_error_nth' (seq b (n - b)) 0) in R by (rewrite seq_length; lia).
  rewrite seq_nth in R by lia.
  destruct (Nat.min k1 e) as [|j] eqn:J; [lia|]. cbn [seq map nth_error option_map] in R.
  congruence.
Qed.

(** The second system call fails: -1 is reported although bytes were written. *)
Theorem C78_second_fails_refuted : forall input output k0 l m b e,
  0 < e -> e < b -> b < length m -> 0 < k0 ->
  let f := File input output (AtMost k0 :: Fails :: l) in
  exists f', file_write f m (Circular b e) = Ok (f', (-1)%Z)
    /\ f_output f' <> output /\ ~ write_right f m (Circular b e) f' (-1).
Proof.
  intros input output k0 l m b e He Heb Hb H0. set (n := length m) in *.
  cbv zeta. rewrite circular_write by auto. fold n. rewrite fw_linear_ok by lia. ltb_true.
  rewrite sys_write_ok by lia. unfold next_answer. cbn [f_answers fst snd f_input f_output sent put_some result bind].
  destruct (Z.eqb_spec (Z.of_nat (Nat.min k0 (n - b))) INVALID_COUNT_BYTES) as [E|_];
    [unfold INVALID_COUNT_BYTES in E; lia|]. cbn [negb andb].
  rewrite Z.gtb_ltb. destruct (Z.ltb_spec 0 (Z.of_nat e - Z.of_nat 0)); [|lia].
  rewrite fw_linear_ok by lia. ltb_true. rewrite sys_write_ok by lia.
  unfold next_answer. cbn [f_answers fst snd f_input f_output sent put_some result bind].
  replace (-1 <? 0)%Z with true by reflexivity. cbn [seq map]. rewrite app_nil_r.
  eexists. split; [reflexivity|]. cbn [f_output].
  assert (N : output ++ map (fun i => nth i m 0%Z) (seq b (Nat.min k0 (n - b))) <> output).
  { intros E. apply (f_equal (@length Z)) in E. rewrite app_length, map_length, seq_length in E. lia. }
  split; auto. intros (_ & _ & R). apply N. apply R. lia.
Qed.

(** A range that does not wrap: bytes that are not in it are written. *)
Theorem C78_not_wrapping_refuted : forall input output m b e, b <= e -> e < length m ->
  let f := File input output [] in
  exists f' count, file_write f m (Circular b e) = Ok (f', count)
    /\ length (f_output f') = length output + length (bytes_of m (Circular b e)) + length m
    /\ ~ write_right f m (Circular b e) f' count.
Proof.
  intros input output m b e Hbe He. set (n := length m) in *.
  assert (B : length (bytes_of m (Circular b e)) = e - b).
  { unfold bytes_of. fold n. rewrite circular_places by lia. rewrite gap by lia.
    destruct (Nat.leb_spec b e); [|lia]. rewrite !map_length, seq_length. reflexivity. }
  assert (W : forall f' c, length (f_output f') = length output + (e - b) + n ->
     ~ write_right (File input output []) m (Circular b e) f' c).
  { intros f' c L (_ & R1 & R2). destruct (Z.lt_ge_cases c 0) as [Hc|Hc].
    - rewrite (R2 Hc) in L. cbn [f_output] in L. lia.
    - destruct (R1 Hc) as [_ R]. rewrite R in L. cbn [f_output] in L.
      rewrite app_length, firstn_length, B in L. lia. }
  cbv zeta. rewrite circular_write by (fold n; lia). fold n. rewrite fw_linear_ok by lia. ltb_true.
  rewrite sys_write_ok by lia. unfold next_answer. cbn [f_answers fst snd f_input f_output sent put_some result bind].
  rewrite Nat.min_id.
  destruct (Z.eqb_spec (Z.of_nat (n - b)) INVALID_COUNT_BYTES) as [E|_];
    [unfold INVALID_COUNT_BYTES in E; lia|]. cbn [negb andb].
  rewrite Z.gtb_ltb. destruct (Z.ltb_spec 0 (Z.of_nat e - Z.of_nat 0)).
  - rewrite fw_linear_ok by lia. ltb_true. rewrite sys_write_ok by lia.
    unfold next_answer. cbn [f_answers fst snd f_input f_output sent put_some result bind].
    rewrite Nat.sub_0_r, Nat.min_id.
    destruct (Z.ltb_spec (Z.of_nat e) 0); [lia|].
    do 2 eexists. split; [reflexivity|]. rewrite B.
    assert (L : length (f_output (File input ((output ++ map (fun i => nth i m 0%Z) (seq b (n - b)))
              ++ map (fun i => nth i m 0%Z) (seq 0 e)) [])) = length output + (e - b) + n).
    { cbn [f_output]. rewrite !app_length, !map_length, !seq_length. lia. }
    split; auto.
  - assert (e = 0) by lia. assert (b = 0) by lia. subst e b.
    do 2 eexists. split; [reflexivity|]. rewrite B.
    assert (L : length (f_output (File input (output ++ map (fun i => nth i m 0%Z) (seq 0 (n - 0))) []))
                = length output + (0 - 0) + n).
    { cbn [f_output]. rewrite !app_length, !map_length, !seq_length. lia. }
    split; auto.
Qed.

Example C78_case :
  file_write (File [] [9]%Z [AtMost 9; AtMost 2]) [0;1;2;3;4;5]%Z (Circular 4 3)
    = Ok (File [] [9;4;5;0;1]%Z [], 4%Z)
  /\ file_write (File [] [9]%Z [AtMost 1; AtMost 2]) [0;1;2;3;4;5]%Z (Circular 4 3)
    = Ok (File [] [9;4;0;1]%Z [], 3%Z)
  /\ file_write (File [] []%Z []) [0;1;2;3;4;5]%Z (Circular 4 0)
    = Ok (File [] [4;5]%Z [], 1%Z).
Proof. repeat split. Qed.

(** * C79: the status of a pipe after a failure *)

(** Linear ranges: the status is -1 after every call that reports a failure, and unchanged
    after every other. *)
Theorem C79_linear_partial : forall status f m b e, b <= e <= length m ->
  (exists status' p, pipe_read status f m (Linear b e) = Ok (status', p)
     /\ (snd p < 0 -> status' = -1)%Z /\ (0 <= snd p -> status' = status)%Z)
  /\ (exists status' p, pipe_write status f m (Linear b e) = Ok (status', p)
     /\ (snd p < 0 -> status' = -1)%Z /\ (0 <= snd p -> status' = status)%Z).
Proof.
  intros status f m b e [H1 H2].
  assert (K : forall c, (c = -1 \/ 0 <= c)%Z ->
    (c < 0 -> pipe_status status c = -1)%Z /\ (0 <= c -> pipe_status status c = status)%Z).
  { intros c Hc. unfold pipe_status, INVALID_COUNT_BYTES. destruct (Z.eqb_spec c (-1)); lia. }
  assert (G : forall a (x y : nat), (result (got a x y) = -1 \/ 0 <= result (got a x y))%Z)
    by (intros [|k] x y; cbn; lia).
  assert (G' : forall a (y : nat), (result (sent a y) = -1 \/ 0 <= result (sent a y))%Z)
    by (intros [|k] y; cbn; lia).
  split.
  - unfold pipe_read. cbn [file_read]. rewrite fr_linear_ok by auto. destruct (Nat.ltb_spec b e).
    + rewrite sys_read_ok by lia. cbn [bind snd]. do 2 eexists. split; [reflexivity|]. apply K, G.
    + do 2 eexists. split; [reflexivity|]. apply K. cbn [snd]. lia.
  - unfold pipe_write. cbn [file_write]. rewrite fw_linear_ok by auto. destruct (Nat.ltb_spec b e).
    + rewrite sys_write_ok by lia. cbn [bind snd]. do 2 eexists. split; [reflexivity|]. apply K, G'.
    + do 2 eexists. split; [reflexivity|]. apply K. cbn [snd]. lia.
Qed.

(** Circular ranges: when the system call fails, -2 is reported and the status stays as it
    was. *)
Theorem C79_refuted : forall status input output l m b e, b < length m ->
  let f := File input output (Fails :: l) in
  (exists f', pipe_read status f m (Circular b e) = Ok (status, (f', m, (-2)%Z)))
  /\ (exists f', pipe_write status f m (Circular b e) = Ok (status, (f', (-2)%Z))).
Proof.
  intros status input output l m b e Hb. split.
  - unfold pipe_read. rewrite circular_read by auto. rewrite fr_linear_ok by lia. ltb_true.
    rewrite sys_read_ok by lia. unfold next_answer.
    cbn [f_answers fst snd f_input f_output got put_some result bind].
    change (negb (-1 =? INVALID_COUNT_BYTES)%Z) with false. cbn [bind snd].
    rewrite put_nil. eexists. reflexivity.
  - unfold pipe_write. rewrite circular_write by auto. rewrite fw_linear_ok by lia. ltb_true.
    rewrite sys_write_ok by lia. unfold next_answer.
    cbn [f_answers fst snd f_input f_output sent put_some result bind].
    change (negb (-1 =? INVALID_COUNT_BYTES)%Z) with false. cbn [bind snd andb].
    eexists. reflexivity.
Qed.

Example C79_case :
  pipe_read 0 (File [1;2]%Z [] [Fails]) [0;0;0]%Z (Linear 0 2)
    = Ok ((-1)%Z, (File [1;2]%Z [] [], [0;0;0]%Z, (-1)%Z))
  /\ pipe_read 0 (File [1;2]%Z [] [AtMost 1]) [0;0;0]%Z (Linear 0 2)
    = Ok (0%Z, (File [2]%Z [] [], [1;0;0]%Z, 1%Z)).
Proof. repeat split. Qed.

Print Assumptions C77_linear_partial.
Print Assumptions C77_wrapping_partial.
Print Assumptions C77_end_of_ring_refuted.
Print Assumptions C77_short_refuted.
Print Assumptions C77_second_fails_refuted.
Print Assumptions C77_not_wrapping_refuted.
Print Assumptions C78_linear_partial.
Print Assumptions C78_wrapping_partial.
Print Assumptions C78_end_of_ring_refuted.
Print Assumptions C78_short_refuted.
Print Assumptions C78_second_fails_refuted.
Print Assumptions C78_not_wrapping_refuted.
Print Assumptions C79_linear_partial.
Print Assumptions C79_refuted.
