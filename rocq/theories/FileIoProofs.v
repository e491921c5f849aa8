(** Linear reads and writes; what the two halves of a circular one do. *)
From Coq Require Import List Arith ZArith Lia Bool.
From Verif Require Import Base BaseLemmas StreamModel StreamSpec StreamProofs UtilsProps
  FileIoModel FileIoSpec.
Import ListNotations.

Lemma store_ok xs : forall m p k, p + length xs <= length m -> length xs <= k ->
  store_bytes m p xs = Ok (put (seq p k) xs m).
Proof.
  induction xs as [|x xs IH]; intros m p k H Hk; cbn [store_bytes].
  - destruct (seq p k); reflexivity.
  - cbn [length] in *. destruct k as [|k]; [lia|]. cbn [seq put].
    rewrite write_ok by lia. cbn [bind]. apply IH; rewrite ?upd_length; lia.
Qed.

Lemma load_ok m : forall n p, p + n <= length m ->
  load_bytes m p n = Ok (map (fun i => nth i m 0%Z) (seq p n)).
Proof.
  induction n as [|n IH]; intros p H; cbn [load_bytes seq map]; auto.
  rewrite (read_some m p (nth p m 0%Z)) by (apply nth_error_nth'; lia). cbn [bind].
  rewrite IH by lia. reflexivity.
Qed.

(** The number of bytes ::read gives. *)
Definition got (a : answer) (avail n : nat) : option nat :=
  match a with Fails => None | AtMost k => Some (Nat.min (Nat.min k n) avail) end.
Definition put_some (a : option nat) : nat := match a with Some k => k | None => 0 end.
Definition result (a : option nat) : Z := match a with Some k => Z.of_nat k | None => -1 end.

Lemma sys_read_ok f m p n : p + n <= length m ->
  let a := fst (next_answer f n) in
  let k := put_some (got a (length (f_input f)) n) in
  sys_read f m p n = Ok (File (skipn k (f_input f)) (f_output f) (snd (next_answer f n)),
    put (seq p n) (firstn k (f_input f)) m, result (got a (length (f_input f)) n)).
Proof.
  intros H. unfold sys_read. destruct (next_answer f n) as [[|a] l]; cbn [fst snd got put_some result].
  - cbn [skipn firstn]. destruct (seq p n); reflexivity.
  - rewrite firstn_length.
    assert (E : firstn (Nat.min a n) (f_input f)
                = firstn (Nat.min (Nat.min a n) (length (f_input f))) (f_input f)).
    { destruct (Nat.le_ge_cases (Nat.min a n) (length (f_input f))).
      - rewrite (Nat.min_l (Nat.min a n)) by auto. reflexivity.
      - rewrite (Nat.min_r (Nat.min a n)) by auto. rewrite !firstn_all2 by lia. reflexivity. }
    rewrite E. rewrite (store_ok _ m p n); [reflexivity| |]; rewrite firstn_length; lia.
Qed.

Definition sent (a : answer) (n : nat) : option nat :=
  match a with Fails => None | AtMost k => Some (Nat.min k n) end.

Lemma sys_write_ok f m p n : p + n <= length m ->
  let a := fst (next_answer f n) in
  let k := put_some (sent a n) in
  sys_write f m p n = Ok (File (f_input f)
    (f_output f ++ map (fun i => nth i m 0%Z) (seq p k)) (snd (next_answer f n)),
    result (sent a n)).
Proof.
  intros H. unfold sys_write. destruct (next_answer f n) as [[|a] l]; cbn [fst snd sent put_some result].
  - cbn [seq map]. rewrite app_nil_r. reflexivity.
  - rewrite load_ok by lia. cbn [bind]. rewrite map_length, seq_length. reflexivity.
Qed.

Lemma fr_linear_ok f m b e : b <= e -> e <= length m ->
  fr_linear f m b e = if b <? e then sys_read f m b (e - b) else Ok (f, m, (-1)%Z).
Proof.
  intros H1 H2. unfold fr_linear. rewrite Z.gtb_ltb.
  destruct (Nat.ltb_spec b e); destruct (Z.ltb_spec 0 (Z.of_nat e - Z.of_nat b)); try lia; auto.
  f_equal. lia.
Qed.

Lemma fw_linear_ok f m b e : b <= e -> e <= length m ->
  fw_linear f m b e = if b <? e then sys_write f m b (e - b) else Ok (f, (-1)%Z).
Proof.
  intros H1 H2. unfold fw_linear. rewrite Z.gtb_ltb.
  destruct (Nat.ltb_spec b e); destruct (Z.ltb_spec 0 (Z.of_nat e - Z.of_nat b)); try lia; auto.
  f_equal. lia.
Qed.

(** The places of a wrapping range, in two parts. *)
Lemma wrap_places n b e : b < n -> e < b ->
  places n (Circular b e) = seq b (n - b) ++ seq 0 e.
Proof.
  intros Hb He. rewrite circular_places by lia. rewrite gap by lia.
  destruct (Nat.leb_spec b e); [lia|].
  replace (e + n - b) with ((n - b) + e) by lia. rewrite seq_app, map_app. f_equal.
  - transitivity (map (fun i => b + i) (seq 0 (n - b))).
    + apply map_ext_in. intros i Hi. apply in_seq in Hi.
      unfold CircularArrayProofs.ix. destruct (Nat.ltb_spec (b + i) n); lia.
    + rewrite <- seq_map_add, Nat.add_0_r. reflexivity.
  - rewrite Nat.add_0_l. replace (seq (n - b) e) with (seq (n - b + 0) e) by (f_equal; lia).
    rewrite seq_map_add, map_map.
    rewrite <- (map_id (seq 0 e)) at 2. apply map_ext_in.
    intros i Hi. apply in_seq in Hi.
    unfold CircularArrayProofs.ix. destruct (Nat.ltb_spec (b + (n - b + i)) n); lia.
Qed.

Lemma put_app ps qs : forall xs ys m, length xs = length ps ->
  put (ps ++ qs) (xs ++ ys) m = put qs ys (put ps xs m).
Proof.
  induction ps as [|p ps IH]; intros [|x xs] ys m H; cbn in H; try discriminate; cbn [app put]; auto.
Qed.
Lemma put_nil ps m : put ps [] m = m.
Proof. destruct ps; reflexivity. Qed.
Lemma put_short ps qs : forall xs m, length xs <= length ps ->
  put (ps ++ qs) xs m = put ps xs m.
Proof.
  induction ps as [|p ps IH]; intros [|x xs] m H; cbn in H; cbn [app put]; try lia.
  - apply put_nil.
  - reflexivity.
  - apply IH. lia.
Qed.

Lemma firstn_seq j : forall p n, j <= n -> firstn j (seq p n) = seq p j.
Proof.
  induction j as [|j IH]; intros p [|n] H; cbn [firstn seq]; auto; try lia.
  f_equal. apply IH. lia.
Qed.
Lemma firstn_In_seq p : forall j n q, In q (firstn j (seq p n)) -> p <= q < p + j.
Proof.
  intros j n q H. destruct (Nat.le_ge_cases j n) as [L|L].
  - rewrite firstn_seq in H by auto. apply in_seq in H. lia.
  - rewrite firstn_all2 in H by (rewrite seq_length; lia). apply in_seq in H. lia.
Qed.
Lemma nth_error_firstn' {A} (l : list A) : forall j i, i < j -> nth_error (firstn j l) i = nth_error l i.
Proof.
  induction l as [|x l IH]; intros [|j] [|i] H; cbn; auto; try lia. apply IH. lia.
Qed.
