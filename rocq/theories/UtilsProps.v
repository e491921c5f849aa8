(** C36, C37, C38, C64, C65: theorems about the free functions. *)
From Coq Require Import List Arith ZArith Lia Bool.
From Verif Require Import Base BaseLemmas UtilsModel.
Import ListNotations.

Lemma read_some {A} (m : list A) i x : nth_error m i = Some x -> read m i = Ok x.
Proof. unfold read. intros ->. reflexivity. Qed.

(** * C36: isEqual *)

(** The elements of a range. *)
Definition elements {A} (m : list A) (first last : nat) : list A :=
  firstn (last - first) (skipn first m).

(** What the code decides: equality up to the end of the shorter range. *)
Lemma is_equal_range_loop {A B} (differ : A -> B -> bool) m1 m2 : forall fuel i1 i2 e1 e2,
  i1 <= e1 -> i2 <= e2 -> e1 <= length m1 -> e2 <= length m2 ->
  min (e1 - i1) (e2 - i2) < fuel ->
  exists b, is_equal_range differ fuel m1 m2 i1 e1 i2 e2 = Ok b /\
    (b = true <-> forall k a c, i1 + k < e1 -> i2 + k < e2 ->
       nth_error m1 (i1 + k) = Some a -> nth_error m2 (i2 + k) = Some c -> differ a c = false).
Proof.
  induction fuel as [|fuel IH]; intros i1 i2 e1 e2 H1 H2 L1 L2 F; [lia|].
  cbn [is_equal_range].
  destruct (Nat.eqb_spec i1 e1) as [->|N1]; cbn [negb andb].
  { exists true. split; [reflexivity|]. split; [intros _ ? ? ? ?; lia|auto]. }
  destruct (Nat.eqb_spec i2 e2) as [->|N2]; cbn [negb orb].
  { exists true. split; [reflexivity|]. split; [intros _ ? ? ? ? ?; lia|auto]. }
  destruct (nth_error m1 i1) as [a|] eqn:Ea; [|apply nth_error_None in Ea; lia].
  destruct (nth_error m2 i2) as [c|] eqn:Ec; [|apply nth_error_None in Ec; lia].
  rewrite (read_some _ _ _ Ea), (read_some _ _ _ Ec). cbn [bind].
  destruct (differ a c) eqn:D.
  - exists false. split; [reflexivity|]. split; [discriminate|]. intros H.
    rewrite (H 0 a c) in D; try rewrite Nat.add_0_r; auto; try lia; discriminate.
  - destruct (IH (S i1) (S i2) e1 e2) as (b & E & Hb); try lia.
    exists b. split; [exact E|]. rewrite Hb. split; intros H k x y K1 K2 X Y.
    + destruct k as [|k].
      * rewrite Nat.add_0_r in X, Y. congruence.
      * apply (H k); try lia; rewrite <- ?Nat.add_succ_comm in *; auto.
    + apply (H (S k)); try lia; rewrite <- ?Nat.add_succ_comm; auto.
Qed.

(** For ranges of the same length: true exactly when the elements are equal. *)
Theorem C36_range_partial :
  forall (A B : Type) (differ : A -> B -> bool) (m1 : list A) (m2 : list B) f1 e1 f2 e2 fuel,
  f1 <= e1 -> f2 <= e2 -> e1 <= length m1 -> e2 <= length m2 -> e1 - f1 = e2 - f2 ->
  e1 - f1 < fuel ->
  exists b, is_equal_range differ fuel m1 m2 f1 e1 f2 e2 = Ok b /\
    (b = true <-> Forall2 (fun a c => differ a c = false)
                    (elements m1 f1 e1) (elements m2 f2 e2)).
Proof.
  intros A B differ m1 m2 f1 e1 f2 e2 fuel H1 H2 L1 L2 HL F.
  destruct (is_equal_range_loop differ m1 m2 fuel f1 f2 e1 e2) as (b & E & Hb); try lia.
  exists b. split; [exact E|]. rewrite Hb. unfold elements. rewrite <- HL. clear E Hb b F fuel.
  assert (G : forall n s1 s2, s1 + n <= length m1 -> s2 + n <= length m2 ->
    ((forall k a c, k < n -> nth_error m1 (s1 + k) = Some a -> nth_error m2 (s2 + k) = Some c ->
        differ a c = false) <->
     Forall2 (fun a c => differ a c = false) (firstn n (skipn s1 m1)) (firstn n (skipn s2 m2)))).
  { induction n as [|n IH]; intros s1 s2 K1 K2.
    - cbn. split; [constructor|intros; lia].
    - destruct (nth_error m1 s1) as [a|] eqn:Ea; [|apply nth_error_None in Ea; lia].
      destruct (nth_error m2 s2) as [c|] eqn:Ec; [|apply nth_error_None in Ec; lia].
      assert (Q : forall X (m : list X) s x, nth_error m s = Some x ->
                skipn s m = x :: skipn (S s) m).
      { induction m as [|y m IHm]; intros [|s] x Hx; cbn in *; try discriminate.
        - congruence.
        - apply IHm; auto. }
      rewrite (Q _ _ _ _ Ea), (Q _ _ _ _ Ec). cbn [firstn]. split.
      + intros H. constructor.
        * apply (H 0); rewrite ?Nat.add_0_r; auto; lia.
        * apply IH; try lia. intros k x y K X Y.
          apply (H (S k)); try lia; rewrite <- ?Nat.add_succ_comm; auto.
      + intros H. inversion H as [|? ? ? ? D1 D2]; subst. intros k x y K X Y.
        destruct k as [|k].
        * rewrite Nat.add_0_r in X, Y. congruence.
        * apply (proj2 (IH (S s1) (S s2) ltac:(lia) ltac:(lia)) D2 k); try lia;
            rewrite ?Nat.add_succ_comm; auto. }
  rewrite <- (G (e1 - f1) f1 f2) by lia. split; intros H k a c K.
  - intros X Y. apply (H k); auto; lia.
  - intros K2 X Y. apply (H k); auto; lia.
Qed.

Example C36_range_case :
  1 <= 3 /\ 0 <= 2 /\ 3 <= length [9; 1; 2] /\ 2 <= length [1; 2; 7] /\
  Forall2 (fun a c => negb (a =? c) = false) (elements [9; 1; 2] 1 3) (elements [1; 2; 7] 0 2).
Proof. cbn. repeat split; auto. Qed.

(** Ranges of different lengths: one that is a prefix of the other counts as equal; in
    particular the empty range is equal to every range. *)
Theorem C36_prefix_refuted :
  forall (A B : Type) (differ : A -> B -> bool) (m1 : list A) (m2 : list B) f1 e1 f2 e2 fuel,
  f1 <= e1 -> f2 <= e2 -> e1 <= length m1 -> e2 <= length m2 -> e1 - f1 < fuel ->
  e1 - f1 < e2 - f2 ->
  Forall2 (fun a c => differ a c = false)
    (elements m1 f1 e1) (firstn (e1 - f1) (elements m2 f2 e2)) ->
  is_equal_range differ fuel m1 m2 f1 e1 f2 e2 = Ok true.
Proof.
  intros A B differ m1 m2 f1 e1 f2 e2 fuel H1 H2 L1 L2 F HL HF.
  destruct (is_equal_range_loop differ m1 m2 fuel f1 f2 e1 e2) as (b & E & Hb); try lia.
  rewrite E. f_equal. apply Hb. intros k a c K1 K2 X Y.
  unfold elements in HF. rewrite firstn_firstn, Nat.min_l in HF by lia.
  assert (G : forall l1 l2, Forall2 (fun a c => differ a c = false) l1 l2 -> forall k a c,
            nth_error l1 k = Some a -> nth_error l2 k = Some c -> differ a c = false).
  { clear. induction 1; intros [|k] a c X Y; cbn in *; try discriminate.
    - congruence.
    - eauto. }
  apply (G _ _ HF k); rewrite nth_error_firstn, nth_error_skipn;
    destruct (Nat.ltb_spec k (e1 - f1)); auto; lia.
Qed.

Example C36_prefix_case :
  elements [1; 2] 0 2 <> elements [1; 2; 3] 0 3 /\
  Forall2 (fun a c => negb (a =? c) = false)
    (elements [1; 2] 0 2) (firstn (2 - 0) (elements [1; 2; 3] 0 3)).
Proof. cbn. split; [discriminate|]. repeat constructor. Qed.

(** For any two ranges: true exactly when the elements up to the end of the shorter one are
    equal, that is, when one of the ranges begins like the other one. *)
Theorem C36_exact_partial :
  forall (A B : Type) (differ : A -> B -> bool) (m1 : list A) (m2 : list B) f1 e1 f2 e2 fuel,
  f1 <= e1 -> f2 <= e2 -> e1 <= length m1 -> e2 <= length m2 ->
  min (e1 - f1) (e2 - f2) < fuel ->
  exists b, is_equal_range differ fuel m1 m2 f1 e1 f2 e2 = Ok b /\
    (b = true <->
       (exists rest, exists l, elements m1 f1 e1 = l ++ rest
          /\ Forall2 (fun a c => differ a c = false) l (elements m2 f2 e2))
       \/ (exists rest, exists l, elements m2 f2 e2 = l ++ rest
          /\ Forall2 (fun a c => differ a c = false) (elements m1 f1 e1) l)).
Proof.
  intros A B differ m1 m2 f1 e1 f2 e2 fuel H1 H2 L1 L2 F.
  destruct (is_equal_range_loop differ m1 m2 fuel f1 f2 e1 e2) as (b & E & Hb); try lia.
  exists b. split; [exact E|]. rewrite Hb. clear E Hb b F fuel.
  assert (G : forall l1 l2, Forall2 (fun a c => differ a c = false) l1 l2 -> forall k a c,
            nth_error l1 k = Some a -> nth_error l2 k = Some c -> differ a c = false).
  { clear. induction 1; intros [|k] a c X Y; cbn in *; try discriminate.
    - congruence.
    - eauto. }
  assert (N : forall (T : Type) (m : list T) f e k, k < e - f -> nth_error (elements m f e) k = nth_error m (f + k)).
  { clear. intros T m f e k K. unfold elements. rewrite nth_error_firstn, nth_error_skipn.
    destruct (Nat.ltb_spec k (e - f)); [reflexivity|lia]. }
  assert (LE : forall (T : Type) (m : list T) f e, f <= e -> e <= length m -> length (elements m f e) = e - f).
  { clear. intros T m f e X Y. unfold elements. rewrite firstn_length, skipn_length. lia. }
  assert (P : forall l1 l2, length l1 <= length l2 ->
            (forall k a c, nth_error l1 k = Some a -> nth_error l2 k = Some c -> differ a c = false) ->
            Forall2 (fun a c => differ a c = false) l1 (firstn (length l1) l2)).
  { clear. induction l1 as [|x l1 IH]; intros [|y l2] X Y; cbn in *; try lia; constructor.
    - apply (Y 0); reflexivity.
    - apply IH; [lia|]. intros k. apply (Y (S k)). }
  assert (Q : forall l1 l2, length l2 <= length l1 ->
            (forall k a c, nth_error l1 k = Some a -> nth_error l2 k = Some c -> differ a c = false) ->
            Forall2 (fun a c => differ a c = false) (firstn (length l2) l1) l2).
  { clear. induction l1 as [|x l1 IH]; intros [|y l2] X Y; cbn in *; try lia; constructor.
    - apply (Y 0); reflexivity.
    - apply IH; [lia|]. intros k. apply (Y (S k)). }
  split.
  - intros H.
    assert (H' : forall k a c, nth_error (elements m1 f1 e1) k = Some a ->
              nth_error (elements m2 f2 e2) k = Some c -> differ a c = false).
    { intros k a c X Y.
      assert (K1 : k < e1 - f1) by (rewrite <- (LE _ m1) by lia; apply nth_error_Some; congruence).
      assert (K2 : k < e2 - f2) by (rewrite <- (LE _ m2) by lia; apply nth_error_Some; congruence).
      rewrite N in X, Y by lia. apply (H k); auto; lia. }
    destruct (Nat.le_ge_cases (length (elements m1 f1 e1)) (length (elements m2 f2 e2))) as [D|D].
    + right. exists (skipn (length (elements m1 f1 e1)) (elements m2 f2 e2)). eexists.
      split; [symmetry; apply firstn_skipn|]. apply P; assumption.
    + left. exists (skipn (length (elements m2 f2 e2)) (elements m1 f1 e1)). eexists.
      split; [symmetry; apply firstn_skipn|]. apply Q; assumption.
  - intros [(rest & l & EL & FF)|(rest & l & EL & FF)] k a c K1 K2 X Y.
    + rewrite <- (N _ m1 f1 e1) in X by lia. rewrite <- (N _ m2 f2 e2) in Y by lia.
      apply (G _ _ FF k); [|exact Y]. rewrite EL in X. rewrite nth_error_app1 in X; [exact X|].
      assert (length l = length (elements m2 f2 e2)) as ->.
      { clear - FF. induction FF; cbn; auto. }
      rewrite LE by lia. lia.
    + rewrite <- (N _ m1 f1 e1) in X by lia. rewrite <- (N _ m2 f2 e2) in Y by lia.
      apply (G _ _ FF k); [exact X|]. rewrite EL in Y. rewrite nth_error_app1 in Y; [exact Y|].
      assert (length l = length (elements m1 f1 e1)) as ->.
      { clear - FF. induction FF; cbn; auto. }
      rewrite LE by lia. lia.
Qed.

Example C36_exact_case :
  is_equal_range (fun a c => negb (a =? c)) 9 [9; 1; 2] [1; 2; 7] 1 3 0 3 = Ok true /\
  is_equal_range (fun a c => negb (a =? c)) 9 [9; 1; 3] [1; 2; 7] 1 3 0 3 = Ok false.
Proof. cbn. auto. Qed.

Lemma is_equal_bytes_loop v1 v2 n : forall fuel i r,
  n = length v1 -> n = length v2 -> i <= n -> n - i < fuel ->
  exists b, is_equal_bytes_from fuel v1 v2 n i r = Ok b /\
    (b = true <-> r = true /\ skipn i v1 = skipn i v2).
Proof.
  induction fuel as [|fuel IH]; intros i r L1 L2 Hi F; [lia|].
  cbn [is_equal_bytes_from].
  destruct (Nat.ltb_spec i n) as [K|K]; cbn [andb].
  - destruct r.
    + destruct (nth_error v1 i) as [a|] eqn:Ea; [|apply nth_error_None in Ea; lia].
      destruct (nth_error v2 i) as [c|] eqn:Ec; [|apply nth_error_None in Ec; lia].
      rewrite (read_some _ _ _ Ea), (read_some _ _ _ Ec). cbn [bind].
      destruct (IH (S i) (a =? c)%Z) as (b & E & Hb); try lia.
      exists b. split; [exact E|]. rewrite Hb.
      assert (Q : forall X (m : list X) s x, nth_error m s = Some x ->
                skipn s m = x :: skipn (S s) m).
      { induction m as [|y m IHm]; intros [|s] x Hx; cbn in *; try discriminate.
        - congruence.
        - apply IHm; auto. }
      rewrite (Q _ _ _ _ Ea), (Q _ _ _ _ Ec), Z.eqb_eq. split.
      * intros [-> ->]. auto.
      * intros [_ [= -> E2]]. auto.
    + exists false. split; [reflexivity|]. intuition discriminate.
  - exists r. split; [reflexivity|].
    rewrite !skipn_all2 by lia. intuition.
Qed.

(** Two objects: true exactly when all bytes are equal. *)
Theorem C36_bytes : forall (v1 v2 : list Z) n,
  length v1 = n -> length v2 = n ->
  exists b, is_equal_bytes v1 v2 n = Ok b /\ (b = true <-> v1 = v2).
Proof.
  intros v1 v2 n L1 L2.
  destruct (is_equal_bytes_loop v1 v2 n (S n) 0 true) as (b & E & Hb); try lia.
  exists b. split; [exact E|]. rewrite Hb. cbn. intuition.
Qed.

Example C36_bytes_case :
  is_equal_bytes [1; 2; 3]%Z [1; 2; 3]%Z 3 = Ok true /\
  is_equal_bytes [1; 2; 3]%Z [1; 2; 4]%Z 3 = Ok false.
Proof. split; reflexivity. Qed.

(** * C37: copying *)

Lemma write_ok {A} (m : list A) i x : i < length m -> write m i x = Ok (upd m i x).
Proof. unfold write. intros H. destruct (Nat.ltb_spec i (length m)); auto; lia. Qed.

(** copy(dst, src, size): nothing outside the first [size] places of the destination changes,
    and those are the source as it was, unless the destination begins inside the source. *)
Lemma copy_bytes_loop {A} dst src size : forall fuel i (m0 m : list A),
  src + size <= length m0 -> dst + size <= length m0 -> length m = length m0 ->
  (dst <= src \/ src + size <= dst) -> i <= size -> size - i < fuel ->
  (forall j, j < i -> nth_error m (dst + j) = nth_error m0 (src + j)) ->
  (forall a, (a < dst \/ dst + i <= a) -> nth_error m a = nth_error m0 a) ->
  exists m', copy_bytes_from fuel m dst src size i = Ok m' /\ length m' = length m0 /\
    (forall j, j < size -> nth_error m' (dst + j) = nth_error m0 (src + j)) /\
    (forall a, (a < dst \/ dst + size <= a) -> nth_error m' a = nth_error m0 a).
Proof.
  induction fuel as [|fuel IH]; intros i m0 m Ls Ld Lm O Hi F P1 P2; [lia|].
  cbn [copy_bytes_from]. destruct (Nat.ltb_spec i size) as [K|K].
  - destruct (nth_error m (src + i)) as [x|] eqn:Ex; [|apply nth_error_None in Ex; lia].
    rewrite (read_some _ _ _ Ex). cbn [bind]. rewrite write_ok by lia. cbn [bind].
    assert (Ex0 : nth_error m0 (src + i) = Some x).
    { rewrite <- P2; auto. lia. }
    apply (IH (S i) m0); auto; try lia.
    + rewrite upd_length. auto.
    + intros j Hj. destruct (Nat.eq_dec j i) as [->|N].
      * rewrite nth_error_upd_eq by lia. auto.
      * rewrite nth_error_upd_neq by lia. apply P1. lia.
    + intros a Ha. rewrite nth_error_upd_neq by lia. apply P2. lia.
  - exists m. split; [reflexivity|]. split; [auto|]. assert (i = size) by lia. subst i. auto.
Qed.

Theorem C37_copy_bytes : forall (A : Type) (m : list A) dst src size,
  src + size <= length m -> dst + size <= length m ->
  (dst <= src \/ src + size <= dst) ->
  exists m', copy_bytes m dst src size = Ok m' /\
    (forall j, j < size -> nth_error m' (dst + j) = nth_error m (src + j)) /\
    (forall a, (a < dst \/ dst + size <= a) -> nth_error m' a = nth_error m a).
Proof.
  intros A m dst src size Ls Ld O.
  destruct (copy_bytes_loop dst src size (S size) 0 m m) as (m' & E & _ & H1 & H2); auto; try lia.
  exists m'. auto.
Qed.

Example C37_copy_bytes_case :
  copy_bytes [1; 2; 3; 4; 5; 6] 0 2 3 = Ok [3; 4; 5; 4; 5; 6] /\
  copy_bytes [1; 2; 3; 4; 5; 6] 3 0 3 = Ok [1; 2; 3; 1; 2; 3] /\
  copy_bytes [1; 2; 3; 4; 5; 6] 1 0 3 = Ok [1; 1; 1; 1; 5; 6].
Proof. repeat split. Qed.

(** The array version copies all of it. *)
Theorem C37_copy_array : forall (A : Type) (dest src : list A) size,
  length dest = size -> length src = size -> copy_array dest src size = Ok src.
Proof.
  intros A dest src size Hd Hs. unfold copy_array.
  assert (G : forall left index d, index + left = size -> length d = size ->
    firstn index d = firstn index src -> copy_by_index left index d src = Ok src).
  { induction left as [|left IH]; intros index d E L P; cbn [copy_by_index].
    - f_equal. rewrite Nat.add_0_r in E. subst index.
      rewrite !firstn_all2 in P by lia. exact P.
    - destruct (nth_error src index) as [x|] eqn:Ex; [|apply nth_error_None in Ex; lia].
      rewrite (read_some _ _ _ Ex). cbn [bind]. rewrite write_ok by lia. cbn [bind].
      apply IH; [lia|rewrite upd_length; auto|].
      apply list_ext. intros i. rewrite !nth_error_firstn.
      destruct (Nat.ltb_spec i (S index)) as [K|K]; [|reflexivity].
      destruct (Nat.eq_dec i index) as [->|N].
      + rewrite nth_error_upd_eq by lia. auto.
      + rewrite nth_error_upd_neq by lia.
        assert (Q := f_equal (fun l => nth_error l i) P). cbn beta in Q.
        rewrite !nth_error_firstn in Q. destruct (Nat.ltb_spec i index); [exact Q|lia]. }
  apply G; auto.
Qed.

Example C37_copy_array_case : copy_array [0; 0; 0] [1; 2; 3] 3 = Ok [1; 2; 3].
Proof. reflexivity. Qed.

(** The iterator version, which also returns the number of elements copied. *)
Theorem C37_copy_iterators : forall (A : Type) (m : list A) first last out fuel,
  first <= last -> last <= length m -> out + (last - first) <= length m ->
  (out <= first \/ last <= out) -> last - first < fuel ->
  exists m', copy_iter fuel m first last out = Ok (m', last - first) /\
    (forall j, j < last - first -> nth_error m' (out + j) = nth_error m (first + j)) /\
    (forall a, (a < out \/ out + (last - first) <= a) -> nth_error m' a = nth_error m a).
Proof.
  intros A m first last out fuel Hl Hm Ho O F. unfold copy_iter.
  assert (G : forall fuel it mm c, c = it - first -> first <= it <= last ->
    last - it < fuel -> length mm = length m ->
    (forall j, j < c -> nth_error mm (out + j) = nth_error m (first + j)) ->
    (forall a, (a < out \/ out + c <= a) -> nth_error mm a = nth_error m a) ->
    exists m', copy_iter_from fuel mm it last (out + c) c = Ok (m', last - first) /\
    (forall j, j < last - first -> nth_error m' (out + j) = nth_error m (first + j)) /\
    (forall a, (a < out \/ out + (last - first) <= a) -> nth_error m' a = nth_error m a)).
  { clear fuel F. induction fuel as [|fuel IH]; intros it mm c Ec Hi F L P1 P2; [lia|].
    cbn [copy_iter_from]. destruct (Nat.eqb_spec it last) as [E|N].
    - exists mm. assert (c = last - first) by lia. subst c. rewrite H in *. auto.
    - destruct (nth_error mm it) as [x|] eqn:Ex; [|apply nth_error_None in Ex; lia].
      rewrite (read_some _ _ _ Ex). cbn [bind]. rewrite write_ok by lia. cbn [bind].
      replace (S (out + c)) with (out + S c) by lia.
      apply IH; try lia.
      + rewrite upd_length. auto.
      + intros j Hj. destruct (Nat.eq_dec j c) as [->|Nj].
        * rewrite nth_error_upd_eq by lia. rewrite <- Ex. rewrite P2 by lia. f_equal. lia.
        * rewrite nth_error_upd_neq by lia. apply P1. lia.
      + intros a Ha. rewrite nth_error_upd_neq by lia. apply P2. lia. }
  destruct (G fuel first m 0) as (m' & E & H); auto; try lia.
  rewrite Nat.add_0_r in E. eauto.
Qed.

Example C37_copy_iterators_case :
  copy_iter 10 [1; 2; 3; 4; 5; 6] 0 3 3 = Ok ([1; 2; 3; 1; 2; 3], 3).
Proof. reflexivity. Qed.

(** countIterations is the length of the range. *)
Theorem C37_count_iterations : forall first last fuel,
  first <= last -> last - first < fuel ->
  count_iterations fuel first last 0 = Ok (last - first).
Proof.
  intros first last fuel Hl F.
  assert (G : forall fuel it c, it <= last -> last - it < fuel ->
            count_iterations fuel it last c = Ok (c + (last - it))).
  { clear fuel F. induction fuel as [|fuel IH]; intros it c Hi F; [lia|].
    cbn [count_iterations]. destruct (Nat.eqb_spec it last) as [->|N].
    - f_equal. lia.
    - rewrite IH by lia. f_equal. lia. }
  rewrite G; auto.
Qed.

Example C37_count_iterations_case : count_iterations 10 2 7 0 = Ok 5.
Proof. reflexivity. Qed.

(** * C38: alignedPointer *)

(** For every 64-bit number as address and every alignment: if an aligned address not before
    [p] exists in the same half of the address space, the result is the smallest one. *)
Theorem C38_aligned_pointer_general : forall align p u,
  (0 < align -> 0 <= p -> p <= u -> u < 2 ^ 64 -> u mod align = 0 ->
   (2 ^ 64) mod align = 0 -> (p < 2 ^ 63 -> u < 2 ^ 63) ->
   exists r, aligned_pointer align p = Ok r /\
     r mod align = 0 /\ p <= r /\ forall v, p <= v -> v mod align = 0 -> r <= v)%Z.
Proof.
  intros align p u Ha Hp Hu H64 Um Hd Hh. unfold aligned_pointer.
  destruct (Z.eqb_spec p 0) as [->|N].
  { exists 0%Z. split; [reflexivity|]. split; [apply Z.mod_0_l; lia|]. split; [lia|].
    intros; lia. }
  assert (V : (to_signed p mod 2 ^ 64 = p)%Z).
  { unfold to_signed. destruct (Z.ltb_spec p (2 ^ 63)).
    - apply Z.mod_small. lia.
    - replace (p - 2 ^ 64)%Z with (p + (-1) * 2 ^ 64)%Z by lia.
      rewrite Z.mod_add by lia. apply Z.mod_small. lia. }
  rewrite V. set (r := (p mod align)%Z). assert (Hr := Z.mod_pos_bound p align Ha).
  fold r in Hr. set (s := (if (r =? 0)%Z then 0 else align - r)%Z).
  assert (Ps : ((p + s) mod align = 0)%Z).
  { unfold s. destruct (Z.eqb_spec r 0) as [E|E].
    - rewrite Z.add_0_r. exact E.
    - unfold r. rewrite (Z.div_mod p align) at 1 by lia. fold r.
      replace (align * (p / align) + r + (align - r))%Z with ((p / align + 1) * align)%Z by lia.
      apply Z.mod_mul. lia. }
  assert (S0 : (0 <= s)%Z) by (unfold s; destruct (Z.eqb_spec r 0); lia).
  assert (Least : forall v, (p <= v -> v mod align = 0 -> p + s <= v)%Z).
  { intros v Hv Vm. unfold s. destruct (Z.eqb_spec r 0) as [E|E]; [lia|].
    assert (Dp := Z.div_mod p align ltac:(lia)). fold r in Dp.
    assert (Dv := Z.div_mod v align ltac:(lia)). rewrite Vm in Dv.
    assert (p / align < v / align)%Z by nia. nia. }
  assert (B := Least u Hu Um).
  assert (C : (to_signed p + s < 2 ^ 63 /\ (to_signed p + s) mod 2 ^ 64 = p + s)%Z).
  { unfold to_signed. destruct (Z.ltb_spec p (2 ^ 63)).
    - split; [lia|]. apply Z.mod_small. lia.
    - split; [lia|].
      replace (p - 2 ^ 64 + s)%Z with (p + s + (-1) * 2 ^ 64)%Z by lia.
      rewrite Z.mod_add by lia. apply Z.mod_small. lia. }
  destruct C as [C1 C2].
  destruct (Z.ltb_spec (to_signed p + s) (2 ^ 63)); [|lia].
  exists (p + s)%Z. rewrite C2. auto with zarith.
Qed.

(** The addresses an object can have (48-bit canonical addresses; in the upper half not the
    last block), and the alignments of C++: powers of two, here up to 2^40. *)
Theorem C38_aligned_pointer : forall k align p,
  (0 <= k <= 40 -> align = 2 ^ k ->
   0 <= p < 2 ^ 47 \/ 2 ^ 64 - 2 ^ 47 <= p <= 2 ^ 64 - align ->
   exists r, aligned_pointer align p = Ok r /\
     r mod align = 0 /\ p <= r /\ forall v, p <= v -> v mod align = 0 -> r <= v)%Z.
Proof.
  intros k align p Hk Ea Hp.
  assert (Hpos : (0 < align <= 2 ^ 40)%Z).
  { subst align. split; [apply Z.pow_pos_nonneg; lia|apply Z.pow_le_mono_r; lia]. }
  assert (Dm : forall j, (k <= j -> 2 ^ j mod align = 0)%Z).
  { intros j Hj. subst align. replace j with (j - k + k)%Z by lia.
    rewrite Z.pow_add_r by lia. apply Z.mod_mul. apply Z.pow_nonzero; lia. }
  destruct Hp as [Hp|Hp].
  - apply (C38_aligned_pointer_general align p (2 ^ 47)); try lia; apply Dm; lia.
  - apply (C38_aligned_pointer_general align p (2 ^ 64 - align)); try lia.
    + replace (2 ^ 64 - align)%Z with (2 ^ 64 + (-1) * align)%Z by lia.
      rewrite Z.mod_add by lia. apply Dm. lia.
    + apply Dm. lia.
Qed.

Example C38_case :
  aligned_pointer 16 1001 = Ok 1008%Z /\ aligned_pointer 16 1008 = Ok 1008%Z /\
  aligned_pointer 8 (2 ^ 64 - 15) = Ok (2 ^ 64 - 8)%Z /\ ((2 ^ 64) mod 16 = 0)%Z.
Proof. repeat split; vm_compute; reflexivity. Qed.

(** * C64: length *)

Theorem C64_length : forall (A : Type) (is_null : A -> bool) (m : list A) p n fuel,
  (forall i x, i < n -> nth_error m (p + i) = Some x -> is_null x = false) ->
  (exists z, nth_error m (p + n) = Some z /\ is_null z = true) -> n < fuel ->
  length_from is_null fuel m p 0 = Ok n.
Proof.
  intros A is_null m p n fuel H (z & Hz & Nz) F.
  assert (G : forall fuel k, k <= n -> n - k < fuel ->
            length_from is_null fuel m (p + k) k = Ok n).
  { clear fuel F. induction fuel as [|fuel IH]; intros k Hk F; [lia|].
    cbn [length_from]. destruct (nth_error m (p + k)) as [x|] eqn:Ex.
    - rewrite (read_some _ _ _ Ex). cbn [bind].
      destruct (Nat.eq_dec k n) as [->|N].
      + replace x with z by congruence. rewrite Nz. reflexivity.
      + rewrite (H k x) by (auto; lia). rewrite <- Nat.add_succ_r. apply IH; lia.
    - apply nth_error_None in Ex. assert (p + n < length m) by (apply nth_error_Some; congruence).
      lia. }
  rewrite <- (Nat.add_0_r p) at 1. apply G; lia.
Qed.

Example C64_case : length_from (Nat.eqb 0) 10 [5; 7; 8; 9; 0; 3] 1 0 = Ok 3.
Proof. reflexivity. Qed.

(** * C65: foreach *)

(** foreach calls the function once for every element in order and leaves everything outside
    the range alone. *)
Fixpoint apply_all {A St : Type} (f : St -> A -> St * A) (st : St) (l : list A) : list A * St :=
  match l with
  | [] => ([], st)
  | x :: l' =>
      let '(st1, y) := f st x in
      let '(l2, st2) := apply_all f st1 l' in
      (y :: l2, st2)
  end.

Lemma read_mid {A} (a c : list A) x : read (a ++ x :: c) (length a) = Ok x.
Proof.
  apply read_some. rewrite nth_error_app2 by lia. rewrite Nat.sub_diag. reflexivity.
Qed.

Theorem C65_foreach : forall (A St : Type) (f : St -> A -> St * A) (before l after : list A)
    (st : St) fuel,
  length l < fuel ->
  foreach f fuel (before ++ l ++ after) (length before) (length before + length l) st =
  Ok (before ++ fst (apply_all f st l) ++ after, snd (apply_all f st l)).
Proof.
  intros A St f before l. revert before.
  induction l as [|x l IH]; intros before after st fuel F; destruct fuel as [|fuel];
    cbn [length] in *; try lia; cbn [foreach].
  - rewrite Nat.add_0_r, Nat.eqb_refl. reflexivity.
  - destruct (Nat.eqb_spec (length before) (length before + S (length l))); [lia|].
    cbn [app]. rewrite read_mid. cbn [bind apply_all]. destruct (f st x) as [st1 y].
    rewrite write_ok by (rewrite app_length; cbn; lia). cbn [bind].
    rewrite upd_app_mid. specialize (IH (before ++ [y]) after st1 fuel).
    rewrite <- !app_assoc in IH. cbn [app] in IH. rewrite app_length in IH. cbn [length] in IH.
    replace (S (length before)) with (length before + 1) by lia.
    replace (length before + S (length l)) with (length before + 1 + length l) by lia.
    rewrite IH by lia. destruct (apply_all f st1 l) as [l2 st2]. reflexivity.
Qed.

Example C65_case :
  foreach (fun s x => (s + x, 2 * x)) 10 [1; 2; 3; 4] 1 3 0 = Ok ([1; 4; 6; 4], 5).
Proof. reflexivity. Qed.

(** * C68: maximum and minimum *)

(** For every comparison that orders its values totally (a value may be equivalent to others):
    the result is one of the two values, and neither is greater (smaller) than it. *)
Theorem C68_maximum_minimum : forall (A : Type) (gt : A -> A -> bool) (a b : A),
  (gt a b = true -> gt b a = false) -> gt a a = false -> gt b b = false ->
  (maximum gt a b = a \/ maximum gt a b = b) /\
  gt a (maximum gt a b) = false /\ gt b (maximum gt a b) = false /\
  (minimum gt a b = a \/ minimum gt a b = b) /\
  gt (minimum gt a b) a = false /\ gt (minimum gt a b) b = false.
Proof.
  intros A gt a b As Ia Ib. unfold maximum, minimum.
  destruct (gt a b) eqn:E, (gt b a) eqn:F; repeat split; auto;
    specialize (As eq_refl); discriminate.
Qed.

Example C68_case :
  maximum (fun a b => b <? a) 3 7 = 7 /\ minimum (fun a b => b <? a) 3 7 = 3 /\
  (forall a b, (b <? a) = true -> (a <? b) = false).
Proof.
  repeat split. intros a b H. apply Nat.ltb_lt in H. apply Nat.ltb_ge. lia.
Qed.

Print Assumptions C36_exact_partial.
Print Assumptions C36_range_partial.
Print Assumptions C36_prefix_refuted.
Print Assumptions C36_bytes.
Print Assumptions C37_copy_bytes.
Print Assumptions C37_copy_array.
Print Assumptions C37_copy_iterators.
Print Assumptions C37_count_iterations.
Print Assumptions C38_aligned_pointer_general.
Print Assumptions C38_aligned_pointer.
Print Assumptions C64_length.
Print Assumptions C65_foreach.
Print Assumptions C68_maximum_minimum.
