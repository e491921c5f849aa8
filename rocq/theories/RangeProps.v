(** Ranges cover what they are made of: C238. *)
From Coq Require Import List Arith Lia Bool.
From Verif Require Import Base RangeModel RangeSpec.
Import ListNotations.
Local Arguments Nat.ltb : simpl never.
Local Arguments Nat.leb : simpl never.
Local Arguments Nat.eqb : simpl never.

Section Ranges.
  Variables A S : Type.
  Implicit Types (m pre post rest bytes : list A) (a : array).

  Lemma address_eq a i j :
    0 < esize a -> (address (Ptr a i) =? address (Ptr a j)) = (i =? j).
  Proof.
    intros E. unfold address; cbn.
    destruct (i =? j) eqn:Q.
    - apply Nat.eqb_eq in Q. subst. apply Nat.eqb_refl.
    - apply Nat.eqb_neq in Q. apply Nat.eqb_neq. nia.
  Qed.

  Lemma load_here a i pre x post :
    i < count a -> length pre = at_ a + i * esize a -> length x = esize a ->
    load (pre ++ x ++ post) (Ptr a i) = Ok x.
  Proof.
    intros I P X. unfold load, address; cbn.
    rewrite (proj2 (Nat.ltb_lt _ _) I), <- P.
    rewrite skipn_app, skipn_all, Nat.sub_diag. cbn.
    rewrite <- X, firstn_app, firstn_all, Nat.sub_diag. cbn. now rewrite app_nil_r.
  Qed.

  Lemma store_here a i pre x y post :
    i < count a -> length pre = at_ a + i * esize a -> length x = esize a ->
    store (pre ++ x ++ post) (Ptr a i) y = Ok (pre ++ y ++ post).
  Proof.
    intros I P X. unfold store, address; cbn.
    rewrite (proj2 (Nat.ltb_lt _ _) I), <- P.
    rewrite firstn_app, firstn_all, Nat.sub_diag. cbn. rewrite app_nil_r.
    rewrite (app_assoc pre x post), <- X, <- app_length, skipn_app, skipn_all, Nat.sub_diag.
    reflexivity.
  Qed.

  Lemma loop_forward (body : S -> list A -> S * list A) a :
    0 < esize a -> keeps_size (esize a) body ->
    forall k i fuel s pre rest post,
      i + k <= count a -> k < fuel ->
      length pre = at_ a + i * esize a -> length rest = k * esize a ->
      for_from fuel body s (pre ++ rest ++ post) (Ptr a i) (Ptr a (i + k))
      = Ok (fst (visit body s (cut (esize a) k rest)),
            pre ++ concat (snd (visit body s (cut (esize a) k rest))) ++ post).
  Proof.
    intros E K. induction k as [|k IH]; intros i fuel s pre rest post I F P R;
      destruct fuel as [|fuel]; try lia; cbn -[address Nat.mul].
    - rewrite address_eq by exact E. rewrite Nat.add_0_r, Nat.eqb_refl.
      destruct rest; [reflexivity|discriminate].
    - rewrite address_eq by exact E.
      replace (i =? i + Datatypes.S k) with false by (symmetry; apply Nat.eqb_neq; lia).
      assert (L1 : length (firstn (esize a) rest) = esize a) by (rewrite firstn_length; nia).
      rewrite <- (firstn_skipn (esize a) rest) at 1.
      rewrite <- app_assoc.
      rewrite load_here by (try lia; assumption). cbn -[address Nat.mul].
      destruct (body s (firstn (esize a) rest)) as [s' x'] eqn:B.
      rewrite <- (firstn_skipn (esize a) rest) at 1.
      rewrite <- app_assoc.
      rewrite store_here by (try lia; assumption). cbn -[address Nat.mul].
      unfold p_add; cbn -[address Nat.mul].
      rewrite (proj2 (Nat.leb_le (i + 1) (count a))) by lia. cbn -[address Nat.mul].
      assert (X : length x' = esize a).
      { specialize (K s _ L1). now rewrite B in K. }
      replace (i + Datatypes.S k) with ((i + 1) + k) by lia.
      rewrite app_assoc.
      rewrite IH.
      + destruct (visit body s' (cut (esize a) k (skipn (esize a) rest))) as [s'' more] eqn:V.
        cbn. now rewrite <- !app_assoc.
      + lia.
      + lia.
      + rewrite app_length, P, X. lia.
      + rewrite skipn_length. nia.
  Qed.

  (** A loop whose end is before its begin runs to the end of the array and goes on. *)
  Lemma loop_backward (body : S -> list A -> S * list A) a j :
    0 < esize a ->
    forall k i fuel s m,
      i + k = count a -> j < i -> k < fuel ->
      for_from fuel body s m (Ptr a i) (Ptr a j) = UB.
  Proof.
    intros E. induction k as [|k IH]; intros i fuel s m I J F;
      destruct fuel as [|fuel]; try lia; cbn -[address Nat.mul];
      rewrite address_eq by exact E;
      replace (i =? j) with false by (symmetry; apply Nat.eqb_neq; lia);
      unfold load; cbn -[address Nat.mul].
    - replace (i <? count a) with false by (symmetry; apply Nat.ltb_ge; lia). reflexivity.
    - rewrite (proj2 (Nat.ltb_lt i (count a))) by lia. cbn -[address Nat.mul].
      destruct (body s _) as [s' x'].
      unfold store; cbn -[address Nat.mul].
      rewrite (proj2 (Nat.ltb_lt i (count a))) by lia. cbn -[address Nat.mul].
      unfold p_add; cbn -[address Nat.mul].
      rewrite (proj2 (Nat.leb_le (i + 1) (count a))) by lia. cbn -[address Nat.mul].
      apply IH; lia.
  Qed.
End Ranges.

(** An array of [n] elements of [s] bytes lies in memory between other bytes. However its range is
    made, a loop over it runs its body once on each element, in order, and what it assigns is in
    the element afterwards; nothing else changes. *)
Theorem C238_elements_partial :
  forall (A S : Type) (before bytes after : list A) (s n : nat)
         (body : S -> list A -> S * list A) (st : S) (fuel : nat),
    0 < s -> length bytes = n * s -> keeps_size s body -> n < fuel ->
    let a := Array (length before) s n in
    let m := before ++ bytes ++ after in
    let done := visit body st (cut s n bytes) in
    let result := Ok (fst done, before ++ concat (snd done) ++ after) in
    (let! r := make_range_array a in for_range fuel body st m r) = result /\
    (let! r := make_range_data (Ptr a 0) n in for_range fuel body st m r) = result /\
    for_range fuel body st m (make_range_container a) = result /\
    for_range fuel body st m (make_range_iterators (Ptr a 0) (Ptr a n)) = result /\
    for_range fuel body st m (range_copy (make_range_container a)) = result.
Proof.
  intros A S before bytes after s n body st fuel E B K F a m done result.
  assert (L : for_from fuel body st m (Ptr a 0) (Ptr a (0 + n)) = result).
  { apply (loop_forward A S body a); cbn; try assumption; lia. }
  cbn [Nat.add] in L.
  unfold make_range_array, make_range_data, p_add. cbn -[for_range].
  rewrite Nat.leb_refl. cbn -[for_range].
  repeat split; exact L.
Qed.

(** Part of an array: [size] elements from the [i]-th on, given by a pointer and a number or by two
    pointers. The call is defined exactly when the array has them, and then the loop is over
    exactly these. *)
Theorem C238_part_partial :
  forall (A S : Type) (before front bytes back after : list A) (s i size n : nat)
         (body : S -> list A -> S * list A) (st : S) (fuel : nat),
    0 < s -> keeps_size s body -> size < fuel ->
    length front = i * s -> length bytes = size * s -> length back = (n - i - size) * s ->
    i + size <= n ->
    let a := Array (length before) s n in
    let m := before ++ front ++ bytes ++ back ++ after in
    let done := visit body st (cut s size bytes) in
    let result := Ok (fst done, before ++ front ++ concat (snd done) ++ back ++ after) in
    (let! r := make_range_data (Ptr a i) size in for_range fuel body st m r) = result /\
    for_range fuel body st m (make_range_iterators (Ptr a i) (Ptr a (i + size))) = result.
Proof.
  intros A S before front bytes back after s i size n body st fuel E K F L1 L2 L3 I a m done result.
  assert (L : for_from fuel body st m (Ptr a i) (Ptr a (i + size)) = result).
  { unfold m, result. rewrite (app_assoc before front), (app_assoc before front).
    apply (loop_forward A S body a); cbn; try assumption; try lia.
    rewrite app_length. lia. }
  unfold make_range_data, p_add. cbn -[for_range].
  rewrite (proj2 (Nat.leb_le _ _) I). cbn -[for_range].
  split; exact L.
Qed.

(** More elements than the array has: making the range is not defined. Two pointers in the wrong
    order: the loop runs out of the array, whatever it does. *)
Theorem C238_too_many_partial :
  forall (A S : Type) (a : array) (i size : nat),
    0 < esize a -> i <= count a ->
    (make_range_data (Ptr a i) size = UB <-> count a < i + size) /\
    (forall (j : nat) (m : list A) (body : S -> list A -> S * list A) (st : S) (fuel : nat),
      j < i -> count a < fuel ->
      for_range fuel body st m (make_range_iterators (Ptr a i) (Ptr a j)) = UB).
Proof.
  intros A S a i size E I. split.
  - unfold make_range_data, p_add; cbn.
    destruct (i + size <=? count a) eqn:Q; cbn.
    + apply Nat.leb_le in Q. split; [discriminate|lia].
    + apply Nat.leb_gt in Q. split; [intros _; exact Q|reflexivity].
  - intros j m body st fuel J F.
    apply (loop_backward A S body a j E (count a - i)); cbn; lia.
Qed.

(** The byte range of an object of [size] bytes is its bytes in order, one by one. *)
Theorem C238_bytes_partial :
  forall (A S : Type) (before value after : list A)
         (body : S -> A -> S * A) (st : S) (fuel : nat),
    length value < fuel ->
    let each := fun s x =>
      match x with [b] => let (s', b') := body s b in (s', [b']) | _ => (s, x) end in
    let done := fold_left
      (fun sv b => let (s', b') := body (fst sv) b in (s', snd sv ++ [b'])) value (st, []) in
    (let! r := make_byte_range (length before) (length value) in
     for_range fuel each st (before ++ value ++ after) r)
    = Ok (fst done, before ++ snd done ++ after).
Proof.
  intros A S before value after body st fuel F each done.
  assert (D : forall vs s acc,
    fold_left (fun sv b => let (s', b') := body (fst sv) b in (s', snd sv ++ [b'])) vs (s, acc)
    = (fst (visit each s (cut 1 (length vs) vs)),
       acc ++ concat (snd (visit each s (cut 1 (length vs) vs))))).
  { induction vs as [|v vs IH]; intros s acc; cbn -[each].
    - now rewrite app_nil_r.
    - assert (V : each s [v] = let (s', v') := body s v in (s', [v'])) by reflexivity.
      rewrite V. destruct (body s v) as [s' v'].
      rewrite IH.
      destruct (visit each s' _) as [s'' more]. cbn. now rewrite <- app_assoc. }
  unfold done. rewrite D. cbn [app].
  unfold make_byte_range, p_add. cbn -[for_range each].
  rewrite Nat.leb_refl. cbn -[for_range each].
  apply (loop_forward A S each (Array (length before) 1 (length value)) (le_n 1)) with (i := 0);
    cbn; try lia.
  intros s x X. destruct x as [|b [|? ?]]; try discriminate. cbn.
  destruct (body s b). reflexivity.
Qed.

(** Reverse ranges cannot be made: no container whose reverse iterators are a type of their own can
    be given to makeReverseRange() or makeConstReverseRange(), whatever conversions there are. *)
Theorem C238_reverse_refuted :
  forall c : iterators,
    (reverse_iterator c <> const_iterator c -> ~ makes_reverse_range c) /\
    (const_reverse_iterator c <> const_iterator c -> ~ makes_const_reverse_range c).
Proof.
  intros c. split; intros N [_ E]; apply N; symmetry; exact E.
Qed.

(** The others can be given every container; makeRange() takes a const one exactly if its const
    iterators may be used as iterators. *)
Theorem C238_makers_partial :
  forall c : iterators,
    (forall t, conv c t t) ->
    makes_range c /\ makes_const_range c /\
    (makes_range_of_const c <-> conv c (const_iterator c) (iterator c)).
Proof.
  intros c R. unfold makes_range, makes_const_range, makes_range_of_const, returns.
  repeat split; auto. intros [H _]; exact H.
Qed.

(** * Cases *)

(** Two elements of two bytes: the body adds up the first bytes and swaps the two bytes. *)
Example range_case :
  let body := fun (s : nat) x => match x with [p; q] => (s + p, [q; p]) | _ => (s, x) end in
  (let! r := make_range_array (Array 1 2 2) in for_range 3 body 0 [9; 1; 2; 3; 4; 8] r)
  = Ok (4, [9; 2; 1; 4; 3; 8]).
Proof. reflexivity. Qed.

Example range_case_meets :
  keeps_size 2
    (fun (s : nat) (x : list nat) => match x with [p; q] => (s + p, [q; p]) | _ => (s, x) end).
Proof. intros s [|p [|q [|? ?]]]; cbn; intros; congruence. Qed.

Example byte_range_case :
  (let! r := make_byte_range 1 3 in
   for_range 4 (fun s x => (s ++ x, [0])) [] [9; 1; 2; 3; 8] r)
  = Ok ([1; 2; 3], [9; 0; 0; 0; 8]).
Proof. reflexivity. Qed.

(** The iterators of a Vector: four types, of which the iterators become const iterators. *)
Example reverse_case :
  let c := Iterators nat (fun x y => x = y \/ (x = 0 /\ y = 1)) 0 1 2 3 in
  ~ makes_reverse_range c /\ makes_range c /\ ~ makes_range_of_const c.
Proof.
  intros c. split; [|split].
  - apply (C238_reverse_refuted c). discriminate.
  - refine (proj1 (C238_makers_partial c _)). intros t; left; reflexivity.
  - intros [[H|[H _]] _]; discriminate.
Qed.

Print Assumptions C238_elements_partial.
Print Assumptions C238_part_partial.
Print Assumptions C238_too_many_partial.
Print Assumptions C238_bytes_partial.
Print Assumptions C238_reverse_refuted.
Print Assumptions C238_makers_partial.
