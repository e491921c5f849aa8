(** Properties C06, C07, C08 (StaticVector). *)
From Coq Require Import List Arith Lia Bool.
From Verif Require Import Base BaseLemmas Store StoreLemmas StaticVectorModel StaticVectorSpec
  StaticVectorProofs.
Import ListNotations.

Lemma new_rep A cap : sv_new (A := A) cap
  = SVec (St (map (@Some A) [] ++ raw A cap) 0) (length (@nil A)).
Proof. reflexivity. Qed.

(** C06. Element types without lifetimes (trivially copyable): every valid history of
    operations on an empty container of capacity [cap] runs without undefined behaviour
    and its contents are those of the bounded sequence. *)
Theorem C06_bounded_sequence :
  forall (A : Type) (moved : A -> A) (dflt : A) (cap : nat) (ops : list (sv_op A)),
    valid cap [] ops ->
    exists v, sv_run Trivial moved dflt (sv_new cap) ops = Ok v
      /\ sv_elements v = Ok (spec_run cap ops)
      /\ sv_size v = length (spec_run cap ops)
      /\ sv_size v <= sv_capacity v
      /\ sv_capacity v = cap.
Proof.
  intros A moved dflt cap ops Hv. rewrite new_rep.
  destruct (run_ok Trivial moved dflt cap ops [] (raw A cap) 0) as (r & k & E & L & _); auto.
  { unfold raw. rewrite repeat_length. auto. }
  eexists. split; [exact E|]. split; [apply elements_ok|].
  unfold sv_size, sv_capacity. cbn [sv_tail sv_store st_cells].
  rewrite app_length, map_length. fold (spec_run cap ops) in *. repeat split; lia.
Qed.

(** C06, the same for element types with constructors and destructors, as long as no
    range in front of the end is erased. *)
Theorem C06_bounded_sequence_objects_partial :
  forall (A : Type) (moved : A -> A) (dflt : A) (cap : nat) (ops : list (sv_op A)),
    valid cap [] ops -> along tail_range cap [] ops ->
    exists v, sv_run Tracked moved dflt (sv_new cap) ops = Ok v
      /\ sv_elements v = Ok (spec_run cap ops)
      /\ sv_size v = length (spec_run cap ops)
      /\ sv_size v <= sv_capacity v
      /\ sv_capacity v = cap.
Proof.
  intros A moved dflt cap ops Hv Ha. rewrite new_rep.
  destruct (run_ok Tracked moved dflt cap ops [] (raw A cap) 0) as (r & k & E & L & _); auto.
  { unfold raw. rewrite repeat_length. auto. }
  eexists. split; [exact E|]. split; [apply elements_ok|].
  unfold sv_size, sv_capacity. cbn [sv_tail sv_store st_cells].
  rewrite app_length, map_length. fold (spec_run cap ops) in *. repeat split; lia.
Qed.

(** C06: erasing the elements a reverse range visits: those at the positions [rb] down to
    [re_plus_1]. *)
Theorem C06_erase_reverse :
  forall (A : Type) (moved : A -> A) (dflt : A) (cap : nat) (ops : list (sv_op A)) (rb re_plus_1 : nat),
    valid cap [] ops ->
    let l := spec_run cap ops in
    re_plus_1 <= S rb <= length l ->
    exists v w, sv_run Trivial moved dflt (sv_new cap) ops = Ok v
      /\ sv_erase_reverse Trivial moved v rb re_plus_1 = Ok w
      /\ sv_elements w = Ok (firstn re_plus_1 l ++ skipn (S rb) l).
Proof.
  intros A moved dflt cap ops rb re1 Hv l Hr. rewrite new_rep.
  destruct (run_ok Trivial moved dflt cap ops [] (raw A cap) 0) as (r & k & E & L & _); auto.
  { unfold raw. rewrite repeat_length. auto. }
  fold (spec_run cap ops) in *. fold l in E, L.
  destruct (run_ok Trivial moved dflt cap [EraseRange re1 (S rb)] l r k L) as (r2 & k2 & E2 & L2 & _); auto.
  { cbn. lia. }
  eexists. eexists. split; [exact E|].
  cbn [sv_run sv_step bind] in E2. unfold sv_erase_reverse.
  destruct (sv_erase_range Trivial moved (SVec (St (map Some l ++ r) k) (length l)) re1 (S rb))
    as [w| |]; try discriminate. cbn [bind] in E2. injection E2 as ->.
  split; [reflexivity|]. apply elements_ok.
Qed.

Example C06_erase_reverse_case :
  let ops := [PushBack 1; PushBack 2; PushBack 3; PushBack 4] in
  valid 5 [] ops /\ 1 <= S 2 <= length (spec_run 5 ops)
  /\ firstn 1 (spec_run 5 ops) ++ skipn (S 2) (spec_run 5 ops) = [1; 4].
Proof. cbv. repeat split; lia. Qed.

(** C06/C07 refuted for such element types: erasing a non-empty range in front of the end
    assigns to objects that were just destroyed, in every state. *)
Theorem C07_range_erase_refuted :
  forall (A : Type) (moved : A -> A) (dflt : A) (cap : nat) (ops : list (sv_op A)) (b e : nat),
    valid cap [] ops -> along tail_range cap [] ops ->
    b < e -> e < length (spec_run cap ops) ->
    sv_run Tracked moved dflt (sv_new cap) (ops ++ [EraseRange b e]) = UB.
Proof.
  intros A moved dflt cap ops b e Hv Ha Hb He.
  assert (Hrun : forall v o1 o2, sv_run Tracked moved dflt v (o1 ++ o2)
     = bind (sv_run Tracked moved dflt v o1) (fun v => sv_run Tracked moved dflt v o2)).
  { intros v o1; revert v; induction o1 as [|o o1 IH]; intros v o2; cbn; auto.
    destruct (sv_step Tracked moved dflt v o); cbn; auto. }
  rewrite Hrun, new_rep.
  destruct (run_ok Tracked moved dflt cap ops [] (raw A cap) 0) as (r & k & E & L & _); auto.
  { unfold raw. rewrite repeat_length. auto. }
  rewrite E. cbn [bind sv_run sv_step]. fold (spec_run cap ops) in *.
  remember (spec_run cap ops) as l eqn:El.
  rewrite erase_range_UB by auto. reflexivity.
Qed.

(** Concrete histories for the theorems above. *)
Example C06_case :
  let ops := [PushBack 1; PushBack 2; Insert 1 7; InsertRange 0 [4; 5]; PushBack 9;
              Erase 1; EraseRange 1 3; PopBack; Assign [3; 3]; Append [8; 8; 8; 8; 8]] in
  valid 5 [] ops /\ spec_run 5 ops = [3; 3; 8; 8; 8]
  /\ spec_run 5 (firstn 5 ops) = [4; 5; 1; 7; 2].
Proof. cbv. repeat split; lia. Qed.

Example C06_objects_case :
  let ops := [PushBack 1; PushBack 2; PushBack 3; Erase 0; EraseRange 1 2; PushBack 4] in
  valid 3 [] ops /\ along tail_range 3 [] ops /\ spec_run 3 ops = [2; 4].
Proof. cbv. repeat split; try lia; auto. Qed.

Example C07_range_erase_case :
  let ops := [PushBack 1; PushBack 2; PushBack 3] in
  valid 3 [] ops /\ along tail_range 3 [] ops /\ 2 < length (spec_run 3 ops)
  /\ sv_run Tracked id 0 (sv_new 3) (ops ++ [EraseRange 0 2]) = UB.
Proof. cbv. repeat split; try lia; auto. Qed.

(** C06: an element of the container may not be inserted into it by reference: the
    reference is read after the elements have been shifted, so the neighbour's value is
    inserted (C06_self_insert_refuted, AliasProps.v). *)
Example C06_self_insert_case :
  exists v, sv_run Trivial id 0 (sv_new 4) [PushBack 1; PushBack 2] = Ok v
    /\ sv_index v 1 = Ok 2
    /\ (let! w := sv_insert_arg Trivial id 0 v 0 (Own 1) in sv_elements w) = Ok [1; 1; 2].
Proof. eexists. repeat split. Qed.

(** C07. Over the whole life of a container, destructor included, of a history in which
    no element in front of others is erased: no undefined access, no object overwritten
    without being destroyed, no object alive at the end. *)
Theorem C07_lifetimes_partial :
  forall (A : Type) (moved : A -> A) (dflt : A) (cap : nat) (ops : list (sv_op A)),
    valid cap [] ops -> along no_inner_erase cap [] ops ->
    exists v s, sv_run Tracked moved dflt (sv_new cap) ops = Ok v
      /\ sv_destructor Tracked v = Ok s
      /\ st_leaks s = 0
      /\ st_cells s = raw A cap.
Proof.
  intros A moved dflt cap ops Hv Ha. rewrite new_rep.
  assert (along tail_range cap [] ops) as Ht.
  { clear Hv. revert Ha. generalize (@nil A). induction ops as [|op ops IH]; intros l; cbn; auto.
    intros [H1 H2]. split; auto. destruct op; cbn in *; auto. }
  destruct (run_ok Tracked moved dflt cap ops [] (raw A cap) 0) as (r & k & E & L & C); auto.
  { unfold raw. rewrite repeat_length. auto. }
  destruct (C eq_refl Ha) as [HR ->]. { apply all_raw_repeat. }
  eexists; eexists. split; [exact E|]. split; [apply destructor_ok|].
  cbn [st_leaks st_cells]. split; auto.
  rewrite dead_tracked by auto. rewrite map_length.
  replace r with (raw A (length r)).
  2:{ clear - HR. induction HR; cbn; auto. subst. unfold raw in *. rewrite IHHR. reflexivity. }
  unfold raw. rewrite <- repeat_app. rewrite L. reflexivity.
Qed.

Example C07_case :
  let ops := [PushBack 1; Insert 0 2; InsertRange 1 [5; 6]; Emplace 2 3; Erase 4; PopBack;
              EraseRange 1 3; Clean; Assign [1; 2]; Reset] in
  valid 6 [] ops /\ along no_inner_erase 6 [] ops.
Proof. cbv. repeat split; auto; lia. Qed.

(** C07 refuted: erasing one element in front of others leaves the vacated last object
    alive; its destructor never runs. *)
Theorem C07_lifetimes_refuted :
  forall (A : Type) (moved : A -> A) (dflt a b : A),
    exists v s, sv_run Tracked moved dflt (sv_new 2) [PushBack a; PushBack b; Erase 0] = Ok v
      /\ sv_elements v = Ok [b]
      /\ sv_destructor Tracked v = Ok s
      /\ st_cells s = [None; Some (moved b)].
Proof. intros. eexists. eexists. repeat split. Qed.

(** C07 refuted: the lost object is also overwritten by the next construction. *)
Theorem C07_overwrite_refuted :
  forall (A : Type) (moved : A -> A) (dflt a b c : A),
    exists v, sv_run Tracked moved dflt (sv_new 2)
                [PushBack a; PushBack b; Erase 0; PushBack c] = Ok v
      /\ sv_elements v = Ok [b; c]
      /\ st_leaks (sv_store v) = 1.
Proof. intros. eexists. repeat split. Qed.

(** Copies. *)
Theorem C06_copy :
  forall (A : Type) (m : mode) (cap : nat) (xs : list A),
    exists v, sv_copy m cap xs = Ok v
      /\ sv_elements v = Ok (if length xs <=? cap then xs else [])
      /\ sv_capacity v = cap.
Proof.
  intros A m cap xs. unfold sv_copy. destruct (Nat.leb_spec (length xs) cap) as [H|H].
  - rewrite new_rep.
    destruct (push_all_fit m cap xs [] (raw A cap) 0) as (r & k & E & L & _); auto.
    { unfold raw. rewrite repeat_length. auto. }
    eexists. split; [exact E|]. split; [apply elements_ok|].
    unfold sv_capacity. cbn [sv_store st_cells]. rewrite app_length, map_length. auto.
  - eexists. split; [reflexivity|]. split; [reflexivity|].
    unfold sv_capacity, sv_new, raw. cbn. apply repeat_length.
Qed.

Theorem C06_clone :
  forall (A : Type) (moved : A -> A) (dflt : A) (cap : nat) (ops : list (sv_op A)) v,
    valid cap [] ops ->
    sv_run Trivial moved dflt (sv_new cap) ops = Ok v ->
    exists w, sv_clone Trivial v = Ok w
      /\ sv_elements w = sv_elements v /\ sv_capacity w = sv_capacity v.
Proof.
  intros A moved dflt cap ops v Hv Hr.
  destruct (run_ok Trivial moved dflt cap ops [] (raw A cap) 0) as (r & k & E & L & _); auto.
  { unfold raw. rewrite repeat_length. auto. }
  rewrite <- new_rep, Hr in E. injection E as ->.
  unfold sv_clone. rewrite elements_ok. cbn [bind].
  unfold sv_capacity. cbn [sv_store st_cells]. rewrite app_length, map_length, L.
  destruct (C06_copy A Trivial cap (fold_left (spec_step cap) ops [])) as (w & E1 & E2 & E3).
  unfold sv_copy in E1.
  destruct (Nat.leb_spec (length (fold_left (spec_step cap) ops [])) cap); [|lia].
  exists w. auto.
Qed.

Example C06_copy_case :
  (let! v := sv_copy Trivial 3 [1; 2] in sv_elements v) = Ok [1; 2]
  /\ (let! v := sv_run Trivial id 0 (sv_new 3) [PushBack 4; PushBack 5] in
      let! w := sv_clone Trivial v in sv_elements w) = Ok [4; 5].
Proof. split; reflexivity. Qed.

(** C08, what the operator does decide, for every pair of distinct containers: equal
    sizes, and all elements of the left one equal to the first of the right one. *)
Theorem C08_equality_partial :
  forall (A : Type) (eqA : A -> A -> bool) (m : mode) (cap1 cap2 : nat) (xs ys : list A) v w,
    (forall x y, eqA x y = true <-> x = y) ->
    length xs <= cap1 -> length ys <= cap2 ->
    sv_of_array m cap1 xs = Ok v -> sv_of_array m cap2 ys = Ok w ->
    exists b, sv_eq eqA false v w = Ok b
      /\ (b = true <->
          length xs = length ys /\ forall i x, nth_error xs i = Some x -> nth_error ys 0 = Some x)
      /\ sv_neq eqA false v w = Ok (negb b)
      /\ sv_eq eqA true v v = Ok true /\ sv_neq eqA true v v = Ok false.
Proof.
  intros A eqA m cap1 cap2 xs ys v w Heq H1 H2 Ev Ew.
  enough (exists b, sv_eq eqA false v w = Ok b
      /\ (b = true <->
          length xs = length ys /\ forall i x, nth_error xs i = Some x -> nth_error ys 0 = Some x))
    as (b & Eb & Hb).
  { exists b. split; [exact Eb|]. split; [exact Hb|].
    unfold sv_neq. rewrite Eb. split; [reflexivity|]. split; reflexivity. }
  unfold sv_of_array in *. rewrite new_rep in Ev, Ew.
  destruct (push_all_fit m cap1 xs [] (raw A cap1) 0) as (r1 & k1 & E1 & L1 & _); auto.
  { unfold raw. rewrite repeat_length. auto. }
  destruct (push_all_fit m cap2 ys [] (raw A cap2) 0) as (r2 & k2 & E2 & L2 & _); auto.
  { unfold raw. rewrite repeat_length. auto. }
  rewrite E1 in Ev. injection Ev as <-. rewrite E2 in Ew. injection Ew as <-.
  cbn [app] in *. unfold sv_eq, sv_size. cbn [sv_tail].
  destruct (Nat.eqb_spec (length xs) (length ys)) as [El|El]; cbn [negb].
  2:{ exists false. split; auto. split; [discriminate|]. intros [? _]; congruence. }
  rewrite elements_ok. cbn [bind sv_store].
  destruct ys as [|y ys].
  { destruct xs; [|discriminate]. exists true. cbn. split; auto. split; auto.
    intros _. split; auto. intros [|i] x Hx; discriminate. }
  assert (st_load (St (map Some (y :: ys) ++ r2) k2) 0 = Ok y) as -> by reflexivity.
  cbn [nth_error]. rewrite El. clear El E1 H1 L1.
  induction xs as [|x xs IH]; cbn [all_equal_to bind].
  - exists true. split; auto. split; auto. intros _. split; auto.
    intros [|i] x Hx; discriminate.
  - destruct (eqA x y) eqn:E.
    + apply Heq in E. subst x. destruct IH as (b & Eb & Hb). exists b. split; auto.
      rewrite Hb. split; intros [_ H]; split; auto; intros i x Hx.
      * destruct i; cbn in Hx; [congruence|]. eapply H; eauto.
      * eapply (H (S i)); eauto.
    + exists false. split; auto. split; [discriminate|]. intros [_ H].
      specialize (H 0 x eq_refl). injection H as ->.
      assert (eqA x x = true) by (apply Heq; auto). congruence.
Qed.

(** C08 refuted: equality compares every element with the first element of the other container.
    Two containers with the same contents are reported different whenever the contents are not all the
    same, and a container of copies of one element is reported equal to every container of that size
    that begins with it. *)
Theorem C08_equality_refuted :
  forall (A : Type) (eqA : A -> A -> bool) (m : mode) (cap : nat) (xs : list A) v w,
    (forall x y, eqA x y = true <-> x = y) -> length xs <= cap ->
    sv_of_array m cap xs = Ok v -> sv_of_array m cap xs = Ok w ->
    (forall x y, In x xs -> In y xs -> x <> y ->
       sv_eq eqA false v w = Ok false /\ sv_neq eqA false v w = Ok true)
    /\ forall x u, nth_error xs 0 = Some x -> sv_of_array m cap (repeat x (length xs)) = Ok u ->
         sv_eq eqA false u v = Ok true /\ sv_neq eqA false u v = Ok false.
Proof.
  intros A eqA m cap xs v w Heq L Ev Ew. split.
  - intros x y Ix Iy N.
    destruct (C08_equality_partial A eqA m cap cap xs xs v w Heq L L Ev Ew) as (b & Eb & Hb & Nb & _).
    destruct b; [|auto]. destruct (proj1 Hb eq_refl) as [_ H].
    apply In_nth_error in Ix, Iy. destruct Ix as [i Ix], Iy as [j Iy]. apply H in Ix, Iy. congruence.
  - intros x u Hx Eu.
    assert (L' : length (repeat x (length xs)) <= cap) by (rewrite repeat_length; exact L).
    destruct (C08_equality_partial A eqA m cap cap _ xs u v Heq L' L Eu Ev) as (b & Eb & Hb & Nb & _).
    replace b with true in *; [auto|]. symmetry. apply Hb. split; [apply repeat_length|].
    intros i y Hy. apply nth_error_In, repeat_spec in Hy. congruence.
Qed.
Example C08_equality_refuted_case :
  exists v w u : svec nat,
    sv_of_array Trivial 2 [1; 2] = Ok v /\ sv_of_array Trivial 2 [1; 2] = Ok w
    /\ sv_of_array Trivial 2 [1; 1] = Ok u
    /\ sv_eq Nat.eqb false v w = Ok false       (* equal contents, reported different *)
    /\ sv_eq Nat.eqb false u v = Ok true.       (* different contents, reported equal *)
Proof. do 3 eexists. repeat split. Qed.

Example C08_case :
  exists v w : svec nat, sv_of_array Tracked 3 [4; 4] = Ok v /\ sv_of_array Tracked 2 [4; 9] = Ok w
    /\ sv_eq Nat.eqb false v w = Ok true /\ sv_eq Nat.eqb false w v = Ok false.
Proof. do 2 eexists. repeat split. Qed.

Print Assumptions C06_bounded_sequence.
Print Assumptions C06_bounded_sequence_objects_partial.
Print Assumptions C06_copy.
Print Assumptions C06_clone.
Print Assumptions C07_range_erase_refuted.
Print Assumptions C07_lifetimes_partial.
Print Assumptions C07_lifetimes_refuted.
Print Assumptions C07_overwrite_refuted.
Print Assumptions C08_equality_refuted.
Print Assumptions C08_equality_partial.
Print Assumptions C06_erase_reverse.
