(** Theorems for C218: what references and iterators to elements refer to after further calls. *)
From Coq Require Import List Arith Bool Lia.
From Verif Require Import Base BaseLemmas Store StaticVectorModel StaticVectorSpec StaticVectorProofs
  VectorModel VectorSpec VectorProofs CircularArrayModel CircularArraySpec ListModel ListSpec
  AliasSpec AliasProofs GrowthSpec GrowthProps RefSpec RefProofs.
From Verif Require ListProofs ListRun ListTwo CircularArrayProofs.
Import ListNotations.
Local Open Scope outcome_scope.

(** ** List *)

Section ListRefs.
  Context {A : Type}.
  Variable dflt : A.
  Notation inv := ListProofs.inv.

  Lemma node_value h l s ns vals ext i (x : A) n : inv h l s ns vals ext -> nth_error vals i = Some x ->
    nth_error ns i = Some n -> exists nd, get h (Heap n) = Ok nd /\ n_obj nd = x.
  Proof.
    intros I Hx Hn.
    assert (Ob : ListProofs.obj h (Heap n) = Some x).
    { pose proof (ListProofs.i_vals _ _ _ _ _ _ I) as V. clear - V Hx Hn. revert i Hx Hn.
      induction V as [|a b ns vs Hab V IH]; intros [|i] Hx Hn; try discriminate.
      - cbn in *. congruence.
      - apply (IH i); auto. }
    destruct (ListProofs.get_spec h (Heap n)) as (nd & E & _ & _ & Ob'); [congruence|].
    exists nd. split; [exact E|congruence].
  Qed.

  Lemma node_position (h : heap A) l s ns vals ext i n : inv h l s ns vals ext ->
    nth_error ns i = Some n -> s <> Untouched /\ iterator_at h l (Some i) = Ok (Heap n).
  Proof.
    intros I Hn. assert (Hi : i < length ns) by (apply nth_error_Some; congruence).
    assert (Hs : s <> Untouched).
    { intros ->. destruct (ListProofs.i_shape _ _ _ _ _ _ I) as (E & _). subst ns. cbn in Hi. lia. }
    split; [exact Hs|]. pose proof (ListProofs.inv_len _ _ _ _ _ _ I).
    rewrite (ListRun.iterator_at_ok _ _ _ _ _ _ (Some i) I Hs) by (cbn [position]; lia).
    cbn [position]. rewrite (skipn_nth _ _ _ Hn). reflexivity.
  Qed.

  Lemma node_placed h l s ns vals i (x : A) : inv h l s ns vals [] -> nth_error vals i = Some x ->
    exists n, nth_error ns i = Some n /\ placed h ns n (Some i).
  Proof.
    intros I Hx. pose proof (ListProofs.inv_len _ _ _ _ _ _ I) as L.
    assert (Hi : i < length vals) by (apply nth_error_Some; congruence).
    destruct (nth_error ns i) as [n|] eqn:Hn; [|apply nth_error_None in Hn; lia].
    exists n. split; [reflexivity|]. split; [|exact Hn].
    apply (ListProofs.i_fresh _ _ _ _ _ _ I). apply (ListProofs.i_live _ _ _ _ _ _ I).
    left. apply nth_error_In in Hn. exact Hn.
  Qed.

  Lemma node_gone (h : heap A) l s ns vals n : inv h l s ns vals [] -> ~ In n ns -> get h (Heap n) = UB.
  Proof.
    intros I Hn. unfold get. destruct (hp_cell h (Heap n)) eqn:E; [|reflexivity].
    destruct (ListProofs.i_live _ _ _ _ _ _ I n) as [Q _].
    destruct Q as [Q|[]]; [|contradiction]. unfold ListProofs.obj. rewrite E. discriminate.
  Qed.
End ListRefs.

Lemma follow_run_nth {A} (os : list (list_op A)) : forall l s s' i j x,
  covered_run l s os = Some s' -> nth_error l i = Some x -> follow_run l os i = Some j ->
  nth_error (list_seq_run l os) j = Some x.
Proof.
  induction os as [|o os IH]; intros l s s' i j x C Hx F.
  - injection F as <-. exact Hx.
  - cbn [covered_run] in C. destruct (covered l s o) as [s1|] eqn:C1; [|discriminate].
    cbn [follow_run] in F. destruct (follow_step l o i) as [k|] eqn:Fs; [|discriminate].
    pose proof (follow_step_nth l o i x (covered_documented _ _ _ _ C1) Hx) as Q. rewrite Fs in Q.
    apply (IH _ _ _ _ _ _ C Q F).
Qed.

(** A reference to an element of a list refers to that element as long as it is in the list, whatever
    is added and removed around it: [p] is where the element is at the start, and an iterator to where
    it is in the end is [p] still. Once the element has been removed, the reference is dangling. *)
Theorem C218_list_partial :
  forall (A : Type) (dflt : A) (os later : list (list_op A)) (s s' : shape) i x,
    let new := list_new dflt empty_heap 0 in
    let vals := list_seq_run [] os in
    covered_run [] Untouched os = Some s -> covered_run vals s later = Some s' ->
    nth_error vals i = Some x ->
    exists N, forall fuel, N <= fuel -> exists h l p h' l',
      list_run fuel (fst new) (snd new) os = Ok (h, l)
      /\ iterator_at h l (Some i) = Ok p
      /\ list_run fuel h l later = Ok (h', l')
      /\ match follow_run vals later i with
         | Some j => nth_error (list_seq_run vals later) j = Some x
             /\ iterator_at h' l' (Some j) = Ok p
             /\ exists nd, get h' p = Ok nd /\ n_obj nd = x
         | None => get h' p = UB
         end.
Proof.
  intros A dflt os later s s' i x new vals C1 C2 Hx.
  destruct (ListTwo.run_ok os (fst new) (snd new) Untouched [] [] [] s (ListTwo.new_inv dflt) C1) as (N1 & H1).
  destruct (run_placed later s vals s' C2) as (N2 & H2).
  exists (N1 + N2). intros fuel F.
  destruct (H1 fuel) as (h & l & ns & E & _ & I); [lia|]. fold vals in I.
  destruct (node_placed h l s ns vals i x I Hx) as (n & Hn & P).
  destruct (node_position _ _ _ _ _ _ _ _ I Hn) as [Hs It].
  destruct (H2 fuel ltac:(lia) h l ns n (Some i) I P) as (h' & l' & ns' & E' & _ & I' & [_ P']).
  exists h, l, (Heap n), h', l'. split; [exact E|]. split; [exact It|]. split; [exact E'|].
  destruct (follow_run vals later i) as [j|] eqn:Fj.
  - pose proof (follow_run_nth later _ _ _ _ _ _ C2 Hx Fj) as Q. split; [exact Q|].
    split; [apply (node_position _ _ _ _ _ _ _ _ I' P')|]. apply (node_value _ _ _ _ _ _ _ _ _ I' Q P').
  - apply (node_gone _ _ _ _ _ _ I' P').
Qed.

(** [1; 2; 3; 4]: the element 3 while others are put around it, then when it is removed. *)
Example C218_list_case :
  let os := [LPushBack 1; LPushBack 2; LPushBack 3; LPushBack 4] in
  let later := [LPushFront 0; LErase (Some 1); LInsertRange (Some 1) [8; 9]; LPopBack; LPopFront] in
  let vals := list_seq_run [] os in
  covered_run [] Untouched os = Some Whole /\ covered_run vals Whole later = Some Whole
  /\ nth_error vals 2 = Some 3
  /\ follow_run vals later 2 = Some 3
  /\ list_seq_run vals later = [8; 9; 2; 3]
  /\ covered_run vals Whole (later ++ [LEraseRange (Some 2) None]) = Some Whole
  /\ follow_run vals (later ++ [LEraseRange (Some 2) None]) 2 = None.
Proof. repeat split; vm_compute; reflexivity. Qed.

(** Moving a list into a new one keeps them, too: they are references into the new list. *)
Theorem C218_list_move_partial :
  forall (A : Type) (dflt : A) (os : list (list_op A)) i x,
    let new := list_new dflt empty_heap 0 in
    let vals := list_seq_run [] os in
    covered_run [] Untouched os = Some Whole -> nth_error vals i = Some x ->
    exists N, forall fuel, N <= fuel -> exists h l p h1 l1 src,
      list_run fuel (fst new) (snd new) os = Ok (h, l)
      /\ iterator_at h l (Some i) = Ok p
      /\ list_move dflt h 1 l = Ok (h1, l1, src)
      /\ iterator_at h1 l1 (Some i) = Ok p
      /\ exists nd, get h1 p = Ok nd /\ n_obj nd = x.
Proof.
  intros A dflt os i x new vals C1 Hx.
  destruct (ListTwo.run_ok os (fst new) (snd new) Untouched [] [] [] Whole (ListTwo.new_inv dflt) C1)
    as (N1 & H1).
  exists N1. intros fuel F.
  destruct (H1 fuel F) as (h & l & ns & E & Id & I). fold vals in I. cbn [new list_new snd dl_id] in Id.
  destruct (node_placed h l Whole ns vals i x I Hx) as (n & Hn & P).
  destruct (node_position _ _ _ _ _ _ _ _ I Hn) as [Hs It].
  destruct (ListTwo.move_nodes_ok dflt h l ns vals 1 I) as (h1 & l1 & src & E1 & I1 & _); [lia|].
  exists h, l, (Heap n), h1, l1, src. split; [exact E|]. split; [exact It|]. split; [exact E1|].
  split; [apply (node_position _ _ _ _ _ _ _ _ I1 Hn)|]. apply (node_value _ _ _ _ _ _ _ _ _ I1 Hx Hn).
Qed.

(** ** StaticVector *)

Section Keep.
  Context {A : Type}.

  Lemma nth_bounded cap (l l' : list A) i x : nth_error l i = Some x -> nth_error l' i = Some x ->
    nth_error (bounded cap l l') i = Some x.
  Proof. unfold bounded. destruct (length l' <=? cap); auto. Qed.
  Lemma nth_app (l l' : list A) i x : nth_error l i = Some x -> nth_error (l ++ l') i = Some x.
  Proof. intros H. rewrite nth_error_app1; auto. apply nth_error_Some. congruence. Qed.
  Lemma nth_insert_at (l xs : list A) it i x : nth_error l i = Some x -> i < it ->
    nth_error (insert_at it xs l) i = Some x.
  Proof.
    intros H Hi. unfold insert_at. apply nth_app. rewrite nth_firstn; auto.
  Qed.
  Lemma nth_erase_at (l : list A) b e i x : nth_error l i = Some x -> i < b \/ b = e ->
    nth_error (erase_at b e l) i = Some x.
  Proof.
    intros H [Hi | ->]; unfold erase_at.
    - apply nth_app. rewrite nth_firstn; auto.
    - rewrite firstn_skipn. exact H.
  Qed.

  Lemma sv_keeps_nth cap (l : list A) i op x : sv_keeps l i op -> length l <= cap ->
    nth_error l i = Some x -> nth_error (spec_step cap l op) i = Some x.
  Proof.
    intros K L H. assert (Hi : i < length l) by (apply nth_error_Some; congruence).
    destruct op; cbn [sv_keeps spec_step] in *; try contradiction;
      try (apply nth_bounded; [exact H|]; first [apply nth_app; exact H|apply nth_insert_at; assumption]).
    - rewrite nth_removelast; auto.
    - apply nth_erase_at; auto.
    - apply nth_erase_at; auto.
    - rewrite nth_firstn by lia. apply nth_app. exact H.
  Qed.

  Lemma sv_keeps_run cap ops : forall (l : list A) i x, all_along (spec_step cap) (fun l => sv_keeps l i) l ops ->
    (forall (l : list A) op, length l <= cap -> valid_op l op -> length (spec_step cap l op) <= cap) ->
    valid cap l ops -> length l <= cap ->
    nth_error l i = Some x -> nth_error (fold_left (spec_step cap) ops l) i = Some x.
  Proof.
    induction ops as [|op ops IH]; intros l i x K B V L H; [exact H|].
    cbn [fold_left]. destruct K as [K1 K2], V as [V1 V2]. apply IH; auto.
    apply sv_keeps_nth; auto.
  Qed.
End Keep.

Lemma spec_step_bound {A} cap (l : list A) op : length l <= cap -> valid_op l op ->
  length (spec_step cap l op) <= cap.
Proof.
  intros L V. assert (B : forall l', length (bounded cap l l') <= cap).
  { intros l'. unfold bounded. destruct (Nat.leb_spec (length l') cap); lia. }
  destruct op; cbn [spec_step valid_op] in *; auto; unfold erase_at;
    rewrite ?removelast_firstn_len, ?app_length, ?firstn_length, ?skipn_length; cbn [length]; try lia.
Qed.

(** A reference to the element at position i of a StaticVector (the cell i) reads that element after all
    further calls that add or remove behind it. *)
Theorem C218_static_vector :
  forall (A : Type) (m : mode) (moved : A -> A) (dflt : A) cap (v : svec A) (l : list A) later i x,
    sv_reached m moved dflt cap v l -> nth_error l i = Some x ->
    valid cap l later -> m = Trivial \/ along tail_range cap l later ->
    all_along (spec_step cap) (fun l => sv_keeps l i) l later ->
    st_load (sv_store v) i = Ok x
    /\ exists v', sv_run m moved dflt v later = Ok v' /\ st_load (sv_store v') i = Ok x
      /\ sv_elements v' = Ok (fold_left (spec_step cap) later l)
      /\ nth_error (fold_left (spec_step cap) later l) i = Some x.
Proof.
  intros A m moved dflt cap v l later i x R Hx V T K.
  destruct (sv_reached_rep m moved dflt cap v l R) as (rest & k & -> & L).
  split; [apply load_own; exact Hx|].
  destruct (run_ok m moved dflt cap later l rest k L V T) as (r & k' & E & L' & _).
  eexists. split; [exact E|].
  assert (Q : nth_error (fold_left (spec_step cap) later l) i = Some x).
  { apply sv_keeps_run; auto; [intros; apply spec_step_bound; auto|lia]. }
  split; [apply load_own; exact Q|]. split; [apply elements_ok|exact Q].
Qed.

(** 2 in [1; 2; 3] of capacity 4. *)
Example C218_static_vector_case :
  let later := [PushBack 4; Insert 2 9; Erase 2; PopBack; InsertRange 2 [7; 8]] in
  valid 4 [1; 2; 3] later /\ along tail_range 4 [1; 2; 3] later
  /\ all_along (spec_step 4) (fun l => sv_keeps l 1) [1; 2; 3] later
  /\ fold_left (spec_step 4) later [1; 2; 3] = [1; 2; 7; 8].
Proof. cbn. repeat split; lia. Qed.

(** ** Vector *)

Lemma keeps_nth {A} dflt c (l : list A) i op x : keeps l i op -> within c l op ->
  nth_error l i = Some x -> nth_error (seq_step dflt l op) i = Some x.
Proof.
  intros K W H. assert (Hi : i < length l) by (apply nth_error_Some; congruence).
  destruct op; cbn [keeps within seq_step] in *; try contradiction; auto;
    try (apply nth_app; exact H); try (apply nth_insert_at; tauto).
  - rewrite nth_removelast; auto.
  - apply nth_erase_at; auto.
  - apply nth_erase_at; auto.
Qed.

(** As long as the elements fit in the capacity, the buffer of a Vector stays, and a reference to the
    element at position i reads that element after all further calls that add or remove behind it. *)
Theorem C218_vector :
  forall (A : Type) (m : mode) (moved : A -> A) (dflt : A) (mem late : memory) (v : vec A) (l : list A)
         later i x fuel,
    vec_reached m moved dflt mem v l -> nth_error l i = Some x -> 2 <= fuel ->
    within_all dflt (vc_capacity v) l later ->
    all_along (seq_step dflt) (fun l => keeps l i) l later ->
    vec_index v i = Ok x
    /\ exists v', vec_run m moved dflt late fuel v later = Ok v' /\ vc_capacity v' = vc_capacity v
      /\ vec_index v' i = Ok x
      /\ vec_elements v' = Ok (fold_left (seq_step dflt) later l)
      /\ nth_error (fold_left (seq_step dflt) later l) i = Some x.
Proof.
  intros A m moved dflt mem late v l later i x fuel R Hx F W K.
  destruct (vec_reached_rep m moved dflt mem v l R) as (_ & rest & k & c & -> & L).
  cbn [vc_capacity] in *. split; [apply load_own; exact Hx|].
  destruct fuel as [|[|f]]; try lia.
  destruct (within_run m moved dflt late f later l rest k c L W) as (r & k' & E & L').
  eexists. split; [exact E|]. split; [reflexivity|].
  assert (Q : nth_error (fold_left (seq_step dflt) later l) i = Some x).
  { clear - Hx W K. revert l Hx W K. induction later as [|o os IH]; intros l Hx W K; [exact Hx|].
    destruct W as [W1 W2], K as [K1 K2]. cbn [fold_left]. apply IH; auto. apply (keeps_nth dflt c); auto. }
  split; [apply load_own; exact Q|]. split; [apply vec_elements_ok|exact Q].
Qed.

(** 2 in [1; 2; 3] with room for six. *)
Example C218_vector_case :
  let later := [VPush 4; VInsert 2 9; VErase 2; VPop; VInsertRange 2 [7; 8]; VReserve 5;
                VEraseRange 3 5; VResize 5] in
  exists v, vec_run Tracked (fun x => x) 0 Realloc 9 vec_new [VReserve 6; VPush 1; VPush 2; VPush 3] = Ok v
    /\ vec_reached Tracked (fun x => x) 0 Realloc v [1; 2; 3]
    /\ within_all 0 (vc_capacity v) [1; 2; 3] later
    /\ all_along (seq_step 0) (fun l => keeps l 1) [1; 2; 3] later
    /\ fold_left (seq_step 0) later [1; 2; 3] = [1; 2; 7; 0; 0].
Proof.
  cbv zeta. eexists. split; [vm_compute; reflexivity|]. split.
  - split; [discriminate|]. exists [VReserve 6; VPush 1; VPush 2; VPush 3], 9.
    split; [cbn; repeat split; try lia; try (left; lia); right; lia|]. split; [right; cbn; repeat split; lia|].
    split; [vm_compute; lia|]. split; vm_compute; reflexivity.
  - cbn. repeat split; lia.
Qed.

(** ** CircularArray *)

Section CircularRefs.
  Import CircularArrayProofs.
  Context {A : Type}.
  Variable m : mode.

  Lemma place_head (c : circ A) x c' : ca_place m c x = Ok c' -> ca_head c' = ca_head c.
  Proof. unfold ca_place. intros H. apply bind_ok in H. destruct H as (s & _ & [= <-]). reflexivity. Qed.
  Lemma place_all_head xs : forall (c : circ A) c', ca_place_all m c xs = Ok c' -> ca_head c' = ca_head c.
  Proof.
    induction xs as [|x xs IH]; intros c c' H; cbn [ca_place_all] in H; [congruence|].
    apply bind_ok in H. destruct H as (c1 & E & H). apply place_head in E. apply IH in H. congruence.
  Qed.

  (** The cell of the element [j] places behind the first stays the same until that element is taken. *)
  Lemma step_cell cap (c : circ A) q op c' j x : holds cap c q -> m = Trivial \/ (op = CClean -> q = []) ->
    nth_error q j = Some x -> ca_step m c op = Ok c' -> taken (q_step cap) q [op] <= j ->
    nth_error (q_step cap q op) (j - taken (q_step cap) q [op]) = Some x
    /\ ix (S cap) (ca_head c') (j - taken (q_step cap) q [op]) = ix (S cap) (ca_head c) j.
  Proof.
    intros H Hm Hx E T. assert (Hj : j < length q) by (apply nth_error_Some; congruence).
    pose proof (h_len _ _ _ H). pose proof (h_head _ _ _ H). pose proof (h_N _ _ _ H) as HN.
    destruct op as [y|y|ys| |]; cbn [taken ca_step q_step] in *; rewrite ?Nat.add_0_r in *.
    - rewrite Nat.sub_0_r. split; [destruct (length q <? cap); auto using nth_app|].
      unfold ca_pushBack in E. destruct (ca_size c =? ca_capacity c); [congruence|].
      apply place_head in E. congruence.
    - rewrite Nat.sub_0_r. split; [destruct (length q <? cap); auto using nth_app|].
      unfold ca_emplaceBack, ca_pushBack in E. destruct (ca_size c =? ca_capacity c); [congruence|].
      apply place_head in E. congruence.
    - rewrite Nat.sub_0_r. split; [destruct (length q + length ys <=? cap); auto using nth_app|].
      unfold ca_pushBack_range in E. destruct (length ys <=? _); [|congruence].
      apply place_all_head in E. congruence.
    - destruct q as [|y q]; [cbn in Hj; lia|]. cbn [length tl] in *.
      replace (min 1 (S (length q))) with 1 in * by lia. destruct j as [|j]; [lia|].
      replace (S j - 1) with j by lia. split; [exact Hx|].
      unfold ca_popFront in E. destruct (ca_head c =? ca_tail c) eqn:Et.
      + apply Nat.eqb_eq in Et. rewrite (h_tail _ _ _ H) in Et. cbn [length] in Et. unfold ix in Et.
        destruct (Nat.ltb_spec (ca_head c + S (length q)) (S cap)); lia.
      + apply bind_ok in E. destruct E as (s & _ & [= <-]). cbn [ca_head]. rewrite HN.
        unfold updateTerminal, ix. destruct (Nat.eqb_spec (S (ca_head c)) (S cap)).
        * destruct (Nat.ltb_spec (0 + j) (S cap)), (Nat.ltb_spec (ca_head c + S j) (S cap)); lia.
        * destruct (Nat.ltb_spec (S (ca_head c) + j) (S cap)), (Nat.ltb_spec (ca_head c + S j) (S cap)); lia.
    - lia.
  Qed.
End CircularRefs.

(** A reference to an element of a CircularArray reads that element until it is taken out, whatever is
    pushed and popped in between. *)
Theorem C218_circular :
  forall (A : Type) (m : mode) cap (c : circ A) (q : list A) later j x,
    ca_reached m cap c q -> nth_error q j = Some x ->
    m = Trivial \/ cleans_empty cap q later -> taken (q_step cap) q later <= j ->
    let cell := ci_plus (ca_N c) (ca_begin c) j in
    st_load (ca_store c) cell = Ok x
    /\ exists c', ca_run m c later = Ok c' /\ st_load (ca_store c') cell = Ok x
      /\ ci_plus (ca_N c') (ca_begin c') (j - taken (q_step cap) q later) = cell
      /\ nth_error (fold_left (q_step cap) later q) (j - taken (q_step cap) q later) = Some x
      /\ ca_elements c' = Ok (fold_left (q_step cap) later q).
Proof.
  intros A m cap c q later j x R Hx Hm T cell. apply ca_reached_holds in R. unfold cell. clear cell.
  assert (At : forall c q j, CircularArrayProofs.holds cap c q -> nth_error q j = Some x ->
            ci_plus (ca_N c) (ca_begin c) j = CircularArrayProofs.ix (S cap) (ca_head c) j
            /\ st_load (ca_store c) (CircularArrayProofs.ix (S cap) (ca_head c) j) = Ok x).
  { clear. intros c q j H Hx. assert (Hj : j < length q) by (apply nth_error_Some; congruence).
    pose proof (CircularArrayProofs.h_len _ _ _ H). pose proof (CircularArrayProofs.h_head _ _ _ H).
    rewrite (CircularArrayProofs.h_N _ _ _ H). unfold ca_begin.
    split; [apply CircularArrayProofs.ci_plus_ix; lia|].
    unfold st_load. rewrite (CircularArrayProofs.h_cells _ _ _ H j x Hx). reflexivity. }
  destruct (At c q j R Hx) as [-> L]. split; [exact L|]. clear L.
  enough (exists c', ca_run m c later = Ok c'
            /\ CircularArrayProofs.holds cap c' (fold_left (q_step cap) later q)
            /\ nth_error (fold_left (q_step cap) later q) (j - taken (q_step cap) q later) = Some x
            /\ CircularArrayProofs.ix (S cap) (ca_head c') (j - taken (q_step cap) q later)
               = CircularArrayProofs.ix (S cap) (ca_head c) j) as (c' & E & H' & Q & Ce).
  { destruct (At _ _ _ H' Q) as [E1 E2]. exists c'. split; [exact E|]. rewrite Ce in E1, E2.
    split; [exact E2|]. split; [exact E1|]. split; [exact Q|].
    apply (CircularArrayProofs.elements_ok _ _ _ H'). }
  revert c q j R Hx Hm T. induction later as [|op ops IH]; intros c q j H Hx Hm T.
  - exists c. cbn [ca_run fold_left taken]. rewrite Nat.sub_0_r. auto.
  - assert (Hm1 : m = Trivial \/ (op = CClean -> q = [])) by (destruct Hm as [?|[? ?]]; auto).
    destruct (CircularArrayProofs.step_ok m cap c q op H Hm1) as (c1 & E1 & H1 & _).
    set (t := taken (q_step cap) q [op]) in *.
    assert (Et : taken (q_step cap) q (op :: ops) = t + taken (q_step cap) (q_step cap q op) ops).
    { unfold t. cbn [taken]. lia. }
    rewrite Et in *.
    destruct (step_cell m cap c q op c1 j x H Hm1 Hx E1) as [Q1 C1]; [fold t; lia|]. fold t in Q1, C1.
    destruct (IH c1 (q_step cap q op) (j - t) H1 Q1) as (c' & E' & H' & Q' & C').
    { destruct Hm as [?|[? ?]]; auto. } { lia. }
    exists c'. cbn [ca_run fold_left]. rewrite E1. cbn [bind]. split; [exact E'|]. split; [exact H'|].
    replace (j - (t + taken (q_step cap) (q_step cap q op) ops))
      with (j - t - taken (q_step cap) (q_step cap q op) ops) by lia.
    split; [exact Q'|congruence].
Qed.

(** 3 in [1; 2; 3], capacity 4: it is first in the end. *)
Example C218_circular_case :
  let later := [CPop; CPush 4; CPush 5; CPop; CPushRange [6]] in
  exists c, ca_reached Tracked 4 c [1; 2; 3]
    /\ cleans_empty 4 [1; 2; 3] later
    /\ taken (q_step 4) [1; 2; 3] later = 2
    /\ fold_left (q_step 4) later [1; 2; 3] = [3; 4; 5; 6].
Proof.
  cbv zeta. eexists. split.
  - exists [CPush 1; CPush 2; CPush 3]. split; [right; cbn; repeat split; discriminate|].
    split; vm_compute; reflexivity.
  - split; [cbn; repeat split; discriminate|]. split; vm_compute; reflexivity.
Qed.

Print Assumptions C218_list_partial.
Print Assumptions C218_list_move_partial.
Print Assumptions C218_static_vector.
Print Assumptions C218_vector.
Print Assumptions C218_circular.
