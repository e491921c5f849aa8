(** Properties C10 (bounded FIFO), C11 (range push), C12 (const traversal and copies) and
    C55 (element lifetimes) of CircularArray. *)
From Coq Require Import List Arith Lia Bool.
From Verif Require Import Base BaseLemmas Store StoreLemmas StaticVectorModel CircularArrayModel CircularArraySpec.
From Verif Require Import CircularArrayProofs.
Import ListNotations.

(** ** C10 *)

(** Trivially copyable elements: after any history the container shows exactly the FIFO
    queue, forwards and backwards, and reports its length, which is bounded. *)
Theorem C10_fifo : forall (A : Type) (cap : nat) (ops : list (ca_op A)),
  exists c, ca_run Trivial (ca_new cap) ops = Ok c
    /\ ca_elements c = Ok (q_run cap ops)
    /\ ca_relements c = Ok (rev (q_run cap ops))
    /\ ca_size c = length (q_run cap ops)
    /\ ca_capacity c = cap
    /\ ca_size c <= cap.
Proof.
  intros A cap ops.
  destruct (run_ok Trivial cap ops (ca_new cap) [] (holds_new cap)) as (c & E & H & _); auto.
  exists c. fold (q_run cap ops) in H. split; auto.
  rewrite (holds_size _ _ _ H), (holds_capacity _ _ _ H).
  repeat split; auto. - eapply elements_ok; eauto. - eapply relements_ok; eauto.
  - eapply h_len; eauto.
Qed.

(** Elements with destructors: the same, as long as no non-empty container is cleaned
    (cleaning one is UB, [C55_clean_refuted]). *)
Theorem C10_fifo_objects_partial : forall (A : Type) (cap : nat) (ops : list (ca_op A)),
  cleans_empty cap [] ops ->
  exists c, ca_run Tracked (ca_new cap) ops = Ok c
    /\ ca_elements c = Ok (q_run cap ops)
    /\ ca_relements c = Ok (rev (q_run cap ops))
    /\ ca_size c = length (q_run cap ops)
    /\ ca_size c <= cap.
Proof.
  intros A cap ops Hc.
  destruct (run_ok Tracked cap ops (ca_new cap) [] (holds_new cap)) as (c & E & H & _); auto.
  exists c. fold (q_run cap ops) in H. split; auto.
  rewrite (holds_size _ _ _ H).
  repeat split; auto. - eapply elements_ok; eauto. - eapply relements_ok; eauto.
  - eapply h_len; eauto.
Qed.

Example C10_case :
  let ops := [CPush 1; CPush 2; CPushRange [3; 4]; CPop; CPop; CPushRange [5; 6]; CPush 7] in
  exists c, ca_run Tracked (ca_new 4) ops = Ok c /\ ca_elements c = Ok [3; 4; 5; 6]
    /\ ca_relements c = Ok [6; 5; 4; 3] /\ cleans_empty 4 [] ops.
Proof.
  cbn zeta. eexists. split; [vm_compute; reflexivity|].
  split; [vm_compute; reflexivity|]. split; [vm_compute; reflexivity|].
  cbn. repeat split; discriminate.
Qed.

(** ** C11 *)

(** In any reachable state a range that fits is appended whole, and one that does not fit
    leaves the object exactly as it was. *)
Theorem C11_range_push : forall (A : Type) (m : mode) (cap : nat) ops (xs : list A) c,
  m = Trivial \/ cleans_empty cap [] ops ->
  ca_run m (ca_new cap) ops = Ok c ->
  exists q, ca_elements c = Ok q
    /\ if length q + length xs <=? cap
       then exists c', ca_pushBack_range m c xs = Ok c' /\ ca_elements c' = Ok (q ++ xs)
                       /\ ca_size c' = length q + length xs
       else ca_pushBack_range m c xs = Ok c.
Proof.
  intros A m cap ops xs c Hm E.
  destruct (run_ok m cap ops (ca_new cap) [] (holds_new cap) Hm) as (c0 & E0 & H & _).
  rewrite E in E0. injection E0 as <-.
  exists (q_run cap ops). split. { eapply elements_ok; eauto. }
  destruct (push_range_ok m cap c _ xs H) as (c' & E' & H' & _).
  fold (q_run cap ops) in *.
  destruct (Nat.leb_spec (length (q_run cap ops) + length xs) cap) as [Hl|Hl].
  - exists c'. split; auto. split. { eapply elements_ok; eauto. }
    rewrite (holds_size _ _ _ H'), app_length. reflexivity.
  - unfold ca_pushBack_range. rewrite (holds_size _ _ _ H), (holds_capacity _ _ _ H).
    destruct (Nat.leb_spec (length xs) (cap - length (q_run cap ops))) as [Hx|Hx]; auto.
    pose proof (h_len _ _ _ H). unfold q_run in *. lia.
Qed.

Example C11_case :
  exists c, ca_run Tracked (ca_new 3) [CPush 1; CPush 2; CPop] = Ok c
    /\ ca_pushBack_range Tracked c [7; 8; 9] = Ok c
    /\ exists c', ca_pushBack_range Tracked c [7; 8] = Ok c' /\ ca_elements c' = Ok [2; 7; 8].
Proof.
  eexists. split; [vm_compute; reflexivity|]. split; [vm_compute; reflexivity|].
  eexists. split; vm_compute; reflexivity.
Qed.

(** ** C12 *)

(** Whatever was pushed, popped and pushed again: const traversal of the container, and a
    copy of it, show the popped element. *)
Theorem C12_const_traversal_refuted : forall (A : Type) (cap : nat) (x y : A), 0 < cap ->
  exists c, ca_run Trivial (ca_new cap) [CPush x; CPop; CPush y] = Ok c
    /\ ca_elements c = Ok [y] /\ ca_celements c = Ok [x]
    /\ exists d, ca_copy Trivial c = Ok d /\ ca_elements d = Ok [x].
Proof.
  intros A [|cap] x y Hc; [lia|]. clear Hc.
  set (ops := [CPush x; CPop; CPush y]).
  destruct (run_ok Trivial (S cap) ops (ca_new _) [] (holds_new _)) as (c & E & Hh & _);
    auto.
  cbn in Hh. exists c. split; auto.
  assert (nth_error (st_cells (ca_store c)) 0 = Some (Some x)) as H0.
  { cbn in E. injection E as <-. reflexivity. }
  split. { eapply elements_ok; eauto. }
  assert (ca_celements c = Ok [x]) as Hx.
  { rewrite (celements_prefix _ _ _ Hh). cbn [length seq load_all]. unfold st_load.
    rewrite H0. reflexivity. }
  split; auto.
  unfold ca_copy. rewrite Hx. cbn [bind]. rewrite (h_N _ _ _ Hh), (holds_size _ _ _ Hh).
  destruct (fill_ok Trivial (S cap) [x]) as (b & Eb & Hb & _). { cbn. lia. }
  rewrite Eb. cbn [bind]. eexists. split; [reflexivity|]. apply (elements_ok _ _ _ Hb).
Qed.

(** For elements with destructors the same traversal, hence the copy, is UB. *)
Theorem C12_const_traversal_objects_refuted : forall (A : Type) (cap : nat) (x y : A),
  0 < cap ->
  exists c, ca_run Tracked (ca_new cap) [CPush x; CPop; CPush y] = Ok c
    /\ ca_elements c = Ok [y] /\ ca_celements c = UB /\ ca_copy Tracked c = UB.
Proof.
  intros A [|cap] x y Hc; [lia|]. clear Hc.
  set (ops := [CPush x; CPop; CPush y]).
  destruct (run_ok Tracked (S cap) ops (ca_new _) [] (holds_new _)) as (c & E & Hh & _).
  { right. cbn. repeat split; discriminate. }
  cbn in Hh. exists c. split; auto.
  assert (nth_error (st_cells (ca_store c)) 0 = Some None) as H0.
  { cbn in E. injection E as <-. reflexivity. }
  split. { eapply elements_ok; eauto. }
  assert (ca_celements c = UB) as Hx.
  { rewrite (celements_prefix _ _ _ Hh). cbn [length seq load_all]. unfold st_load.
    rewrite H0. reflexivity. }
  split; auto. unfold ca_copy. rewrite Hx. reflexivity.
Qed.

(** As long as nothing was popped since the container was created or last cleaned, const
    traversal and copies are right. (Missing: all histories with pops, for which the
    property is false.) *)
Lemma no_pop_head (A : Type) m cap ops : forall c c' (q : list A),
  Forall (fun op => is_pop op = false) ops -> holds cap c q ->
  m = Trivial \/ cleans_empty cap q ops -> ca_head c = 0 ->
  ca_run m c ops = Ok c' -> ca_head c' = 0.
Proof.
  assert (Hpl : forall xs (c c' : circ A), ca_place_all m c xs = Ok c' -> ca_head c' = ca_head c).
  { induction xs as [|x xs IH]; intros c c' E; cbn in E; [congruence|].
    apply bind_Ok in E as (c1 & E1 & E2). apply IH in E2. rewrite E2.
    apply bind_Ok in E1 as (s & _ & E1). injection E1 as <-. reflexivity. }
  assert (Hp1 : forall x (c c' : circ A), ca_pushBack m c x = Ok c' -> ca_head c' = ca_head c).
  { intros x c c' E. unfold ca_pushBack in E. destruct (_ =? _); [congruence|].
    apply (Hpl [x]). cbn. rewrite E. reflexivity. }
  induction ops as [|op ops IH]; intros c c' q Hf H Hm H0 E; cbn [ca_run] in E.
  - congruence.
  - inversion Hf as [|? ? Hop Hf']; subst.
    destruct (step_ok m cap c q op H) as (c1 & E1 & H1 & _).
    { destruct Hm as [Hm|[Hm Hm']]; auto. }
    rewrite E1 in E. cbn [bind] in E. apply (IH c1 c' _ Hf' H1); auto.
    { destruct Hm as [Hm|[Hm Hm']]; auto. }
    destruct op; cbn [ca_step] in E1; try discriminate Hop.
    + rewrite (Hp1 _ _ _ E1). auto.
    + rewrite (Hp1 _ _ _ E1). auto.
    + unfold ca_pushBack_range in E1. destruct (_ <=? _); [|congruence].
      rewrite (Hpl _ _ _ E1). auto.
    + unfold ca_clean in E1. apply bind_Ok in E1 as (xs & _ & E1).
      destruct m, xs; try discriminate; injection E1 as <-; reflexivity.
Qed.

Lemma run_app (A : Type) m ops1 : forall ops2 (c : circ A),
  ca_run m c (ops1 ++ ops2) = (let! c := ca_run m c ops1 in ca_run m c ops2).
Proof.
  induction ops1 as [|op ops1 IH]; intros ops2 c; cbn [app ca_run bind]; auto.
  destruct (ca_step m c op); cbn [bind]; auto.
Qed.

Lemma cleans_empty_app (A : Type) cap ops1 : forall ops2 (q : list A),
  cleans_empty cap q (ops1 ++ ops2) ->
  cleans_empty cap q ops1 /\ cleans_empty cap (fold_left (q_step cap) ops1 q) ops2.
Proof.
  induction ops1 as [|op ops1 IH]; intros ops2 q H; cbn in *; auto.
  destruct H as [H1 H2]. apply IH in H2 as [H2 H3]. auto.
Qed.

Theorem C12_const_traversal_partial : forall (A : Type) (m : mode) (cap : nat)
  (old recent : list (ca_op A)),
  Forall (fun op => is_pop op = false) recent ->
  old = [] \/ (exists older, old = older ++ [CClean]) ->
  m = Trivial \/ cleans_empty cap [] (old ++ recent) ->
  exists c, ca_run m (ca_new cap) (old ++ recent) = Ok c
    /\ ca_celements c = Ok (q_run cap (old ++ recent))
    /\ exists d, ca_copy m c = Ok d /\ ca_elements d = Ok (q_run cap (old ++ recent))
                 /\ ca_celements d = Ok (q_run cap (old ++ recent)).
Proof.
  intros A m cap old recent Hf Hold Hm.
  destruct (run_ok m cap (old ++ recent) (ca_new cap) [] (holds_new cap) Hm) as (c & E & H & _).
  fold (q_run cap (old ++ recent)) in H.
  exists c. split; auto.
  assert (ca_head c = 0) as H0.
  { rewrite run_app in E. apply bind_Ok in E as (c0 & E0 & E1).
    assert (Hm0 : m = Trivial \/ cleans_empty cap [] old /\
              cleans_empty cap (fold_left (q_step cap) old []) recent).
    { destruct Hm; auto. right. apply cleans_empty_app; auto. }
    destruct (run_ok m cap old (ca_new cap) [] (holds_new cap)) as (c0' & E0' & Hc0 & _).
    { destruct Hm0 as [|[]]; auto. }
    rewrite E0 in E0'. injection E0' as <-.
    refine (no_pop_head A m cap recent c0 c _ Hf Hc0 _ _ E1).
    { destruct Hm0 as [|[]]; auto. }
    destruct Hold as [->|[older ->]].
    - cbn in E0. injection E0 as <-. reflexivity.
    - rewrite run_app in E0. apply bind_Ok in E0 as (c2 & _ & E2).
      cbn [ca_run ca_step] in E2. apply bind_Ok in E2 as (c3 & E3 & E4). injection E4 as <-.
      unfold ca_clean in E3. apply bind_Ok in E3 as (xs & _ & E3).
      destruct m, xs; try discriminate; injection E3 as <-; reflexivity. }
  pose proof (celements_ok cap c _ H H0) as Hce. split; auto.
  unfold ca_copy. rewrite Hce. cbn [bind]. rewrite (h_N _ _ _ H), (holds_size _ _ _ H).
  destruct (fill_ok m cap (q_run cap (old ++ recent)) (h_len _ _ _ H)) as (b & Eb & Hb & _).
  rewrite Eb. cbn [bind]. eexists. split; [reflexivity|]. split.
  - apply (elements_ok _ _ _ Hb).
  - apply (celements_ok _ _ _ Hb). reflexivity.
Qed.

Example C12_case :
  exists c, ca_run Trivial (ca_new 3) ([CPush 1; CPop; CClean] ++ [CPush 5; CPush 6]) = Ok c
    /\ ca_celements c = Ok [5; 6].
Proof. eexists. split; vm_compute; reflexivity. Qed.

(** Move construction takes over the whole queue in every reachable state. *)
Theorem C12_move_construction : forall (A : Type) (m : mode) (cap : nat) (ops : list (ca_op A)),
  m = Trivial \/ cleans_empty cap [] ops ->
  exists c d, ca_run m (ca_new cap) ops = Ok c /\ ca_move m c = Ok d
    /\ ca_elements d = Ok (q_run cap ops) /\ ca_size d = length (q_run cap ops).
Proof.
  intros A m cap ops Hm.
  destruct (run_ok m cap ops (ca_new cap) [] (holds_new cap) Hm) as (c & E & H & _).
  fold (q_run cap ops) in H. exists c. unfold ca_move.
  rewrite (elements_ok _ _ _ H). cbn [bind]. rewrite (h_N _ _ _ H), (holds_size _ _ _ H).
  destruct (fill_ok m cap (q_run cap ops) (h_len _ _ _ H)) as (b & Eb & Hb & _).
  rewrite Eb. cbn [bind]. eexists. split; auto. split; [reflexivity|].
  split. - apply (elements_ok _ _ _ Hb). - apply (holds_size _ _ _ Hb).
Qed.

(** Assignment never completes normally: the operator flows off its end. *)
Theorem C12_assignment_refuted : forall (A : Type) (m : mode) (c d e : circ A),
  ca_assign m c d <> Ok e.
Proof.
  intros A m c d e H. unfold ca_assign in H.
  apply bind_Ok in H as (c1 & _ & H). apply bind_Ok in H as (xs & _ & H).
  apply bind_Ok in H as (c2 & _ & H). discriminate.
Qed.

(** ** C55 *)

(** Pushing and popping constructs and destroys every element exactly once: nothing is
    constructed over a living element, and after the destructor every cell is raw. *)
Theorem C55_lifetimes_partial : forall (A : Type) (cap : nat) (ops : list (ca_op A)),
  cleans_empty cap [] ops ->
  exists c s, ca_run Tracked (ca_new cap) ops = Ok c
    /\ ca_destructor Tracked c = Ok s /\ st_leaks s = 0 /\ st_cells s = raw A (S cap).
Proof.
  intros A cap ops Hc.
  destruct (run_ok Tracked cap ops (ca_new cap) [] (holds_new cap)) as (c & E & H & N); auto.
  specialize (N eq_refl (neat_new cap)).
  destruct (destructor_ok Tracked cap c _ eq_refl H N) as (s & Es & Hk & Hr).
  exists c, s. auto.
Qed.

Example C55_case :
  let ops := [CPush 1; CPush 2; CPop; CPushRange [3; 4]; CPop] in
  cleans_empty 3 [] ops /\ q_run 3 ops = [3; 4] /\
  exists c s, ca_run Tracked (ca_new 3) ops = Ok c /\ ca_head c = 2 /\
    ca_destructor Tracked c = Ok s.
Proof.
  cbn zeta. split. { cbn. repeat split; discriminate. }
  split; [reflexivity|]. do 2 eexists. split; [vm_compute; reflexivity|].
  split; vm_compute; reflexivity.
Qed.

(** Cleaning any non-empty container of elements with destructors destroys an object that
    is not an element twice. *)
Theorem C55_clean_refuted : forall (A : Type) (cap : nat) (ops : list (ca_op A)) c,
  cleans_empty cap [] ops -> ca_run Tracked (ca_new cap) ops = Ok c ->
  q_run cap ops <> [] -> ca_clean Tracked c = UB.
Proof.
  intros A cap ops c Hc E Hq.
  destruct (run_ok Tracked cap ops (ca_new cap) [] (holds_new cap)) as (c0 & E0 & H & _); auto.
  rewrite E in E0. injection E0 as <-. fold (q_run cap ops) in H.
  unfold ca_clean. rewrite (elements_ok _ _ _ H). cbn [bind].
  destruct (q_run cap ops); congruence.
Qed.

(** A non-empty container made by copying or moving another destroys its elements twice. *)
Theorem C55_copy_refuted : forall (A : Type) (cap : nat) (ops : list (ca_op A)) c d,
  cleans_empty cap [] ops -> ca_run Tracked (ca_new cap) ops = Ok c ->
  q_run cap ops <> [] -> ca_copy Tracked c = Ok d \/ ca_move Tracked c = Ok d ->
  ca_destructor Tracked d = UB.
Proof.
  intros A cap ops c d Hc E Hq Hd.
  destruct (run_ok Tracked cap ops (ca_new cap) [] (holds_new cap)) as (c0 & E0 & H & _); auto.
  rewrite E in E0. injection E0 as <-. fold (q_run cap ops) in H.
  assert (exists xs, length xs = length (q_run cap ops) /\
    (let! b := sv_push_all Tracked (sv_new (ca_N c)) xs in Ok (Circ b 0 (ca_size c))) = Ok d)
    as (xs & Hl & Hx).
  { destruct Hd as [Hd|Hd].
    - unfold ca_copy in Hd. apply bind_Ok in Hd as (xs & Hxs & Hd). exists xs. split; auto.
      rewrite (celements_prefix _ _ _ H) in Hxs. clear - Hxs.
      revert xs Hxs. generalize (length (q_run cap ops)) 0. induction n as [|n IH]; intros k xs Hx.
      + cbn in Hx. injection Hx as <-. reflexivity.
      + cbn in Hx. apply bind_Ok in Hx as (y & _ & Hx). apply bind_Ok in Hx as (ys & Hy & Hx).
        injection Hx as <-. cbn. f_equal. eapply IH; eauto.
    - unfold ca_move in Hd. rewrite (elements_ok _ _ _ H) in Hd. cbn [bind] in Hd. eauto. }
  destruct xs as [|x xs]. { destruct (q_run cap ops); [congruence|discriminate]. }
  rewrite (h_N _ _ _ H), (holds_size _ _ _ H), <- Hl in Hx.
  destruct (fill_ok Tracked cap (x :: xs)) as (b & Eb & Hb & Ht & _).
  { rewrite Hl. apply (h_len _ _ _ H). }
  rewrite Eb in Hx. cbn [bind] in Hx. injection Hx as <-.
  apply (filled_destructor Tracked cap b x xs); auto.
Qed.

Example C55_copy_case :
  exists c d, ca_run Tracked (ca_new 3) [CPush 1; CPush 2] = Ok c /\ ca_copy Tracked c = Ok d
    /\ ca_elements d = Ok [1; 2] /\ ca_destructor Tracked d = UB.
Proof.
  do 2 eexists. split; [vm_compute; reflexivity|]. split; [vm_compute; reflexivity|].
  split; vm_compute; reflexivity.
Qed.

Print Assumptions C10_fifo.
Print Assumptions C10_fifo_objects_partial.
Print Assumptions C11_range_push.
Print Assumptions C12_const_traversal_refuted.
Print Assumptions C12_const_traversal_objects_refuted.
Print Assumptions C12_const_traversal_partial.
Print Assumptions C12_move_construction.
Print Assumptions C12_assignment_refuted.
Print Assumptions C55_lifetimes_partial.
Print Assumptions C55_clean_refuted.
Print Assumptions C55_copy_refuted.
