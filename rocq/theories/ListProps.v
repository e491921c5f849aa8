(** Theorems about List: C17, C18, C19, C58. *)
From Coq Require Import List Arith Bool Lia.
From Verif Require Import Base BaseLemmas ListModel ListSpec ListProofs ListOps ListRun ListTwo.
Import ListNotations.

Section Helpers.
  Context {A : Type}.
  Implicit Types h : heap A.

  Lemma list_run_app : forall fuel os1 os2 h l,
    list_run fuel h l (os1 ++ os2)
    = let! r := list_run fuel h l os1 in list_run fuel (fst r) (snd r) os2.
  Proof.
    intros fuel os1 os2. induction os1 as [|o os1 IH]; intros h l; [reflexivity|].
    cbn [app list_run]. destruct (list_step fuel h l o) as [[h1 l1]| |]; cbn; auto.
  Qed.

  Lemma list_seq_run_app : forall os1 os2 (l : list A),
    list_seq_run l (os1 ++ os2) = list_seq_run (list_seq_run l os1) os2.
  Proof. intros. apply fold_left_app. Qed.

  Lemma covered_documented : forall (l : list A) s o s', covered l s o = Some s' ->
    list_documented l o.
  Proof.
    intros l s o s' Cv.
    destruct o as [x|x|i x|i xs| | |i|i j|]; unfold covered in Cv; unfold list_documented.
    - exact I.
    - exact I.
    - destruct s, l as [|a l]; try discriminate.
      + destruct (Nat.leb_spec (position (a :: l) i) (length (a :: l))); [assumption|discriminate].
      + destruct (Nat.ltb_spec (position (a :: l) i) (length (a :: l))); [lia|discriminate].
    - destruct s, l as [|a l]; try discriminate.
      + destruct (Nat.leb_spec (position (a :: l) i) (length (a :: l))); [assumption|discriminate].
      + destruct (Nat.ltb_spec (position (a :: l) i) (length (a :: l))); [lia|discriminate].
    - destruct s; try discriminate. intros ->. discriminate.
    - intros ->. discriminate.
    - destruct (Nat.ltb_spec (position l i) (length l)); [assumption|discriminate].
    - destruct i as [i|]; [|discriminate]. unfold position at 1. cbn zeta in Cv.
      destruct (Nat.eqb_spec i 0); destruct (Nat.eqb_spec (position l j) (length l));
      destruct (Nat.ltb_spec i (length l)); destruct (Nat.leb_spec i (position l j));
      destruct (Nat.ltb_spec (position l j) (length l)); cbn in Cv; try lia;
      destruct s; try discriminate; lia.
    - exact I.
  Qed.

  Lemma documented_run : forall os1 os2 (l : list A) s s', covered_run l s os1 = Some s' ->
    list_documented_run (list_seq_run l os1) os2 -> list_documented_run l (os1 ++ os2).
  Proof.
    induction os1 as [|o os1 IH]; intros os2 l s s' Cv D; [exact D|].
    cbn in *. destruct (covered l s o) as [s1|] eqn:E; [|discriminate].
    split; [apply (covered_documented _ _ _ _ E)|]. apply (IH _ _ _ _ Cv D).
  Qed.

  Lemma cell_obj : forall h p, hp_cell h p <> None <-> obj h p <> None.
  Proof. intros h p. unfold obj. destruct (hp_cell h p); cbn; split; congruence. Qed.

  Lemma inv_count : forall h l s ns vals, inv h l s ns vals [] -> node_count h (length vals).
  Proof.
    intros h l s ns vals I. exists ns. split; [apply (i_nodup _ _ _ _ _ _ I)|].
    split; [apply (inv_len _ _ _ _ _ _ I)|]. intros n. rewrite cell_obj, (i_live _ _ _ _ _ _ I).
    cbn. tauto.
  Qed.

  Lemma inv_none : forall h l s, inv h l s [] [] [] -> no_nodes h.
  Proof.
    intros h l s I n. destruct (hp_cell h (Heap n)) eqn:E; auto. exfalso.
    assert (H : hp_cell h (Heap n) <> None) by congruence. apply cell_obj in H.
    apply (i_live _ _ _ _ _ _ I) in H. destruct H as [[]|[]].
  Qed.

  (** pushBack through a pointer to a node that is gone. *)
  Lemma push_back_dangling : forall h l t x,
    dl_head l <> Null -> dl_tail l = Heap t -> obj h (Heap t) = None -> t <> hp_fresh h ->
    list_push_back h l x = UB.
  Proof.
    intros h l t x Hh Ht D Hne. unfold list_push_back. alloc (new_node_spec h x).
    rewrite (ptr_eqb_neq _ _ Hh). rewrite Ht.
    run (set_prev_spec h0 (Heap (hp_fresh h)) (Heap t)); [back; dec1; congruence|].
    unfold set_next at 1. rewrite get_none; [reflexivity|]. back. dec1; congruence.
  Qed.

  Lemma set_fresh : forall h p q h', set_next h p q = Ok h' \/ set_prev h p q = Ok h' ->
    hp_fresh h' = hp_fresh h.
  Proof.
    intros h p q h' [E|E]; unfold set_next, set_prev in E; destruct (get h p); try discriminate;
      inversion E; reflexivity.
  Qed.
  Lemma delete_fresh : forall h p h', delete h p = Ok h' -> hp_fresh h' = hp_fresh h.
  Proof.
    intros h [| | |n] h' E; try discriminate. unfold delete in E. destruct (get h (Heap n));
      try discriminate. inversion E. reflexivity.
  Qed.

  Lemma erase_same_list : forall h l it h' l', list_erase h l it = Ok (h', l') ->
    it <> dl_head l -> it <> PostLast (dl_id l) -> l' = l /\ hp_fresh h' = hp_fresh h.
  Proof.
    intros h l it h' l' E H1 H2. unfold list_erase, list_begin, list_end in E.
    rewrite !ptr_eqb_neq in E by assumption.
    destruct (get h it) as [n| |]; try discriminate. cbn [bind] in E.
    destruct (set_next h (n_prev n) (n_next n)) as [h1| |] eqn:E1; try discriminate. cbn [bind] in E.
    destruct (set_prev h1 (n_next n) (n_prev n)) as [h2| |] eqn:E2; try discriminate. cbn [bind] in E.
    destruct (delete h2 it) as [h3| |] eqn:E3; try discriminate. cbn [bind] in E.
    inversion E; subst. split; [reflexivity|].
    rewrite (delete_fresh _ _ _ E3), (set_fresh _ _ _ _ (or_intror E2)), (set_fresh _ _ _ _ (or_introl E1)).
    reflexivity.
  Qed.

  Lemma pop_front_same_tail : forall h l h' l', list_pop_front h l = Ok (h', l') ->
    dl_tail l' = dl_tail l /\ hp_fresh h' = hp_fresh h.
  Proof.
    intros h l h' l' E. unfold list_pop_front in E.
    destruct (get h (dl_head l)) as [t| |]; try discriminate. cbn [bind] in E.
    destruct (ptr_eqb (n_next t) Null); [inversion E; auto|]. cbn [dl_head] in E.
    destruct (set_prev h (n_next t) Null) as [h1| |] eqn:E1; try discriminate. cbn [bind] in E.
    destruct (delete h1 (dl_head l)) as [h2| |] eqn:E2; try discriminate. cbn [bind] in E.
    unfold update_head_links in E. cbn [dl_id dl_head] in E.
    destruct (set_next h2 (PostFirst (dl_id l)) (n_next t)) as [h3| |] eqn:E3; try discriminate.
    cbn [bind] in E.
    destruct (set_prev h3 (n_next t) (PostFirst (dl_id l))) as [h4| |] eqn:E4; try discriminate.
    cbn [bind] in E. inversion E; subst. split; [reflexivity|].
    rewrite (set_fresh _ _ _ _ (or_intror E4)), (set_fresh _ _ _ _ (or_introl E3)),
      (delete_fresh _ _ _ E2), (set_fresh _ _ _ _ (or_intror E1)). reflexivity.
  Qed.

  (** popBack() on a list of one element. *)
  Lemma pop_back_single : forall h l n v ext, inv h l Whole [n] [v] ext ->
    exists h' l', list_pop_back h l = Ok (h', l') /\ dl_id l' = dl_id l
      /\ dl_head l' = Heap n /\ obj h' (Heap n) = None /\ hp_fresh h' = hp_fresh h.
  Proof.
    intros h l n v ext I. destruct (shape_split _ _ _ _ _ _ I) as (T & Ch & Hh); [discriminate|].
    destruct (T eq_refl) as (z & t & Ez & Ht). destruct z as [|y z]; [|destruct z; discriminate].
    injection Ez as <-. cbn [head_of] in Hh.
    assert (Ln : obj h (Heap n) <> None) by (apply (inv_in_live _ _ _ _ _ _ _ I); left; reflexivity).
    pose proof (i_first _ _ _ _ _ _ I) as L1. pose proof (i_last _ _ _ _ _ _ I) as L2.
    unfold list_pop_back. rewrite Ht. peek (get_spec h (Heap n)); [exact Ln|].
    unfold chain in Ch. cbn in Ch.
    assert (Ec : n_prev c = PostFirst (dl_id l)) by intuition congruence. rewrite Ec.
    cbn [ptr_eqb dl_id dl_head dl_tail].
    run (set_next_spec h (PostFirst (dl_id l)) Null); [exact L1|].
    run (delete_spec h0 n); [back; exact Ln|].
    unfold update_tail_links. cbn [dl_id dl_head dl_tail].
    run (set_prev_spec h1 (PostLast (dl_id l)) (PostFirst (dl_id l))); [back; decs|].
    run (set_next_spec h2 (PostFirst (dl_id l)) (PostLast (dl_id l))); [back; decs|].
    eexists h3, _. split; [reflexivity|]. cbn [dl_id dl_head]. split; [reflexivity|].
    split; [exact Hh|]. split; [back; decs|congruence].
  Qed.
End Helpers.

(** C17, proved part. Histories without the calls listed in [covered]: the walk forward
    gives the sequence, the walk backward its reverse, exactly the nodes of the elements
    exist, and the destructor gives all of them back. *)
Theorem C17_list_sequence_partial :
  forall (A : Type) (dflt : A) (os : list (list_op A)) (s : shape),
    covered_run [] Untouched os = Some s ->
    exists N, forall fuel, N <= fuel -> exists h l,
      list_history dflt fuel os = Ok (h, l)
      /\ (s = Untouched -> list_seq_run [] os = [])
      /\ (s <> Untouched ->
            list_size fuel h l = Ok (length (list_seq_run [] os))
            /\ list_forward fuel h l = Ok (list_seq_run [] os))
      /\ (s = Whole -> list_backward fuel h l = Ok (rev (list_seq_run [] os)))
      /\ node_count h (length (list_seq_run [] os))
      /\ exists h' l', list_clean fuel h l = Ok (h', l') /\ no_nodes h'.
Proof.
  intros A dflt os s Cv. destruct (run_ok os _ _ _ _ _ _ _ (new_inv dflt) Cv) as (N & HN).
  exists (N + S (length (list_seq_run [] os))). intros fuel F.
  destruct (HN fuel) as (h & l & ns & R & _ & I); [lia|].
  exists h, l. split; [exact R|]. split; [|split; [|split; [|split]]].
  - intros ->. destruct (i_shape _ _ _ _ _ _ I) as (-> & _).
    pose proof (i_vals _ _ _ _ _ _ I) as V. inversion V. reflexivity.
  - intros Hs. split; [apply (size_ok _ _ _ _ _ _ _ I Hs)|apply (forward_ok _ _ _ _ _ _ _ I Hs)]; lia.
  - intros ->. apply (backward_ok _ _ _ _ _ _ I). lia.
  - apply (inv_count _ _ _ _ _ I).
  - destruct (clean_ok _ _ _ _ _ _ fuel I) as (h' & l' & E & _ & I' & _); [lia|].
    exists h', l'. split; [exact E|]. apply (inv_none _ _ _ I').
Qed.

Example list_sequence_case :
  covered_run [] Untouched
    [LPushBack 1; LPushFront 2; LInsert (Some 1) 3; LInsertRange None [4; 5]; LPopBack;
     LErase (Some 1); LEraseRange (Some 1) (Some 2); LPushBack 6; LPopFront; LErase (Some 1);
     LPushFront 7] = Some FrontOnly
  /\ list_seq_run []
    [LPushBack 1; LPushFront 2; LInsert (Some 1) 3; LInsertRange None [4; 5]; LPopBack;
     LErase (Some 1); LEraseRange (Some 1) (Some 2); LPushBack 6; LPopFront; LErase (Some 1);
     LPushFront 7] = [7; 4].
Proof. split; reflexivity. Qed.

Example list_whole_case :
  covered_run [] Untouched
    [LPushBack 1; LPushFront 2; LInsert (Some 1) 3; LInsertRange None [4; 5]; LPopBack;
     LErase (Some 1); LEraseRange (Some 2) None; LClean; LPushFront 6; LPushBack 9] = Some Whole
  /\ list_seq_run []
    [LPushBack 1; LPushFront 2; LInsert (Some 1) 3; LInsertRange None [4; 5]; LPopBack;
     LErase (Some 1); LEraseRange (Some 2) None; LClean; LPushFront 6; LPushBack 9] = [6; 9].
Proof. split; reflexivity. Qed.

(** C17, refutation. From every such list with two or more elements, erasing the last one
    through its iterator and pushing an element writes to a freed node. *)
Theorem C17_list_sequence_refuted :
  forall (A : Type) (dflt : A) (os : list (list_op A)) (z : A),
    covered_run [] Untouched os = Some Whole ->
    2 <= length (list_seq_run [] os) ->
    let bad := os ++ [LErase (Some (length (list_seq_run [] os) - 1)); LPushBack z] in
    list_documented_run [] bad
    /\ exists N, forall fuel, N <= fuel -> list_history dflt fuel bad = UB.
Proof.
  intros A dflt os z Cv Len bad. set (vals := list_seq_run [] os) in *. split.
  { unfold bad. apply documented_run with (1 := Cv). fold vals. cbn. lia. }
  destruct (run_ok os _ _ _ _ _ _ _ (new_inv dflt) Cv) as (N & HN).
  exists (N + S (length vals)). intros fuel F. fold vals in HN.
  destruct (HN fuel) as (h & l & ns & R & _ & I); [lia|].
  unfold list_history, bad. rewrite list_run_app, R. cbn [bind fst snd list_run list_step].
  assert (Hs : Whole <> Untouched) by discriminate.
  rewrite (iterator_at_ok _ _ _ _ _ _ (Some (length vals - 1)) I Hs) by (cbn; lia).
  cbn [bind position].
  pose proof (inv_len _ _ _ _ _ _ I) as L.
  destruct (exists_last (l := ns)) as (n1 & t & En); [intros ->; cbn in L; lia|].
  destruct (exists_last (l := vals)) as (v1 & v & Ev); [intros E; rewrite E in Len; cbn in Len; lia|].
  rewrite Ev, En in I. rewrite En, Ev, !app_length in L. rewrite Ev, app_length in Len.
  cbn in L, Len.
  replace (length vals - 1) with (length n1) by (rewrite Ev, app_length; cbn; lia).
  rewrite En, skipn_app, skipn_all, Nat.sub_diag. cbn [app skipn head_of].
  destruct (erase_ok _ _ _ _ _ _ _ _ _ _ I Hs) as (h1 & l1 & E1 & Id1 & I1 & _); [lia|].
  rewrite E1. cbn [bind fst snd].
  destruct (shape_split _ _ _ _ _ _ I Hs) as (T & Ch & Hh).
  destruct (T eq_refl) as (y & t' & Et & Ht). apply app_inj_tail in Et. destruct Et as (_ & <-).
  pose proof (i_nodup _ _ _ _ _ _ I) as ND. apply nodup_snoc_inv in ND. destruct ND as (ND & Nt).
  assert (Hn1 : n1 <> []) by (intros ->; cbn in L; lia).
  destruct (erase_same_list _ _ _ _ _ E1) as (-> & Fr).
  { rewrite Hh. destruct n1 as [|k n1]; [congruence|]. cbn. intros E. injection E as ->.
    apply Nt. left; reflexivity. }
  { discriminate. }
  rewrite (push_back_dangling h1 l t z); auto.
  - rewrite Hh. destruct n1; discriminate.
  - destruct (obj h1 (Heap t)) eqn:E; auto. exfalso.
    assert (Q : obj h1 (Heap t) <> None) by congruence.
    apply (i_live _ _ _ _ _ _ I1) in Q. rewrite app_nil_r in Q. destruct Q as [Q|[]]. contradiction.
  - rewrite Fr. assert (t < hp_fresh h); [|lia]. apply (i_fresh _ _ _ _ _ _ I).
    apply (inv_in_live _ _ _ _ _ _ _ I). apply in_app_iff. cbn; auto.
Qed.

Example list_sequence_refuted_case :
  covered_run [] Untouched [LPushBack 1; LPushBack 2] = Some Whole
  /\ list_history 0 10 [LPushBack 1; LPushBack 2; LErase (Some 1); LPushBack 3] = UB.
Proof. split; vm_compute; reflexivity. Qed.

(** C17, refutation. Erasing the empty range at the end of a list never returns. *)
Theorem C17_list_erase_empty_range_refuted :
  forall (A : Type) (dflt x : A) (fuel : nat),
    list_documented_run [] [LPushBack x; LEraseRange None None]
    /\ list_history dflt fuel [LPushBack x; LEraseRange None None] = Diverge.
Proof.
  intros A dflt x fuel. split; [cbn; lia|].
  unfold list_history. cbn -[pop_back_until]. unfold list_erase_range. cbn -[pop_back_until].
  destruct fuel as [|f]; [reflexivity|]. cbn -[pop_back_until].
  match goal with |- context [pop_back_until (S f) ?h ?l ?p] =>
    assert (E : pop_back_until (S f) h l p = Diverge) end.
  { cbn -[pop_back_until]. cbn [pop_back_until]. cbn -[pop_back_until].
    match goal with |- pop_back_until f ?h ?l ?p = _ => set (h0 := h); set (l0 := l) end.
    clear. induction f as [|f IH]; [reflexivity|].
    cbn [pop_back_until]. cbn -[pop_back_until h0]. exact IH. }
  rewrite E. reflexivity.
Qed.

(** C18, refutation. A list without elements that is new or was cleaned cannot be asked for
    its size or iterated over: a null pointer is dereferenced. *)
Theorem C18_list_empty_inspect_refuted :
  forall (A : Type) (dflt : A) (os : list (list_op A)),
    covered_run [] Untouched os = Some Untouched ->
    exists N, forall fuel, N <= fuel -> exists h l,
      list_history dflt fuel os = Ok (h, l)
      /\ list_seq_run [] os = []
      /\ list_size fuel h l = UB
      /\ list_forward fuel h l = UB
      /\ list_begin l <> list_end l.
Proof.
  intros A dflt os Cv. destruct (run_ok os _ _ _ _ _ _ _ (new_inv dflt) Cv) as (N & HN).
  exists (S N). intros fuel F. destruct (HN fuel) as (h & l & ns & R & _ & I); [lia|].
  exists h, l. split; [exact R|].
  destruct (i_shape _ _ _ _ _ _ I) as (-> & Hh & _).
  pose proof (i_vals _ _ _ _ _ _ I) as V. inversion V as [E|]. split; [reflexivity|].
  destruct fuel as [|f]; [lia|].
  unfold list_size, list_forward, list_begin, list_end. rewrite Hh. cbn [count_from walk_from ptr_eqb].
  rewrite get_none by (apply (i_null _ _ _ _ _ _ I)).
  split; [reflexivity|]. split; [reflexivity|discriminate].
Qed.

Example list_empty_inspect_refuted_case :
  covered_run (A := nat) [] Untouched [] = Some Untouched
  /\ covered_run [] Untouched [LPushBack 1; LPushBack 2; LClean] = Some Untouched.
Proof. split; reflexivity. Qed.

(** C18, proved part. A list emptied by popFront() or erase(it). *)
Theorem C18_list_empty_inspect_partial :
  forall (A : Type) (dflt : A) (os : list (list_op A)),
    covered_run [] Untouched os = Some FrontOnly -> list_seq_run [] os = [] ->
    exists N, forall fuel, N <= fuel -> exists h l,
      list_history dflt fuel os = Ok (h, l)
      /\ list_size fuel h l = Ok 0
      /\ list_forward fuel h l = Ok []
      /\ list_begin l = list_end l.
Proof.
  intros A dflt os Cv E. destruct (run_ok os _ _ _ _ _ _ _ (new_inv dflt) Cv) as (N & HN).
  exists (S N). intros fuel F. destruct (HN fuel) as (h & l & ns & R & _ & I); [lia|].
  rewrite E in I. exists h, l. split; [exact R|].
  assert (Hs : FrontOnly <> Untouched) by discriminate.
  split; [apply (size_ok _ _ _ _ _ _ _ I Hs); cbn; lia|].
  split; [apply (forward_ok _ _ _ _ _ _ _ I Hs); cbn; lia|].
  destruct (shape_split _ _ _ _ _ _ I Hs) as (_ & _ & Hh).
  pose proof (i_vals _ _ _ _ _ _ I) as V. inversion V; subst. exact Hh.
Qed.

Example list_empty_inspect_case :
  covered_run [] Untouched [LPushBack 1; LPushFront 2; LPopFront; LErase (Some 0)] = Some FrontOnly
  /\ list_seq_run [] [LPushBack 1; LPushFront 2; LPopFront; LErase (Some 0)] = [].
Proof. split; reflexivity. Qed.

(** C19, refutation. Every list of one element: after popFront() or erase(begin()) a
    pushBack, after popBack() a pushFront touches a freed node; after popBack() the
    destructor does. *)
Theorem C19_list_refill_refuted :
  forall (A : Type) (dflt : A) (os : list (list_op A)) (v x : A),
    covered_run [] Untouched os = Some Whole -> list_seq_run [] os = [v] ->
    list_documented_run [] (os ++ [LPopFront; LPushBack x])
    /\ list_documented_run [] (os ++ [LErase (Some 0); LPushBack x])
    /\ list_documented_run [] (os ++ [LPopBack; LPushFront x])
    /\ exists N, forall fuel, N <= fuel ->
         list_history dflt fuel (os ++ [LPopFront; LPushBack x]) = UB
         /\ list_history dflt fuel (os ++ [LErase (Some 0); LPushBack x]) = UB
         /\ list_history dflt fuel (os ++ [LPopBack; LPushFront x]) = UB
         /\ exists h l, list_history dflt fuel (os ++ [LPopBack]) = Ok (h, l)
              /\ list_clean fuel h l = UB.
Proof.
  intros A dflt os v x Cv E.
  split; [apply documented_run with (1 := Cv); rewrite E; cbn; repeat split; discriminate|].
  split; [apply documented_run with (1 := Cv); rewrite E; cbn; lia|].
  split; [apply documented_run with (1 := Cv); rewrite E; cbn; repeat split; discriminate|].
  destruct (run_ok os _ _ _ _ _ _ _ (new_inv dflt) Cv) as (N & HN). rewrite E in HN.
  exists (N + 2). intros fuel F. destruct (HN fuel) as (h & l & ns & R & _ & I); [lia|].
  pose proof (inv_len _ _ _ _ _ _ I) as L. destruct ns as [|n [|? ?]]; try discriminate.
  assert (Hs : Whole <> Untouched) by discriminate.
  destruct (shape_split _ _ _ _ _ _ I Hs) as (T & Ch & Hh).
  destruct (T eq_refl) as (z & t & Ez & Ht). destruct z as [|y z]; [|destruct z; discriminate].
  injection Ez as <-.
  assert (Fn : n < hp_fresh h).
  { apply (i_fresh _ _ _ _ _ _ I). apply (inv_in_live _ _ _ _ _ _ _ I). left; reflexivity. }
  destruct (pop_front_ok _ _ _ _ _ _ _ _ I Hs) as (h1 & l1 & E1 & Id1 & I1 & _).
  assert (D1 : list_push_back h1 l1 x = UB).
  { destruct (pop_front_same_tail _ _ _ _ E1) as (Et & Ef).
    apply push_back_dangling with (t := n).
    - destruct (shape_split _ _ _ _ _ _ I1) as (_ & _ & Hh1); [discriminate|]. rewrite Hh1. discriminate.
    - congruence.
    - destruct (obj h1 (Heap n)) eqn:Eo; auto. exfalso.
      assert (Q : obj h1 (Heap n) <> None) by congruence.
      apply (i_live _ _ _ _ _ _ I1) in Q. destruct Q as [[]|[]].
    - lia. }
  destruct (pop_back_single _ _ _ _ _ I) as (h2 & l2 & E2 & Id2 & Hh2 & Dn & Fr2).
  unfold list_history. rewrite !list_run_app, !R. cbn [bind fst snd list_run list_step].
  rewrite E1. cbn [bind fst snd]. rewrite D1. split; [reflexivity|].
  split; [|split].
  - cbn [iterator_at advance bind]. unfold list_erase, list_begin.
    rewrite ptr_eqb_refl, E1. cbn [bind fst snd]. rewrite D1. reflexivity.
  - rewrite E2. cbn [bind fst snd]. unfold list_push_front. alloc (new_node_spec h2 x).
    rewrite Hh2. cbn [ptr_eqb]. unfold set_prev at 1. rewrite get_none; [reflexivity|].
    back. dec1; [|exact Dn]. injection e as e. lia.
  - rewrite E2. cbn [bind fst snd]. exists h2, l2. split; [reflexivity|].
    destruct fuel as [|f]; [lia|]. unfold list_clean. rewrite Hh2. cbn [clean_from ptr_eqb orb].
    rewrite get_none by exact Dn. reflexivity.
Qed.

Example list_refill_refuted_case :
  covered_run [] Untouched [LPushBack 1; LPushBack 2; LPopBack] = Some Whole
  /\ list_seq_run [] [LPushBack 1; LPushBack 2; LPopBack] = [1].
Proof. split; reflexivity. Qed.

(** C19, proved part. A list drained by popFront() or erase(it) can be refilled from the
    front. *)
Theorem C19_list_refill_partial :
  forall (A : Type) (dflt : A) (os : list (list_op A)) (x : A),
    covered_run [] Untouched os = Some FrontOnly -> list_seq_run [] os = [] ->
    exists N, forall fuel, N <= fuel -> exists h l,
      list_history dflt fuel (os ++ [LPushFront x]) = Ok (h, l)
      /\ list_size fuel h l = Ok 1
      /\ list_forward fuel h l = Ok [x]
      /\ node_count h 1
      /\ exists h' l', list_clean fuel h l = Ok (h', l') /\ no_nodes h'.
Proof.
  intros A dflt os x Cv E.
  assert (Cv' : covered_run [] Untouched (os ++ [LPushFront x]) = Some FrontOnly).
  { clear E. revert Cv. generalize (@nil A) as l, Untouched as s. induction os as [|o os IH];
      intros l s Cv; cbn in *.
    - inversion Cv; subst. reflexivity.
    - destruct (covered l s o); [apply IH; exact Cv|discriminate]. }
  destruct (C17_list_sequence_partial A dflt _ _ Cv') as (N & HN).
  exists N. intros fuel F. destruct (HN fuel F) as (h & l & R & _ & H1 & _ & H2 & H3).
  rewrite list_seq_run_app, E in *. cbn in H1, H2.
  exists h, l. split; [exact R|].
  destruct H1 as (H1 & H1'); [discriminate|]. auto.
Qed.

(** C58, proved part. Two lists, one a copy of the other: whatever covered calls are then
    made on both of them in any order, each gives its own sequence. *)
Theorem C58_list_copy_partial :
  forall (A : Type) (dflt : A) (os : list (list_op A)) (s : shape)
         (os2 : list (bool * list_op A)) (s1 s2 : shape),
    let vals := list_seq_run [] os in
    covered_run [] Untouched os = Some s -> s <> Untouched -> vals <> [] ->
    covered_run vals s (calls_on true os2) = Some s1 ->
    covered_run vals Whole (calls_on false os2) = Some s2 ->
    exists N, forall fuel, N <= fuel -> exists h l h1 l1 h2 l2 l3,
      list_history dflt fuel os = Ok (h, l)
      /\ list_copy dflt fuel h 1 l = Ok (h1, l1)
      /\ list_forward fuel h1 l1 = Ok vals /\ list_backward fuel h1 l1 = Ok (rev vals)
      /\ list_forward fuel h1 l = Ok vals
      /\ list_run2 fuel h1 l l1 os2 = Ok (h2, l2, l3)
      /\ (s1 <> Untouched -> list_forward fuel h2 l2 = Ok (list_seq_run vals (calls_on true os2)))
      /\ (s2 <> Untouched -> list_forward fuel h2 l3 = Ok (list_seq_run vals (calls_on false os2))).
Proof.
  intros A dflt os s os2 s1 s2 vals Cv Hs NE C1 C2.
  destruct (run_ok os _ _ _ _ _ _ _ (new_inv dflt) Cv) as (N & HN). fold vals in HN.
  destruct (run2_ok _ _ _ _ _ _ _ C1 C2) as (N2 & HN2).
  exists (N + N2 + S (length vals) + S (length (list_seq_run vals (calls_on true os2)))
          + S (length (list_seq_run vals (calls_on false os2)))).
  intros fuel F. destruct (HN fuel) as (h & l & ns & R & Id & I); [lia|].
  cbn [list_new snd dl_id] in Id.
  destruct (copy_ok dflt h l s ns vals 1 fuel) as (h1 & l1 & R1 & B1); auto; try lia.
  destruct (HN2 fuel) with (h := h1) (l1 := l) (l2 := l1) as (h2 & l2 & l3 & R2 & B2); auto; [lia|].
  destruct B1 as (n1 & m1 & I1 & I2 & _). destruct B2 as (n2 & m2 & I3 & I4 & _).
  exists h, l, h1, l1, h2, l2, l3. split; [exact R|]. split; [exact R1|].
  split; [apply (forward_ok _ _ _ _ _ _ _ I2); [discriminate|lia]|].
  split; [apply (backward_ok _ _ _ _ _ _ I2); lia|].
  split; [apply (forward_ok _ _ _ _ _ _ _ I1); [exact Hs|lia]|].
  split; [exact R2|].
  split; intros Hn; [apply (forward_ok _ _ _ _ _ _ _ I3)|apply (forward_ok _ _ _ _ _ _ _ I4)];
    auto; lia.
Qed.

Example list_copy_case :
  covered_run [1; 2] Whole (calls_on true [(true, LPushBack 3); (false, LPopFront)]) = Some Whole
  /\ covered_run [1; 2] Whole (calls_on false [(true, LPushBack 3); (false, LPopFront)]) = Some Whole
  /\ covered_run [] Untouched [LPushBack 1; LPushBack 2] = Some Whole
  /\ list_seq_run [] [LPushBack 1; LPushBack 2] = [1; 2].
Proof. repeat split. Qed.

(** C58, refutation. Copying a new or cleaned list is UB. *)
Theorem C58_list_copy_empty_refuted :
  forall (A : Type) (dflt : A) (os : list (list_op A)),
    covered_run [] Untouched os = Some Untouched ->
    exists N, forall fuel, N <= fuel -> exists h l,
      list_history dflt fuel os = Ok (h, l) /\ list_copy dflt fuel h 1 l = UB.
Proof.
  intros A dflt os Cv. destruct (run_ok os _ _ _ _ _ _ _ (new_inv dflt) Cv) as (N & HN).
  exists (S N). intros fuel F. destruct (HN fuel) as (h & l & ns & R & Id & I); [lia|].
  exists h, l. split; [exact R|]. cbn [list_new snd dl_id] in Id.
  destruct (i_shape _ _ _ _ _ _ I) as (-> & Hh & _).
  unfold list_copy, list_new, list_size. rewrite Hh. destruct fuel as [|f]; [lia|].
  cbn [count_from ptr_eqb].
  rewrite get_none; [reflexivity|]. unfold obj. rewrite sentinels_cell by discriminate.
  exact (i_null _ _ _ _ _ _ I).
Qed.

(** C58, proved part. Moving from a list: the new list has the elements, the old one can be
    used again, and they do not share anything. *)
Theorem C58_list_move_partial :
  forall (A : Type) (dflt : A) (os : list (list_op A))
         (os2 : list (bool * list_op A)) (s1 s2 : shape),
    let vals := list_seq_run [] os in
    covered_run [] Untouched os = Some Whole ->
    covered_run vals Whole (calls_on true os2) = Some s1 ->
    covered_run [] Untouched (calls_on false os2) = Some s2 ->
    exists N, forall fuel, N <= fuel -> exists h l h1 l1 src h2 l2 l3,
      list_history dflt fuel os = Ok (h, l)
      /\ list_move dflt h 1 l = Ok (h1, l1, src)
      /\ list_forward fuel h1 l1 = Ok vals /\ list_backward fuel h1 l1 = Ok (rev vals)
      /\ list_run2 fuel h1 l1 src os2 = Ok (h2, l2, l3)
      /\ (s1 <> Untouched -> list_forward fuel h2 l2 = Ok (list_seq_run vals (calls_on true os2)))
      /\ (s2 <> Untouched -> list_forward fuel h2 l3 = Ok (list_seq_run [] (calls_on false os2))).
Proof.
  intros A dflt os os2 s1 s2 vals Cv C1 C2.
  destruct (run_ok os _ _ _ _ _ _ _ (new_inv dflt) Cv) as (N & HN). fold vals in HN.
  destruct (run2_ok _ _ _ _ _ _ _ C1 C2) as (N2 & HN2).
  exists (N + N2 + S (length vals) + S (length (list_seq_run vals (calls_on true os2)))
          + S (length (list_seq_run [] (calls_on false os2)))).
  intros fuel F. destruct (HN fuel) as (h & l & ns & R & Id & I); [lia|].
  cbn [list_new snd dl_id] in Id.
  destruct (move_ok dflt h l ns vals 1 I) as (h1 & l1 & src & R1 & B1); [lia|].
  destruct (HN2 fuel) with (h := h1) (l1 := l1) (l2 := src) as (h2 & l2 & l3 & R2 & B2); auto; [lia|].
  destruct B1 as (n1 & m1 & I1 & I2 & _). destruct B2 as (n2 & m2 & I3 & I4 & _).
  exists h, l, h1, l1, src, h2, l2, l3. split; [exact R|]. split; [exact R1|].
  split; [apply (forward_ok _ _ _ _ _ _ _ I1); [discriminate|lia]|].
  split; [apply (backward_ok _ _ _ _ _ _ I1); lia|].
  split; [exact R2|].
  split; intros Hn; [apply (forward_ok _ _ _ _ _ _ _ I3)|apply (forward_ok _ _ _ _ _ _ _ I4)];
    auto; lia.
Qed.

(** C58, refutation. Moving from a new or cleaned list is UB. *)
Theorem C58_list_move_empty_refuted :
  forall (A : Type) (dflt : A) (os : list (list_op A)),
    covered_run [] Untouched os = Some Untouched ->
    exists N, forall fuel, N <= fuel -> exists h l,
      list_history dflt fuel os = Ok (h, l) /\ list_move dflt h 1 l = UB.
Proof.
  intros A dflt os Cv. destruct (run_ok os _ _ _ _ _ _ _ (new_inv dflt) Cv) as (N & HN).
  exists (S N). intros fuel F. destruct (HN fuel) as (h & l & ns & R & Id & I); [lia|].
  exists h, l. split; [exact R|]. cbn [list_new snd dl_id] in Id.
  destruct (i_shape _ _ _ _ _ _ I) as (-> & Hh & Ht).
  pose proof (i_first _ _ _ _ _ _ I) as L1. pose proof (i_last _ _ _ _ _ _ I) as L2.
  pose proof (i_null _ _ _ _ _ _ I) as L3. rewrite Id in *.
  assert (K : forall r, r <> PostFirst 1 -> r <> PostLast 1 ->
    obj (with_sentinels dflt h 1) r = obj h r)
    by (intros r H1 H2; unfold obj; rewrite sentinels_cell; auto).
  destruct (sentinels_live dflt h 1) as (K1 & K2).
  unfold list_move. set (h0 := with_sentinels dflt h 1) in *.
  rewrite Hh, Ht. unfold clean_links. cbn [dl_id]. rewrite Id.
  run (set_prev_spec h0 (PostFirst 0) Null); [rewrite K; auto; discriminate|].
  run (set_next_spec h1 (PostFirst 0) Null); [back; rewrite K; auto; discriminate|].
  run (set_prev_spec h2 (PostLast 0) Null); [back; rewrite K; auto; discriminate|].
  run (set_next_spec h3 (PostLast 0) Null); [back; rewrite K; auto; discriminate|].
  unfold update_links, update_head_links. cbn [dl_id dl_head].
  run (set_next_spec h4 (PostFirst 1) Null); [back; exact K1|].
  unfold set_prev at 1. rewrite get_none; [reflexivity|]. back. rewrite K by discriminate. exact L3.
Qed.

(** C58, proved part. Moving a list into another one by assignment, after any calls on both. *)
Theorem C58_list_move_assign_partial :
  forall (A : Type) (dflt : A) (os os2 : list (bool * list_op A)) (s0 s1 s2 : shape),
    let vals := list_seq_run [] (calls_on false os) in
    covered_run [] Untouched (calls_on true os) = Some s0 ->
    covered_run [] Untouched (calls_on false os) = Some Whole ->
    covered_run vals Whole (calls_on true os2) = Some s1 ->
    covered_run [] Untouched (calls_on false os2) = Some s2 ->
    exists N, forall fuel, N <= fuel -> exists h l src h1 l1 src1 h2 l2 src2,
      (let (h0, l0) := list_new dflt empty_heap 0 in
       let (h0, src0) := list_new dflt h0 1 in
       list_run2 fuel h0 l0 src0 os) = Ok (h, l, src)
      /\ list_move_assign fuel h l src = Ok (h1, l1, src1)
      /\ list_forward fuel h1 l1 = Ok vals /\ list_backward fuel h1 l1 = Ok (rev vals)
      /\ node_count h1 (length vals)
      /\ list_run2 fuel h1 l1 src1 os2 = Ok (h2, l2, src2)
      /\ (s1 <> Untouched -> list_forward fuel h2 l2 = Ok (list_seq_run vals (calls_on true os2)))
      /\ (s2 <> Untouched -> list_forward fuel h2 src2 = Ok (list_seq_run [] (calls_on false os2))).
Proof.
  intros A dflt os os2 s0 s1 s2 vals C0 C0' C1 C2.
  destruct (run2_ok _ _ _ _ _ _ _ C0 C0') as (N1 & HN1). fold vals in HN1.
  destruct (run2_ok _ _ _ _ _ _ _ C1 C2) as (N2 & HN2).
  exists (N1 + N2 + S (length vals) + S (length (list_seq_run [] (calls_on true os)))
          + S (length (list_seq_run vals (calls_on true os2)))
          + S (length (list_seq_run [] (calls_on false os2)))).
  intros fuel F.
  assert (B0 := new_beside dflt _ _ _ _ _ 1 (new_inv dflt)).
  destruct (list_new dflt empty_heap 0) as (h0 & l0) eqn:E0. cbn [fst snd] in B0.
  destruct (list_new dflt h0 1) as (h00 & src0) eqn:E1. cbn [fst snd] in B0.
  destruct (HN1 fuel) with (h := h00) (l1 := l0) (l2 := src0) as (h & l & src & R & B); [lia| |].
  { apply B0. inversion E0. discriminate. }
  destruct (move_assign_ok _ _ _ _ _ _ fuel B) as (h1 & l1 & src1 & R1 & _ & _ & B1); [lia|].
  destruct (HN2 fuel) with (h := h1) (l1 := l1) (l2 := src1) as (h2 & l2 & src2 & R2 & B2); auto; [lia|].
  destruct B1 as (n1 & m1 & I1 & I2 & _). destruct B2 as (n2 & m2 & I3 & I4 & _).
  exists h, l, src, h1, l1, src1, h2, l2, src2. split; [exact R|]. split; [exact R1|].
  split; [apply (forward_ok _ _ _ _ _ _ _ I1); [discriminate|lia]|].
  split; [apply (backward_ok _ _ _ _ _ _ I1); lia|].
  split.
  { assert (M : m1 = []) by (destruct (i_shape _ _ _ _ _ _ I2) as (E & _); exact E). subst m1.
    apply (inv_count _ _ _ _ _ I1). }
  split; [exact R2|].
  split; intros Hn; [apply (forward_ok _ _ _ _ _ _ _ I3)|apply (forward_ok _ _ _ _ _ _ _ I4)];
    auto; lia.
Qed.

Example list_move_assign_case :
  let os := [(true, LPushBack 9); (false, LPushBack 1); (true, LPushFront 8); (false, LPushBack 2)] in
  let os2 := [(true, LPushBack 3); (false, LPushBack 7)] in
  covered_run [] Untouched (calls_on true os) = Some Whole
  /\ covered_run [] Untouched (calls_on false os) = Some Whole
  /\ list_seq_run [] (calls_on false os) = [1; 2]
  /\ covered_run [1; 2] Whole (calls_on true os2) = Some Whole
  /\ covered_run [] Untouched (calls_on false os2) = Some Whole.
Proof. repeat split. Qed.

(** C58, refutation. Assigning from a moved new or cleaned list is UB, and so is assigning a
    list to itself by move. *)
Theorem C58_list_move_assign_empty_refuted :
  forall (A : Type) (dflt : A) (os : list (bool * list_op A)) (s0 : shape),
    covered_run [] Untouched (calls_on true os) = Some s0 ->
    covered_run [] Untouched (calls_on false os) = Some Untouched ->
    exists N, forall fuel, N <= fuel -> exists h l src,
      (let (h0, l0) := list_new dflt empty_heap 0 in
       let (h0, src0) := list_new dflt h0 1 in
       list_run2 fuel h0 l0 src0 os) = Ok (h, l, src)
      /\ list_move_assign fuel h l src = UB
      /\ list_move_assign_self fuel h l = UB.
Proof.
  intros A dflt os s0 C0 C0'.
  destruct (run2_ok _ _ _ _ _ _ _ C0 C0') as (N1 & HN1).
  exists (N1 + S (length (list_seq_run [] (calls_on true os)))).
  intros fuel F.
  assert (B0 := new_beside dflt _ _ _ _ _ 1 (new_inv dflt)).
  destruct (list_new dflt empty_heap 0) as (h0 & l0) eqn:E0. cbn [fst snd] in B0.
  destruct (list_new dflt h0 1) as (h00 & src0) eqn:E1. cbn [fst snd] in B0.
  destruct (HN1 fuel) with (h := h00) (l1 := l0) (l2 := src0) as (h & l & src & R & B); [lia| |].
  { apply B0. inversion E0. discriminate. }
  exists h, l, src. split; [exact R|].
  destruct B as (ns & ms & I1 & I2 & Hne).
  destruct (clean_ok _ _ _ _ _ _ fuel I1) as (h1 & l1 & R1 & Id & I3 & Fr); [lia|].
  destruct (i_shape _ _ _ _ _ _ I2) as (_ & Hh & Ht).
  destruct (i_shape _ _ _ _ _ _ I3) as (_ & Hh' & _).
  assert (L : forall q, update_links h1 (DL (dl_id l) Null q) = UB).
  { intros q. unfold update_links, update_head_links. cbn [dl_id dl_head].
    destruct (set_next_spec h1 (PostFirst (dl_id l)) Null) as (h2 & E2 & _ & _ & O & _ & _).
    { rewrite <- Id. apply (i_first _ _ _ _ _ _ I3). }
    rewrite E2. cbn [bind]. unfold set_prev at 1. rewrite get_none; [reflexivity|].
    rewrite O. apply (i_null _ _ _ _ _ _ I3). }
  split.
  - unfold list_move_assign. rewrite R1. cbn [bind fst]. rewrite Hh, Ht, L. reflexivity.
  - unfold list_move_assign_self. rewrite R1. cbn [bind fst snd]. rewrite <- Id in L.
    rewrite <- Hh' in L. destruct l1 as [i a b]. cbn [dl_id dl_head] in *. rewrite L. reflexivity.
Qed.

Example list_move_assign_empty_case :
  let os := [(true, LPushBack 9); (false, LPushBack 1); (false, LClean)] in
  covered_run [] Untouched (calls_on true os) = Some Whole
  /\ covered_run [] Untouched (calls_on false os) = Some Untouched.
Proof. repeat split. Qed.

(** C17/C58. The list made from an initializer list has its elements, in both directions; an
    empty initializer list is UB. *)
Theorem C58_list_initializer_partial :
  forall (A : Type) (dflt : A) (xs : list A) fuel,
    length xs < fuel ->
    (xs = [] -> list_of dflt empty_heap 0 xs = UB)
    /\ (xs <> [] -> exists h l, list_of dflt empty_heap 0 xs = Ok (h, l)
         /\ list_forward fuel h l = Ok xs /\ list_backward fuel h l = Ok (rev xs)
         /\ node_count h (length xs)).
Proof.
  intros A dflt xs fuel F. split.
  - intros ->. reflexivity.
  - intros NE. unfold list_of.
    assert (I0 := new_inv dflt).
    destruct (list_new dflt empty_heap 0) as (h0 & l0) eqn:E0. cbn [fst snd] in I0.
    assert (P : forall (ys : list A) h l s (vals : list A) ns, inv h l s ns vals [] -> s <> FrontOnly -> ys <> [] ->
              exists h' l' ns', push_all h l ys = Ok (h', l') /\ inv h' l' Whole ns' (vals ++ ys) []).
    { induction ys as [|y ys IH]; intros h l s vals ns I Hs Hy; [congruence|].
      destruct (push_back_ok _ _ _ _ _ _ y I Hs) as (h1 & l3 & R & Id & I3 & Fr).
      cbn [push_all]. rewrite R. cbn [bind fst snd]. destruct ys as [|y' ys].
      - do 3 eexists. split; [reflexivity|]. exact I3.
      - destruct (IH _ _ _ _ _ I3) as (h' & l' & ns' & R' & I'); try discriminate.
        rewrite <- app_assoc in I'. eauto. }
    destruct (P xs _ _ _ _ _ I0) as (h1 & l1 & ns1 & R1 & I1); auto; [discriminate|].
    rewrite R1. cbn [bind fst snd app] in *.
    destruct (shape_split _ _ _ _ _ _ I1) as (T & Ch & Hh); [discriminate|].
    pose proof (head_of_live _ _ _ _ _ _ I1) as Lh.
    unfold update_head_links. rewrite Hh.
    run (set_next_spec h1 (PostFirst (dl_id l1)) (head_of (dl_id l1) ns1));
      [apply (i_first _ _ _ _ _ _ I1)|].
    run (set_prev_spec h (head_of (dl_id l1) ns1) (PostFirst (dl_id l1))); [back; exact Lh|].
    assert (I2 : inv h2 l1 Whole ns1 xs []).
    { pose proof (chain_cut h1 (dl_id l1) [] ns1 Ch) as (X1 & X2).
      change (left_of (dl_id l1) []) with (PostFirst (dl_id l1)) in X1, X2.
      destruct I1 as [If Il Inull Ind Ie Ilive Ifr Iv Ish].
      constructor; auto.
      - back; auto.
      - back; auto.
      - back; auto.
      - intros n. back. apply Ilive.
      - intros n. back. apply Ifr.
      - apply vals_frame with (h := h1); auto. intros n Hn. back. reflexivity.
      - split; [apply T; reflexivity|]. split; [|exact Hh].
        unfold chain in *. apply seg_frame with (h := h1); auto.
        + intros p Hp. back. dec1; congruence.
        + intros p Hp. back. dec1; congruence. }
    exists h2, l1. split; [reflexivity|].
    split; [apply (forward_ok _ _ _ _ _ _ _ I2); [discriminate|lia]|].
    split; [apply (backward_ok _ _ _ _ _ _ I2); lia|]. apply (inv_count _ _ _ _ _ I2).
Qed.

Example list_initializer_case :
  exists h l, list_of 0 empty_heap 0 [3; 1; 2] = Ok (h, l)
    /\ list_forward 9 h l = Ok [3; 1; 2] /\ list_backward 9 h l = Ok [2; 1; 3].
Proof. eexists. eexists. split; [reflexivity|]. split; reflexivity. Qed.

Print Assumptions C17_list_sequence_partial.
Print Assumptions C17_list_sequence_refuted.
Print Assumptions C17_list_erase_empty_range_refuted.
Print Assumptions C18_list_empty_inspect_refuted.
Print Assumptions C18_list_empty_inspect_partial.
Print Assumptions C19_list_refill_refuted.
Print Assumptions C19_list_refill_partial.
Print Assumptions C58_list_copy_partial.
Print Assumptions C58_list_copy_empty_refuted.
Print Assumptions C58_list_move_partial.
Print Assumptions C58_list_move_empty_refuted.
Print Assumptions C58_list_move_assign_partial.
Print Assumptions C58_list_move_assign_empty_refuted.
Print Assumptions C58_list_initializer_partial.
