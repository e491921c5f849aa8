(** Proofs about the List model: what every call leaves alone - the node in front of the list, and nodes
    that are gone. *)
From Coq Require Import List Arith Bool Lia.
From Verif Require Import Base BaseLemmas ListModel ListSpec ListProofs ListOps ListRun.
Import ListNotations.

Ltac unb E :=
  match type of E with
  | bind ?m _ = Ok _ =>
      let Q := fresh "Q" in destruct m eqn:Q; cbn [bind] in E; try discriminate
  end.

Ltac unbn E x :=
  match type of E with
  | bind ?m _ = Ok _ =>
      let Q := fresh "Q" in destruct m as [x| |] eqn:Q; cbn [bind] in E; try discriminate
  end.

Section Good.
  Context {A : Type}.
  Implicit Types h : heap A.
  Variable o : nat.
  (** Nodes that are gone. *)
  Variable D : nat -> Prop.
  (** So many nodes were made. *)
  Variable m : nat.

  (** Nothing leads to the node in front of the list, nothing is in front of it, and what is gone stays
      so. *)
  Definition good h : Prop :=
    (forall p, nxt h p <> Some (PostFirst o)) /\ prv h (PostFirst o) = Some Null
    /\ (forall t, D t -> t < hp_fresh h /\ obj h (Heap t) = None) /\ m <= hp_fresh h.

  Lemma live_dec : forall h p, obj h p <> None \/ obj h p = None.
  Proof. intros h p. destruct (obj h p); [left; discriminate|right; reflexivity]. Qed.

  Lemma set_next_good : forall h p q h', good h -> q <> PostFirst o -> set_next h p q = Ok h' -> good h'.
  Proof.
    intros h p q h' (G1 & G2 & G3 & G4) Hq E. destruct (live_dec h p) as [L|L].
    2: { unfold set_next in E. rewrite get_none in E by exact L. discriminate. }
    destruct (set_next_spec h p q L) as (h1 & E1 & N & P & O & F & _).
    rewrite E in E1. injection E1 as <-. split; [|split; [|split; [|rewrite F; lia]]].
    - intros r. rewrite N. destruct (ptr_dec p r); [congruence|apply G1].
    - rewrite P. exact G2.
    - intros t Ht. rewrite F, O. apply G3; exact Ht.
  Qed.
  Lemma set_prev_good : forall h p q h', good h -> p <> PostFirst o -> set_prev h p q = Ok h' -> good h'.
  Proof.
    intros h p q h' (G1 & G2 & G3 & G4) Hp E. destruct (live_dec h p) as [L|L].
    2: { unfold set_prev in E. rewrite get_none in E by exact L. discriminate. }
    destruct (set_prev_spec h p q L) as (h1 & E1 & N & P & O & F & _).
    rewrite E in E1. injection E1 as <-. split; [|split; [|split; [|rewrite F; lia]]].
    - intros r. rewrite N. apply G1.
    - rewrite P. destruct (ptr_dec p (PostFirst o)); [congruence|exact G2].
    - intros t Ht. rewrite F, O. apply G3; exact Ht.
  Qed.
  Lemma set_prev_null_good : forall h p h', good h -> set_prev h p Null = Ok h' -> good h'.
  Proof.
    intros h p h' (G1 & G2 & G3 & G4) E. destruct (live_dec h p) as [L|L].
    2: { unfold set_prev in E. rewrite get_none in E by exact L. discriminate. }
    destruct (set_prev_spec h p Null L) as (h1 & E1 & N & P & O & F & _).
    rewrite E in E1. injection E1 as <-. split; [|split; [|split; [|rewrite F; lia]]].
    - intros r. rewrite N. apply G1.
    - rewrite P. destruct (ptr_dec p (PostFirst o)); [reflexivity|exact G2].
    - intros t Ht. rewrite F, O. apply G3; exact Ht.
  Qed.
  Lemma new_good : forall h x h' p, good h -> new_node h x = (h', p) -> good h'.
  Proof.
    intros h x h' p (G1 & G2 & G3 & G4) E. destruct (new_node_spec h x) as (h1 & E1 & N & P & O & F & _).
    rewrite E in E1. injection E1 as <- _. split; [|split; [|split; [|rewrite F; lia]]].
    - intros r. rewrite N. destruct (ptr_dec (Heap (hp_fresh h)) r); [discriminate|apply G1].
    - rewrite P. destruct (ptr_dec (Heap (hp_fresh h)) (PostFirst o)); [discriminate|exact G2].
    - intros t Ht. destruct (G3 t Ht) as [T1 T2]. rewrite F, O. split; [lia|].
      destruct (ptr_dec (Heap (hp_fresh h)) (Heap t)) as [E2|_]; [injection E2; lia|exact T2].
  Qed.
  Lemma new_heap : forall h (x : A) h' p, new_node h x = (h', p) -> p = Heap (hp_fresh h).
  Proof. intros h x h' p E. unfold new_node in E. injection E as _ <-. reflexivity. Qed.
  Lemma delete_good : forall h p h', good h -> delete h p = Ok h' -> good h'.
  Proof.
    intros h p h' (G1 & G2 & G3 & G4) E. destruct p as [| | |n]; try discriminate.
    destruct (live_dec h (Heap n)) as [L|L].
    2: { rewrite delete_none in E by exact L. discriminate. }
    destruct (delete_spec h n L) as (h1 & E1 & N & P & O & F & _).
    rewrite E in E1. injection E1 as <-. split; [|split; [|split; [|rewrite F; lia]]].
    - intros r. rewrite N. destruct (ptr_dec (Heap n) r); [discriminate|apply G1].
    - rewrite P. destruct (ptr_dec (Heap n) (PostFirst o)); [discriminate|exact G2].
    - intros t Ht. rewrite F, O. destruct (G3 t Ht) as [T1 T2]. split; [exact T1|].
      destruct (ptr_dec (Heap n) (Heap t)); [reflexivity|exact T2].
  Qed.
  Lemma next_good : forall h p n, good h -> get h p = Ok n -> n_next n <> PostFirst o.
  Proof.
    intros h p n (G1 & _) E. specialize (G1 p). unfold nxt in G1. unfold get in E.
    destruct (hp_cell h p) as [c|]; [|discriminate]. injection E as ->. cbn in G1. congruence.
  Qed.

  (** The list object. *)
  Definition okl (l : dlist) : Prop := dl_id l = o /\ dl_head l <> PostFirst o.

  Lemma head_links_good : forall h l h', good h -> okl l -> update_head_links h l = Ok h' -> good h'.
  Proof.
    intros h l h' G (Ho & Hh) E. unfold update_head_links in E. rewrite Ho in E. unb E.
    apply (set_prev_good _ _ _ _ (set_next_good _ _ _ _ G Hh Q) Hh E).
  Qed.
  Lemma tail_links_good : forall h l h', good h -> dl_id l = o -> update_tail_links h l = Ok h' -> good h'.
  Proof.
    intros h l h' G Ho E. unfold update_tail_links in E. rewrite Ho in E. unb E.
    eapply set_next_good; [eapply set_prev_good; [exact G| |exact Q]| |exact E]; discriminate.
  Qed.
  Lemma links_good : forall h l h', good h -> okl l -> update_links h l = Ok h' -> good h'.
  Proof.
    intros h l h' G K E. unfold update_links in E. unb E.
    eapply tail_links_good; [eapply head_links_good; eauto|apply K|exact E].
  Qed.
  Lemma clean_links_good : forall h l h', good h -> clean_links h l = Ok h' -> good h'.
  Proof.
    intros h l h' G E. unfold clean_links in E. unb E. unb E. unb E.
    assert (NP : Null <> PostFirst o) by discriminate.
    eapply set_next_good; [eapply set_prev_null_good; [eapply set_next_good;
      [eapply set_prev_null_good; [exact G|exact Q]|exact NP|exact Q0]|exact Q1]|exact NP|exact E].
  Qed.

  Definition both (r : heap A * dlist) : Prop := good (fst r) /\ okl (snd r).

  Lemma push_back_good : forall h l x r, good h -> okl l -> list_push_back h l x = Ok r -> both r.
  Proof.
    intros h l x r G K E. unfold list_push_back in E. destruct (new_node h x) as [h1 p] eqn:En.
    pose proof (new_good _ _ _ _ G En) as G1. pose proof (new_heap _ _ _ _ En) as Ep.
    assert (Kp : okl (DL (dl_id l) p p)). { split; [apply K|]. subst p. discriminate. }
    destruct (ptr_eqb (dl_head l) Null).
    - unb E. injection E as <-. split; [apply (links_good _ _ _ G1 Kp Q)|exact Kp].
    - unb E. unb E. unb E. unb E. injection E as <-. split; [|exact K].
      refine (tail_links_good _ _ _ _ _ Q2); [|apply K].
      eapply set_next_good; [eapply set_prev_good; [exact G1| |exact Q]| |exact Q0]; subst p; discriminate.
  Qed.

  Lemma get_prev : forall h p n, get h p = Ok n -> prv h p = Some (n_prev n).
  Proof. intros h p n E. unfold get in E. unfold prv. destruct (hp_cell h p); [|discriminate].
    injection E as ->. reflexivity. Qed.
  Lemma get_next : forall h p n, get h p = Ok n -> nxt h p = Some (n_next n).
  Proof. intros h p n E. unfold get in E. unfold nxt. destruct (hp_cell h p); [|discriminate].
    injection E as ->. reflexivity. Qed.
  Lemma set_next_prv : forall h p q h' r, set_next h p q = Ok h' -> prv h' r = prv h r.
  Proof.
    intros h p q h' r E. destruct (live_dec h p) as [L|L].
    2: { unfold set_next in E. rewrite get_none in E by exact L. discriminate. }
    destruct (set_next_spec h p q L) as (h1 & E1 & N & P & _). rewrite E in E1. injection E1 as <-. apply P.
  Qed.
  Lemma set_prev_prv : forall h p q h', set_prev h p q = Ok h' -> prv h' p = Some q.
  Proof.
    intros h p q h' E. destruct (live_dec h p) as [L|L].
    2: { unfold set_prev in E. rewrite get_none in E by exact L. discriminate. }
    destruct (set_prev_spec h p q L) as (h1 & E1 & N & P & _). rewrite E in E1. injection E1 as <-.
    rewrite P. destruct (ptr_dec p p); congruence.
  Qed.

  Lemma push_front_good : forall h l x r, good h -> okl l -> list_push_front h l x = Ok r ->
    both r /\ (dl_head l <> Null -> dl_tail (snd r) = dl_tail l).
  Proof.
    intros h l x r G K E. unfold list_push_front in E. destruct (new_node h x) as [h1 p] eqn:En.
    pose proof (new_good _ _ _ _ G En) as G1. pose proof (new_heap _ _ _ _ En) as Ep.
    assert (Kp : okl (DL (dl_id l) p p)). { split; [apply K|]. subst p. discriminate. }
    destruct (ptr_eqb_spec (dl_head l) Null) as [Eh|Eh].
    - unb E. injection E as <-. split; [|congruence].
      split; [apply (links_good _ _ _ G1 Kp Q)|exact Kp].
    - unb E. unb E. unbn E n. unb E. injection E as <-. cbn [fst snd]. split; [|reflexivity].
      assert (K1 : okl (DL (dl_id l) (n_prev n) (dl_tail l))).
      { split; [apply K|]. cbn [dl_head]. apply get_prev in Q1.
        rewrite (set_next_prv _ _ _ _ _ Q0), (set_prev_prv _ _ _ _ Q) in Q1. subst p. congruence. }
      split; [|exact K1]. eapply head_links_good; [|exact K1|exact Q2].
      eapply set_next_good; [eapply set_prev_good; [exact G1|apply K|exact Q]|apply K|exact Q0].
  Qed.

  Lemma advance_good : forall h i p q, good h -> p <> PostFirst o -> advance h p i = Ok q -> q <> PostFirst o.
  Proof.
    intros h. induction i as [|i IH]; intros p q G Hp E; cbn [advance] in E; [congruence|].
    unb E. apply (IH _ _ G (next_good _ _ _ G Q) E).
  Qed.
  Lemma iterator_good : forall h l i q, good h -> okl l -> iterator_at h l i = Ok q -> q <> PostFirst o.
  Proof.
    intros h l [i|] q G K E; cbn [iterator_at] in E.
    - apply (advance_good _ _ _ _ G (proj2 K) E).
    - injection E as <-. discriminate.
  Qed.

  Lemma size_zero : forall fuel h (l : dlist), list_size fuel h l = Ok 0 -> dl_head l = PostLast (dl_id l).
  Proof.
    intros [|f] h l E; unfold list_size in E; cbn [count_from] in E; [discriminate|].
    destruct (ptr_eqb_spec (dl_head l) (PostLast (dl_id l))) as [H|_]; [exact H|].
    unb E. unb E.
  Qed.

  Lemma insert_good : forall fuel h l it x r, good h -> okl l -> it <> PostFirst o ->
    list_insert fuel h l it x = Ok r ->
    both r /\ (dl_head l <> PostLast o -> it <> PostLast o -> dl_head l <> Null ->
               dl_tail (snd r) = dl_tail l).
  Proof.
    intros fuel h l it x r G K Hi E. unfold list_insert in E. unbn E n.
    destruct (Nat.eqb_spec n 0) as [->|Hn].
    - destruct (new_node h x) as [h1 p] eqn:En. injection E as <-.
      split; [|intros Hh; apply size_zero in Q; rewrite (proj1 K) in Q; congruence].
      split; [apply (new_good _ _ _ _ G En)|]. split; [apply K|].
      rewrite (new_heap _ _ _ _ En). discriminate.
    - destruct (ptr_eqb it (list_begin l)).
      { destruct (push_front_good _ _ _ _ G K E) as [B T]. split; [exact B|]. intros _ _ Hh. auto. }
      destruct (ptr_eqb_spec it (list_end l)) as [Ee|Ee].
      { split; [apply (push_back_good _ _ _ _ G K E)|]. intros _ Hp. exfalso. apply Hp.
        rewrite Ee. unfold list_end. rewrite (proj1 K). reflexivity. }
      destruct (new_node h x) as [h1 p] eqn:En.
      pose proof (new_good _ _ _ _ G En) as G1. pose proof (new_heap _ _ _ _ En) as Ep.
      unb E. unb E. unb E. unb E. unb E. injection E as <-. split; [|reflexivity].
      split; [|exact K]. cbn [fst].
      assert (Pp : p <> PostFirst o) by (subst p; discriminate).
      eapply set_next_good; [|exact Hi|exact Q4]. eapply set_prev_good; [|exact Hi|exact Q3].
      eapply set_prev_good; [|exact Pp|exact Q2]. eapply set_next_good; [exact G1|exact Pp|exact Q1].
  Qed.

  Lemma make_chain_good : forall xs h last r, good h -> last <> PostFirst o ->
    make_chain h last xs = Ok r -> good (fst r) /\ snd r <> PostFirst o.
  Proof.
    induction xs as [|x xs IH]; intros h last r G Hl E; cbn [make_chain] in E.
    - injection E as <-. auto.
    - destruct (new_node h x) as [h1 p] eqn:En. unb E. unb E.
      assert (Pp : p <> PostFirst o) by (rewrite (new_heap _ _ _ _ En); discriminate).
      apply (IH _ _ _ (set_prev_good _ _ _ _ (set_next_good _ _ _ _ (new_good _ _ _ _ G En) Pp Q) Pp Q0) Pp E).
  Qed.

  Lemma insert_range_good : forall fuel h l it xs r, good h -> okl l -> it <> PostFirst o ->
    list_insert_range fuel h l it xs = Ok r ->
    both r /\ (dl_head l <> PostLast o -> it <> PostLast o -> dl_tail (snd r) = dl_tail l).
  Proof.
    intros fuel h l it xs r G K Hi E.
    destruct xs as [|x xs]; cbn [list_insert_range] in E.
    { injection E as <-. split; [split; auto|reflexivity]. }
    destruct (new_node h x) as [h1 p] eqn:En. pose proof (new_good _ _ _ _ G En) as G1.
    assert (Pp : p <> PostFirst o) by (rewrite (new_heap _ _ _ _ En); discriminate).
    unbn E q. destruct q as [h2 last]. destruct (make_chain_good _ _ _ _ G1 Pp Q) as [G2 Pl].
    cbn [fst snd] in *. unbn E n. destruct (Nat.eqb_spec n 0) as [->|_].
    { unb E. injection E as <-. assert (K1 : okl (DL (dl_id l) p last)) by (split; [apply K|exact Pp]).
      split; [|intros Hh; apply size_zero in Q0; rewrite (proj1 K) in Q0; congruence].
      split; [apply (links_good _ _ _ G2 K1 Q1)|exact K1]. }
    destruct (ptr_eqb it (list_begin l)).
    { unb E. unb E. unb E. injection E as <-. split; [|reflexivity].
      assert (K1 : okl (DL (dl_id l) p (dl_tail l))) by (split; [apply K|exact Pp]).
      split; [|exact K1]. eapply head_links_good; [|exact K1|exact Q3].
      eapply set_prev_good; [eapply set_next_good; [exact G2|apply K|exact Q1]|apply K|exact Q2]. }
    destruct (ptr_eqb_spec it (list_end l)) as [Ee|_].
    { unb E. unb E. unb E. injection E as <-.
      split; [|intros _ Hp; exfalso; apply Hp; rewrite Ee; unfold list_end; rewrite (proj1 K); reflexivity].
      split; [|exact K]. refine (tail_links_good _ _ _ _ _ Q3); [|apply K].
      eapply set_next_good; [eapply set_prev_good; [exact G2|exact Pp|exact Q1]|exact Pp|exact Q2]. }
    unb E. unb E. unb E. unb E. unb E. injection E as <-. split; [|reflexivity]. split; [|exact K].
    eapply set_next_good; [|exact Hi|exact Q5]. eapply set_prev_good; [|exact Hi|exact Q4].
    eapply set_prev_good; [|exact Pp|exact Q3]. eapply set_next_good; [exact G2|exact Pp|exact Q2].
  Qed.

  Lemma pop_back_good : forall h l r, good h -> okl l -> list_pop_back h l = Ok r -> both r.
  Proof.
    intros h l r G K E. unfold list_pop_back in E. unbn E n.
    destruct (ptr_eqb (n_prev n) Null). { injection E as <-. split; auto. }
    unb E. unb E. unb E. injection E as <-. split; [|exact K].
    refine (tail_links_good _ _ _ _ _ Q2); [|apply K]. eapply delete_good; [|exact Q1].
    eapply set_next_good; [exact G| |exact Q0]. discriminate.
  Qed.

  Lemma pop_front_good : forall h l r, good h -> okl l -> list_pop_front h l = Ok r ->
    both r /\ dl_tail (snd r) = dl_tail l.
  Proof.
    intros h l r G K E. unfold list_pop_front in E. unbn E n.
    destruct (ptr_eqb (n_next n) Null). { injection E as <-. split; [split|]; auto. }
    unb E. unb E. unb E. injection E as <-. split; [|reflexivity].
    assert (K1 : okl (DL (dl_id l) (n_next n) (dl_tail l))).
    { split; [apply K|]. apply (next_good _ _ _ G Q). }
    split; [|exact K1]. eapply head_links_good; [|exact K1|exact Q2]. eapply delete_good; [|exact Q1].
    eapply set_prev_good; [exact G|apply K1|exact Q0].
  Qed.

  Lemma erase_good : forall h l it r, good h -> okl l -> it <> PostFirst o -> list_erase h l it = Ok r ->
    both r /\ (it <> PostLast o -> dl_tail (snd r) = dl_tail l).
  Proof.
    intros h l it r G K Hi E. unfold list_erase in E.
    destruct (ptr_eqb it (list_begin l)).
    { destruct (pop_front_good _ _ _ G K E). auto. }
    destruct (ptr_eqb_spec it (list_end l)) as [Ee|Ee].
    { split; [apply (pop_back_good _ _ _ G K E)|]. intros Hp. exfalso. apply Hp.
      rewrite Ee. unfold list_end. rewrite (proj1 K). reflexivity. }
    unb E. unb E. unb E. unb E. injection E as <-. split; [|reflexivity]. split; [|exact K].
    eapply delete_good; [|exact Q2].
    pose proof (next_good _ _ _ G Q) as Nn.
    eapply set_prev_good; [eapply set_next_good; [exact G|exact Nn|exact Q0]|exact Nn|exact Q1].
  Qed.

  Lemma pop_front_until_good : forall fuel h l stop r, good h -> okl l ->
    pop_front_until fuel h l stop = Ok r -> both r /\ dl_tail (snd r) = dl_tail l.
  Proof.
    induction fuel as [|f IH]; intros h l stop r G K E; cbn [pop_front_until] in E; [discriminate|].
    destruct (ptr_eqb (dl_head l) stop). { injection E as <-. split; [split|]; auto. }
    unb E. destruct (pop_front_good _ _ _ G K Q) as [[G1 K1] T1].
    destruct (IH _ _ _ _ G1 K1 E) as [B T]. split; [exact B|congruence].
  Qed.
  Lemma pop_back_until_good : forall fuel h l stop r, good h -> okl l ->
    pop_back_until fuel h l stop = Ok r -> both r.
  Proof.
    induction fuel as [|f IH]; intros h l stop r G K E; cbn [pop_back_until] in E; [discriminate|].
    destruct (ptr_eqb (dl_tail l) stop). { injection E as <-. split; auto. }
    unb E. destruct (pop_back_good _ _ _ G K Q) as [G1 K1]. apply (IH _ _ _ _ G1 K1 E).
  Qed.
  Lemma delete_until_good : forall fuel h p stop h', good h -> delete_until fuel h p stop = Ok h' -> good h'.
  Proof.
    induction fuel as [|f IH]; intros h p stop h' G E; cbn [delete_until] in E; [discriminate|].
    destruct (ptr_eqb p stop). { injection E as <-. exact G. }
    unb E. unb E. apply (IH _ _ _ _ (delete_good _ _ _ G Q0) E).
  Qed.
  Lemma clean_from_good : forall fuel h k p h', good h -> clean_from fuel h k p = Ok h' -> good h'.
  Proof.
    induction fuel as [|f IH]; intros h k p h' G E; cbn [clean_from] in E; [discriminate|].
    destruct (ptr_eqb p Null || ptr_eqb p (PostLast k)). { injection E as <-. exact G. }
    unb E. unb E. apply (IH _ _ _ _ (delete_good _ _ _ G Q0) E).
  Qed.
  Lemma clean_good : forall fuel h l r, good h -> okl l -> list_clean fuel h l = Ok r -> both r.
  Proof.
    intros fuel h l r G K E. unfold list_clean in E. unb E. unb E. injection E as <-.
    split; [|split; [apply K|discriminate]].
    eapply clean_links_good; [eapply clean_from_good; [exact G|exact Q]|exact Q0].
  Qed.

  Lemma erase_range_good : forall fuel h l a b r, good h -> okl l -> b <> PostFirst o ->
    list_erase_range fuel h l a b = Ok r ->
    both r /\ (b <> PostLast o -> dl_tail (snd r) = dl_tail l).
  Proof.
    intros fuel h l a b r G K Hb E. unfold list_erase_range in E.
    destruct (ptr_eqb a (list_begin l)); destruct (ptr_eqb_spec b (list_end l)) as [Eb|Eb].
    - split; [apply (clean_good _ _ _ _ G K E)|]. intros Hp. exfalso. apply Hp.
      rewrite Eb. unfold list_end. rewrite (proj1 K). reflexivity.
    - destruct (pop_front_until_good _ _ _ _ _ G K E). auto.
    - split.
      + unb E. destruct (pop_back_until_good _ _ _ _ _ G K Q) as [G1 K1].
        apply (pop_back_good _ _ _ G1 K1 E).
      + intros Hp. exfalso. apply Hp. rewrite Eb. unfold list_end. rewrite (proj1 K). reflexivity.
    - unb E. unb E. unb E. unb E. injection E as <-. split; [|reflexivity]. split; [|exact K].
      eapply delete_until_good; [|exact Q2].
      eapply set_prev_good; [eapply set_next_good; [exact G|exact Hb|exact Q0]|exact Hb|exact Q1].
  Qed.

  Lemma step_good : forall fuel h l op r, good h -> okl l -> list_step fuel h l op = Ok r -> both r.
  Proof.
    intros fuel h l op r G K E. destruct op; cbn [list_step] in E.
    - apply (push_back_good _ _ _ _ G K E).
    - apply (push_front_good _ _ _ _ G K E).
    - unb E. apply (insert_good _ _ _ _ _ _ G K (iterator_good _ _ _ _ G K Q) E).
    - unb E. apply (insert_range_good _ _ _ _ _ _ G K (iterator_good _ _ _ _ G K Q) E).
    - apply (pop_back_good _ _ _ G K E).
    - apply (pop_front_good _ _ _ G K E).
    - unb E. apply (erase_good _ _ _ _ G K (iterator_good _ _ _ _ G K Q) E).
    - unb E. unb E. apply (erase_range_good _ _ _ _ _ _ G K (iterator_good _ _ _ _ G K Q0) E).
    - apply (clean_good _ _ _ _ G K E).
  Qed.
End Good.
