(** CircularArray refines a bounded FIFO queue. *)
From Coq Require Import List Arith Lia Bool ZArith.
From Verif Require StaticVectorProofs.
From Verif Require Import Base BaseLemmas Store StoreLemmas StaticVectorModel IteratorsModel
  CircularArrayModel CircularArraySpec.
Import ListNotations.

(** Index [i] positions after [h] in a ring of [n]. *)
Definition ix (n h i : nat) : nat := if h + i <? n then h + i else h + i - n.

Ltac ix_cases := unfold ix in *; repeat
  match goal with
  | |- context [?a <? ?b] => destruct (Nat.ltb_spec a b)
  | H : context [?a <? ?b] |- _ => destruct (Nat.ltb_spec a b)
  end.

Lemma ix_lt n h i : h < n -> i <= n -> ix n h i < n.
Proof. intros. ix_cases; lia. Qed.

Lemma ix_inj n h i j : h < n -> i < n -> j < n -> ix n h i = ix n h j -> i = j.
Proof. intros. ix_cases; lia. Qed.

Lemma ix_0 n h : h < n -> ix n h 0 = h.
Proof. intros. ix_cases; lia. Qed.

Lemma ci_inc_ix n h i : h < n -> i < n -> ci_inc n (ix n h i) = ix n h (S i).
Proof.
  intros. unfold ci_inc, circ_inc.
  destruct (Z.eqb_spec (Z.of_nat (ix n h i) + 1) (Z.of_nat n)); ix_cases; lia.
Qed.

Lemma ci_dec_ix n h i : h < n -> i < n -> ci_dec n (ix n h (S i)) = ix n h i.
Proof.
  intros. unfold ci_dec, circ_dec.
  destruct (Z.eqb_spec (Z.of_nat (ix n h (S i)) - 1) (0 - 1)); ix_cases; lia.
Qed.

Lemma ci_plus_ix n h k : h < n -> k < n -> ci_plus n h k = ix n h k.
Proof.
  intros. unfold ci_plus, circ_plus. rewrite Z.rem_small by lia.
  rewrite Z.geb_leb. destruct (Z.leb_spec (Z.of_nat n) (Z.of_nat h + Z.of_nat k)); ix_cases; lia.
Qed.

Lemma updateTerminal_ix n h i : h < n -> i < n -> updateTerminal n (S (ix n h i)) = ix n h (S i).
Proof.
  intros. unfold updateTerminal. destruct (Nat.eqb_spec (S (ix n h i)) n); ix_cases; lia.
Qed.

Lemma ix_shift n h i : h < n -> i < n -> ix n (ix n h 1) i = ix n h (S i) \/ S i = n.
Proof. intros. ix_cases; lia. Qed.

Lemma ix_shift' n h i : h < n -> S i < n -> ix n (ix n h 1) i = ix n h (S i).
Proof. intros. ix_cases; lia. Qed.

Lemma nodup_map_in {A B} (f : A -> B) l :
  (forall i j, In i l -> In j l -> f i = f j -> i = j) -> NoDup l -> NoDup (map f l).
Proof.
  induction l as [|a l IH]; intros Hinj HD; cbn; constructor; inversion HD; subst.
  - intros Hin. apply in_map_iff in Hin as (b & E & Hb).
    apply Hinj in E; [subst; auto|right; auto|left; auto].
  - apply IH; auto. intros i j Hi Hj. apply Hinj; right; auto.
Qed.

Section Proofs.
  Context {A : Type}.
  Variable m : mode.

  (** The state [c] of a circular array of capacity [cap] holds the queue [q]. *)
  Record holds (cap : nat) (c : circ A) (q : list A) : Prop := Holds
    { h_N : ca_N c = S cap;
      h_head : ca_head c < S cap;
      h_len : length q <= cap;
      h_tail : ca_tail c = ix (S cap) (ca_head c) (length q);
      h_cells : forall i x, nth_error q i = Some x ->
        nth_error (st_cells (ca_store c)) (ix (S cap) (ca_head c) i) = Some (Some x) }.

  (** ... and all other cells are raw, nothing has been lost. *)
  Record neat (cap : nat) (c : circ A) (q : list A) : Prop := Neat
    { n_rest : forall i, length q <= i < S cap ->
        nth_error (st_cells (ca_store c)) (ix (S cap) (ca_head c) i) = Some None;
      n_leaks : st_leaks (ca_store c) = 0;
      n_buf : sv_tail (ca_buffer c) = 0 }.

  Lemma holds_new cap : holds cap (ca_new cap : circ A) [].
  Proof.
    constructor; cbn [ca_new ca_head ca_tail length]; try lia.
    - unfold ca_N, ca_store, ca_new, sv_new, raw. cbn. rewrite repeat_length. reflexivity.
    - ix_cases; lia.
    - intros [|i] x H; discriminate.
  Qed.

  Lemma neat_new cap : neat cap (ca_new cap : circ A) [].
  Proof.
    constructor; auto. intros i Hi. cbn [length] in Hi.
    unfold ca_store, ca_new, sv_new. cbn [ca_head ca_buffer sv_store st_cells].
    unfold raw. rewrite nth_error_repeat_lt.
    assert (ix (S cap) 0 i < S cap) by (apply ix_lt; lia).
    destruct (Nat.ltb_spec (ix (S cap) 0 i) (S cap)); auto; lia.
  Qed.

  Lemma holds_capacity cap (c : circ A) q : holds cap c q -> ca_capacity c = cap.
  Proof. intros []. unfold ca_capacity. lia. Qed.

  Lemma holds_size cap (c : circ A) q : holds cap c q -> ca_size c = length q.
  Proof.
    intros H. pose proof (holds_capacity _ _ _ H) as Hc. destruct H.
    unfold ca_size. rewrite Hc, h_tail0. ix_cases; lia.
  Qed.

  Lemma holds_nth cap (c : circ A) q i : holds cap c q -> i < length q ->
    exists x, nth_error q i = Some x
      /\ nth_error (st_cells (ca_store c)) (ix (S cap) (ca_head c) i) = Some (Some x).
  Proof.
    intros H Hi. destruct (nth_error_lt q i Hi) as [x Hx]. exists x. split; auto.
    eapply h_cells; eauto.
  Qed.

  Lemma place_ok cap c q x : holds cap c q -> length q < cap ->
    exists c', ca_place m c x = Ok c' /\ holds cap c' (q ++ [x])
      /\ (m = Tracked -> neat cap c q -> neat cap c' (q ++ [x])).
  Proof.
    intros H Hl. destruct H as [HN Hh Hlen Ht Hc].
    unfold ca_place, st_construct.
    assert (ca_tail c < length (st_cells (ca_store c))) as Hlt.
    { fold (ca_N c). rewrite HN, Ht. apply ix_lt; lia. }
    destruct (nth_error_lt _ _ Hlt) as [cell Hcell]. rewrite Hcell. cbn [bind].
    eexists. split; [reflexivity|]. split.
    - constructor; cbn [ca_head ca_tail ca_store ca_buffer sv_store st_cells]; auto.
      + unfold ca_N, ca_store. cbn [ca_buffer sv_store st_cells]. rewrite upd_length. exact HN.
      + rewrite app_length. cbn. lia.
      + rewrite HN, Ht, updateTerminal_ix by lia. rewrite app_length, Nat.add_1_r. reflexivity.
      + intros i y Hi. unfold ca_store. cbn [ca_buffer sv_store st_cells].
        rewrite nth_error_upd.
        assert (i < length (q ++ [x])) as Hib by (apply nth_error_Some; congruence).
        rewrite app_length in Hib. cbn in Hib.
        destruct (Nat.eqb_spec (ca_tail c) (ix (S cap) (ca_head c) i)) as [E|E].
        * rewrite Ht in E. apply ix_inj in E; try lia. subst i.
          rewrite nth_error_app2, Nat.sub_diag in Hi by lia. cbn in Hi.
          assert ((ca_tail c <? length (st_cells (sv_store (ca_buffer c)))) = true) as ->
            by (apply Nat.ltb_lt; exact Hlt).
          cbn. congruence.
        * cbn [andb]. apply Hc.
          destruct (Nat.eq_dec i (length q)) as [->|Hne].
          { exfalso. apply E. auto. }
          rewrite nth_error_app1 in Hi by lia. auto.
    - intros Em Hn. subst m. destruct Hn as [Hr Hk Hb].
      assert (cell = None) as ->.
      { specialize (Hr (length q) ltac:(lia)). rewrite <- Ht, Hcell in Hr. congruence. }
      constructor; cbn [ca_head ca_tail ca_store ca_buffer sv_store sv_tail st_cells st_leaks]; auto.
      intros i Hi. rewrite app_length in Hi. cbn in Hi.
      unfold ca_store. cbn [ca_buffer sv_store st_cells]. rewrite nth_error_upd.
      destruct (Nat.eqb_spec (ca_tail c) (ix (S cap) (ca_head c) i)) as [E|E].
      + rewrite Ht in E. apply ix_inj in E; lia.
      + cbn [andb]. apply Hr. lia.
  Qed.

  Lemma place_all_ok cap xs : forall c q, holds cap c q -> length q + length xs <= cap ->
    exists c', ca_place_all m c xs = Ok c' /\ holds cap c' (q ++ xs)
      /\ (m = Tracked -> neat cap c q -> neat cap c' (q ++ xs)).
  Proof.
    induction xs as [|x xs IH]; intros c q H Hl; cbn [ca_place_all].
    - exists c. rewrite app_nil_r. auto.
    - cbn in Hl. destruct (place_ok cap c q x H) as (c1 & E1 & H1 & N1); [lia|].
      rewrite E1. cbn [bind].
      destruct (IH c1 (q ++ [x]) H1) as (c2 & E2 & H2 & N2).
      { rewrite app_length. cbn. lia. }
      rewrite <- app_assoc in H2, N2. exists c2. auto.
  Qed.

  Lemma push_ok cap c q x : holds cap c q ->
    exists c', ca_pushBack m c x = Ok c'
      /\ holds cap c' (if length q <? cap then q ++ [x] else q)
      /\ (m = Tracked -> neat cap c q -> neat cap c' (if length q <? cap then q ++ [x] else q)).
  Proof.
    intros H. unfold ca_pushBack. rewrite (holds_size _ _ _ H), (holds_capacity _ _ _ H).
    pose proof (h_len _ _ _ H).
    destruct (Nat.eqb_spec (length q) cap), (Nat.ltb_spec (length q) cap); try lia.
    - exists c. auto.
    - apply place_ok; auto.
  Qed.

  Lemma push_range_ok cap c q xs : holds cap c q ->
    exists c', ca_pushBack_range m c xs = Ok c'
      /\ holds cap c' (if length q + length xs <=? cap then q ++ xs else q)
      /\ (m = Tracked -> neat cap c q ->
          neat cap c' (if length q + length xs <=? cap then q ++ xs else q)).
  Proof.
    intros H. unfold ca_pushBack_range. rewrite (holds_size _ _ _ H), (holds_capacity _ _ _ H).
    pose proof (h_len _ _ _ H).
    destruct (Nat.leb_spec (length xs) (cap - length q)),
             (Nat.leb_spec (length q + length xs) cap); try lia.
    - apply place_all_ok; auto.
    - exists c. auto.
  Qed.

  Lemma pop_ok cap c q : holds cap c q ->
    exists c', ca_popFront m c = Ok c' /\ holds cap c' (tl q)
      /\ (m = Tracked -> neat cap c q -> neat cap c' (tl q)).
  Proof.
    intros H. destruct H as [HN Hh Hlen Ht Hc]. unfold ca_popFront.
    destruct q as [|x q].
    - cbn [length] in *. rewrite ix_0 in Ht by lia. rewrite Ht, Nat.eqb_refl.
      exists c. cbn [tl]. split; auto. split; auto.
      constructor; auto. cbn. rewrite ix_0; auto.
    - cbn [tl length] in *.
      destruct (Nat.eqb_spec (ca_head c) (ca_tail c)) as [E|E].
      { rewrite Ht in E. rewrite <- (ix_0 (S cap) (ca_head c)) in E at 1 by lia.
        apply ix_inj in E; lia. }
      pose proof (Hc 0 x eq_refl) as H0. rewrite ix_0 in H0 by lia.
      unfold st_destroy. rewrite H0.
      assert (updateTerminal (ca_N c) (S (ca_head c)) = ix (S cap) (ca_head c) 1) as Eh.
      { rewrite HN. rewrite <- (ix_0 (S cap) (ca_head c)) at 1 by lia.
        apply updateTerminal_ix; lia. }
      rewrite Eh.
      assert (ca_tail c = ix (S cap) (ix (S cap) (ca_head c) 1) (length q)) as Ht'.
      { rewrite Ht. ix_cases; lia. }
      assert (ix (S cap) (ca_head c) 1 < S cap) as Hh' by (apply ix_lt; lia).
      destruct m; cbn [bind]; eexists; (split; [reflexivity|]); split.
      + constructor; cbn [ca_head ca_tail ca_buffer]; auto; try lia.
        intros i y Hi. assert (i < length q) by (apply nth_error_Some; congruence).
        rewrite ix_shift' by lia. apply (Hc (S i)); auto.
      + discriminate.
      + constructor; cbn [ca_head ca_tail ca_buffer]; auto; try lia.
        { unfold ca_N, ca_store. cbn [ca_buffer sv_store st_cells]. rewrite upd_length. exact HN. }
        intros i y Hi. assert (i < length q) by (apply nth_error_Some; congruence).
        rewrite ix_shift' by lia. unfold ca_store. cbn [ca_buffer sv_store st_cells].
        rewrite nth_error_upd_neq. { apply (Hc (S i)); auto. }
        intros E'. rewrite <- (ix_0 (S cap) (ca_head c)) in E' at 1 by lia.
        apply ix_inj in E'; lia.
      + intros _ [Hr Hk Hb].
        constructor; cbn [ca_head ca_tail ca_store ca_buffer sv_store sv_tail st_cells st_leaks]; auto.
        intros i Hi. unfold ca_store. cbn [ca_buffer sv_store st_cells].
        destruct (Nat.eq_dec i cap) as [->|Hne].
        * assert (ix (S cap) (ix (S cap) (ca_head c) 1) cap = ca_head c) as -> by (ix_cases; lia).
          rewrite nth_error_upd_eq; auto. fold (ca_store c). fold (ca_N c). lia.
        * rewrite ix_shift' by lia. rewrite nth_error_upd_neq. { apply Hr. cbn. lia. }
          intros E'. rewrite <- (ix_0 (S cap) (ca_head c)) in E' at 1 by lia.
          apply ix_inj in E'; lia.
  Qed.

  (** Traversal. *)
  Lemma visit_ix n h : h < n -> forall k i fuel, i + k < n -> k <= fuel ->
    visit fuel (ci_inc n) (ix n h i) (ix n h (i + k)) = Ok (map (ix n h) (seq i k)).
  Proof.
    intros Hh. induction k as [|k IH]; intros i fuel Hi Hf.
    - rewrite Nat.add_0_r. destruct fuel; cbn [visit seq map]; rewrite Nat.eqb_refl; reflexivity.
    - destruct fuel as [|fuel]; [lia|]. cbn [visit seq map].
      destruct (Nat.eqb_spec (ix n h i) (ix n h (i + S k))) as [E|E].
      { apply ix_inj in E; lia. }
      rewrite ci_inc_ix by lia. replace (i + S k) with (S i + k) by lia.
      rewrite IH by lia. reflexivity.
  Qed.

  Lemma load_all_ix (s : store A) (f : nat -> nat) q : forall k,
    (forall i x, nth_error q i = Some x ->
       nth_error (st_cells s) (f (k + i)) = Some (Some x)) ->
    load_all s (map f (seq k (length q))) = Ok q.
  Proof.
    induction q as [|x q IH]; intros k H; cbn [length seq map load_all]; auto.
    unfold st_load. rewrite <- (Nat.add_0_r k) at 1. rewrite (H 0 x eq_refl). cbn [bind].
    rewrite IH; auto. intros i y Hi. replace (S k + i) with (k + S i) by lia. apply H; auto.
  Qed.

  Lemma indices_ok cap c q : holds cap c q ->
    ca_indices c = Ok (map (ix (S cap) (ca_head c)) (seq 0 (length q))).
  Proof.
    intros H. unfold ca_indices, ca_end, ca_begin.
    rewrite (holds_size _ _ _ H). destruct H as [HN Hh Hlen Ht Hc]. rewrite HN.
    rewrite ci_plus_ix by lia.
    rewrite <- (ix_0 (S cap) (ca_head c)) at 1 by lia.
    apply (visit_ix (S cap) (ca_head c) Hh (length q) 0); lia.
  Qed.

  Lemma elements_ok cap c q : holds cap c q -> ca_elements c = Ok q.
  Proof.
    intros H. unfold ca_elements. rewrite (indices_ok cap c q H). cbn [bind].
    apply load_all_ix. intros i x Hi. cbn. eapply h_cells; eauto.
  Qed.

  (** Reverse traversal. *)
  Lemma visit_rev n h : h < n -> forall k fuel, k < n -> k <= fuel ->
    visit fuel (ci_dec n) (ci_dec n (ix n h k)) (ci_dec n h)
    = Ok (map (ix n h) (rev (seq 0 k))).
  Proof.
    intros Hh. induction k as [|k IH]; intros fuel Hk Hf.
    - rewrite ix_0 by auto. destruct fuel; cbn [visit seq map rev];
        rewrite Nat.eqb_refl; reflexivity.
    - destruct fuel as [|fuel]; [lia|]. cbn [visit].
      rewrite ci_dec_ix by lia.
      rewrite seq_S, rev_app_distr. cbn [rev app map].
      destruct (Nat.eqb_spec (ix n h k) (ci_dec n h)) as [E|E].
      + exfalso. unfold ci_dec, circ_dec in E.
        destruct (Z.eqb_spec (Z.of_nat h - 1) (0 - 1)); ix_cases; lia.
      + rewrite IH by lia. reflexivity.
  Qed.

  Lemma load_all_rev (s : store A) is_ : forall q, load_all s is_ = Ok q ->
    load_all s (rev is_) = Ok (rev q).
  Proof.
    assert (Happ : forall a b qa qb, load_all s a = Ok qa -> load_all s b = Ok qb ->
              load_all s (a ++ b) = Ok (qa ++ qb)).
    { induction a as [|i a IH]; intros b qa qb Ha Hb; cbn in *.
      - injection Ha as <-. auto.
      - destruct (st_load s i); cbn in *; try discriminate.
        destruct (load_all s a) eqn:E; cbn in *; try discriminate. injection Ha as <-.
        rewrite (IH b a1 qb); auto. }
    induction is_ as [|i is_ IH]; intros q H; cbn in *.
    - injection H as <-. reflexivity.
    - destruct (st_load s i) as [x| |] eqn:Ex; cbn in *; try discriminate.
      destruct (load_all s is_) as [xs| |] eqn:E; cbn in *; try discriminate. injection H as <-.
      cbn. apply Happ; auto. cbn. rewrite Ex. reflexivity.
  Qed.

  Lemma ci_minus_ix n h k : h < n -> k < n ->
    ci_minus n (ci_dec n (ix n h k)) k = ci_dec n h.
  Proof.
    intros Hh Hk. unfold ci_minus, circ_minus. rewrite Z.rem_small by lia.
    unfold ci_dec, circ_dec.
    destruct (Z.eqb_spec (Z.of_nat (ix n h k) - 1) (0 - 1)),
             (Z.eqb_spec (Z.of_nat h - 1) (0 - 1));
    match goal with |- context [Z.ltb ?a ?b] => destruct (Z.ltb_spec a b) end; ix_cases; lia.
  Qed.

  Lemma relements_ok cap c q : holds cap c q -> ca_relements c = Ok (rev q).
  Proof.
    intros H. pose proof (elements_ok cap c q H) as E.
    unfold ca_elements in E. rewrite (indices_ok cap c q H) in E. cbn [bind] in E.
    unfold ca_relements, ca_rend, ca_rbegin, ca_end, ca_begin.
    rewrite (holds_size _ _ _ H). destruct H as [HN Hh Hlen Ht Hc]. rewrite HN.
    rewrite ci_plus_ix, ci_minus_ix by lia. rewrite visit_rev by lia. cbn [bind].
    rewrite map_rev. apply load_all_rev. exact E.
  Qed.

  (** Const traversal sees the queue when the head is at the start of the buffer. *)
  Lemma celements_ok cap c q : holds cap c q -> ca_head c = 0 -> ca_celements c = Ok q.
  Proof.
    intros H H0. pose proof (elements_ok cap c q H) as E.
    unfold ca_elements, ca_indices, ca_end, ca_begin in E. rewrite H0 in E. exact E.
  Qed.

  Lemma clean_ok cap c q : holds cap c q -> m = Trivial \/ q = [] ->
    exists c', ca_clean m c = Ok c' /\ holds cap c' [] /\ ca_head c' = 0
      /\ (m = Tracked -> neat cap c q -> neat cap c' []).
  Proof.
    intros H Hm. unfold ca_clean. rewrite (elements_ok cap c q H). cbn [bind].
    assert (Hcl : holds cap (Circ (ca_buffer c) 0 0) []).
    { destruct H as [HN Hh Hlen Ht Hc]. constructor; cbn; auto; try lia.
      intros [|i] x Hi; discriminate. }
    assert (Hcn : q = [] -> neat cap c q -> neat cap (Circ (ca_buffer c) 0 0) []).
    { intros -> [Hr Hk Hb]. destruct H as [HN Hh Hlen Ht Hc]. constructor; auto.
      cbn [ca_head length] in *. intros i Hi.
      specialize (Hr (if ca_head c <=? i then i - ca_head c else i + S cap - ca_head c)).
      unfold ca_store in *. cbn [ca_buffer] in *. rewrite <- Hr.
      - f_equal. destruct (Nat.leb_spec (ca_head c) i); ix_cases; lia.
      - destruct (Nat.leb_spec (ca_head c) i); lia. }
    destruct m.
    - eexists. split; [reflexivity|]. split; auto. split; auto. discriminate.
    - destruct Hm as [|Hq]; [discriminate|]. rewrite Hq. cbn [bind].
      eexists. split; [reflexivity|]. split; auto. split; auto.
      intros _ Hn. apply Hcn; auto. rewrite Hq. exact Hn.
  Qed.

  Lemma step_ok cap c q op : holds cap c q -> m = Trivial \/ (op = CClean -> q = []) ->
    exists c', ca_step m c op = Ok c' /\ holds cap c' (q_step cap q op)
      /\ (m = Tracked -> neat cap c q -> neat cap c' (q_step cap q op)).
  Proof.
    intros H Hm. destruct op; cbn [ca_step q_step].
    - apply push_ok; auto.
    - apply push_ok; auto.
    - apply push_range_ok; auto.
    - apply pop_ok; auto.
    - destruct (clean_ok cap c q H) as (c' & E & H' & _ & N').
      { destruct Hm as [Hm|Hm]; auto. }
      exists c'. auto.
  Qed.

  Lemma run_ok cap ops : forall c q, holds cap c q ->
    m = Trivial \/ cleans_empty cap q ops ->
    exists c', ca_run m c ops = Ok c' /\ holds cap c' (fold_left (q_step cap) ops q)
      /\ (m = Tracked -> neat cap c q -> neat cap c' (fold_left (q_step cap) ops q)).
  Proof.
    induction ops as [|op ops IH]; intros c q H Hm; cbn [ca_run fold_left].
    - exists c. auto.
    - destruct (step_ok cap c q op H) as (c1 & E1 & H1 & N1).
      { destruct Hm as [Hm|[Hm Hm']]; auto. }
      rewrite E1. cbn [bind].
      destruct (IH c1 _ H1) as (c2 & E2 & H2 & N2).
      { destruct Hm as [Hm|[Hm Hm']]; auto. }
      exists c2. auto.
  Qed.

  (** Destroying the elements of a neat array leaves only raw cells. *)
  Lemma destroy_all_ok (is_ : list nat) : m = Tracked -> NoDup is_ -> forall s : store A,
    (forall i, In i is_ -> exists x, nth_error (st_cells s) i = Some (Some x)) ->
    exists s', destroy_all m s is_ = Ok s' /\ st_leaks s' = st_leaks s
      /\ length (st_cells s') = length (st_cells s)
      /\ (forall i, In i is_ -> nth_error (st_cells s') i = Some None)
      /\ (forall i, ~ In i is_ -> nth_error (st_cells s') i = nth_error (st_cells s) i).
  Proof.
    intros Em HD. induction HD as [|i is_ Hni HD IH]; intros s H; cbn [destroy_all].
    - exists s. repeat split; auto. intros i [].
    - destruct (H i (or_introl eq_refl)) as [x Hx].
      unfold st_destroy. rewrite Hx, Em. cbn [bind].
      assert (i < length (st_cells s)) as Hlt by (apply nth_error_Some; congruence).
      destruct (IH (St (upd (st_cells s) i None) (st_leaks s))) as (s' & E & K & L & HI & HO).
      { intros j Hj. cbn [st_cells]. rewrite nth_error_upd_neq by congruence.
        apply H. right; auto. }
      rewrite <- Em in *. exists s'. split; auto. split; auto. cbn [st_cells] in *.
      rewrite upd_length in L. split; auto. split.
      + intros j [<-|Hj]; auto. rewrite HO by auto. apply nth_error_upd_eq; auto.
      + intros j Hj. rewrite HO. { apply nth_error_upd_neq. intros ->. apply Hj; left; auto. }
        intros Hin. apply Hj. right; auto.
  Qed.

  Lemma ix_surj n h j : h < n -> j < n -> exists i, i < n /\ ix n h i = j.
  Proof.
    intros. exists (if h <=? j then j - h else j + n - h).
    destruct (Nat.leb_spec h j); split; ix_cases; lia.
  Qed.

  Lemma destructor_ok cap c q : m = Tracked -> holds cap c q -> neat cap c q ->
    exists s, ca_destructor m c = Ok s /\ st_leaks s = 0 /\ st_cells s = raw A (S cap).
  Proof.
    intros Em H [Hr Hk Hb]. unfold ca_destructor. rewrite (indices_ok cap c q H). cbn [bind].
    pose proof (holds_nth cap c q) as Hnth.
    destruct (destroy_all_ok (map (ix (S cap) (ca_head c)) (seq 0 (length q))) Em)
      with (s := ca_store c) as (s' & E & K & L & HI & HO).
    { destruct H. apply nodup_map_in; [|apply seq_NoDup].
      intros i j Hi Hj Eij. apply in_seq in Hi. apply in_seq in Hj.
      apply ix_inj in Eij; lia. }
    { intros i Hi. apply in_map_iff in Hi as (k & <- & Hin). apply in_seq in Hin.
      destruct (Hnth k H) as (x & _ & Hx); [lia|]. eauto. }
    rewrite E. cbn [bind]. unfold sv_destructor. rewrite Hb. cbn [sv_tail destroy_range sv_store].
    exists s'. split; auto. split; [lia|].
    apply list_ext. intros j. unfold raw. rewrite nth_error_repeat_lt.
    destruct H as [HN Hh Hlen Ht Hc].
    destruct (Nat.ltb_spec j (S cap)) as [Hj|Hj].
    - destruct (ix_surj (S cap) (ca_head c) j Hh Hj) as (i & Hi & Eij).
      destruct (Nat.lt_ge_cases i (length q)) as [Hiq|Hiq].
      + apply HI. rewrite <- Eij. apply in_map. apply in_seq. lia.
      + rewrite HO.
        * rewrite <- Eij. apply Hr. lia.
        * rewrite <- Eij. intros Hin. apply in_map_iff in Hin as (k & Ek & Hk').
          apply in_seq in Hk'. apply ix_inj in Ek; lia.
    - apply nth_error_None. rewrite L. fold (ca_N c). lia.
  Qed.

  (** Const traversal reads the first [length q] cells of the buffer. *)
  Lemma celements_prefix cap c q : holds cap c q ->
    ca_celements c = load_all (ca_store c) (seq 0 (length q)).
  Proof.
    intros H. unfold ca_celements, ca_cend, ca_cbegin.
    rewrite (holds_size _ _ _ H). destruct H as [HN Hh Hlen Ht Hc]. rewrite HN.
    rewrite ci_plus_ix by lia.
    pose proof (visit_ix (S cap) 0 ltac:(lia) (length q) 0 (S cap) ltac:(lia) ltac:(lia)) as V.
    rewrite ix_0 in V by lia. cbn [Nat.add] in V. rewrite V. cbn [bind].
    f_equal. rewrite <- (map_id (seq 0 (length q))) at 2. apply map_ext_in.
    intros i Hi. apply in_seq in Hi. ix_cases; lia.
  Qed.

  (** Filling a new buffer (copying and moving constructors). *)
  Lemma fill_ok cap xs : length xs <= cap ->
    exists b, sv_push_all m (sv_new (S cap)) xs = Ok b
      /\ holds cap (Circ b 0 (length xs)) xs /\ sv_tail b = length xs
      /\ (m = Tracked -> st_leaks (sv_store b) = 0
          /\ forall i, length xs <= i < S cap -> nth_error (st_cells (sv_store b)) i = Some None).
  Proof.
    intros Hl.
    destruct (StaticVectorProofs.push_all_fit m (S cap) xs [] (raw A (S cap)) 0)
      as (rest & k & E & L & C).
    { cbn. unfold raw. rewrite repeat_length. reflexivity. }
    { cbn. lia. }
    cbn [map app length] in E, L. unfold sv_new. rewrite E. eexists. split; [reflexivity|].
    assert (forall i, i <= cap -> ix (S cap) 0 i = i) as Hix by (intros; ix_cases; lia).
    split; [|split; auto].
    - constructor; cbn [ca_head ca_tail]; try lia.
      + unfold ca_N, ca_store. cbn [ca_buffer sv_store st_cells].
        rewrite app_length, map_length. lia.
      + rewrite Hix; lia.
      + intros i x Hi. assert (i < length xs) by (apply nth_error_Some; congruence).
        rewrite Hix by lia. unfold ca_store. cbn [ca_buffer sv_store st_cells].
        rewrite nth_error_app1 by (rewrite map_length; lia).
        rewrite nth_error_map', Hi. reflexivity.
    - intros Em. destruct (C Em I) as [HR ->].
      { apply Forall_forall. intros c Hc. apply repeat_spec in Hc. exact Hc. }
      cbn [sv_store st_leaks st_cells]. split; auto. intros i Hi.
      rewrite nth_error_app2 by (rewrite map_length; lia). rewrite map_length.
      destruct (nth_error_lt rest (i - length xs)) as [c Hc]; [lia|].
      rewrite Hc. f_equal. apply nth_error_In in Hc.
      apply (proj1 (Forall_forall _ _) HR) in Hc. exact Hc.
  Qed.

  (** Destroying such an array destroys every element twice. *)
  Lemma filled_destructor cap b x xs : m = Tracked ->
    holds cap (Circ b 0 (length (x :: xs))) (x :: xs) -> sv_tail b = length (x :: xs) ->
    ca_destructor m (Circ b 0 (length (x :: xs))) = UB.
  Proof.
    intros Em H Hb. unfold ca_destructor. rewrite (indices_ok _ _ _ H). cbn [bind].
    set (is_ := map _ _).
    destruct (destroy_all_ok is_ Em) with (s := ca_store (Circ b 0 (length (x :: xs))))
      as (s' & E & K & L & HI & HO).
    { destruct H. apply nodup_map_in; [|apply seq_NoDup].
      intros i j Hi Hj Eij. apply in_seq in Hi. apply in_seq in Hj.
      apply ix_inj in Eij; lia. }
    { intros i Hi. apply in_map_iff in Hi as (k & <- & Hin). apply in_seq in Hin.
      destruct (holds_nth _ _ _ k H) as (y & _ & Hx); [lia|]. eauto. }
    rewrite E. cbn [bind]. unfold sv_destructor. cbn [sv_tail ca_buffer sv_store]. rewrite Hb.
    cbn [length destroy_range]. unfold st_destroy. rewrite (HI 0), Em; auto.
    unfold is_. cbn [length seq map]. left. destruct H. apply ix_0. auto.
  Qed.
End Proofs.
