(** C12: what const iteration of a CircularArray, and a copy of it, show after every history. *)
From Coq Require Import List Arith Lia Bool.
From Verif Require Import Base BaseLemmas Store StoreLemmas StaticVectorModel CircularArrayModel
  CircularArraySpec CircularArrayProofs CircularConstSpec.
Import ListNotations.

Section Const.
  Context {A : Type}.
  Variable cap : nat.

  Record shows (c : circ A) (q t : list A) : Prop := {
    s_holds : holds cap c q;
    s_queue : exists p, q = skipn p t;
    s_tail : ca_tail c = length t mod S cap;
    s_cells : forall i x, nth_error t i = Some x -> length t <= i + S cap ->
      nth_error (st_cells (ca_store c)) (i mod S cap) = Some (Some x)
  }.

  Lemma queue_len c q t : shows c q t -> length q <= length t.
  Proof. intros H. destruct (s_queue _ _ _ H) as [p ->]. rewrite skipn_length. lia. Qed.

  Lemma mod_neq i n N : 0 < N -> i < n -> n < i + N -> i mod N <> n mod N.
  Proof.
    intros HN H1 H2 E.
    pose proof (Nat.div_mod i N ltac:(lia)) as X. pose proof (Nat.div_mod n N ltac:(lia)) as Y.
    rewrite E in X.
    assert (n - i = N * (n / N - i / N)) as Z by (rewrite Nat.mul_sub_distr_l; lia).
    destruct (n / N - i / N) as [|k]; [lia|]. nia.
  Qed.

  Lemma skipn_snoc (t : list A) p q x : q = skipn p t -> exists p', q ++ [x] = skipn p' (t ++ [x]).
  Proof.
    intros ->. exists (min p (length t)).
    rewrite skipn_app. replace (min p (length t) - length t) with 0 by lia. cbn [skipn]. f_equal.
    destruct (Nat.le_ge_cases p (length t)) as [L|L]; [rewrite Nat.min_l by exact L; reflexivity|].
    rewrite Nat.min_r by exact L. rewrite !skipn_all2 by lia. reflexivity.
  Qed.

  Lemma place_shows c q t x : shows c q t -> length q < cap ->
    exists c', ca_place Trivial c x = Ok c' /\ shows c' (q ++ [x]) (t ++ [x]).
  Proof.
    intros S L. destruct (place_ok Trivial cap c q x (s_holds _ _ _ S) L) as (c' & E & H' & _).
    exists c'. split; [exact E|]. unfold ca_place in E.
    apply bind_Ok in E as (s & Es & E). injection E as <-.
    destruct S as [H [p Q] T C]. pose proof (h_N _ _ _ H) as HN.
    assert (LN : length t mod S cap < S cap) by (apply Nat.mod_upper_bound; lia).
    split; [exact H'| | |].
    - apply (skipn_snoc _ _ _ _ Q).
    - cbn [ca_tail]. rewrite HN, T, app_length. cbn [length]. unfold updateTerminal.
      pose proof (Nat.div_mod (length t) (S cap) ltac:(lia)) as X.
      destruct (Nat.eqb_spec (S (length t mod S cap)) (S cap)) as [W|W].
      + symmetry. replace (length t + 1) with (0 + (length t / S cap + 1) * S cap) by nia.
        rewrite Nat.mod_add, Nat.mod_0_l by lia. reflexivity.
      + symmetry. replace (length t + 1) with (S (length t mod S cap) + (length t / S cap) * S cap) by nia.
        rewrite Nat.mod_add, Nat.mod_small by lia. reflexivity.
    - unfold st_construct in Es. destruct (nth_error (st_cells (ca_store c)) (ca_tail c)) eqn:B; [|discriminate].
      injection Es as <-. cbn [ca_store ca_buffer sv_store st_cells].
      intros i y Hi Hl. rewrite app_length in Hl. cbn [length] in Hl. rewrite T in *.
      destruct (Nat.lt_ge_cases i (length t)) as [D|D].
      + rewrite nth_error_app1 in Hi by exact D.
        rewrite nth_error_upd_neq; [apply C; [exact Hi|lia]|].
        intros W. symmetry in W. revert W. apply mod_neq; lia.
      + rewrite nth_error_app2 in Hi by exact D.
        destruct (i - length t) as [|k] eqn:K; [|destruct k; discriminate].
        injection Hi as <-. replace i with (length t) by lia.
        apply nth_error_upd_eq. apply nth_error_Some. congruence.
  Qed.

  Lemma place_all_shows xs : forall c q t, shows c q t -> length q + length xs <= cap ->
    exists c', ca_place_all Trivial c xs = Ok c' /\ shows c' (q ++ xs) (t ++ xs).
  Proof.
    induction xs as [|x xs IH]; intros c q t S L; cbn [ca_place_all].
    - exists c. rewrite !app_nil_r. auto.
    - cbn [length] in L. destruct (place_shows c q t x S ltac:(lia)) as (c1 & E & S1).
      rewrite E. cbn [bind].
      destruct (IH c1 _ _ S1) as (c2 & E2 & S2); [rewrite app_length; cbn; lia|].
      exists c2. rewrite <- !app_assoc in S2. auto.
  Qed.

  Lemma skipn_self (q xs : list A) : skipn (length q) (q ++ xs) = xs.
  Proof. rewrite skipn_app, skipn_all, Nat.sub_diag. reflexivity. Qed.

  Lemma step_shows c q t op : shows c q t ->
    exists c', ca_step Trivial c op = Ok c' /\ shows c' (q_step cap q op) (taken_step cap t q op).
  Proof.
    intros S. pose proof (holds_size _ _ _ (s_holds _ _ _ S)) as HS.
    pose proof (holds_capacity _ _ _ (s_holds _ _ _ S)) as HC.
    pose proof (h_len _ _ _ (s_holds _ _ _ S)) as HL.
    assert (P : forall x, exists c', ca_pushBack Trivial c x = Ok c'
              /\ shows c' (q_step cap q (CPush x)) (taken_step cap t q (CPush x))).
    { intros x. cbn [q_step taken_step]. unfold ca_pushBack. rewrite HS, HC.
      destruct (Nat.eqb_spec (length q) cap) as [D|D].
      - exists c. replace (length q <? cap) with false by (symmetry; apply Nat.ltb_ge; lia).
        rewrite skipn_all, app_nil_r. auto.
      - replace (length q <? cap) with true by (symmetry; apply Nat.ltb_lt; lia).
        rewrite skipn_self. apply place_shows; [exact S|lia]. }
    destruct op as [x|x|xs| |]; cbn [ca_step].
    - apply P.
    - unfold ca_emplaceBack. exact (P x).
    - cbn [q_step taken_step]. unfold ca_pushBack_range. rewrite HS, HC.
      destruct (Nat.leb_spec (length xs) (cap - length q)) as [D|D].
      + replace (length q + length xs <=? cap) with true by (symmetry; apply Nat.leb_le; lia).
        rewrite skipn_self. apply place_all_shows; [exact S|lia].
      + exists c. replace (length q + length xs <=? cap) with false by (symmetry; apply Nat.leb_gt; lia).
        rewrite skipn_all, app_nil_r. auto.
    - destruct (pop_ok Trivial cap c q (s_holds _ _ _ S)) as (c' & E & H' & _).
      exists c'. split; [exact E|]. destruct S as [H [p Q] T C]. cbn [q_step taken_step].
      unfold ca_popFront in E. split; [exact H'| | |].
      + exists (p + 1). rewrite Q. clear. revert t.
        induction p as [|p IH]; intros [|y t]; cbn; auto.
      + destruct (ca_head c =? ca_tail c); [injection E as <-; exact T|].
        apply bind_Ok in E as (s & _ & E). injection E as <-. exact T.
      + destruct (ca_head c =? ca_tail c); [injection E as <-; exact C|].
        apply bind_Ok in E as (s & Es & E). injection E as <-. unfold st_destroy in Es.
        destruct (nth_error (st_cells (ca_store c)) (ca_head c)); [|discriminate].
        injection Es as <-. exact C.
    - destruct (clean_ok Trivial cap c q (s_holds _ _ _ S) (or_introl eq_refl))
        as (c' & E & H' & _ & _).
      exists c'. split; [exact E|]. cbn [q_step taken_step]. split; [exact H'| | |].
      + exists 0. reflexivity.
      + unfold ca_clean in E. apply bind_Ok in E as (ys & _ & E).
        assert (E' : Ok (Circ (ca_buffer c) 0 0) = Ok c') by (destruct ys; exact E).
        injection E' as <-. cbn [ca_tail length]. symmetry. apply Nat.mod_0_l. lia.
      + intros [|i] x Hi; discriminate.
  Qed.

  Lemma run_shows ops : forall c q t, shows c q t ->
    exists c', ca_run Trivial c ops = Ok c'
      /\ shows c' (fold_left (q_step cap) ops q) (taken_from cap t q ops).
  Proof.
    induction ops as [|op ops IH]; intros c q t S; cbn [ca_run fold_left taken_from].
    - eauto.
    - destruct (step_shows c q t op S) as (c1 & E & S1). rewrite E. cbn [bind]. apply IH, S1.
  Qed.

  Lemma place_exists n j : j < n -> j < S cap ->
    exists i, i < n /\ i mod S cap = j /\ n <= i + S cap.
  Proof.
    intros J1 J2. exists (j + (n - 1 - j) / S cap * S cap).
    pose proof (Nat.div_mod (n - 1 - j) (S cap) ltac:(lia)) as X.
    pose proof (Nat.mod_upper_bound (n - 1 - j) (S cap) ltac:(lia)) as Y.
    repeat split; [nia| |nia]. rewrite Nat.mod_add by lia. apply Nat.mod_small. lia.
  Qed.

  Lemma load_cells (s : store A) (P : nat -> A -> Prop) k : forall j,
    (forall i, j <= i < j + k -> exists x, nth_error (st_cells s) i = Some (Some x) /\ P i x) ->
    exists l, load_all s (seq j k) = Ok l /\ length l = k
      /\ forall i, i < k -> exists x, nth_error l i = Some x /\ P (j + i) x.
  Proof.
    induction k as [|k IH]; intros j H; cbn [seq load_all].
    - exists []. repeat split. intros i Hi. lia.
    - destruct (H j ltac:(lia)) as (x & E & Hx). unfold st_load at 1. rewrite E. cbn [bind].
      destruct (IH (S j)) as (l & El & Ll & Hl); [intros i Hi; apply H; lia|].
      rewrite El. cbn [bind]. exists (x :: l). split; [reflexivity|]. split; [cbn; lia|].
      intros [|i] Hi.
      + exists x. rewrite Nat.add_0_r. auto.
      + destruct (Hl i ltac:(lia)) as (y & Ey & Hy). exists y. split; [exact Ey|].
        replace (j + S i) with (S j + i) by lia. exact Hy.
  Qed.

  (** Trivially copyable elements, any history: the elements themselves are the last ones that the
      container has taken. Const iteration shows as many, but those that are in the first places
      of the memory, whether or not they have been popped; a copy of the container consists of
      those. *)
  Theorem C12_const_exact_partial : forall ops : list (ca_op A),
    exists c l, ca_run Trivial (ca_new cap) ops = Ok c
      /\ (exists popped, ca_elements c = Ok (skipn popped (taken cap ops)))
      /\ ca_elements c = Ok (q_run cap ops)
      /\ ca_celements c = Ok l /\ length l = length (q_run cap ops)
      /\ (forall j, j < length l -> exists x, nth_error l j = Some x /\ in_place cap (taken cap ops) j x)
      /\ exists d, ca_copy Trivial c = Ok d /\ ca_elements d = Ok l /\ ca_celements d = Ok l.
  Proof.
    intros ops. destruct (run_shows ops (ca_new cap) [] []) as (c & E & S).
    { split; [apply holds_new|exists 0; reflexivity| |intros [|i] x Hi; discriminate].
      cbn [ca_new ca_tail length]. symmetry. apply Nat.mod_0_l. lia. }
    fold (q_run cap ops) (taken cap ops) in S.
    pose proof (s_holds _ _ _ S) as H. pose proof (h_len _ _ _ H) as HL.
    pose proof (queue_len _ _ _ S) as QL.
    destruct (load_cells (ca_store c) (in_place cap (taken cap ops)) (length (q_run cap ops)) 0)
      as (l & El & Ll & Hl).
    { intros j Hj. destruct (place_exists (length (taken cap ops)) j ltac:(lia) ltac:(lia)) as (i & I1 & I2 & I3).
      destruct (nth_error (taken cap ops) i) as [x|] eqn:X; [|apply nth_error_None in X; lia].
      exists x. split; [rewrite <- I2; apply (s_cells _ _ _ S i x X I3)|]. exists i. auto. }
    exists c, l. split; [exact E|].
    pose proof (elements_ok _ _ _ H) as EE.
    split; [destruct (s_queue _ _ _ S) as [p Q]; exists p; rewrite <- Q; exact EE|].
    split; [exact EE|]. rewrite (celements_prefix _ _ _ H). split; [exact El|]. split; [exact Ll|].
    split; [intros j Hj; apply (Hl j); lia|].
    unfold ca_copy. rewrite (celements_prefix _ _ _ H), El. cbn [bind].
    rewrite (h_N _ _ _ H), (holds_size _ _ _ H), <- Ll.
    destruct (fill_ok Trivial cap l ltac:(lia)) as (b & Eb & Hb & _).
    rewrite Eb. cbn [bind]. eexists. split; [reflexivity|]. split.
    - apply (elements_ok _ _ _ Hb).
    - apply (celements_ok _ _ _ Hb). reflexivity.
  Qed.
End Const.

(** Four places; six elements are taken, of which four are popped again. *)
Example C12_exact_case :
  let ops := [CPush 1; CPush 2; CPop; CPushRange [3; 4]; CPop; CPop; CPush 5; CPop; CPush 6] in
  taken 3 ops = [1; 2; 3; 4; 5; 6] /\ q_run 3 ops = [5; 6]
  /\ in_place 3 (taken 3 ops) 0 5 /\ in_place 3 (taken 3 ops) 1 6
  /\ q_run 3 (ops ++ [CPush 7]) = [5; 6; 7] /\ in_place 3 (taken 3 (ops ++ [CPush 7])) 2 7
  /\ q_run 3 (ops ++ [CPop]) = [6] /\ in_place 3 (taken 3 (ops ++ [CPop])) 0 5.
Proof.
  cbv zeta. repeat split.
  - exists 4. split; [reflexivity|]. split; [reflexivity|]. cbn. lia.
  - exists 5. split; [reflexivity|]. split; [reflexivity|]. cbn. lia.
  - exists 6. split; [reflexivity|]. split; [reflexivity|]. cbn. lia.
  - exists 4. split; [reflexivity|]. split; [reflexivity|]. cbn. lia.
Qed.

Print Assumptions C12_const_exact_partial.
