(** Lemmas for C218. *)
From Coq Require Import List Arith Bool Lia.
From Verif Require Import Base BaseLemmas ListModel ListSpec ListProofs ListOps ListRun RefSpec.
Import ListNotations.
Local Open Scope outcome_scope.

(** * Sequences *)

Section Sequences.
  Context {A : Type}.

  Lemma nth_firstn (l : list A) n i : i < n -> nth_error (firstn n l) i = nth_error l i.
  Proof.
    revert n i. induction l as [|x l IH]; intros [|n] [|i] H; cbn; auto; try lia.
    apply IH. lia.
  Qed.
  Lemma nth_skipn (l : list A) n i : nth_error (skipn n l) i = nth_error l (n + i).
  Proof.
    revert n. induction l as [|x l IH]; intros [|n]; cbn; auto. destruct i; reflexivity.
  Qed.

  Lemma nth_insert (l xs : list A) p i : p <= length l -> i < length l ->
    nth_error (firstn p l ++ xs ++ skipn p l) (if i <? p then i else i + length xs) = nth_error l i.
  Proof.
    intros Hp Hi. destruct (Nat.ltb_spec i p).
    - rewrite nth_error_app1 by (rewrite firstn_length; lia). apply nth_firstn. lia.
    - rewrite nth_error_app2 by (rewrite firstn_length; lia). rewrite firstn_length, Nat.min_l by lia.
      rewrite nth_error_app2 by lia. rewrite nth_skipn. f_equal. lia.
  Qed.
  Lemma nth_erase (l : list A) p q i : p <= q -> q <= length l -> i < length l -> i < p \/ q <= i ->
    nth_error (firstn p l ++ skipn q l) (if i <? p then i else i - (q - p)) = nth_error l i.
  Proof.
    intros Hp Hq Hi H. destruct (Nat.ltb_spec i p).
    - rewrite nth_error_app1 by (rewrite firstn_length; lia). apply nth_firstn. lia.
    - rewrite nth_error_app2 by (rewrite firstn_length; lia). rewrite firstn_length, Nat.min_l by lia.
      rewrite nth_skipn. f_equal. lia.
  Qed.
  Lemma nth_removelast (l : list A) i : S i < length l -> nth_error (removelast l) i = nth_error l i.
  Proof.
    intros H. rewrite removelast_firstn_len. apply nth_firstn. lia.
  Qed.

  (** The element is where the specification says. *)
  Lemma follow_step_nth (l : list A) o i x : list_documented l o -> nth_error l i = Some x ->
    match follow_step l o i with
    | Some j => nth_error (list_seq_step l o) j = Some x
    | None => True
    end.
  Proof.
    intros D Hx. assert (Hi : i < length l) by (apply nth_error_Some; congruence). rewrite <- Hx.
    destruct o as [y|y|p y|p ys| | |p|p q|]; cbn [follow_step list_seq_step list_documented] in *.
    - apply nth_error_app1. lia.
    - reflexivity.
    - pose proof (nth_insert l [y] (position l p) i D Hi) as Q. cbn [length app] in Q.
      replace (i + 1) with (S i) in Q by lia. exact Q.
    - apply nth_insert; auto.
    - destruct (Nat.eqb_spec (S i) (length l)); [exact I|]. apply nth_removelast. lia.
    - destruct l as [|z l]; [cbn in Hi; lia|]. destruct i; [exact I|reflexivity].
    - destruct (Nat.eqb_spec i (position l p)); [exact I|].
      pose proof (nth_erase l (position l p) (S (position l p)) i) as Q.
      replace (S (position l p) - position l p) with 1 in Q by lia. apply Q; lia.
    - destruct (Nat.leb_spec (position l p) i), (Nat.ltb_spec i (position l q)); cbn [andb];
        try exact I; apply nth_erase; lia.
    - exact I.
  Qed.
End Sequences.

(** Two lists of the same length: positions go the same way. *)
Lemma follow_step_same {A B} (l : list A) (k : list B) o o' i : length l = length k ->
  match o, o' with
  | LPushBack _, LPushBack _ | LPushFront _, LPushFront _ | LPopBack, LPopBack | LPopFront, LPopFront
  | LClean, LClean => True
  | LInsert p _, LInsert p' _ => p = p'
  | LInsertRange p xs, LInsertRange p' ys => p = p' /\ length xs = length ys
  | LErase p, LErase p' => p = p'
  | LEraseRange p q, LEraseRange p' q' => p = p' /\ q = q'
  | _, _ => False
  end -> follow_step l o i = follow_step k o' i.
Proof.
  intros L. assert (P : forall p, position l p = position k p) by (intros [n|]; cbn; auto).
  destruct o, o'; try tauto; cbn [follow_step]; intros H;
    try match type of H with _ /\ _ => destruct H as [<- H] end; subst; rewrite ?P, ?L;
    try rewrite H; reflexivity.
Qed.

Section Nodes.
  Context {A : Type}.
  Notation heap := (heap A).

  (** The numbers of nodes only go up. *)
  Lemma get_ok (h : heap) p n : get h p = Ok n -> hp_cell h p = Some n.
  Proof. unfold get. destruct (hp_cell h p); congruence. Qed.

  Definition up (h h' : heap) : Prop := hp_fresh h <= hp_fresh h'.
  Lemma up_refl h : up h h. Proof. apply le_n. Qed.
  Lemma up_trans h1 h2 h3 : up h1 h2 -> up h2 h3 -> up h1 h3.
  Proof. unfold up. lia. Qed.

  Lemma bind_ok {X Y} (m : outcome X) (k : X -> outcome Y) y : bind m k = Ok y ->
    exists x, m = Ok x /\ k x = Ok y.
  Proof. destruct m; cbn; try discriminate. eauto. Qed.

  Lemma set_next_up (h : heap) p q h' : set_next h p q = Ok h' -> up h h'.
  Proof. intros H. apply bind_ok in H. destruct H as (n & _ & [= <-]). apply le_n. Qed.
  Lemma set_prev_up (h : heap) p q h' : set_prev h p q = Ok h' -> up h h'.
  Proof. intros H. apply bind_ok in H. destruct H as (n & _ & [= <-]). apply le_n. Qed.
  Lemma delete_up (h : heap) p h' : delete h p = Ok h' -> up h h'.
  Proof.
    destruct p; cbn [delete]; try discriminate. intros H. apply bind_ok in H.
    destruct H as (n' & _ & [= <-]). apply le_n.
  Qed.
  Lemma new_node_up (h : heap) x : up h (fst (new_node h x)).
  Proof. unfold up. cbn. lia. Qed.
End Nodes.

Ltac ups :=
  repeat match goal with
  | H : bind _ _ = Ok _ |- _ => apply bind_ok in H; destruct H as (? & ? & H)
  | H : Ok _ = Ok _ |- _ => injection H as <-
  | H : Ok _ = Ok _ |- _ => injection H as <- <-
  | H : (if ?b then _ else _) = Ok _ |- _ => destruct b; try discriminate
  | H : set_next _ _ _ = Ok _ |- _ => apply set_next_up in H
  | H : set_prev _ _ _ = Ok _ |- _ => apply set_prev_up in H
  | H : delete _ _ = Ok _ |- _ => apply delete_up in H
  end.
Ltac upped := unfold up in *; cbn [hp_fresh new_node fst snd] in *; lia.

Section Up.
  Context {A : Type}.
  Notation heap := (heap A).

  Lemma head_links_up (h : heap) l h' : update_head_links h l = Ok h' -> up h h'.
  Proof. unfold update_head_links. intros H. ups. upped. Qed.
  Lemma tail_links_up (h : heap) l h' : update_tail_links h l = Ok h' -> up h h'.
  Proof. unfold update_tail_links. intros H. ups. upped. Qed.
  Lemma links_up (h : heap) l h' : update_links h l = Ok h' -> up h h'.
  Proof.
    unfold update_links. intros H. ups. apply head_links_up in H0. apply tail_links_up in H. upped.
  Qed.
  Lemma clean_links_up (h : heap) l h' : clean_links h l = Ok h' -> up h h'.
  Proof. unfold clean_links. intros H. ups. upped. Qed.

  Lemma clean_from_up fuel : forall (h : heap) o p h', clean_from fuel h o p = Ok h' -> up h h'.
  Proof.
    induction fuel as [|f IH]; intros h o p h' H; cbn [clean_from] in H; [discriminate|].
    ups; [upped|]. apply IH in H. upped.
  Qed.
  Lemma clean_up fuel (h : heap) l h' l' : list_clean fuel h l = Ok (h', l') -> up h h'.
  Proof.
    unfold list_clean. intros H. ups. apply clean_from_up in H0. apply clean_links_up in H1. upped.
  Qed.
  Lemma push_back_up (h : heap) l x h' l' : list_push_back h l x = Ok (h', l') -> up h h'.
  Proof.
    unfold list_push_back, new_node. intros H. ups; [apply links_up in H0|apply tail_links_up in H3]; upped.
  Qed.
  Lemma push_front_up (h : heap) l x h' l' : list_push_front h l x = Ok (h', l') -> up h h'.
  Proof.
    unfold list_push_front, new_node. intros H. ups; [apply links_up in H0|apply head_links_up in H3]; upped.
  Qed.
  Lemma insert_up fuel (h : heap) l p x h' l' : list_insert fuel h l p x = Ok (h', l') -> up h h'.
  Proof.
    unfold list_insert, new_node. intros H. apply bind_ok in H. destruct H as (s & _ & H).
    destruct (s =? 0); [ups; upped|].
    destruct (ptr_eqb p (list_begin l)); [eapply push_front_up; eauto|].
    destruct (ptr_eqb p (list_end l)); [eapply push_back_up; eauto|]. ups. upped.
  Qed.
  Lemma make_chain_up xs : forall (h : heap) p r, make_chain h p xs = Ok r -> up h (fst r).
  Proof.
    induction xs as [|x xs IH]; intros h p r H; cbn [make_chain] in H.
    - ups. apply le_n.
    - unfold new_node in H. ups. apply IH in H. upped.
  Qed.
  Lemma insert_range_up fuel (h : heap) l p xs h' l' :
    list_insert_range fuel h l p xs = Ok (h', l') -> up h h'.
  Proof.
    unfold list_insert_range, new_node. destruct xs as [|x xs]; intros H; [ups; apply le_n|].
    apply bind_ok in H. destruct H as ((h1 & last) & C & H). apply make_chain_up in C.
    ups; try (apply links_up in H1); try (apply head_links_up in H3); try (apply tail_links_up in H3); upped.
  Qed.
  Lemma pop_back_up (h : heap) l h' l' : list_pop_back h l = Ok (h', l') -> up h h'.
  Proof.
    unfold list_pop_back. intros H. ups; [upped|]. apply tail_links_up in H3. upped.
  Qed.
  Lemma pop_front_up (h : heap) l h' l' : list_pop_front h l = Ok (h', l') -> up h h'.
  Proof.
    unfold list_pop_front. intros H. ups; [upped|]. apply head_links_up in H3. upped.
  Qed.
  Lemma erase_up (h : heap) l p h' l' : list_erase h l p = Ok (h', l') -> up h h'.
  Proof.
    unfold list_erase. intros H.
    destruct (ptr_eqb p (list_begin l)); [eapply pop_front_up; eauto|].
    destruct (ptr_eqb p (list_end l)); [eapply pop_back_up; eauto|]. ups. upped.
  Qed.
  Lemma pop_front_until_up fuel : forall (h : heap) l p r, pop_front_until fuel h l p = Ok r -> up h (fst r).
  Proof.
    induction fuel as [|f IH]; intros h l p r H; cbn [pop_front_until] in H; [discriminate|].
    destruct (ptr_eqb _ _); [ups; apply le_n|]. apply bind_ok in H. destruct H as ((h1 & l1) & E & H).
    apply pop_front_up in E. apply IH in H. upped.
  Qed.
  Lemma pop_back_until_up fuel : forall (h : heap) l p r, pop_back_until fuel h l p = Ok r -> up h (fst r).
  Proof.
    induction fuel as [|f IH]; intros h l p r H; cbn [pop_back_until] in H; [discriminate|].
    destruct (ptr_eqb _ _); [ups; apply le_n|]. apply bind_ok in H. destruct H as ((h1 & l1) & E & H).
    apply pop_back_up in E. apply IH in H. upped.
  Qed.
  Lemma delete_until_up fuel : forall (h : heap) p q h', delete_until fuel h p q = Ok h' -> up h h'.
  Proof.
    induction fuel as [|f IH]; intros h p q h' H; cbn [delete_until] in H; [discriminate|].
    ups; [apply le_n|]. apply IH in H. upped.
  Qed.
  Lemma erase_range_up fuel (h : heap) l p q h' l' :
    list_erase_range fuel h l p q = Ok (h', l') -> up h h'.
  Proof.
    unfold list_erase_range. intros H.
    destruct (ptr_eqb p (list_begin l)), (ptr_eqb q (list_end l)).
    - eapply clean_up; eauto.
    - apply pop_front_until_up in H. exact H.
    - apply bind_ok in H. destruct H as ((h1 & l1) & E & H).
      apply pop_back_until_up in E. apply pop_back_up in H. upped.
    - ups. apply delete_until_up in H3. upped.
  Qed.
  Lemma step_up fuel (h : heap) l o h' l' : list_step fuel h l o = Ok (h', l') -> up h h'.
  Proof.
    destruct o; cbn [list_step]; intros H;
      repeat match type of H with bind _ _ = _ => apply bind_ok in H; destruct H as (? & _ & H) end;
      eauto using push_back_up, push_front_up, insert_up, insert_range_up, pop_back_up, pop_front_up,
        erase_up, erase_range_up, clean_up.
  Qed.
  Lemma run_up fuel os : forall (h : heap) l h' l', list_run fuel h l os = Ok (h', l') -> up h h'.
  Proof.
    induction os as [|o os IH]; intros h l h' l' H; cbn [list_run] in H.
    - injection H as <- <-. apply le_n.
    - apply bind_ok in H. destruct H as ((h1 & l1) & E & H). apply step_up in E. apply IH in H. upped.
  Qed.
End Up.

(** * Nodes of a list *)

Section Gone.
  Context {A : Type}.

  Lemma covered_documented (l : list A) s o s' : covered l s o = Some s' -> list_documented l o.
  Proof.
    destruct o as [y|y|p y|p ys| | |p|p q|]; cbn [covered list_documented]; intros H; auto.
    - destruct s, l; try discriminate; match type of H with (if ?b then _ else _) = _ => destruct b eqn:E end;
        try discriminate; rewrite ?Nat.leb_le, ?Nat.ltb_lt in E; lia.
    - destruct s, l; try discriminate; match type of H with (if ?b then _ else _) = _ => destruct b eqn:E end;
        try discriminate; rewrite ?Nat.leb_le, ?Nat.ltb_lt in E; lia.
    - intros ->. destruct s; discriminate.
    - intros ->. discriminate.
    - destruct (Nat.ltb_spec (position l p) (length l)); [auto|discriminate].
    - destruct p as [p|]; [|discriminate]. cbn [position] in *.
      destruct (Nat.eqb_spec p 0), (Nat.eqb_spec (position l q) (length l)); cbn [andb] in H; [lia| | |];
        destruct (Nat.ltb_spec p (length l)), (Nat.leb_spec p (position l q)),
          (Nat.ltb_spec (position l q) (length l)); cbn [andb] in H; try lia; destruct s; discriminate.
  Qed.

  Lemma in_firstn (l : list A) n x : In x (firstn n l) -> exists k, k < n /\ nth_error l k = Some x.
  Proof.
    intros H. apply In_nth_error in H. destruct H as (k & H).
    assert (k < length (firstn n l)) by (apply nth_error_Some; congruence).
    rewrite firstn_length in *. exists k. split; [lia|]. rewrite <- H. symmetry. apply nth_firstn. lia.
  Qed.
  Lemma in_skipn (l : list A) n x : In x (skipn n l) -> exists k, n <= k /\ nth_error l k = Some x.
  Proof.
    intros H. apply In_nth_error in H. destruct H as (k & H). exists (n + k). split; [lia|].
    rewrite <- nth_skipn. exact H.
  Qed.

  (** A removed element occurs no more. *)
  Lemma follow_gone (l : list A) o i x : NoDup l -> list_documented l o -> nth_error l i = Some x ->
    follow_step l o i = None -> ~ In x (list_seq_step l o).
  Proof.
    intros N D Hx F Hin.
    assert (Hi : i < length l) by (apply nth_error_Some; congruence).
    assert (One : forall k, nth_error l k = Some x -> k = i).
    { intros k Hk. apply (proj1 (NoDup_nth_error l) N); [apply nth_error_Some; congruence|congruence]. }
    destruct o as [y|y|p y|p ys| | |p|p q|]; cbn [follow_step list_seq_step list_documented] in *;
      try discriminate.
    - destruct (Nat.eqb_spec (S i) (length l)); [|discriminate].
      rewrite removelast_firstn_len in Hin. apply in_firstn in Hin. destruct Hin as (k & Hk & E).
      apply One in E. lia.
    - destruct i; [|discriminate]. destruct l as [|z l]; [cbn in Hi; lia|]. cbn [tl] in Hin.
      apply In_nth_error in Hin. destruct Hin as (k & E). specialize (One (S k) E). lia.
    - destruct (Nat.eqb_spec i (position l p)); [|discriminate].
      apply in_app_or in Hin. destruct Hin as [Hin|Hin]; [apply in_firstn in Hin|apply in_skipn in Hin];
        destruct Hin as (k & Hk & E); apply One in E; lia.
    - destruct (Nat.leb_spec (position l p) i), (Nat.ltb_spec i (position l q)); cbn [andb] in F;
        try discriminate.
      apply in_app_or in Hin. destruct Hin as [Hin|Hin]; [apply in_firstn in Hin|apply in_skipn in Hin];
        destruct Hin as (k & Hk & E); apply One in E; lia.
    - exact Hin.
  Qed.
End Gone.

Section Runs.
  Context {A : Type}.

  Lemma node_op_documented (vals : list A) (ns : list nat) f o : length ns = length vals ->
    list_documented vals o -> list_documented ns (node_op f o).
  Proof.
    intros L. assert (P : forall p, position ns p = position vals p) by (intros [n|]; cbn; auto).
    destruct o; cbn [list_documented node_op]; rewrite ?P, ?L; auto.
    all: intros H E; subst ns; destruct vals; [congruence|discriminate].
  Qed.

  (** Nodes are only added with new numbers. *)
  Lemma node_op_old (ns : list nat) f (o : list_op A) n : n < f -> In n (list_seq_step ns (node_op f o)) ->
    In n ns.
  Proof.
    intros Hn H. destruct o as [y|y|p y|p ys| | |p|p q|]; cbn [node_op list_seq_step] in H.
    - apply in_app_or in H. destruct H as [H|[H|[]]]; [auto|lia].
    - destruct H as [H|H]; [lia|auto].
    - apply in_app_or in H. destruct H as [H|[H|H]].
      + apply in_firstn in H. destruct H as (k & _ & E). apply nth_error_In in E. auto.
      + lia.
      + apply in_skipn in H. destruct H as (k & _ & E). apply nth_error_In in E. auto.
    - apply in_app_or in H. destruct H as [H|H].
      + apply in_firstn in H. destruct H as (k & _ & E). apply nth_error_In in E. auto.
      + apply in_app_or in H. destruct H as [H|H].
        * apply in_seq in H. lia.
        * apply in_skipn in H. destruct H as (k & _ & E). apply nth_error_In in E. auto.
    - rewrite removelast_firstn_len in H. apply in_firstn in H. destruct H as (k & _ & E).
      apply nth_error_In in E. auto.
    - destruct ns; [destruct H|right; exact H].
    - apply in_app_or in H. destruct H as [H|H]; [apply in_firstn in H|apply in_skipn in H];
        destruct H as (k & _ & E); apply nth_error_In in E; auto.
    - apply in_app_or in H. destruct H as [H|H]; [apply in_firstn in H|apply in_skipn in H];
        destruct H as (k & _ & E); apply nth_error_In in E; auto.
    - destruct H.
  Qed.

  (** Where the node [n] is: at position [i], or gone for good. *)
  Definition placed (h : heap A) (ns : list nat) (n : nat) (i : option nat) : Prop :=
    n < hp_fresh h /\ match i with Some i => nth_error ns i = Some n | None => ~ In n ns end.

  Lemma step_placed h l s ns vals fuel o s' n i :
    inv h l s ns vals [] -> covered vals s o = Some s' -> length vals < fuel -> placed h ns n i ->
    exists h' l' ns', list_step fuel h l o = Ok (h', l') /\ dl_id l' = dl_id l
      /\ inv h' l' s' ns' (list_seq_step vals o) []
      /\ placed h' ns' n (match i with Some i => follow_step vals o i | None => None end).
  Proof.
    intros I C F [Hn Hp].
    destruct (step_nodes_ok _ _ _ _ _ _ _ _ _ I C F) as (h' & l' & E & Id & I' & _).
    exists h', l', (list_seq_step ns (node_op (hp_fresh h) o)).
    split; [exact E|]. split; [exact Id|]. split; [exact I'|].
    pose proof (step_up _ _ _ _ _ _ E) as U. split; [unfold up in U; lia|].
    pose proof (inv_len _ _ _ _ _ _ I) as L.
    pose proof (covered_documented _ _ _ _ C) as D.
    pose proof (node_op_documented vals ns (hp_fresh h) o L D) as D'.
    destruct i as [i|].
    - assert (Q : follow_step vals o i = follow_step ns (node_op (hp_fresh h) o) i).
      { apply follow_step_same; [lia|]. destruct o; cbn [node_op]; auto. split; auto.
        rewrite seq_length. reflexivity. }
      rewrite Q. pose proof (follow_step_nth ns _ i n D' Hp) as T.
      destruct (follow_step ns (node_op (hp_fresh h) o) i) as [j|] eqn:Ef; [exact T|].
      apply (follow_gone ns _ i n (i_nodup _ _ _ _ _ _ I) D' Hp Ef).
    - intros H. apply node_op_old in H; auto.
  Qed.

  Lemma run_placed os : forall s vals s', covered_run vals s os = Some s' ->
    exists N, forall fuel, N <= fuel -> forall h l ns n i,
      inv h l s ns vals [] -> placed h ns n i ->
      exists h' l' ns', list_run fuel h l os = Ok (h', l') /\ dl_id l' = dl_id l
        /\ inv h' l' s' ns' (list_seq_run vals os) []
        /\ placed h' ns' n (match i with Some i => follow_run vals os i | None => None end).
  Proof.
    induction os as [|o os IH]; intros s vals s' C.
    - injection C as <-. exists 0. intros fuel _ h l ns n i I P. exists h, l, ns.
      split; [reflexivity|]. split; [reflexivity|]. split; [exact I|]. destruct i; exact P.
    - cbn [covered_run] in C. destruct (covered vals s o) as [s1|] eqn:C1; [|discriminate].
      destruct (IH _ _ _ C) as (N & HN). exists (N + S (length vals)). intros fuel F h l ns n i I P.
      destruct (step_placed h l s ns vals fuel o s1 n i I C1) as (h1 & l1 & ns1 & E1 & Id1 & I1 & P1);
        [lia|exact P|].
      destruct (HN fuel ltac:(lia) h1 l1 ns1 n _ I1 P1) as (h2 & l2 & ns2 & E2 & Id2 & I2 & P2).
      exists h2, l2, ns2. cbn [list_run]. rewrite E1. cbn [bind fst snd]. split; [exact E2|].
      split; [congruence|]. split; [exact I2|].
      destruct i as [i|]; cbn [follow_run]; [|exact P2].
      destruct (follow_step vals o i); exact P2.
  Qed.
End Runs.
