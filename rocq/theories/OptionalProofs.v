(** Proofs about Optional. *)
From Coq Require Import List Arith Lia Bool.
From Verif Require Import Base BaseLemmas OptionalModel OptionalSpec PointersProofs VariantProofs.
Import ListNotations.

Section Proofs.
  Context {V : Type}.
  Variable mv : V -> V.
  Variable dflt : V.

  Definition mko (c : option V) : optional V :=
    OR (match c with Some _ => true | None => false end) c.
  Definition full (c : option (option V)) : bool :=
    match c with Some (Some _) => true | _ => false end.

  Definition o_inv (w : oworld V) (s : ovars V) : Prop :=
    ow_vars w = map (option_map mko) s /\
    ow_made w = ow_gone w + length (filter full s).

  Lemma ovar_at w s p c : o_inv w s -> nth_error s p = Some (Some c) -> ovar w p = Ok (mko c).
  Proof. intros (Hv & _) H. unfold ovar. rewrite Hv, nth_error_map, H. reflexivity. Qed.
  Lemma ofresh_at w s p : o_inv w s -> nth_error s p = Some None -> ofresh w p = Ok tt.
  Proof. intros (Hv & _) H. unfold ofresh. rewrite Hv, nth_error_map, H. reflexivity. Qed.

  Lemma o_inv_upd w s p c c' m g :
    o_inv w s -> nth_error s p = Some c ->
    m + (if full c then 1 else 0) + ow_gone w = ow_made w + g + (if full c' then 1 else 0) ->
    o_inv (OW (upd (ow_vars w) p (option_map mko c')) m g) (upd s p c').
  Proof.
    intros (Hv & Hc) Hp Hm. split; cbn [ow_vars ow_made ow_gone].
    - rewrite Hv. symmetry. apply map_upd.
    - assert (C := countb_upd full s p c c' Hp). lia.
  Qed.

  Lemma o_unset_ok w s p c :
    o_inv w s -> nth_error s p = Some (Some c) ->
    exists w', o_unset w p = Ok w' /\ o_inv w' (upd s p (Some None)).
  Proof.
    intros H Hp. unfold o_unset. rewrite (ovar_at _ _ _ _ H Hp). cbn [bind].
    destruct c as [x|]; cbn.
    - eexists. split; [reflexivity|].
      apply (o_inv_upd w s p (Some (Some x)) (Some None)); auto. cbn. lia.
    - eexists. split; [reflexivity|]. rewrite upd_self; auto.
  Qed.

  Lemma o_source_ok w s q x :
    o_inv w s -> nth_error s q = Some (Some (Some x)) ->
    o_inv (oput w q (Some (OR true (Some (mv x))))) (upd s q (Some (Some (mv x)))).
  Proof.
    intros H Hq. apply (o_inv_upd w s q (Some (Some x)) (Some (Some (mv x)))); auto.
    cbn. lia.
  Qed.

  (** What the code really does. *)
  Definition oact (s : ovars V) (o : o_op V) : ovars V :=
    match o with
    | OAssign p q | OMoveAssign p q =>
        match o_content s q with Some _ => o_spec mv dflt s o | None => s end
    | _ => o_spec mv dflt s o
    end.

  Definition odoc (s : ovars V) (o : o_op V) : Prop :=
    match o with
    | ODefault p | OFrom p _ => o_none s p
    | OCopy p q | OMove p q => o_none s p /\ o_exists s q
    | OAssign p q => o_exists s p /\ o_exists s q
    | OMoveAssign p q => o_exists s p /\ o_exists s q /\ p <> q
    | OSet p _ | OUnset p | ODestroy p => o_exists s p
    | OInit _ => False
    end.

  Lemma o_set_ok w s p c x :
    o_inv w s -> nth_error s p = Some (Some c) ->
    exists w', o_set w p x = Ok w' /\ o_inv w' (upd s p (Some (Some x))).
  Proof.
    intros H Hp. unfold o_set. rewrite (ovar_at _ _ _ _ H Hp). cbn [bind].
    destruct c as [y|]; cbn.
    - eexists. split; [reflexivity|].
      apply (o_inv_upd w s p (Some (Some y)) (Some (Some x))); auto. cbn. lia.
    - eexists. split; [reflexivity|].
      apply (o_inv_upd w s p (Some None) (Some (Some x))); auto. cbn. lia.
  Qed.

  Lemma o_assign_set m w s p q c x :
    o_inv w s -> nth_error s p = Some (Some c) -> nth_error s q = Some (Some (Some x)) ->
    o_assign mv m w p q =
      let! w := o_set w p x in
      Ok (if m then oput w q (Some (OR true (Some (mv x)))) else w).
  Proof.
    intros H Hp Hq. unfold o_assign, o_set.
    rewrite (ovar_at _ _ _ _ H Hp), (ovar_at _ _ _ _ H Hq). cbn [bind].
    destruct c; cbn; reflexivity.
  Qed.

  Lemma o_step_act w s o :
    o_inv w s -> odoc s o -> exists w', o_step mv dflt w o = Ok w' /\ o_inv w' (oact s o).
  Proof.
    intros H D.
    destruct o as [p|p x|p q|p q|p q|p q|p x|p|p|p];
      cbn [odoc oact o_spec o_step] in *; unfold o_none, o_exists, o_holds in *.
    - unfold o_default. rewrite (ofresh_at _ _ _ H D). cbn [bind].
      eexists. split; [reflexivity|]. apply (o_inv_upd w s p None (Some None)); auto. cbn. lia.
    - unfold o_from. rewrite (ofresh_at _ _ _ H D). cbn [bind].
      eexists. split; [reflexivity|]. apply (o_inv_upd w s p None (Some (Some x))); auto. cbn. lia.
    - destruct D as (Dp & c & Dq). unfold o_copy.
      rewrite (ofresh_at _ _ _ H Dp), (ovar_at _ _ _ _ H Dq). cbn [bind].
      unfold o_content. rewrite Dq. destruct c as [x|]; cbn.
      + eexists. split; [reflexivity|]. apply (o_inv_upd w s p None (Some (Some x))); auto. cbn. lia.
      + eexists. split; [reflexivity|]. apply (o_inv_upd w s p None (Some None)); auto. cbn. lia.
    - destruct D as (Dp & c & Dq). unfold o_copy.
      rewrite (ofresh_at _ _ _ H Dp), (ovar_at _ _ _ _ H Dq). cbn [bind].
      unfold o_content. rewrite Dq.
      assert (N : p <> q) by congruence.
      destruct c as [x|]; cbn.
      + eexists. split; [reflexivity|]. apply o_source_ok.
        * apply (o_inv_upd w s p None (Some (Some x))); auto. cbn. lia.
        * rewrite nth_error_upd_neq; auto.
      + eexists. split; [reflexivity|].
        rewrite (upd_self (upd s p (Some None)) q) by (rewrite nth_error_upd_neq; auto).
        apply (o_inv_upd w s p None (Some None)); auto. cbn. lia.
    - destruct D as ((c & Dp) & d & Dq). unfold o_content. rewrite Dq.
      destruct d as [x|].
      + rewrite (o_assign_set _ _ _ _ _ _ _ H Dp Dq).
        destruct (o_set_ok _ _ _ _ x H Dp) as (w1 & E & H1). rewrite E. cbn [bind]. eauto.
      + unfold o_assign. rewrite (ovar_at _ _ _ _ H Dp), (ovar_at _ _ _ _ H Dq). cbn. eauto.
    - destruct D as ((c & Dp) & (d & Dq) & N). unfold o_content. rewrite Dq.
      destruct d as [x|].
      + rewrite (o_assign_set _ _ _ _ _ _ _ H Dp Dq).
        destruct (o_set_ok _ _ _ _ x H Dp) as (w1 & E & H1). rewrite E. cbn [bind].
        eexists. split; [reflexivity|]. apply o_source_ok; auto.
        rewrite nth_error_upd_neq; auto.
      + unfold o_assign. rewrite (ovar_at _ _ _ _ H Dp), (ovar_at _ _ _ _ H Dq). cbn. eauto.
    - destruct D as (c & Dp). eapply o_set_ok; eauto.
    - destruct D as (c & Dp). eapply o_unset_ok; eauto.
    - contradiction.
    - destruct D as (c & Dp). unfold o_destroy.
      destruct (o_unset_ok _ _ _ _ H Dp) as (w1 & E & H1). rewrite E. cbn [bind].
      eexists. split; [reflexivity|]. rewrite <- (upd_upd_eq s p (Some None) None).
      apply (o_inv_upd w1 _ p (Some None) None); auto.
      + apply nth_error_upd_eq. apply nth_error_Some. congruence.
      + cbn. lia.
  Qed.

  Lemma o_covered_doc s o : o_covered s o -> odoc s o /\ oact s o = o_spec mv dflt s o.
  Proof.
    destruct o as [p|p x|p q|p q|p q|p q|p x|p|p|p]; cbn [o_covered odoc oact]; auto;
      try tauto.
    - intros ((c & Dp) & (d & Dq) & G). split; [split; eexists; eauto|].
      unfold o_holds in *. cbn [o_spec].
      destruct (o_content s q) as [x|] eqn:Ec; auto.
      destruct G as [<-|[G|G]]; [|congruence|].
      + unfold o_content in Ec. rewrite Dp in Ec. subst c. symmetry. apply upd_self; auto.
      + unfold o_content in G. rewrite Dp in G. subst c. symmetry. apply upd_self; auto.
    - intros ((c & Dp) & (d & Dq) & N & G). split; [repeat split; try eexists; eauto|].
      unfold o_holds in *. cbn [o_spec].
      destruct (o_content s q) as [x|] eqn:Ec; auto. cbn [option_map].
      assert (d = None) by (unfold o_content in Ec; rewrite Dq in Ec; auto). subst d.
      destruct G as [G|G]; [congruence|].
      unfold o_content in G. rewrite Dp in G. subst c. symmetry.
      rewrite (upd_self s p) by auto. apply upd_self; auto.
  Qed.

  Lemma o_run_ok os : forall w s,
    o_inv w s -> o_ok mv dflt s os ->
    exists w', o_run mv dflt w os = Ok w' /\ o_inv w' (o_result mv dflt s os).
  Proof.
    induction os as [|o os IH]; intros w s H D; cbn in *; eauto.
    destruct D as [D1 D2]. apply o_covered_doc in D1. destruct D1 as [D1 E1].
    destruct (o_step_act _ _ _ H D1) as (w1 & E & H1). rewrite E1 in H1.
    rewrite E. cbn [bind]. eauto.
  Qed.

  Lemma o_start_inv n : o_inv (@o_start V n) (repeat None n).
  Proof.
    split; cbn.
    - induction n; cbn; f_equal; auto.
    - induction n; cbn; auto.
  Qed.

  Lemma ofresh_inv w s p : o_inv w s -> ofresh w p = Ok tt -> o_none s p.
  Proof.
    intros (Hv & _) H. unfold ofresh in H. rewrite Hv, nth_error_map in H. unfold o_none.
    destruct (nth_error s p) as [[c|]|]; cbn in H; try discriminate. reflexivity.
  Qed.
  Lemma ovar_inv w s p v : o_inv w s -> ovar w p = Ok v -> exists c, o_holds s p c /\ v = mko c.
  Proof.
    intros (Hv & _) H. unfold ovar in H. rewrite Hv, nth_error_map in H. unfold o_holds.
    destruct (nth_error s p) as [[c|]|]; cbn in H; try discriminate.
    injection H as <-. eauto.
  Qed.

  Lemma o_valid_doc w s o : o_inv w s -> o_valid w o -> odoc s o.
  Proof.
    intros H. assert (L : forall p, o_lives w p -> o_exists s p).
    { intros p (v & Hv). destruct (ovar_inv _ _ _ _ H Hv) as (c & Hc & _). exists c; auto. }
    destruct o as [p|p x|p q|p q|p q|p q|p x|p|p|p]; cbn [o_valid odoc];
      try (intros D; eauto using ofresh_inv; fail);
      try (intros (D1 & D2); split; eauto using ofresh_inv; fail).
    intros (D1 & D2 & D3). auto.
  Qed.

  Lemma filled_eq w s : o_inv w s -> filled w = length (filter full s).
  Proof.
    intros (Hv & _). unfold filled. rewrite Hv. clear Hv.
    induction s as [|c s IH]; cbn [map filter]; auto.
    destruct c as [[x|]|]; cbn [option_map full mko o_fill length]; auto.
  Qed.

  Lemma o_valid_run_inv os : forall w s,
    o_inv w s -> o_valid_run mv dflt w os ->
    exists w' s', o_run mv dflt w os = Ok w' /\ o_inv w' s'.
  Proof.
    induction os as [|o os IH]; intros w s H D; cbn in *.
    - eauto.
    - destruct D as [D1 D2].
      destruct (o_step_act _ _ _ H (o_valid_doc _ _ _ H D1)) as (w1 & E & H1).
      rewrite E. cbn [bind]. eauto.
  Qed.
End Proofs.
