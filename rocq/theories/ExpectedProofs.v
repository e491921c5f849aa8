(** Proofs about flame_ide::Expected. *)
From Coq Require Import List Arith Lia Bool.
From Verif Require Import Base BaseLemmas ExpectedModel ExpectedSpec PointersProofs VariantProofs.
Import ListNotations.

Section Proofs.
  Context {V : Type}.
  Variable mv : V -> V.

  Definition xabs (v : expected V) : option (kind * V) :=
    match x_state v with Some _ => x_cell v | None => None end.
  Definition xwf (v : expected V) : Prop :=
    forall k, x_state v = Some k -> exists x, x_cell v = Some (k, x).
  Definition xfull (c : option (option (kind * V))) : bool :=
    match c with Some (Some _) => true | _ => false end.

  Definition x_inv (w : xworld V) (s : xspec V) : Prop :=
    map (option_map xabs) (xw_vars w) = xs_vars s /\
    (forall p v, nth_error (xw_vars w) p = Some (Some v) -> xwf v) /\
    xw_calls w = xs_calls s /\
    xw_made w = xw_gone w + length (filter xfull (xs_vars s)) + xs_taken s.

  Lemma kind_eqb_refl k : kind_eqb k k = true.
  Proof. destruct k; reflexivity. Qed.
  Lemma kind_eqb_eq j k : kind_eqb j k = true -> j = k.
  Proof. destruct j, k; auto; discriminate. Qed.

  Lemma xvar_at w s p c :
    x_inv w s -> nth_error (xs_vars s) p = Some (Some c) ->
    exists v, xvar w p = Ok v /\ nth_error (xw_vars w) p = Some (Some v) /\ xabs v = c /\ xwf v.
  Proof.
    intros (Hv & Hw & _) H. rewrite <- Hv, nth_error_map in H.
    destruct (nth_error (xw_vars w) p) as [[v|]|] eqn:E; cbn in H; try discriminate.
    injection H as <-. exists v. unfold xvar. rewrite E. repeat split; eauto.
  Qed.
  Lemma xfresh_at w s p :
    x_inv w s -> nth_error (xs_vars s) p = Some None ->
    xfresh w p = Ok tt /\ nth_error (xw_vars w) p = Some None.
  Proof.
    intros (Hv & _) H. rewrite <- Hv, nth_error_map in H. unfold xfresh.
    destruct (nth_error (xw_vars w) p) as [[v|]|] eqn:E; cbn in H; try discriminate. auto.
  Qed.

  (** [abs] determines state and cell of an object that holds something. *)
  Lemma xabs_some v k x : xwf v -> xabs v = Some (k, x) -> v = XR (Some k) (Some (k, x)).
  Proof.
    destruct v as [[j|] c]; unfold xabs, xwf; cbn; intros W E; try discriminate.
    destruct (W j eq_refl) as [y Ey]. subst c. congruence.
  Qed.
  Lemma xabs_none v : xwf v -> xabs v = None -> x_state v = None.
  Proof.
    destruct v as [[j|] c]; unfold xabs, xwf; cbn; intros W E; auto.
    destruct (W j eq_refl) as [y Ey]. congruence.
  Qed.

  Lemma x_inv_upd w s p c v c' m g calls calls' t :
    x_inv w s -> nth_error (xs_vars s) p = Some c ->
    option_map xabs v = c' -> (forall u, v = Some u -> xwf u) -> calls = calls' ->
    m + (if xfull c then 1 else 0) + xw_gone w + xs_taken s =
      xw_made w + g + (if xfull c' then 1 else 0) + t ->
    x_inv (XW (upd (xw_vars w) p v) m g calls) (XS (upd (xs_vars s) p c') calls' t).
  Proof.
    intros (Hv & Hw & Hl & Hc) Hp <- Hu <- Hm.
    split; [|split; [|split]]; cbn [xw_vars xw_made xw_gone xw_calls xs_vars xs_calls xs_taken].
    - rewrite map_upd, Hv. reflexivity.
    - intros q u. rewrite nth_error_updx. destruct (p =? q).
      + destruct (_ <? _); [|discriminate]. intros [= ->]. auto.
      + apply Hw.
    - reflexivity.
    - assert (C := countb_upd xfull (xs_vars s) p c (option_map xabs v) Hp). lia.
  Qed.

  (** destroy(), then the object is replaced (or its variable ends): together they are a
      change of what [p] holds. *)
  Lemma x_clear_ok w s p c v' c' m calls :
    x_inv w s -> nth_error (xs_vars s) p = Some (Some c) ->
    option_map xabs v' = c' -> (forall u, v' = Some u -> xwf u) ->
    m = xw_made w + (if xfull c' then 1 else 0) -> calls = xw_calls w ->
    exists w1, x_clear w p = Ok w1 /\ xw_made w1 = xw_made w /\ xw_calls w1 = xw_calls w /\
      (exists v1, nth_error (xw_vars w1) p = Some (Some v1)) /\
      (forall q, q <> p -> nth_error (xw_vars w1) q = nth_error (xw_vars w) q) /\
      x_inv (XW (upd (xw_vars w1) p v') m (xw_gone w1) calls)
            (XS (upd (xs_vars s) p c') (xs_calls s) (xs_taken s)).
  Proof.
    intros H Hp Hv' Hu Hm Hcl. destruct (xvar_at _ _ _ _ H Hp) as (v & Hx & Hnth & Habs & Hwf).
    assert (Hpl : p < length (xw_vars w)) by (apply nth_error_Some; congruence).
    unfold x_clear. rewrite Hx. cbn [bind].
    destruct c as [[k x]|].
    - apply xabs_some in Habs; auto. subst v. cbn [x_state]. unfold x_object. cbn [x_cell].
      rewrite kind_eqb_refl. cbn [bind].
      eexists. split; [reflexivity|]. cbn [xw_made xw_calls xw_vars xw_gone].
      split; [reflexivity|]. split; [reflexivity|]. split; [|split].
      + eexists. apply nth_error_upd_eq; auto.
      + intros q Nq. apply nth_error_upd_neq; auto.
      + rewrite upd_upd_eq. eapply x_inv_upd; eauto.
        * subst calls. apply H.
        * cbn [xfull]. destruct (xfull c'); lia.
    - rewrite (xabs_none _ Hwf Habs). eexists. split; [reflexivity|].
      split; [reflexivity|]. split; [reflexivity|]. split; [eauto|]. split; [auto|].
      eapply x_inv_upd; eauto.
      + subst calls. apply H.
      + cbn [xfull]. destruct (xfull c'); lia.
  Qed.

  Lemma xwf_set k (x : V) : xwf (XR (Some k) (Some (k, x))).
  Proof. intros j [= <-]. cbn. eauto. Qed.
  Lemma xwf_none c : xwf (XR (V := V) None c).
  Proof. intros j [=]. Qed.

  Lemma x_set_ok w s p c k x :
    x_inv w s -> nth_error (xs_vars s) p = Some (Some c) ->
    exists w', x_set w p k x = Ok w' /\
      x_inv w' (XS (upd (xs_vars s) p (Some (Some (k, x)))) (xs_calls s) (xs_taken s)).
  Proof.
    intros H Hp.
    destruct (x_clear_ok w s p c (Some (XR (Some k) (Some (k, x)))) (Some (Some (k, x)))
                (S (xw_made w)) (xw_calls w) H Hp) as (w1 & E & Em & Ec & _ & _ & H1); auto.
    { intros u [= <-]. apply xwf_set. }
    { cbn. lia. }
    unfold x_set. rewrite E. cbn [bind]. eexists. split; [reflexivity|].
    unfold x_construct. rewrite Em, Ec. exact H1.
  Qed.

  Lemma x_default_ok w s p :
    x_inv w s -> nth_error (xs_vars s) p = Some None ->
    exists w', x_default w p = Ok w' /\
      x_inv w' (XS (upd (xs_vars s) p (Some None)) (xs_calls s) (xs_taken s)).
  Proof.
    intros H Hp. destruct (xfresh_at _ _ _ H Hp) as [Hf Hn]. unfold x_default. rewrite Hf.
    cbn [bind]. eexists. split; [reflexivity|].
    eapply x_inv_upd; eauto.
    - intros u [= <-]. apply xwf_none.
    - apply H.
    - cbn. lia.
  Qed.

  Lemma x_assign_ok w s p q c :
    x_inv w s -> nth_error (xs_vars s) p = Some (Some None) ->
    nth_error (xs_vars s) q = Some (Some c) ->
    exists w', x_assign w p q = Ok w' /\
      x_inv w' (XS (upd (xs_vars s) p (Some c)) (xs_calls s) (xs_taken s)).
  Proof.
    intros H Hp Hq. destruct (xvar_at _ _ _ _ H Hp) as (v & Hx & Hnth & Habs & Hwf).
    destruct (xvar_at _ _ _ _ H Hq) as (u & Hy & Hnthq & Habsq & Hwfq).
    unfold x_assign, x_clear. rewrite Hx. cbn [bind]. rewrite (xabs_none _ Hwf Habs). cbn [bind].
    rewrite Hy. cbn [bind]. destruct c as [[k x]|].
    - apply xabs_some in Habsq; auto. subst u. cbn [x_state]. unfold x_object. cbn [x_cell].
      rewrite kind_eqb_refl. cbn [bind]. eapply x_set_ok; eauto.
    - rewrite (xabs_none _ Hwfq Habsq). eexists. split; [reflexivity|].
      rewrite upd_self by auto. destruct s; exact H.
  Qed.

  Lemma x_move_assign_ok w s p q c d :
    x_inv w s -> nth_error (xs_vars s) p = Some (Some d) ->
    nth_error (xs_vars s) q = Some (Some c) -> p <> q -> (c <> None \/ d = None) ->
    exists w', x_move_assign mv w p q = Ok w' /\
      x_inv w' (XS (upd (upd (xs_vars s) p (Some c)) q (Some None)) (xs_calls s)
                   (xs_taken s + one_if c)).
  Proof.
    intros H Hp Hq N G. destruct (xvar_at _ _ _ _ H Hp) as (v & Hx & Hnth & Habs & Hwf).
    destruct (xvar_at _ _ _ _ H Hq) as (u & Hy & Hnthq & Habsq & Hwfq).
    unfold x_move_assign. rewrite Hx. cbn [bind]. rewrite Hy. cbn [bind].
    destruct c as [[k x]|].
    - apply xabs_some in Habsq; auto. subst u. cbn [x_state].
      destruct (x_clear_ok w s p d (Some (XR (Some k) (Some (k, x)))) (Some (Some (k, x)))
                (S (xw_made w)) (xw_calls w) H Hp) as (w1 & E & Em & Ec & _ & Eq & H1); auto.
      { intros u [= <-]. apply xwf_set. }
      { cbn. lia. }
      rewrite E. cbn [bind]. unfold xvar. rewrite Eq by auto. rewrite Hnthq. cbn [bind].
      unfold x_object. cbn [x_cell]. rewrite kind_eqb_refl. cbn [bind].
      eexists. split; [reflexivity|].
      unfold xput, x_construct. rewrite Em, Ec. cbn [xw_vars xw_made xw_gone xw_calls].
      apply (x_inv_upd _ _ q (Some (Some (k, x))) (Some (XR None (Some (k, mv x)))) (Some None)
               (S (xw_made w)) (xw_gone w1) (xw_calls w) (xs_calls s) (xs_taken s + 1) H1); auto.
      + cbn [xs_vars]. rewrite nth_error_upd_neq; auto.
      + intros u [= <-]. apply xwf_none.
      + apply H.
      + cbn. lia.
    - rewrite (xabs_none _ Hwfq Habsq). eexists. split; [reflexivity|].
      destruct G as [G| ->]; [congruence|].
      rewrite (upd_self (xs_vars s) p) by auto. rewrite upd_self by auto. cbn [one_if].
      rewrite Nat.add_0_r. destruct s; exact H.
  Qed.

  Lemma x_step_ok w s o :
    x_inv w s -> x_covered s o -> exists w', x_step mv w o = Ok w' /\ x_inv w' (x_spec s o).
  Proof.
    intros H D.
    destruct o as [p|p k x|p q|p q|p q|p q|p k x|p k h|p k|p];
      cbn [x_covered x_spec x_step] in *; unfold x_none, x_exists, x_holds in *.
    - apply x_default_ok; auto.
    - unfold x_from. destruct (x_default_ok _ _ _ H D) as (w1 & E & H1). rewrite E. cbn [bind].
      destruct (x_set_ok _ _ p None k x H1) as (w2 & E2 & H2).
      { cbn [xs_vars]. apply nth_error_upd_eq. apply nth_error_Some. congruence. }
      cbn [xs_vars xs_calls xs_taken] in H2. rewrite upd_upd_eq in H2. eauto.
    - destruct D as (Dp & c & Dq). unfold x_copy.
      destruct (x_default_ok _ _ _ H Dp) as (w1 & E & H1). rewrite E. cbn [bind].
      destruct (x_assign_ok _ _ p q c H1) as (w2 & E2 & H2).
      { cbn [xs_vars]. apply nth_error_upd_eq. apply nth_error_Some. congruence. }
      { cbn [xs_vars]. rewrite nth_error_upd_neq; congruence. }
      cbn [xs_vars xs_calls xs_taken] in H2. rewrite upd_upd_eq in H2.
      unfold x_content. rewrite Dq. eauto.
    - destruct D as (Dp & c & Dq). unfold x_move.
      destruct (x_default_ok _ _ _ H Dp) as (w1 & E & H1). rewrite E. cbn [bind].
      destruct (x_move_assign_ok _ _ p q c None H1) as (w2 & E2 & H2); auto.
      { cbn [xs_vars]. apply nth_error_upd_eq. apply nth_error_Some. congruence. }
      { cbn [xs_vars]. rewrite nth_error_upd_neq; congruence. }
      { congruence. }
      cbn [xs_vars xs_calls xs_taken] in H2. rewrite upd_upd_eq in H2.
      unfold x_content. rewrite Dq. eauto.
    - destruct D as (Dp & c & Dq). unfold x_content. rewrite Dq. apply x_assign_ok; auto.
    - destruct D as ((d & Dp) & (c & Dq) & N & G).
      assert (Ec : x_content s q = c) by (unfold x_content; rewrite Dq; reflexivity).
      assert (Ed : x_content s p = d) by (unfold x_content; rewrite Dp; reflexivity).
      rewrite Ec in *. rewrite Ed in *. eapply x_move_assign_ok; eauto.
    - destruct D as (c & Dp). eapply x_set_ok; eauto.
    - destruct D as (c & Dp). destruct (xvar_at _ _ _ _ H Dp) as (v & Hx & Hnth & Habs & Hwf).
      unfold x_if. rewrite Hx. cbn [bind]. unfold x_content. rewrite Dp.
      destruct c as [[j x]|].
      + apply xabs_some in Habs; auto. subst v. cbn [x_state calls_of].
        destruct (kind_eqb j k) eqn:Ek; [|eauto].
        apply kind_eqb_eq in Ek. subst j. unfold x_object. cbn [x_cell].
        rewrite kind_eqb_refl. cbn [bind]. eexists. split; [reflexivity|].
        unfold xput, x_log. cbn [xw_vars xw_made xw_gone xw_calls].
        eapply x_inv_upd; eauto.
        * intros u [= <-]. apply xwf_none.
        * f_equal. apply H.
        * cbn. lia.
      + rewrite (xabs_none _ Hwf Habs). cbn [calls_of]. eauto.
    - destruct D as (c & Dp). destruct (xvar_at _ _ _ _ H Dp) as (v & Hx & Hnth & Habs & Hwf).
      unfold x_if_const. rewrite Hx. cbn [bind]. unfold x_content. rewrite Dp.
      assert (Z : x_inv w (XS (xs_vars s) (xs_calls s ++ []) (xs_taken s))).
      { rewrite app_nil_r. destruct s; exact H. }
      destruct c as [[j x]|].
      + apply xabs_some in Habs; auto. subst v. cbn [x_state calls_of].
        destruct (kind_eqb j k) eqn:Ek; [|eauto].
        apply kind_eqb_eq in Ek. subst j. unfold x_object. cbn [x_cell].
        rewrite kind_eqb_refl. cbn [bind]. eexists. split; [reflexivity|].
        destruct H as (H1 & H2 & H3 & H4). split; [|split; [|split]]; auto.
        cbn [x_log xw_calls xs_calls]. congruence.
      + rewrite (xabs_none _ Hwf Habs). cbn [calls_of]. eauto.
    - destruct D as (c & Dp).
      destruct (x_clear_ok w s p c None None (xw_made w) (xw_calls w) H Dp)
        as (w1 & E & Em & Ec & _ & _ & H1); auto; try discriminate.
      unfold x_destroy. rewrite E. cbn [bind]. eexists. split; [reflexivity|].
      unfold xput. rewrite Em, Ec. exact H1.
  Qed.

  Lemma x_run_ok os : forall w s,
    x_inv w s -> x_ok s os ->
    exists w', x_run mv w os = Ok w' /\ x_inv w' (x_result s os).
  Proof.
    induction os as [|o os IH]; intros w s H D; cbn in *; eauto.
    destruct D as [D1 D2]. destruct (x_step_ok _ _ _ H D1) as (w1 & E & H1).
    rewrite E. cbn [bind]. eauto.
  Qed.

  Lemma x_run_app os1 os2 : forall w,
    x_run mv w (os1 ++ os2) = (let! w1 := x_run mv w os1 in x_run mv w1 os2).
  Proof.
    induction os1 as [|o os1 IH]; intros w; cbn [x_run app bind]; auto.
    destruct (x_step mv w o); cbn [bind]; auto.
  Qed.

  Lemma x_start_inv n : x_inv (@x_start V n) (x_empty n).
  Proof.
    split; [|split; [|split]]; cbn.
    - induction n; cbn; f_equal; auto.
    - intros p v E. apply nth_error_repeat' in E. discriminate.
    - reflexivity.
    - induction n; cbn; auto.
  Qed.
End Proofs.
