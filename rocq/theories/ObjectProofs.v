(** Proofs about Object. *)
From Coq Require Import List Arith ZArith Lia Bool.
From Verif Require Import Base BaseLemmas UtilsModel UtilsProps ObjectModel ObjectSpec
  PointersProofs VariantProofs.
Import ListNotations.

Section Proofs.
  Context {V : Type}.
  Variables (size align : Z) (addr : nat -> Z).
  (** Storage is aligned as AlignedAsType and lies in the lower half of the address space. *)
  Hypothesis addr_range : forall p, (0 < addr p < 2 ^ 47)%Z.
  Hypothesis addr_aligned : forall p, (addr p mod align = 0)%Z.
  Hypothesis align_pow : exists k, (0 <= k <= 40 /\ align = 2 ^ k)%Z.

  Definition shift (p : nat) (t : ctype) : Z :=
    (if addr p mod ct_align t =? 0 then 0 else ct_align t - addr p mod ct_align t)%Z.

  Lemma b_offset_ok p t : good_type size align t -> b_offset addr p t = Ok (shift p t).
  Proof.
    intros (Hs & Ha & k & Hk & E). unfold b_offset, aligned_pointer, shift.
    assert (R := addr_range p).
    assert (P : (0 < ct_align t <= 2 ^ 40)%Z).
    { rewrite E. split; [apply Z.pow_pos_nonneg; lia|apply Z.pow_le_mono_r; lia]. }
    destruct (Z.eqb_spec (addr p) 0); [lia|].
    assert (T : to_signed (addr p) = addr p).
    { unfold to_signed. destruct (Z.ltb_spec (addr p) (2 ^ 63)); lia. }
    rewrite T. rewrite (Z.mod_small (addr p) (2 ^ 64)) by lia.
    set (r := (addr p mod ct_align t)%Z).
    assert (B := Z.mod_pos_bound (addr p) (ct_align t) ltac:(lia)). fold r in B.
    set (sh := (if (r =? 0)%Z then 0 else ct_align t - r)%Z).
    assert (S : (0 <= sh <= 2 ^ 40)%Z) by (unfold sh; destruct (Z.eqb_spec r 0); lia).
    destruct (Z.ltb_spec (addr p + sh) (2 ^ 63)); [|lia]. cbn [bind].
    rewrite Z.mod_small by lia. f_equal. lia.
  Qed.

  (** The object lies inside the storage. *)
  Lemma shift_fits p t :
    good_type size align t -> (0 <= shift p t /\ shift p t + ct_size t <= size)%Z.
  Proof.
    intros (Hs & Ha & k & Hk & E). unfold shift.
    assert (P : (0 < ct_align t)%Z) by (rewrite E; apply Z.pow_pos_nonneg; lia).
    assert (B := Z.mod_pos_bound (addr p) (ct_align t) P).
    destruct (Z.eqb_spec (addr p mod ct_align t) 0) as [M|M]; [lia|].
    destruct (Z.lt_ge_cases align (ct_align t)) as [L|L]; [specialize (Ha L); lia|].
    exfalso. apply M. destruct align_pow as (j & Hj & Ej).
    assert (k <= j)%Z.
    { rewrite E, Ej in L. apply Z.pow_le_mono_r_iff in L; lia. }
    assert (D : (align | addr p)%Z) by (apply Z.mod_divide; [lia|apply addr_aligned]).
    apply Z.mod_divide; [lia|]. eapply Z.divide_trans; [|exact D].
    rewrite E, Ej. exists (2 ^ (j - k))%Z. rewrite <- Z.pow_add_r by lia. f_equal. lia.
  Qed.

  Lemma accepts_good t : good_type size align t -> b_accepts size align t = true.
  Proof.
    intros (Hs & Ha & _). unfold b_accepts. rewrite (proj2 (Z.leb_le _ _)) by lia. cbn [andb].
    destruct (Z.ltb_spec align (ct_align t)) as [L|L]; auto.
    apply Z.ltb_lt. auto.
  Qed.

  Definition same_shift p q t : (addr p mod ct_align t = addr q mod ct_align t)%Z ->
    shift p t = shift q t.
  Proof. unfold shift. intros ->. reflexivity. Qed.

  (** The object is where alignedPointer looks for it, or there is none. *)
  Definition b_rel (p : nat) (v : object V) (c : option (ctype * V)) : Prop :=
    match c with
    | Some (t, x) =>
        good_type size align t /\ ob_data v = Some (shift p t, t, x) /\ ob_callback v = Some t
    | None => ob_callback v = None
    end.

  Definition bfull (c : option (option (ctype * V))) : bool :=
    match c with Some (Some _) => true | _ => false end.

  Definition b_inv (w : bworld V) (s : bvars V) : Prop :=
    length (bw_vars w) = length s /\
    (forall p, match nth_error (bw_vars w) p, nth_error s p with
               | Some (Some v), Some (Some c) => b_rel p v c
               | Some None, Some None => True
               | None, None => True
               | _, _ => False
               end) /\
    bw_made w = bw_gone w + length (filter bfull s).

  Lemma bvar_at w s p c :
    b_inv w s -> nth_error s p = Some (Some c) ->
    exists v, bvar w p = Ok v /\ nth_error (bw_vars w) p = Some (Some v) /\ b_rel p v c.
  Proof.
    intros (_ & H & _) E. specialize (H p). rewrite E in H. unfold bvar.
    destruct (nth_error (bw_vars w) p) as [[v|]|]; try contradiction. eauto.
  Qed.
  Lemma bfresh_at w s p :
    b_inv w s -> nth_error s p = Some None ->
    bfresh w p = Ok tt /\ nth_error (bw_vars w) p = Some None.
  Proof.
    intros (_ & H & _) E. specialize (H p). rewrite E in H. unfold bfresh.
    destruct (nth_error (bw_vars w) p) as [[v|]|]; try contradiction. auto.
  Qed.

  Lemma b_inv_upd w s p c v c' m g :
    b_inv w s -> nth_error s p = Some c ->
    match v, c' with
    | Some v, Some c => b_rel p v c
    | None, None => True
    | _, _ => False
    end ->
    m + (if bfull c then 1 else 0) + bw_gone w = bw_made w + g + (if bfull c' then 1 else 0) ->
    b_inv (BW (upd (bw_vars w) p v) m g) (upd s p c').
  Proof.
    intros (L & H & M) Hp R E. split; [|split]; cbn [bw_vars bw_made bw_gone].
    - rewrite !upd_length. exact L.
    - intros q. rewrite !nth_error_updx. destruct (Nat.eqb_spec p q) as [<-|N].
      + assert (p < length s) by (apply nth_error_Some; congruence).
        rewrite L. destruct (Nat.ltb_spec p (length s)); [|lia].
        destruct v, c'; auto.
      + apply H.
    - assert (C := countb_upd bfull s p c c' Hp). lia.
  Qed.

  Lemma ctype_eqb_refl t : ctype_eqb t t = true.
  Proof. unfold ctype_eqb. rewrite Nat.eqb_refl, !Z.eqb_refl. reflexivity. Qed.

  Lemma b_object_at p v t x :
    b_rel p v (Some (t, x)) -> b_object addr p v t = Ok x.
  Proof.
    intros (G & D & C). unfold b_object. rewrite (b_offset_ok p t G). cbn [bind]. rewrite D.
    rewrite Z.eqb_refl, ctype_eqb_refl. reflexivity.
  Qed.

  Lemma b_clear_ok w s p c :
    b_inv w s -> nth_error s p = Some (Some c) ->
    exists w', b_clear addr w p = Ok w' /\ b_inv w' (upd s p (Some None)) /\
      bw_made w' = bw_made w.
  Proof.
    intros H Hp. destruct (bvar_at _ _ _ _ H Hp) as (v & Hv & Hn & R).
    assert (Hl : p < length (bw_vars w)) by (apply nth_error_Some; congruence).
    unfold b_clear. rewrite Hv. cbn [bind]. destruct c as [[t x]|].
    - assert (R' := R). destruct R' as (G & D & C). rewrite C. unfold b_callback.
      rewrite (b_object_at _ _ _ _ R). cbn [bind]. unfold bvar. cbn [bw_vars].
      rewrite nth_error_upd_eq by auto. cbn [bind ob_data]. eexists. split; [reflexivity|].
      unfold bput. cbn [bw_vars bw_made bw_gone]. rewrite upd_upd_eq. split; [|reflexivity].
      eapply b_inv_upd; eauto; [reflexivity|]. cbn [bfull]. lia.
    - cbn in R. rewrite R. exists w. split; [reflexivity|]. rewrite upd_self by auto. auto.
  Qed.

  Lemma b_default_ok w s p :
    b_inv w s -> nth_error s p = Some None ->
    exists w', b_default w p = Ok w' /\ b_inv w' (upd s p (Some None)).
  Proof.
    intros H Hp. destruct (bfresh_at _ _ _ H Hp) as [Hf Hn]. unfold b_default. rewrite Hf.
    cbn [bind]. eexists. split; [reflexivity|].
    eapply b_inv_upd; eauto; [reflexivity|]. cbn [bfull]. lia.
  Qed.

  Lemma b_set_ok w s p c t x :
    b_inv w s -> nth_error s p = Some (Some c) -> good_type size align t ->
    exists w', b_set size align addr w p t x = Ok w' /\ b_inv w' (upd s p (Some (Some (t, x)))).
  Proof.
    intros H Hp G. unfold b_set. rewrite (accepts_good t G).
    destruct (b_clear_ok _ _ _ _ H Hp) as (w1 & E & H1 & M). rewrite E. cbn [bind].
    rewrite (b_offset_ok p t G). cbn [bind].
    destruct (shift_fits p t G) as [S1 S2].
    rewrite (proj2 (Z.leb_le _ _)) by lia. rewrite (proj2 (Z.leb_le _ _)) by lia. cbn [andb].
    eexists. split; [reflexivity|].
    assert (Hl : p < length s) by (apply nth_error_Some; congruence).
    rewrite <- (upd_upd_eq s p (Some None)).
    eapply b_inv_upd.
    - exact H1.
    - apply nth_error_upd_eq. auto.
    - cbn. auto.
    - cbn [bfull]. lia.
  Qed.

  Lemma b_move_assign_ok w s p q c d :
    b_inv w s -> nth_error s p = Some (Some d) -> nth_error s q = Some (Some c) ->
    same_position addr p q c ->
    exists w', b_move_assign addr w p q = Ok w' /\
      b_inv w' (upd (upd s p (Some c)) q (Some None)).
  Proof.
    intros H Hp Hq SP. unfold b_move_assign.
    destruct (b_clear_ok _ _ _ _ H Hp) as (w1 & E & H1 & M). rewrite E. cbn [bind].
    assert (Lp : p < length s) by (apply nth_error_Some; congruence).
    assert (Lq : q < length s) by (apply nth_error_Some; congruence).
    assert (L1 : length (bw_vars w1) = length s).
    { rewrite (proj1 H1). apply upd_length. }
    destruct (Nat.eq_dec p q) as [<-|N].
    - destruct (bvar_at w1 _ p None H1) as (v & Hv & Hn & R).
      { apply nth_error_upd_eq. auto. }
      rewrite Hv. cbn [bind]. unfold bvar, bput. cbn [bw_vars].
      rewrite nth_error_upd_eq by lia. cbn [bind ob_data].
      eexists. split; [reflexivity|]. cbn [bw_vars bw_made bw_gone].
      rewrite upd_upd_eq. rewrite upd_upd_eq.
      replace (upd s p (Some None)) with (upd (upd s p (Some None)) p (Some None))
        by apply upd_upd_eq.
      eapply b_inv_upd.
      + exact H1.
      + apply nth_error_upd_eq. auto.
      + reflexivity.
      + cbn [bfull]. lia.
    - destruct (bvar_at w1 _ q c H1) as (v & Hv & Hn & R).
      { rewrite nth_error_upd_neq; auto. }
      rewrite Hv. cbn [bind]. unfold bvar, bput. cbn [bw_vars].
      rewrite nth_error_upd_neq by auto. rewrite Hn. cbn [bind].
      eexists. split; [reflexivity|]. cbn [bw_vars bw_made bw_gone].
      (* both updates at once: the count does not change *)
      destruct H1 as (A1 & A2 & A3). split; [|split]; cbn [bw_vars bw_made bw_gone].
      + rewrite !upd_length. lia.
      + intros r. rewrite !nth_error_updx. rewrite !upd_length, L1.
        destruct (Nat.eqb_spec q r) as [<-|Nq].
        * destruct (Nat.ltb_spec q (length s)); [|lia]. reflexivity.
        * destruct (Nat.eqb_spec p r) as [<-|Np].
          -- destruct (Nat.ltb_spec p (length s)); [|lia].
             destruct c as [[t x]|]; cbn in *.
             ++ destruct R as (G & D & C). split; [exact G|]. split; [|exact C].
                rewrite D. rewrite (same_shift p q t SP). reflexivity.
             ++ exact R.
          -- specialize (A2 r). rewrite nth_error_upd_neq in A2 by auto. exact A2.
      + rewrite A3.
        assert (C1 := countb_upd bfull s p (Some d) (Some None) Hp).
        assert (C2 := countb_upd bfull s p (Some d) (Some c) Hp).
        assert (C3 := countb_upd bfull (upd s p (Some c)) q (Some c) (Some None)).
        rewrite nth_error_upd_neq in C3 by auto. specialize (C3 Hq).
        cbn [bfull] in *. destruct c; lia.
  Qed.

  Lemma b_step_ok w s o :
    b_inv w s -> b_covered size align addr s o ->
    exists w', b_step size align addr w o = Ok w' /\ b_inv w' (b_spec s o).
  Proof.
    intros H D. destruct o as [p|p t x|p q|p q|p t x|p];
      cbn [b_covered b_spec b_step] in *; unfold b_none, b_exists, b_holds in *.
    - apply b_default_ok; auto.
    - destruct D as [D G]. destruct (b_default_ok _ _ _ H D) as (w1 & E & H1).
      unfold b_from. rewrite E. cbn [bind].
      destruct (b_set_ok w1 _ p None t x H1) as (w2 & E2 & H2); auto.
      { apply nth_error_upd_eq. apply nth_error_Some. congruence. }
      rewrite upd_upd_eq in H2. eauto.
    - destruct D as (Dp & (c & Dq) & SP). unfold b_content in *. rewrite Dq in *.
      assert (N : p <> q) by congruence.
      destruct (b_default_ok _ _ _ H Dp) as (w1 & E & H1).
      unfold b_move. rewrite E. cbn [bind].
      destruct (b_move_assign_ok w1 _ p q c None H1) as (w2 & E2 & H2); auto.
      { apply nth_error_upd_eq. apply nth_error_Some. congruence. }
      { rewrite nth_error_upd_neq; auto. }
      rewrite upd_upd_eq in H2. eauto.
    - destruct D as ((d & Dp) & (c & Dq) & SP). unfold b_content in *. rewrite Dq in *.
      eapply b_move_assign_ok; eauto.
    - destruct D as ((c & Dp) & G). eapply b_set_ok; eauto.
    - destruct D as (c & Dp). destruct (bvar_at _ _ _ _ H Dp) as (v & Hv & Hn & R).
      unfold b_destroy. rewrite Hv. cbn [bind]. destruct c as [[t x]|].
      + assert (R' := R). destruct R' as (G & Dd & C). rewrite C. unfold b_callback.
        rewrite (b_object_at _ _ _ _ R). cbn [bind]. eexists. split; [reflexivity|].
        unfold bput. cbn [bw_vars bw_made bw_gone]. rewrite upd_upd_eq.
        eapply b_inv_upd; eauto. cbn [bfull]. lia.
      + cbn in R. rewrite R. eexists. split; [reflexivity|].
        eapply b_inv_upd; eauto. cbn [bfull]. lia.
  Qed.

  Lemma b_run_ok os : forall w s,
    b_inv w s -> b_ok size align addr s os ->
    exists w', b_run size align addr w os = Ok w' /\ b_inv w' (b_result s os).
  Proof.
    induction os as [|o os IH]; intros w s H D; cbn in *; eauto.
    destruct D as [D1 D2]. destruct (b_step_ok _ _ _ H D1) as (w1 & E & H1).
    rewrite E. cbn [bind]. eauto.
  Qed.

  (** Types that are not aligned more strictly than the storage: every program is covered. *)
  Lemma same_position_small p q c :
    match c with
    | Some (t, _) => good_type size align t /\ (ct_align t <= align)%Z
    | None => True
    end -> same_position (V := V) addr p q c.
  Proof.
    destruct c as [[t x]|]; cbn; auto. intros [(_ & _ & k & Hk & E) L].
    destruct align_pow as (j & Hj & Ej).
    assert (k <= j)%Z.
    { rewrite E, Ej in L. apply Z.pow_le_mono_r_iff in L; lia. }
    assert (P : (0 < ct_align t)%Z) by (rewrite E; apply Z.pow_pos_nonneg; lia).
    assert (A : forall r, (addr r mod ct_align t = 0)%Z).
    { intros r. assert (D : (align | addr r)%Z).
      { apply Z.mod_divide; [rewrite Ej; apply Z.pow_nonzero; lia|apply addr_aligned]. }
      apply Z.mod_divide; [lia|]. eapply Z.divide_trans; [|exact D].
      rewrite E, Ej. exists (2 ^ (j - k))%Z. rewrite <- Z.pow_add_r by lia. f_equal. lia. }
    rewrite !A. reflexivity.
  Qed.

  Lemma b_start_inv n : b_inv (b_start n) (repeat None n).
  Proof.
    split; [|split]; cbn.
    - rewrite !repeat_length. reflexivity.
    - intros p. destruct (nth_error (repeat None n) p) as [c|] eqn:E.
      + assert (P : p < n).
        { rewrite <- (repeat_length (@None (object V)) n). apply nth_error_Some. congruence. }
        apply nth_error_repeat' in E. subst c.
        rewrite nth_error_repeat_lt. destruct (Nat.ltb_spec p n); [exact I|lia].
      + apply nth_error_None in E. rewrite repeat_length in E.
        rewrite (proj2 (nth_error_None _ _)); auto. rewrite repeat_length. auto.
    - induction n; cbn; auto.
  Qed.
End Proofs.
