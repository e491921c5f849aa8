(** The invariant of properly used UniqueLockers. *)
From Coq Require Import List Arith ZArith Lia Bool.
From Verif Require Import Base BaseLemmas LockModel LockProofs PointersProofs VariantProofs
  UniqueLockerModel UniqueLockerSpec.
Import ListNotations.

Section Proofs.
  Variable kinds : nat -> lock_kind.
  Variable values : nat -> nat.

  Definition repr (d : duty) : option ulocker :=
    match d with
    | Gone => None
    | Empty => Some (ULocker None None false)
    | For l None => Some (ULocker (Some (kinds l)) (Some l) false)
    | For l (Some _) => Some (ULocker (Some (kinds l)) (Some l) true)
    end.

  Record uinv (w : uworld) (s : list duty) : Prop := {
    i_vars : w_vars w = map repr s;
    i_kind : forall l, l_kind (w_locks w l) = kinds l;
    i_status : forall l, l_status (w_locks w l) = SUCCESS;
    i_owner : forall v l t, nth_error s v = Some (For l (Some t)) -> kinds l <> KSemaphore ->
                l_owner (w_locks w l) = Some t;
    i_balance : forall l, w_acquired w l = w_released w l + owed s l;
    i_count : forall l, l_count (w_locks w l) + owed s l = capacity kinds values l
  }.

  Lemma duty_nth s v d : duty_of s v = d -> d <> Gone -> nth_error s v = Some d.
  Proof.
    unfold duty_of. intros E N. destruct (nth_error s v) as [x|] eqn:En.
    - rewrite (nth_error_nth s v Gone En) in E. congruence.
    - apply nth_error_None in En. rewrite nth_overflow in E by lia. congruence.
  Qed.

  Lemma gone_nth s v : duty_of s v = Gone -> v < length s -> nth_error s v = Some Gone.
  Proof.
    unfold duty_of. intros E N. destruct (nth_error s v) as [x|] eqn:En.
    - rewrite (nth_error_nth s v Gone En) in E. congruence.
    - apply nth_error_None in En. lia.
  Qed.

  Lemma nth_duty s v d : nth_error s v = Some d -> duty_of s v = d.
  Proof. intros E. unfold duty_of. apply (nth_error_nth s v Gone E). Qed.

  Lemma var_repr w s v d : uinv w s -> nth_error s v = Some d -> nth_error (w_vars w) v = Some (repr d).
  Proof. intros I E. rewrite (i_vars _ _ I), nth_error_map', E. reflexivity. Qed.

  Lemma get_ok w s v d q : uinv w s -> nth_error s v = Some d -> repr d = Some q -> get_var w v = Ok q.
  Proof. intros I E R. unfold get_var. rewrite (var_repr _ _ _ _ I E), R. reflexivity. Qed.

  Lemma owed_upd s v d d' l : nth_error s v = Some d ->
    owed (upd s v d') l + (if owes l d then 1 else 0) = owed s l + (if owes l d' then 1 else 0).
  Proof. apply countb_upd. Qed.

  Lemma upd_case {B} (s : list B) v d' u x : nth_error (upd s v d') u = Some x ->
    (u = v /\ x = d') \/ (u <> v /\ nth_error s u = Some x).
  Proof.
    intros H. rewrite nth_error_upd in H. destruct (Nat.eqb_spec v u) as [->|N]; cbn [andb] in H.
    - destruct (Nat.ltb_spec u (length s)) as [L|L].
      + injection H as <-. auto.
      + apply nth_error_None in L. congruence.
    - right. auto.
  Qed.

  (** Changing a duty between ones without a lock. *)
  Lemma put_free w s v d d' : uinv w s -> nth_error s v = Some d ->
    (forall l t, d <> For l (Some t)) -> (forall l t, d' <> For l (Some t)) ->
    uinv (put_var w v (repr d')) (upd s v d').
  Proof.
    intros I E N N'.
    assert (O : forall l, owed (upd s v d') l = owed s l).
    { intros l. assert (H := owed_upd s v d d' l E).
      replace (owes l d) with false in H; [replace (owes l d') with false in H; [lia|]|].
      - unfold owes. destruct d' as [| |l' [t|]]; auto. exfalso. apply (N' l' t). reflexivity.
      - unfold owes. destruct d as [| |l' [t|]]; auto. exfalso. apply (N l' t). reflexivity. }
    constructor; cbn [w_vars w_locks w_acquired w_released put_var].
    - rewrite (i_vars _ _ I), map_upd. reflexivity.
    - apply (i_kind _ _ I).
    - apply (i_status _ _ I).
    - intros u l t Hu. apply (i_owner _ _ I u).
      destruct (upd_case _ _ _ _ _ Hu) as [[_ X]|[_ X]]; [|exact X].
      exfalso. apply (N' l t). auto.
    - intros l. rewrite O. apply (i_balance _ _ I).
    - intros l. rewrite O. apply (i_count _ _ I).
  Qed.

  (** Acquiring for the variable [v]. *)
  Lemma take_ok w s v l t x : uinv w s -> nth_error s v = Some (For l None) ->
    acquire (w_locks w l) t = Some x -> forall x', l_kind x' = l_kind x -> l_count x' = l_count x ->
    l_owner x' = l_owner x -> l_status x' = SUCCESS ->
    uinv (UWorld (upd (w_vars w) v (repr (For l (Some t)))) (set_at (w_locks w) l x')
            (bump (w_acquired w) l) (w_released w)) (upd s v (For l (Some t))).
  Proof.
    intros I E A x' K1 K2 K3 K4. unfold acquire in A.
    destruct (l_count (w_locks w l)) as [|n] eqn:C; [discriminate|]. injection A as <-.
    cbn [l_kind l_count l_owner] in *.
    assert (O : forall l', owed (upd s v (For l (Some t))) l' = owed s l' + (if l =? l' then 1 else 0)).
    { intros l'. assert (H := owed_upd s v _ (For l (Some t)) l' E). cbn [owes] in H. lia. }
    assert (Cl := i_count _ _ I l). rewrite C in Cl.
    constructor; cbn [w_vars w_locks w_acquired w_released].
    - rewrite (i_vars _ _ I), map_upd. reflexivity.
    - intros l'. destruct (Nat.eq_dec l' l) as [->|N]; [rewrite set_same, K1|rewrite set_other by auto];
        apply (i_kind _ _ I).
    - intros l'. destruct (Nat.eq_dec l' l) as [->|N]; [rewrite set_same, K4|rewrite set_other by auto];
        [reflexivity|apply (i_status _ _ I)].
    - intros u l' t' Hu NK. destruct (upd_case _ _ _ _ _ Hu) as [[-> X]|[Nu X]]; clear Hu; rename X into Hu.
      + injection Hu as -> ->. rewrite set_same, K3.
        rewrite (i_kind _ _ I l). destruct (kinds l); congruence.
      + destruct (Nat.eq_dec l' l) as [->|N].
        * exfalso. assert (B : 1 <= owed s l).
          { unfold owed. assert (In (For l (Some t')) (filter (owes l) s)).
            { apply filter_In. split; [eapply nth_error_In; eauto|]. cbn. apply Nat.eqb_refl. }
            destruct (filter (owes l) s); [contradiction|cbn; lia]. }
          unfold capacity in Cl. destruct (kinds l); try congruence; lia.
        * rewrite set_other by auto. apply (i_owner _ _ I u l' t' Hu NK).
    - intros l'. rewrite O. unfold bump. assert (B := i_balance _ _ I l').
      destruct (Nat.eq_dec l' l) as [->|N]; [rewrite set_same, Nat.eqb_refl; lia|].
      rewrite set_other by auto. destruct (Nat.eqb_spec l l'); [congruence|lia].
    - intros l'. rewrite O. destruct (Nat.eq_dec l' l) as [->|N].
      + rewrite set_same, K2, Nat.eqb_refl. lia.
      + rewrite set_other by auto. assert (B := i_count _ _ I l').
        destruct (Nat.eqb_spec l l'); [congruence|lia].
  Qed.

  (** Releasing. *)
  Lemma give_ok w s v l t : uinv w s -> nth_error s v = Some (For l (Some t)) ->
    exists x, release (kinds l) (w_locks w l) t = Ok x /\
      uinv (UWorld (upd (w_vars w) v (repr (For l None))) (set_at (w_locks w) l (set_status x SUCCESS))
              (w_acquired w) (bump (w_released w) l)) (upd s v (For l None)).
  Proof.
    intros I E.
    assert (O : forall l', owed (upd s v (For l None)) l' + (if l =? l' then 1 else 0) = owed s l').
    { intros l'. assert (H := owed_upd s v _ (For l None) l' E). cbn [owes] in H. lia. }
    assert (Cl := i_count _ _ I l). assert (Ol := O l). rewrite Nat.eqb_refl in Ol.
    assert (R : exists x, release (kinds l) (w_locks w l) t = Ok x /\ l_kind x = kinds l /\
              l_count x = S (l_count (w_locks w l))).
    { unfold release. rewrite (i_kind _ _ I l). unfold capacity in Cl. destruct (kinds l) eqn:K.
      - rewrite (i_owner _ _ I v l t E) by congruence. rewrite Nat.eqb_refl.
        eexists. split; [reflexivity|]. cbn. split; [reflexivity|lia].
      - rewrite (i_owner _ _ I v l t E) by congruence. rewrite Nat.eqb_refl.
        eexists. split; [reflexivity|]. cbn. split; [reflexivity|lia].
      - eexists. split; [reflexivity|]. split; reflexivity. }
    destruct R as (x & R & Kx & Cx). exists x. split; [exact R|].
    constructor; cbn [w_vars w_locks w_acquired w_released].
    - rewrite (i_vars _ _ I), map_upd. reflexivity.
    - intros l'. destruct (Nat.eq_dec l' l) as [->|N];
        [rewrite set_same; exact Kx|rewrite set_other by auto; apply (i_kind _ _ I)].
    - intros l'. destruct (Nat.eq_dec l' l) as [->|N];
        [rewrite set_same; reflexivity|rewrite set_other by auto; apply (i_status _ _ I)].
    - intros u l' t' Hu NK. destruct (Nat.eq_dec l' l) as [->|N].
      + exfalso. assert (B : 1 <= owed (upd s v (For l None)) l).
        { unfold owed. assert (In (For l (Some t')) (filter (owes l) (upd s v (For l None)))).
          { apply filter_In. split; [eapply nth_error_In; eauto|]. cbn. apply Nat.eqb_refl. }
          destruct (filter (owes l) (upd s v (For l None))); [contradiction|cbn; lia]. }
        unfold capacity in Cl. destruct (kinds l); try congruence; lia.
      + rewrite set_other by auto. apply (i_owner _ _ I u l' t'); auto.
        destruct (upd_case _ _ _ _ _ Hu) as [[_ X]|[_ X]]; [discriminate|exact X].
    - intros l'. assert (B := i_balance _ _ I l'). assert (O' := O l'). unfold bump.
      destruct (Nat.eq_dec l' l) as [->|N]; [rewrite set_same, Nat.eqb_refl in *; lia|].
      rewrite set_other by auto. destruct (Nat.eqb_spec l l'); [congruence|lia].
    - intros l'. assert (B := i_count _ _ I l'). assert (O' := O l').
      destruct (Nat.eq_dec l' l) as [->|N].
      + rewrite set_same. cbn [set_status l_count]. rewrite Nat.eqb_refl in *. lia.
      + rewrite set_other by auto. destruct (Nat.eqb_spec l l'); [congruence|lia].
  Qed.

  Lemma acquire_none w s l t : uinv w s -> acquire (w_locks w l) t = None -> owed s l = capacity kinds values l.
  Proof.
    intros I A. assert (C := i_count _ _ I l). unfold acquire in A.
    destruct (l_count (w_locks w l)); [exact C|discriminate].
  Qed.

  Lemma acquire_status w s l t x : uinv w s -> acquire (w_locks w l) t = Some x -> l_status x = SUCCESS.
  Proof.
    intros I A. unfold acquire in A. destruct (l_count (w_locks w l)); [discriminate|].
    injection A as <-. apply (i_status _ _ I).
  Qed.

  Lemma upd_in {B} (s : list B) v d d' : nth_error s v = Some d -> nth_error (upd s v d') v = Some d'.
  Proof. intros E. apply nth_error_upd_eq. apply nth_error_Some. congruence. Qed.

  Definition good_result (r : uresult) : Prop := match r with RStatus z => z = SUCCESS | _ => True end.

  Lemma lock_ok w s t v l : uinv w s -> nth_error s v = Some (For l None) ->
    (exists w' r, u_lock w t v = Ok (w', r) /\ r = RStatus SUCCESS /\ uinv w' (upd s v (For l (Some t)))) \/
    (u_lock w t v = Diverge /\ owed s l = capacity kinds values l).
  Proof.
    intros I E. unfold u_lock. rewrite (get_ok _ _ _ _ _ I E eq_refl). cbn [bind].
    unfold callback_lock. cbn [q_callbacks q_data].
    destruct (acquire (w_locks w l) t) as [x|] eqn:A; cbn [bind].
    - left. cbn [get_status q_callbacks q_data bind put_var w_locks w_vars w_acquired w_released].
      rewrite set_same. cbn [set_status l_status bind].
      eexists. eexists. split; [reflexivity|]. split; [reflexivity|].
      apply (take_ok w s v l t x I E A); reflexivity.
    - right. split; [reflexivity|]. apply (acquire_none w s l t I A).
  Qed.

  Lemma try_ok w s t v l : uinv w s -> nth_error s v = Some (For l None) ->
    (exists w', u_tryLock w t v = Ok (w', RBool true) /\ uinv w' (upd s v (For l (Some t))) /\
                owed s l < capacity kinds values l) \/
    (u_tryLock w t v = Ok (w, RBool false) /\ owed s l = capacity kinds values l).
  Proof.
    intros I E. unfold u_tryLock. rewrite (get_ok _ _ _ _ _ I E eq_refl). cbn [bind q_locked].
    unfold callback_try. cbn [q_callbacks q_data].
    destruct (acquire (w_locks w l) t) as [x|] eqn:A; cbn [bind fst snd].
    - left. eexists. split; [reflexivity|].
      split.
      + unfold put_var. cbn [w_vars w_locks w_acquired w_released].
        apply (take_ok w s v l t x I E A); try reflexivity. apply (acquire_status w s l t x I A).
      + assert (C := i_count _ _ I l). unfold acquire in A.
        destruct (l_count (w_locks w l)); [discriminate|lia].
    - right. split; [|apply (acquire_none w s l t I A)].
      f_equal. f_equal. unfold put_var. destruct w as [vars lk ac re]. cbn [w_vars w_locks w_acquired w_released].
      rewrite upd_self; [reflexivity|].
      apply (var_repr _ _ _ _ I E).
  Qed.

  Lemma unlock_ok w s t v l : uinv w s -> nth_error s v = Some (For l (Some t)) ->
    exists w', u_unlock w t v = Ok (w', RStatus SUCCESS) /\ uinv w' (upd s v (For l None)).
  Proof.
    intros I E. unfold u_unlock. rewrite (get_ok _ _ _ _ _ I E eq_refl). cbn [bind].
    unfold callback_unlock. cbn [q_callbacks q_data].
    destruct (give_ok w s v l t I E) as (x & R & I'). rewrite R. cbn [bind].
    cbn [get_status q_callbacks q_data bind put_var w_locks w_vars w_acquired w_released].
    rewrite set_same. cbn [set_status l_status bind]. eexists. split; [reflexivity|]. exact I'.
  Qed.

  Lemma destroy_ok w s t v d : uinv w s -> nth_error s v = Some d ->
    d = Empty \/ (exists l, d = For l None) \/ (exists l, d = For l (Some t)) ->
    exists w', u_destroy w t v = Ok w' /\ uinv w' (upd s v Gone).
  Proof.
    intros I E D. unfold u_destroy.
    destruct D as [-> | [[l ->] | [l ->]]]; rewrite (get_ok _ _ _ _ _ I E eq_refl); cbn [bind q_locked].
    - eexists. split; [reflexivity|]. apply (put_free w s v Empty Gone I E); congruence.
    - eexists. split; [reflexivity|]. apply (put_free w s v (For l None) Gone I E); congruence.
    - destruct (unlock_ok w s t v l I E) as (w' & R & I'). rewrite R. cbn [bind fst].
      eexists. split; [reflexivity|].
      rewrite <- (upd_upd_eq s v (For l None) Gone).
      apply (put_free w' _ v (For l None) Gone I'); try congruence. eapply upd_in. exact E.
  Qed.

  Lemma move_ok w s v p d l : uinv w s -> v <> p -> nth_error s v = Some d ->
    (d = Empty \/ exists l, d = For l None) -> nth_error s p = Some (For l None) ->
    exists w', u_move_assign w v p = Ok w' /\ uinv w' (upd (upd s v (For l None)) p Empty).
  Proof.
    intros I N Ev D Ep. unfold u_move_assign.
    assert (Gv : exists q, get_var w v = Ok q).
    { destruct D as [-> | [l' ->]]; rewrite (get_ok _ _ _ _ _ I Ev eq_refl); eauto. }
    destruct Gv as (q & Gv). rewrite Gv. cbn [bind].
    rewrite (get_ok _ _ _ _ _ I Ep eq_refl). cbn [bind q_callbacks q_data q_locked].
    assert (I1 : uinv (put_var w v (repr (For l None))) (upd s v (For l None))).
    { apply (put_free w s v d); auto; destruct D as [-> | [l' ->]]; congruence. }
    cbn [repr] in I1.
    assert (Ep1 : nth_error (upd s v (For l None)) p = Some (For l None)).
    { rewrite nth_error_upd_neq by auto. exact Ep. }
    rewrite (get_ok _ _ _ _ _ I1 Ep1 eq_refl). cbn [bind q_locked].
    assert (I2 := put_free _ _ p _ Empty I1 Ep1 ltac:(congruence) ltac:(congruence)). cbn [repr] in I2.
    assert (Ev2 : nth_error (upd (upd s v (For l None)) p Empty) v = Some (For l None)).
    { rewrite nth_error_upd_neq by auto. eapply upd_in. exact Ev. }
    rewrite (get_ok _ _ _ _ _ I2 Ev2 eq_refl). cbn [bind q_callbacks q_data].
    eexists. split; [reflexivity|].
    assert (I3 := put_free _ _ v _ (For l None) I2 Ev2 ltac:(congruence) ltac:(congruence)).
    rewrite upd_self in I3 by exact Ev2. exact I3.
  Qed.

  Lemma make_repr w s l : uinv w s -> Some (u_make (l_kind (w_locks w l)) l) = repr (For l None).
  Proof. intros I. rewrite (i_kind _ _ I l). cbn. destruct (kinds l); reflexivity. Qed.

  (** What a proper call does. *)
  Definition blocks_on (s : list duty) (c : ucall) (l : nat) : Prop :=
    (exists v, c = ULock v /\ duty_of s v = For l None) \/ (exists v, c = UNew v l WithLock).

  Lemma ustep_ok w s t c : uinv w s -> duty_proper s t c ->
    (exists w' r, ustep w t c = Ok (w', r) /\ good_result r /\ uinv w' (duty_step s t c r)) \/
    (ustep w t c = Diverge /\ exists l, blocks_on s c l /\ owed s l = capacity kinds values l).
  Proof.
    intros I P. destruct c as [v l h|v p|v p|v p|v p|v|v|v|v|v]; cbn [duty_proper ustep] in *.
    - destruct P as (Lv & Gv & NU). apply gone_nth in Gv; [|exact Lv].
      unfold fresh. rewrite (var_repr _ _ _ _ I Gv). cbn [repr bind].
      rewrite (make_repr w s l I).
      assert (I1 := put_free w s v Gone (For l None) I Gv ltac:(congruence) ltac:(congruence)).
      assert (E1 : nth_error (upd s v (For l None)) v = Some (For l None)) by (eapply upd_in; exact Gv).
      assert (O1 : owed (upd s v (For l None)) l = owed s l).
      { assert (H := owed_upd s v _ (For l None) l Gv). cbn [owes] in H. lia. }
      destruct h; try congruence; cbn [duty_step].
      + left. eexists. eexists. split; [reflexivity|]. split; [exact Logic.I|exact I1].
      + destruct (lock_ok _ _ t v l I1 E1) as [(w' & r & R & Er & I')|[R C]]; rewrite R; cbn [bind fst].
        * left. eexists. eexists. split; [reflexivity|]. split; [exact Logic.I|].
          rewrite upd_upd_eq in I'. exact I'.
        * right. split; [reflexivity|]. exists l. split; [right; eauto|]. rewrite <- O1. exact C.
      + destruct (try_ok _ _ t v l I1 E1) as [(w' & R & I' & C)|[R C]]; rewrite R; left;
          eexists; eexists; (split; [reflexivity|]); split; try exact Logic.I.
        * rewrite upd_upd_eq in I'. exact I'.
        * exact I1.
    - contradiction.
    - destruct P as (Lv & Gv & l & Dp). apply gone_nth in Gv; [|exact Lv].
      assert (Ep := duty_nth _ _ _ Dp ltac:(congruence)).
      assert (N : v <> p) by congruence.
      unfold fresh. rewrite (var_repr _ _ _ _ I Gv). cbn [repr bind].
      assert (I1 := put_free w s v Gone Empty I Gv ltac:(congruence) ltac:(congruence)). cbn [repr] in I1.
      assert (Ev : nth_error (upd s v Empty) v = Some Empty) by (eapply upd_in; exact Gv).
      assert (Ep1 : nth_error (upd s v Empty) p = Some (For l None)).
      { rewrite nth_error_upd_neq by auto. exact Ep. }
      destruct (move_ok _ _ v p Empty l I1 N Ev (or_introl eq_refl) Ep1) as (w' & R & I').
      rewrite R. cbn [bind]. left. eexists. eexists. split; [reflexivity|]. split; [exact Logic.I|].
      cbn [duty_step]. rewrite Dp. rewrite upd_upd_eq in I'. exact I'.
    - contradiction.
    - destruct P as (N & Dv & l & Dp). assert (Ep := duty_nth _ _ _ Dp ltac:(congruence)).
      assert (Ev : nth_error s v = Some (duty_of s v)).
      { apply duty_nth; [reflexivity|]. destruct Dv as [->|[l' ->]]; congruence. }
      destruct (move_ok w s v p _ l I N Ev Dv Ep) as (w' & R & I').
      rewrite R. cbn [bind]. left. eexists. eexists. split; [reflexivity|]. split; [exact Logic.I|].
      cbn [duty_step]. rewrite Dp. exact I'.
    - destruct P as (l & D). assert (E := duty_nth _ _ _ D ltac:(congruence)). cbn [duty_step].
      destruct (lock_ok w s t v l I E) as [(w' & r & R & Er & I')|[R C]]; rewrite R.
      + left. eexists. eexists. split; [reflexivity|]. split; [rewrite Er; reflexivity|].
        rewrite D. exact I'.
      + right. split; [reflexivity|]. exists l. split; [left; eauto|exact C].
    - destruct P as (l & b & D). assert (E := duty_nth _ _ _ D ltac:(congruence)). cbn [duty_step].
      left. destruct b as [u|].
      + unfold u_tryLock. rewrite (get_ok _ _ _ _ _ I E eq_refl). cbn [bind q_locked].
        eexists. eexists. split; [reflexivity|]. split; [exact Logic.I|]. rewrite D. exact I.
      + destruct (try_ok w s t v l I E) as [(w' & R & I' & C)|[R C]]; rewrite R;
          eexists; eexists; (split; [reflexivity|]); (split; [exact Logic.I|]); rewrite D.
        * exact I'.
        * exact I.
    - destruct P as (l & D). assert (E := duty_nth _ _ _ D ltac:(congruence)). cbn [duty_step].
      destruct (unlock_ok w s t v l I E) as (w' & R & I'). rewrite R.
      left. eexists. eexists. split; [reflexivity|]. split; [reflexivity|]. rewrite D. exact I'.
    - destruct P as (l & b & D). assert (E := duty_nth _ _ _ D ltac:(congruence)). cbn [duty_step].
      assert (G : exists q, get_var w v = Ok q /\ q_callbacks q = Some (kinds l) /\ q_data q = Some l).
      { destruct b; (eexists; split; [apply (get_ok _ _ _ _ _ I E eq_refl)|split; reflexivity]). }
      destruct G as (q & G & K & Dq). rewrite G. cbn [bind]. unfold get_status. rewrite K, Dq.
      cbn [bind]. left. eexists. eexists. split; [reflexivity|]. split; [apply (i_status _ _ I)|exact I].
    - cbn [duty_step]. assert (E : nth_error s v = Some (duty_of s v)).
      { apply duty_nth; [reflexivity|]. destruct P as [-> | [[l ->] | [l ->]]]; congruence. }
      destruct (destroy_ok w s t v _ I E P) as (w' & R & I'). rewrite R. cbn [bind].
      left. eexists. eexists. split; [reflexivity|]. split; [exact Logic.I|exact I'].
  Qed.

  Definition proper_from (w : uworld) (s : list duty) (h : list (nat * ucall)) : Prop :=
    forall h1 t c h2 w' rs, h = h1 ++ (t, c) :: h2 -> urun w h1 = Ok (w', rs) ->
      duty_proper (duty_run s h1 rs) t c.

  Lemma proper_tail w s t c h w' r : proper_from w s ((t, c) :: h) -> ustep w t c = Ok (w', r) ->
    proper_from w' (duty_step s t c r) h.
  Proof.
    intros P E h1 t1 c1 h2 w2 rs Eh R.
    apply (P ((t, c) :: h1) t1 c1 h2 w2 (r :: rs)); [rewrite Eh; reflexivity|].
    cbn [urun]. rewrite E. cbn [bind fst snd]. rewrite R. reflexivity.
  Qed.

  Lemma urun_ok : forall h w s, uinv w s -> proper_from w s h ->
    (exists w' rs, urun w h = Ok (w', rs) /\ length rs = length h /\ Forall good_result rs /\
                   uinv w' (duty_run s h rs)) \/
    urun w h = Diverge.
  Proof.
    induction h as [|[t c] h IH]; intros w s I P.
    - left. exists w, []. repeat split; try (apply I); auto.
    - assert (Pc : duty_proper s t c) by (apply (P [] t c h w []); reflexivity).
      destruct (ustep_ok w s t c I Pc) as [(w1 & r & E & G & I1)|[E _]].
      + cbn [urun]. rewrite E. cbn [bind fst snd].
        destruct (IH w1 _ I1 (proper_tail _ _ _ _ _ _ _ P E)) as [(w' & rs & R & Len & F & I')|R].
        * left. rewrite R. cbn [bind fst snd]. exists w', (r :: rs).
          split; [reflexivity|]. split; [cbn; congruence|]. split; [constructor; auto|exact I'].
        * right. rewrite R. reflexivity.
      + right. cbn [urun]. rewrite E. reflexivity.
  Qed.

  Lemma u_start_inv n : uinv (u_start n kinds values) (repeat Gone n).
  Proof.
    assert (O : forall l, owed (repeat Gone n) l = 0).
    { intros l. unfold owed. induction n; auto. }
    constructor; cbn [u_start w_vars w_locks w_acquired w_released].
    - clear O. induction n as [|n IHn]; cbn [repeat map repr]; [reflexivity|f_equal; exact IHn].
    - intros l. reflexivity.
    - intros l. reflexivity.
    - intros v l t H. apply nth_error_In in H. apply repeat_spec in H. discriminate.
    - intros l. rewrite O. reflexivity.
    - intros l. rewrite O. unfold capacity. cbn. destruct (kinds l); lia.
  Qed.
End Proofs.
