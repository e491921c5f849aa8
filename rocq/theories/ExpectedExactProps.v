(** C32, C33: what any program does with flame_ide::Expected objects, and which programs have undefined behaviour. *)
From Coq Require Import List Arith ZArith Lia Bool.
From Verif Require Import Base BaseLemmas ExpectedModel ExpectedSpec PointersProofs VariantProofs ExpectedProofs.
Import ListNotations.

Section Exact.
  Context {V : Type}.
  Variable mv : V -> V.
  Implicit Types (w : xworld V) (s : xseen V) (v : expected V).

  (** The objects that stand for a given content. *)
  Definition shows v (c : seen V) : Prop :=
    match c with
    | Empty => x_state v = None
    | Holds k x => v = XR (Some k) (Some (k, x))
    | Ghost k => v = XR (Some k) None
    end.
  Definition shows_var (v : option (expected V)) (c : option (seen V)) : Prop :=
    match v, c with Some v, Some c => shows v c | None, None => True | _, _ => False end.
  Definition full (c : option (seen V)) : bool := match c with Some (Holds _ _) => true | _ => false end.

  Record ninv w s : Prop := NI {
    ni_len : length (xw_vars w) = length (n_vars s);
    ni_vars : forall p u c, nth_error (xw_vars w) p = Some u -> nth_error (n_vars s) p = Some c -> shows_var u c;
    ni_calls : xw_calls w = n_calls s;
    ni_count : xw_made w = xw_gone w + length (filter full (n_vars s)) + n_lost s }.

  Lemma nvar w s p : ninv w s ->
    match nth_error (n_vars s) p with
    | Some (Some c) => exists v, nth_error (xw_vars w) p = Some (Some v) /\ shows v c
    | Some None => nth_error (xw_vars w) p = Some None
    | None => nth_error (xw_vars w) p = None
    end.
  Proof.
    intros H. destruct (nth_error (xw_vars w) p) as [v|] eqn:E.
    - destruct (nth_error (n_vars s) p) as [c|] eqn:F.
      + pose proof (ni_vars _ _ H _ _ _ E F) as S. destruct v as [v|], c as [c|]; cbn in S; try contradiction; eauto.
      + apply nth_error_None in F. rewrite <- (ni_len _ _ H) in F. apply nth_error_None in F. congruence.
    - destruct (nth_error (n_vars s) p) as [c|] eqn:F; auto.
      apply nth_error_None in E. rewrite (ni_len _ _ H) in E. apply nth_error_None in E. congruence.
  Qed.

  Lemma ninv_upd w s p c (v : option (expected V)) c' m g calls calls' l :
    ninv w s -> nth_error (n_vars s) p = Some c -> shows_var v c' -> calls = calls' ->
    m + (if full c then 1 else 0) + xw_gone w + n_lost s = xw_made w + g + (if full c' then 1 else 0) + l ->
    ninv (XW (upd (xw_vars w) p v) m g calls) (XN (upd (n_vars s) p c') calls' l).
  Proof.
    intros H P S C M. split; cbn [xw_vars n_vars xw_calls n_calls xw_made xw_gone n_lost]; auto.
    - rewrite !upd_length. apply H.
    - intros q u d. rewrite !nth_error_updx, (ni_len _ _ H). destruct (p =? q); [|apply H].
      destruct (_ <? _); [|discriminate]. intros [= <-] [= <-]. exact S.
    - pose proof (countb_upd full (n_vars s) p c c' P) as E. pose proof (ni_count _ _ H). lia.
  Qed.

  Definition follows (r : outcome (xworld V)) (o : option (xseen V)) : Prop :=
    match o with Some s => exists w, r = Ok w /\ ninv w s | None => r = UB end.

  (** destroy(): a ghost cannot be destroyed again, a value becomes one. *)
  Definition n_clear s (p : nat) : option (xseen V) :=
    match nth_error (n_vars s) p with
    | Some (Some Empty) => Some s
    | Some (Some (Holds k _)) => Some (n_put s p (Some (Ghost k)))
    | _ => None
    end.
  Lemma nclear w s p : ninv w s -> follows (x_clear w p) (n_clear s p).
  Proof.
    intros H. pose proof (nvar _ _ p H) as N. unfold n_clear, x_clear, xvar.
    destruct (nth_error (n_vars s) p) as [[[|k x|k]|]|] eqn:P; cbn in N |- *.
    - destruct N as (v & -> & S). cbn [bind]. rewrite S. eauto.
    - destruct N as (v & -> & ->). cbn. rewrite kind_eqb_refl. cbn. eexists. split; [reflexivity|].
      eapply ninv_upd; eauto; cbn; auto; [apply H|lia].
    - destruct N as (v & -> & ->). reflexivity.
    - rewrite N. reflexivity.
    - rewrite N. reflexivity.
  Qed.

  Lemma nput w s p c k x : ninv w s -> nth_error (n_vars s) p = Some (Some c) -> full (Some c) = false ->
    ninv (x_construct w p k x) (n_put s p (Some (Holds k x))).
  Proof. intros H P F. eapply ninv_upd; eauto; [reflexivity|apply H|]. rewrite F. cbn. lia. Qed.

  Lemma put_put s p c d : n_put (n_put s p c) p d = n_put s p d.
  Proof. unfold n_put. cbn. rewrite upd_upd_eq. reflexivity. Qed.
  Lemma at_put s p c : p < length (n_vars s) -> nth_error (n_vars (n_put s p c)) p = Some c.
  Proof. intros L. cbn. apply nth_error_upd_eq; auto. Qed.

  Lemma nset w s p k x : ninv w s -> follows (x_set w p k x) (n_set s p k x).
  Proof.
    intros H. pose proof (nclear w s p H) as C. unfold n_clear in C. unfold x_set, n_set.
    destruct (nth_error (n_vars s) p) as [[[|j y|j]|]|] eqn:P; cbn [follows] in *; try (rewrite C; reflexivity).
    - destruct C as (w1 & -> & H1). cbn. eexists. split; [reflexivity|]. apply (nput _ _ _ Empty); auto.
    - destruct C as (w1 & -> & H1). cbn [bind]. eexists. split; [reflexivity|].
      rewrite <- (put_put s p (Some (Ghost j))). apply (nput _ _ _ (Ghost j)); auto.
      apply at_put. apply nth_error_Some. congruence.
  Qed.

  Lemma nassign w s p q : ninv w s -> follows (x_assign w p q) (n_assign s p q).
  Proof.
    intros H. pose proof (nclear w s p H) as C. unfold n_clear in C. unfold x_assign, n_assign.
    destruct (nth_error (n_vars s) p) as [[[|j y|j]|]|] eqn:P; cbn [follows] in *; try (rewrite C; reflexivity).
    - destruct C as (w1 & -> & H1). cbn [bind]. pose proof (nvar _ _ q H1) as N. unfold xvar.
      destruct (nth_error (n_vars s) q) as [[[|k x|k]|]|] eqn:Q; cbn in N |- *; try (rewrite N; reflexivity).
      + destruct N as (v & -> & S). cbn. rewrite S. eauto.
      + destruct N as (v & -> & ->). cbn. rewrite kind_eqb_refl. cbn.
        pose proof (nset w1 s p k x H1) as T. unfold n_set in T. rewrite P in T. exact T.
      + destruct N as (v & -> & ->). reflexivity.
    - destruct C as (w1 & -> & H1). cbn [bind].
      assert (L : p < length (n_vars s)) by (apply nth_error_Some; congruence).
      pose proof (at_put s p (Some (Ghost j)) L) as G.
      pose proof (nvar _ _ q H1) as N. unfold xvar.
      destruct (Nat.eq_dec p q) as [<-|D].
      + rewrite G in N. destruct N as (v & -> & ->). rewrite P. reflexivity.
      + cbn [n_put n_vars] in N. rewrite nth_error_upd_neq in N by auto.
        destruct (nth_error (n_vars s) q) as [[[|k x|k]|]|] eqn:Q; cbn in N |- *; try (rewrite N; reflexivity).
        * destruct N as (v & -> & S). cbn. rewrite S. eauto.
        * destruct N as (v & -> & ->). cbn. rewrite kind_eqb_refl. cbn.
          pose proof (nset w1 _ p k x H1) as T. unfold n_set in T. rewrite G in T. exact T.
        * destruct N as (v & -> & ->). reflexivity.
  Qed.

  Lemma nmove w s p q : ninv w s -> follows (x_move_assign mv w p q) (n_move s p q).
  Proof.
    intros H. pose proof (nclear w s p H) as C. unfold n_clear in C.
    pose proof (nvar _ _ p H) as N. pose proof (nvar _ _ q H) as M. unfold x_move_assign, n_move.
    destruct (nth_error (n_vars s) p) as [[c|]|] eqn:P; cbn [follows] in *;
      try (unfold xvar; rewrite N; reflexivity).
    destruct N as (v & E & S). unfold xvar at 1. rewrite E. cbn [bind]. unfold xvar at 1.
    assert (L : p < length (n_vars s)) by (apply nth_error_Some; congruence).
    destruct (nth_error (n_vars s) q) as [[[|k x|k]|]|] eqn:Q; cbn [shows] in M;
      try (rewrite M; destruct c; reflexivity).
    - destruct M as (u & -> & U). cbn [bind]. rewrite U. destruct c; cbn [follows]; eauto.
    - destruct M as (u & F & ->). rewrite F. cbn [bind x_state].
      destruct (p =? q) eqn:D.
      + apply Nat.eqb_eq in D. subst q. assert (c = Holds k x) as -> by congruence. cbn [follows].
        destruct C as (w1 & -> & H1). cbn [bind]. pose proof (nvar _ _ p H1) as N1.
        rewrite (at_put s p _ L) in N1. destruct N1 as (v1 & E1 & ->). unfold xvar. rewrite E1. reflexivity.
      + apply Nat.eqb_neq in D.
        assert (K : forall w1 c1, ninv w1 (n_put s p c1) -> full c1 = false ->
          follows (let! v := xvar w1 q in let! x := x_object v k in
                   Ok (xput (x_construct w1 p k x) q (Some (XR None (Some (k, mv x))))))
                  (Some (n_take (n_put s p (Some (Holds k x))) q))).
        { intros w1 c1 H1 Fc. pose proof (nvar _ _ q H1) as N1. cbn [n_put n_vars] in N1.
          rewrite nth_error_upd_neq, Q in N1 by auto. destruct N1 as (v1 & E1 & ->).
          unfold xvar. rewrite E1. cbn [bind]. unfold x_object. cbn. rewrite kind_eqb_refl. cbn [bind].
          eexists. split; [reflexivity|].
          assert (H2 : ninv (x_construct w1 p k x) (n_put s p (Some (Holds k x)))).
          { rewrite <- (put_put s p c1). eapply ninv_upd; eauto.
            - apply at_put. exact L.
            - reflexivity.
            - apply H1.
            - rewrite Fc. cbn. lia. }
          eapply (ninv_upd _ _ q (Some (Holds k x))); eauto.
          - cbn. rewrite nth_error_upd_neq by auto. exact Q.
          - reflexivity.
          - apply H2.
          - cbn. lia. }
        destruct c as [|j y|j]; cbn [follows].
        * destruct C as (w1 & -> & H1). cbn [bind]. apply (K w1 (Some Empty)); auto.
          unfold n_put. rewrite upd_self by auto. destruct s; exact H1.
        * destruct C as (w1 & -> & H1). cbn [bind]. apply (K w1 (Some (Ghost j))); auto.
        * rewrite C. reflexivity.
    - destruct M as (u & F & ->). rewrite F. cbn [bind x_state].
      assert (X : follows (let! w1 := x_clear w p in let! v := xvar w1 q in let! x := x_object v k in
                   Ok (xput (x_construct w1 p k x) q (Some (XR None (Some (k, mv x)))))) None);
        [|destruct c; exact X].
      destruct c as [|j y|j]; cbn [follows].
      + destruct C as (w1 & -> & H1). cbn [bind]. pose proof (nvar _ _ q H1) as N1. rewrite Q in N1.
        destruct N1 as (v1 & E1 & ->). unfold xvar. rewrite E1. reflexivity.
      + destruct C as (w1 & -> & H1). cbn [bind]. pose proof (nvar _ _ q H1) as N1.
        assert (D : p <> q) by congruence. cbn [n_put n_vars] in N1.
        rewrite nth_error_upd_neq, Q in N1 by auto.
        destruct N1 as (v1 & E1 & ->). unfold xvar. rewrite E1. reflexivity.
      + rewrite C. reflexivity.
  Qed.

  Lemma nnew w s p : ninv w s -> follows (x_default w p) (n_new s p Empty).
  Proof.
    intros H. pose proof (nvar _ _ p H) as N. unfold x_default, xfresh, n_new.
    destruct (nth_error (n_vars s) p) as [[c|]|] eqn:P; cbn [follows].
    - destruct N as (v & -> & _). reflexivity.
    - rewrite N. cbn. eexists. split; [reflexivity|]. eapply ninv_upd; eauto; cbn; auto; [apply H|lia].
    - rewrite N. reflexivity.
  Qed.

  Lemma nstep w s o : ninv w s -> follows (x_step mv w o) (n_step s o).
  Proof.
    intros H. destruct o as [p|p k x|p q|p q|p q|p q|p k x|p k h|p k|p]; cbn [x_step n_step].
    - apply nnew; auto.
    - pose proof (nnew w s p H) as N. unfold x_from. unfold n_new in *.
      destruct (nth_error (n_vars s) p) as [[c|]|] eqn:P; cbn [follows] in N; try (rewrite N; reflexivity).
      destruct N as (w1 & -> & H1). cbn [bind]. pose proof (nset _ _ p k x H1) as T.
      assert (L : p < length (n_vars s)) by (apply nth_error_Some; congruence).
      unfold n_set in T. rewrite (at_put s p _ L), put_put in T. exact T.
    - pose proof (nnew w s p H) as N. unfold x_copy. destruct (n_new s p Empty) as [s1|]; cbn [follows] in N.
      + destruct N as (w1 & -> & H1). cbn [bind]. apply nassign; auto.
      + rewrite N. reflexivity.
    - pose proof (nnew w s p H) as N. unfold x_move. destruct (n_new s p Empty) as [s1|]; cbn [follows] in N.
      + destruct N as (w1 & -> & H1). cbn [bind]. apply nmove; auto.
      + rewrite N. reflexivity.
    - apply nassign; auto.
    - apply nmove; auto.
    - apply nset; auto.
    - pose proof (nvar _ _ p H) as N. unfold x_if, n_if, xvar.
      destruct (nth_error (n_vars s) p) as [[[|j x|j]|]|] eqn:P; cbn in N; try (rewrite N; reflexivity).
      + destruct N as (v & -> & S). cbn. rewrite S. eauto.
      + destruct N as (v & -> & ->). cbn. destruct (kind_eqb j k) eqn:K; cbn; [|eauto].
        unfold x_object. cbn. rewrite ?K. cbn. eexists. split; [reflexivity|].
        apply (ninv_upd w s p (Some (Holds j x))); cbn; auto; [rewrite (ni_calls _ _ H); reflexivity|lia].
      + destruct N as (v & -> & ->). cbn. destruct (kind_eqb j k) eqn:K; cbn; eauto.
    - pose proof (nvar _ _ p H) as N. unfold x_if_const, n_if, xvar.
      destruct (nth_error (n_vars s) p) as [[[|j x|j]|]|] eqn:P; cbn in N; try (rewrite N; reflexivity).
      + destruct N as (v & -> & S). cbn. rewrite S. eauto.
      + destruct N as (v & -> & ->). cbn. destruct (kind_eqb j k) eqn:K; cbn; [|eauto].
        unfold x_object. cbn. rewrite ?K. cbn. eexists. split; [reflexivity|].
        destruct H as [H1 H2 H3 H4]. split; cbn; auto. rewrite H3. reflexivity.
      + destruct N as (v & -> & ->). cbn. destruct (kind_eqb j k) eqn:K; cbn; eauto.
    - pose proof (nclear w s p H) as C. unfold n_clear in C. unfold x_destroy.
      destruct (nth_error (n_vars s) p) as [[[|j x|j]|]|] eqn:P; cbn [follows] in *; try (rewrite C; reflexivity).
      + destruct C as (w1 & -> & H1). cbn. eexists. split; [reflexivity|].
        eapply ninv_upd; eauto; cbn; auto; [apply H1|lia].
      + destruct C as (w1 & -> & H1). cbn [bind]. eexists. split; [reflexivity|].
        rewrite <- (put_put s p (Some (Ghost j))).
        eapply (ninv_upd _ _ p (Some (Ghost j))); eauto; cbn; auto; [|apply H1|lia].
        apply nth_error_upd_eq. apply nth_error_Some. congruence.
  Qed.

  Lemma nsteps os : forall w s, ninv w s -> follows (x_run mv w os) (n_steps s os).
  Proof.
    induction os as [|o os IH]; intros w s H; cbn; [eauto|]. pose proof (nstep w s o H) as S.
    destruct (n_step s o) as [s1|]; cbn [follows] in S.
    - destruct S as (w1 & -> & H1). apply IH; auto.
    - rewrite S. reflexivity.
  Qed.

  Lemma nstart n : ninv (x_start n) (n_none n).
  Proof.
    split; cbn; auto.
    - rewrite !repeat_length. reflexivity.
    - intros p v c E F. apply nth_error_In, repeat_spec in E. apply nth_error_In, repeat_spec in F. subst. exact I.
    - replace (filter _ _) with (@nil (option (seen V))); [reflexivity|].
      induction n as [|n IH]; cbn; auto.
  Qed.
End Exact.

(** Any program, without any condition: either the specification (ExpectedSpec.v) says that a call has undefined
    behaviour, and then it has; or the program goes through, the handlers are called with exactly the values of the
    specification in its order, every Expected has the content of the specification, and the objects made are those
    destroyed, those held, and one for each value that was handed over by a move or to a handler. *)
Theorem C32_exact_partial :
  forall (V : Type) (mv : V -> V) (n : nat) (os : list (x_op V)),
  match n_steps (n_none n) os with
  | None => x_run mv (x_start n) os = UB
  | Some s =>
      exists w, x_run mv (x_start n) os = Ok w /\
        xw_made w = xw_gone w + n_held s + n_lost s /\ xw_calls w = n_calls s /\
        forall p, match nth_error (n_vars s) p with
                  | Some (Some Empty) => exists v, xvar w p = Ok v /\ x_state v = None
                  | Some (Some (Holds k x)) => exists v, xvar w p = Ok v /\ x_state v = Some k /\ x_object v k = Ok x
                  | Some (Some (Ghost k)) => exists v, xvar w p = Ok v /\ x_state v = Some k /\ x_cell v = None
                  | _ => xvar w p = UB
                  end
  end.
Proof.
  intros V mv n os. pose proof (nsteps mv os _ _ (nstart n)) as R.
  destruct (n_steps (n_none n) os) as [s|]; [|exact R]. destruct R as (w & E & H).
  exists w. split; [exact E|]. split; [apply H|]. split; [apply H|]. intros p.
  pose proof (nvar _ _ p H) as N. unfold xvar.
  destruct (nth_error (n_vars s) p) as [[[|k x|k]|]|]; cbn in N; try (rewrite N; reflexivity).
  - destruct N as (v & -> & S). eauto.
  - destruct N as (v & -> & ->). eexists. split; [reflexivity|]. split; [reflexivity|].
    unfold x_object. cbn. rewrite kind_eqb_refl. reflexivity.
  - destruct N as (v & -> & ->). eauto.
Qed.

(** Handed-over values and a ghost, and the program that ends the ghost. *)
Example C32_exact_case :
  let os := [XFrom 0 Result 1; XMove 1 0; XMoveAssign 1 0; XIfConst 1 Result; XCopy 2 1; XIf 2 Result S; XAssign 1 2] in
  n_steps (n_none 3) os = Some (XN [Some Empty; Some (Ghost Result); Some Empty] [(Result, 1); (Result, 1)] 2) /\
  n_steps (n_none 3) (os ++ [XDestroy 0; XDestroy 2]) <> None /\
  n_steps (n_none 3) (os ++ [XDestroy 1]) = None.
Proof. repeat split. discriminate. Qed.

(** The programs without ghosts: as long as nothing is copied to an Expected that holds something, and no Expected
    that holds something is moved to itself, nothing is undefined that the user could not see (a call for an object
    that does not exist). *)
Theorem C32_no_ghost_partial :
  forall (V : Type) (s : xseen V) (o : x_op V),
  (forall p k, nth_error (n_vars s) p <> Some (Some (Ghost k))) ->
  match o with
  | XDefault p | XFrom p _ _ => nth_error (n_vars s) p = Some None
  | XCopy p q | XMove p q =>
      nth_error (n_vars s) p = Some None /\ exists c, nth_error (n_vars s) q = Some (Some c)
  | XAssign p q =>
      nth_error (n_vars s) p = Some (Some Empty) /\ exists c, nth_error (n_vars s) q = Some (Some c)
  | XMoveAssign p q =>
      (exists c, nth_error (n_vars s) p = Some (Some c)) /\ (exists c, nth_error (n_vars s) q = Some (Some c)) /\
      (p = q -> nth_error (n_vars s) p = Some (Some Empty))
  | XSet p _ _ | XIf p _ _ | XIfConst p _ | XDestroy p => exists c, nth_error (n_vars s) p = Some (Some c)
  end ->
  exists s', n_step s o = Some s' /\ forall p k, nth_error (n_vars s') p <> Some (Some (Ghost k)).
Proof.
  intros V s o G P.
  assert (U : forall l p c, (forall q k, nth_error l q <> Some (Some (Ghost k))) -> (forall k, c <> Some (Ghost k)) ->
              forall q k, nth_error (upd l p c) q <> Some (Some (Ghost (V := V) k))).
  { intros l p c Gl Gc q k. rewrite nth_error_updx. destruct (p =? q); [|apply Gl].
    destruct (_ <? _); [|discriminate]. intros [= E]. apply (Gc k). exact E. }
  destruct o as [p|p k x|p q|p q|p q|p q|p k x|p k h|p k|p]; cbn [n_step]; unfold n_new, n_assign, n_move, n_set, n_if.
  - rewrite P. eexists. split; [reflexivity|]. apply U; auto; discriminate.
  - rewrite P. eexists. split; [reflexivity|]. apply U; auto; discriminate.
  - destruct P as (P & c & Q). rewrite P.
    assert (D : p <> q) by congruence. assert (L : p < length (n_vars s)) by (apply nth_error_Some; congruence).
    rewrite (at_put s p _ L). cbn [n_put n_vars]. rewrite nth_error_upd_neq, Q by auto.
    destruct c as [|k x|k]; [..|destruct (G _ _ Q)].
    + eexists. split; [reflexivity|]. apply U; auto; discriminate.
    + eexists. split; [reflexivity|]. apply U; [apply U|]; auto; discriminate.
  - destruct P as (P & c & Q). rewrite P.
    assert (D : p <> q) by congruence. assert (L : p < length (n_vars s)) by (apply nth_error_Some; congruence).
    rewrite (at_put s p _ L). cbn [n_put n_vars]. rewrite nth_error_upd_neq, Q by auto.
    destruct c as [|k x|k]; [..|destruct (G _ _ Q)].
    + eexists. split; [reflexivity|]. apply U; auto; discriminate.
    + apply Nat.eqb_neq in D. rewrite D. eexists. split; [reflexivity|].
      cbn. repeat apply U; auto; discriminate.
  - destruct P as (P & c & Q). rewrite P, Q. destruct c as [|k x|k]; [..|destruct (G _ _ Q)]; eexists; (split; [reflexivity|]);
      auto. apply U; auto; discriminate.
  - destruct P as ((b & P) & (c & Q) & D). rewrite P, Q.
    destruct c as [|k x|k]; [..|destruct (G _ _ Q)].
    + exists s. destruct b; auto.
    + destruct (p =? q) eqn:E.
      * apply Nat.eqb_eq in E. subst q. rewrite (D eq_refl) in Q. discriminate.
      * exists (n_take (n_put s p (Some (Holds k x))) q).
        destruct b as [|j y|j]; [..|destruct (G _ _ P)]; (split; [reflexivity|]); cbn; repeat apply U; auto; discriminate.
  - destruct P as (c & P). rewrite P. exists (n_put s p (Some (Holds k x))).
    destruct c as [| |j]; [..|destruct (G _ _ P)]; (split; [reflexivity|]); apply U; auto; discriminate.
  - destruct P as (c & P). rewrite P. destruct c as [|j x|j]; [..|destruct (G _ _ P)]; eauto.
    destruct (kind_eqb j k); eauto. eexists. split; [reflexivity|]. cbn. apply U; auto; discriminate.
  - destruct P as (c & P). rewrite P. destruct c as [|j x|j]; [..|destruct (G _ _ P)]; eauto.
    destruct (kind_eqb j k); eauto.
  - destruct P as (c & P). rewrite P. exists (n_put s p None).
    destruct c as [| |j]; [..|destruct (G _ _ P)]; (split; [reflexivity|]); apply U; auto; discriminate.
Qed.

Example C32_no_ghost_case :
  let s := XN [Some (Holds Result 1); Some Empty; None] [] 0 in
  exists s', n_step s (XMoveAssign 0 1) = Some s' /\ forall p k, nth_error (n_vars s') p <> Some (Some (Ghost k)).
Proof.
  apply C32_no_ghost_partial.
  - intros [|[|[|p]]] k; cbn; try discriminate. destruct p; discriminate.
  - cbn. split; [eauto|]. split; [eauto|]. discriminate.
Qed.

(** What has to hold for the property: no value is left behind. It does hold for the programs without moves and
    consuming handlers. *)
Theorem C32_balanced_partial :
  forall (V : Type) (mv : V -> V) (n : nat) (os : list (x_op V)) s,
  Forall (fun o => match o with XMove _ _ | XMoveAssign _ _ | XIf _ _ _ => False | _ => True end) os ->
  n_steps (n_none n) os = Some s ->
  exists w, x_run mv (x_start n) os = Ok w /\ xw_made w = xw_gone w + n_held s.
Proof.
  intros V mv n os s F E. pose proof (C32_exact_partial V mv n os) as R. rewrite E in R.
  destruct R as (w & Ew & M & _). exists w. split; [exact Ew|].
  enough (L : n_lost s = n_lost (n_none (V := V) n)) by (cbn in L; lia). clear - F E.
  revert E. generalize (n_none (V := V) n). induction F as [|o os Fo F IH]; intros s0; cbn [n_steps].
  - intros [= <-]. reflexivity.
  - destruct (n_step s0 o) as [s1|] eqn:E1; [|discriminate]. intros E. rewrite (IH _ E). clear - E1 Fo.
    destruct o as [p|p k x|p q|p q|p q|p q|p k x|p k h|p k|p]; try contradiction; cbn [n_step] in E1;
      unfold n_new, n_assign, n_set, n_if in E1;
      repeat (match type of E1 with
              | match ?x with _ => _ end = _ => let X := fresh "X" in destruct x eqn:X
              | Some _ = Some _ => injection E1 as <-
              | Some _ = None => discriminate E1
              | None = Some _ => discriminate E1
              end; try discriminate); try reflexivity.
    all: repeat match goal with
              | H : match ?x with _ => _ end = Some _ |- _ => destruct x; try discriminate H
              | H : Some _ = Some _ |- _ => injection H as <-
              end; reflexivity.
Qed.

Example C32_balanced_case :
  let os := [XFrom 0 Result 1; XCopy 1 0; XSet 1 Error 2; XIfConst 1 Error; XDestroy 1] in
  Forall (fun o => match o with XMove _ _ | XMoveAssign _ _ | XIf _ _ _ => False | _ => True end) os /\
  n_steps (n_none 2) os = Some (XN [Some (Holds Result 1); None] [(Error, 2)] 0).
Proof. split; [repeat (apply Forall_cons || apply Forall_nil); exact I|reflexivity]. Qed.

Print Assumptions C32_exact_partial.
Print Assumptions C32_no_ghost_partial.
Print Assumptions C32_balanced_partial.
