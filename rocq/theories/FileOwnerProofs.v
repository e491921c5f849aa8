(** The invariant of descriptor ownership of file streams. *)
From Coq Require Import List Arith ZArith Lia Bool.
From Verif Require Import Base FileOwnerModel FileOwnerSpec.
Import ListNotations.
Local Open Scope Z_scope.

Lemma setv_eq {A} (f : nat -> A) v x : setv f v x v = x.
Proof. unfold setv. rewrite Nat.eqb_refl. reflexivity. Qed.
Lemma setv_neq {A} (f : nat -> A) v x u : u <> v -> setv f v x u = f u.
Proof. intros N. unfold setv. destruct (Nat.eqb_spec u v); congruence. Qed.
Lemma setz_eq {A} (f : Z -> A) v x : setz f v x v = x.
Proof. unfold setz. rewrite Z.eqb_refl. reflexivity. Qed.
Lemma setz_neq {A} (f : Z -> A) v x u : u <> v -> setz f v x u = f u.
Proof. intros N. unfold setz. destruct (Z.eqb_spec u v); congruence. Qed.

Record finv (w : fworld) (d : duty) : Prop := {
  i_alive : forall v, d_alive d v = true <-> w_vars w v <> None;
  i_owns : forall v fd, d_who d fd = Stream v <->
             exists o, w_vars w v = Some o /\ f_own o = true /\ f_fd o = fd /\ 0 <= fd;
  i_open : forall fd, w_open w fd = true <-> d_who d fd <> Closed;
  i_pos : forall fd, d_who d fd <> Closed -> 0 <= fd;
  i_fd : forall v o, w_vars w v = Some o -> f_own o = true -> f_fd o = -1 \/ 0 <= f_fd o
}.

Lemma start_inv : finv f_start duty_start.
Proof.
  constructor; cbn.
  - intros v. split; [discriminate|congruence].
  - intros v fd. split; [discriminate|]. intros (o & E & _). discriminate.
  - intros fd. split; [discriminate|congruence].
  - congruence.
  - discriminate.
Qed.

(** Two streams do not own the same descriptor. *)
Lemma owner_unique w d v u fd : finv w d -> d_who d fd = Stream v -> d_who d fd = Stream u -> v = u.
Proof. intros _ H1 H2. congruence. Qed.

Lemma pass_stream who v x fd u :
  pass who v x fd = Stream u <->
  (who fd = Stream u /\ u <> v) \/ (who fd = Stream v /\ x = Stream u).
Proof.
  unfold pass. destruct (who fd) as [| |t|] eqn:E.
  3:{ destruct (Nat.eqb_spec t v) as [->|N].
    + split; [intros ->; auto|]. intros [[H K]|[_ H]]; [congruence|auto].
    + split; [intros H; injection H as ->; auto|]. intros [[H _]|[H _]]; [auto|congruence]. }
  all: split; [discriminate|]; intros [[H _]|[H _]]; discriminate.
Qed.

Lemma pass_closed who v x fd :
  pass who v x fd = Closed <-> who fd = Closed \/ (who fd = Stream v /\ x = Closed).
Proof.
  unfold pass. destruct (who fd) as [| |t|] eqn:E.
  - split; auto.
  - split; [discriminate|]. intros [H|[H _]]; discriminate.
  - destruct (Nat.eqb_spec t v) as [->|N].
    + split; [intros ->; auto|]. intros [H|[_ H]]; [discriminate|auto].
    + split; [discriminate|]. intros [H|[H _]]; congruence.
  - split; [discriminate|]. intros [H|[H _]]; discriminate.
Qed.

Lemma alive_get w d v : finv w d -> d_alive d v = true -> exists o, w_vars w v = Some o.
Proof.
  intros I H. apply (i_alive _ _ I) in H. destruct (w_vars w v) as [o|]; [eauto|congruence].
Qed.
Lemma dead_get w d v : finv w d -> d_alive d v = false -> w_vars w v = None.
Proof.
  intros I H. destruct (w_vars w v) as [o|] eqn:E; auto.
  assert (d_alive d v = true) by (apply (i_alive _ _ I); congruence). congruence.
Qed.

(** The stream [v] gives up its descriptor and closes it; its object becomes [None]. *)
Lemma release_inv w d v o : finv w d -> w_vars w v = Some o ->
  finv (fput (release w o) v None) (Duty (pass (d_who d) v Closed) (setv (d_alive d) v false)).
Proof.
  intros I E.
  assert (V : forall u, w_vars (release w o) u = w_vars w u).
  { intros u. unfold release, fclose. destruct (_ && _); reflexivity. }
  assert (O : forall fd, w_open (release w o) fd = true
              <-> d_who d fd <> Closed /\ d_who d fd <> Stream v).
  { intros fd. unfold release.
    destruct (f_own o && negb (f_fd o =? INVALID_DESCRIPTOR)) eqn:B.
    - apply andb_true_iff in B as [B1 B2]. apply negb_true_iff, Z.eqb_neq in B2.
      assert (P : 0 <= f_fd o).
      { destruct (i_fd _ _ I v o E B1); auto. unfold INVALID_DESCRIPTOR in B2. congruence. }
      assert (S : d_who d (f_fd o) = Stream v) by (apply (i_owns _ _ I); exists o; auto).
      cbn [fclose w_open]. destruct (Z.eq_dec fd (f_fd o)) as [->|N].
      + rewrite setz_eq. split; [discriminate|]. tauto.
      + rewrite setz_neq by auto. rewrite (i_open _ _ I). split; [|tauto]. intros H. split; auto.
        intros K. apply (i_owns _ _ I) in K as (o' & E' & _ & F & _). congruence.
    - rewrite (i_open _ _ I). split; [|tauto]. intros H. split; auto.
      intros K. apply (i_owns _ _ I) in K as (o' & E' & O' & F & P). rewrite E in E'. injection E' as <-.
      rewrite O' in B. cbn in B. apply negb_false_iff, Z.eqb_eq in B. unfold INVALID_DESCRIPTOR in B. lia. }
  constructor; cbn [fput w_vars w_open d_who d_alive].
  - intros u. destruct (Nat.eq_dec u v) as [->|N].
    + rewrite !setv_eq. split; [discriminate|congruence].
    + rewrite !setv_neq, V by auto. apply (i_alive _ _ I).
  - intros u fd. rewrite pass_stream. destruct (Nat.eq_dec u v) as [->|N].
    + rewrite setv_eq. split; [intros [[_ H]|[_ H]]; congruence|]. intros (o' & H & _). discriminate.
    + rewrite setv_neq, V by auto. rewrite <- (i_owns _ _ I). split; [|auto].
      intros [[H _]|[_ H]]; [auto|discriminate].
  - intros fd. rewrite O. rewrite pass_closed. tauto.
  - intros fd H. apply (i_pos _ _ I). intros K. apply H. apply pass_closed. auto.
  - intros u o' H. destruct (Nat.eq_dec u v) as [->|N].
    + rewrite setv_eq in H. discriminate.
    + rewrite setv_neq, V in H by auto. apply (i_fd _ _ I u o' H).
Qed.

(** An object is put into an empty variable, with a descriptor of the user or none. *)
Lemma put_inv w d v fd owner : finv w d -> w_vars w v = None ->
  (owner = true -> fd = -1 \/ d_who d fd = User) ->
  finv (fput w v (Some (FObj fd owner)))
       (Duty (give (d_who d) fd owner v) (setv (d_alive d) v true)).
Proof.
  intros I E P.
  assert (P' : owner && (0 <=? fd) = true -> d_who d fd = User /\ owner = true /\ 0 <= fd).
  { intros B. apply andb_true_iff in B as [B1 B2]. apply Z.leb_le in B2.
    destruct (P B1); [lia|auto]. }
  assert (NS : forall x, d_who d x <> Stream v).
  { intros x K. apply (i_owns _ _ I) in K as (o' & E' & _). congruence. }
  constructor; cbn [fput w_vars w_open d_who d_alive].
  - intros u. destruct (Nat.eq_dec u v) as [->|N].
    + rewrite !setv_eq. split; [congruence|auto].
    + rewrite !setv_neq by auto. apply (i_alive _ _ I).
  - intros u x. unfold give. destruct (owner && (0 <=? fd)) eqn:B.
    + destruct (P' eq_refl) as (U & -> & L). destruct (Z.eq_dec x fd) as [->|Nx].
      * rewrite setz_eq. destruct (Nat.eq_dec u v) as [->|N].
        -- rewrite setv_eq. split; auto. intros _. eexists. split; [reflexivity|]. auto.
        -- rewrite setv_neq by auto. rewrite <- (i_owns _ _ I). split; congruence.
      * rewrite setz_neq by auto. destruct (Nat.eq_dec u v) as [->|N].
        -- rewrite setv_eq. split; [intros K; exfalso; apply (NS x K)|].
           intros (o' & H & _ & H' & _). injection H as <-. cbn in H'. congruence.
        -- rewrite setv_neq by auto. apply (i_owns _ _ I).
    + destruct (Nat.eq_dec u v) as [->|N].
      * rewrite setv_eq. split; [intros K; exfalso; apply (NS x K)|].
        intros (o' & H & H1 & H2 & H3). injection H as <-. cbn in H1, H2. subst.
        cbn in B. apply Z.leb_gt in B. lia.
      * rewrite setv_neq by auto. apply (i_owns _ _ I).
  - intros x. rewrite (i_open _ _ I). unfold give. destruct (owner && (0 <=? fd)) eqn:B; [|tauto].
    destruct (P' eq_refl) as (U & -> & L). destruct (Z.eq_dec x fd) as [->|Nx].
    + rewrite setz_eq, U. split; discriminate.
    + rewrite setz_neq by auto. tauto.
  - intros x. unfold give. destruct (owner && (0 <=? fd)) eqn:B; [|apply (i_pos _ _ I)].
    destruct (P' eq_refl) as (U & -> & L). destruct (Z.eq_dec x fd) as [->|Nx]; auto.
    rewrite setz_neq by auto. apply (i_pos _ _ I).
  - intros u o' H. destruct (Nat.eq_dec u v) as [->|N].
    + rewrite setv_eq in H. injection H as <-. cbn. intros ->. destruct (P eq_refl) as [|U]; [auto|].
      right. apply (i_pos _ _ I). congruence.
    + rewrite setv_neq in H by auto. apply (i_fd _ _ I u o' H).
Qed.

(** What [p] owns goes to [v], which owned nothing. *)
Lemma move_inv w d v p s : finv w d -> v <> p -> w_vars w p = Some s ->
  (forall fd, d_who d fd <> Stream v) ->
  finv (fput (fput w v (Some s)) p (Some (FObj INVALID_DESCRIPTOR false)))
       (Duty (pass (d_who d) p (Stream v)) (setv (d_alive d) v true)).
Proof.
  intros I N E NS.
  constructor; cbn [fput w_vars w_open d_who d_alive].
  - intros u. destruct (Nat.eq_dec u p) as [->|Np].
    + rewrite setv_eq, setv_neq by auto. rewrite (i_alive _ _ I), E. split; congruence.
    + rewrite (setv_neq _ p) by auto. destruct (Nat.eq_dec u v) as [->|Nv].
      * rewrite !setv_eq. split; [congruence|auto].
      * rewrite !setv_neq by auto. apply (i_alive _ _ I).
  - intros u fd. rewrite pass_stream. destruct (Nat.eq_dec u p) as [->|Np].
    + rewrite setv_eq. split; [intros [[_ H]|[_ H]]; congruence|].
      intros (o & H & H1 & _). injection H as <-. discriminate.
    + rewrite (setv_neq _ p) by auto. destruct (Nat.eq_dec u v) as [->|Nv].
      * rewrite setv_eq. split.
        -- intros [[H _]|[H _]]; [exfalso; apply (NS _ H)|].
           apply (i_owns _ _ I) in H as (o & H & K). rewrite E in H. injection H as <-.
           exists s. auto.
        -- intros (o & H & K). injection H as <-. right. split; auto. apply (i_owns _ _ I).
           exists s. auto.
      * rewrite setv_neq by auto. rewrite <- (i_owns _ _ I). split; [|auto].
        intros [[H _]|[_ H]]; congruence.
  - intros fd. rewrite (i_open _ _ I), pass_closed. split; [|tauto].
    intros H [K|[_ K]]; [auto|discriminate].
  - intros fd H. apply (i_pos _ _ I). intros K. apply H. apply pass_closed. auto.
  - intros u o H. destruct (Nat.eq_dec u p) as [->|Np].
    + rewrite setv_eq in H. injection H as <-. discriminate.
    + rewrite (setv_neq _ p) in H by auto. destruct (Nat.eq_dec u v) as [->|Nv].
      * rewrite setv_eq in H. injection H as <-. apply (i_fd _ _ I p s E).
      * rewrite setv_neq in H by auto. apply (i_fd _ _ I u o H).
Qed.

(** [finv] does not depend on how the functions are written. *)
Lemma finv_ext w d w' d' : finv w d ->
  (forall v, w_vars w' v = w_vars w v) -> (forall z, w_open w' z = w_open w z) ->
  (forall z, d_who d' z = d_who d z) -> (forall v, d_alive d' v = d_alive d v) -> finv w' d'.
Proof.
  intros I A B C D. constructor.
  - intros v. rewrite A, D. apply (i_alive _ _ I).
  - intros v fd. rewrite A, C. apply (i_owns _ _ I).
  - intros fd. rewrite B, C. apply (i_open _ _ I).
  - intros fd. rewrite C. apply (i_pos _ _ I).
  - intros v o. rewrite A. apply (i_fd _ _ I).
Qed.

(** [v] does not own its descriptor any more; it stays open, and [x] is responsible. *)
Lemma disown_inv w d v o o2 x : finv w d -> w_vars w v = Some o -> f_own o2 = false -> x = User \/ x = Lost ->
  finv (fput w v (Some o2)) (Duty (pass (d_who d) v x) (d_alive d)).
Proof.
  intros I E O2 Hx.
  constructor; cbn [fput w_vars w_open d_who d_alive].
  * intros u. rewrite (i_alive _ _ I). destruct (Nat.eq_dec u v) as [->|Nu].
    -- rewrite setv_eq, E. split; congruence.
    -- rewrite setv_neq by auto. tauto.
  * intros u fd. rewrite pass_stream. destruct (Nat.eq_dec u v) as [->|Nu].
    -- rewrite setv_eq. split; [intros [[_ H]|[_ H]]; [congruence|destruct Hx; congruence]|].
       intros (o' & H & H1 & _). injection H as <-. congruence.
    -- rewrite setv_neq by auto. rewrite <- (i_owns _ _ I). split; [|auto].
       intros [[H _]|[_ H]]; [auto|destruct Hx; congruence].
  * intros fd. rewrite (i_open _ _ I), pass_closed. split; [|tauto].
    intros H [K|[_ K]]; [auto|destruct Hx; congruence].
  * intros fd H. apply (i_pos _ _ I). intros K. apply H. apply pass_closed. auto.
  * intros u o' H. destruct (Nat.eq_dec u v) as [->|Nu].
    -- rewrite setv_eq in H. injection H as <-. congruence.
    -- rewrite setv_neq in H by auto. apply (i_fd _ _ I u o' H).
Qed.

Lemma fstep_ok w d c : finv w d -> duty_proper d c ->
  exists w' r, fstep w c = Ok (w', r) /\ finv w' (duty_step d c).
Proof.
  intros I P. destruct c as [v|v fd owner|v p|v p|v fd owner|v k|v|fd|fd];
    cbn [duty_proper fstep duty_step] in *; unfold fplace, fget.
  - rewrite (dead_get _ _ _ I P). cbn [bind]. do 2 eexists. split; [reflexivity|].
    eapply finv_ext; [apply (put_inv w d v INVALID_DESCRIPTOR false I (dead_get _ _ _ I P))|..];
      try reflexivity. discriminate.
  - destruct P as [P1 P2]. rewrite (dead_get _ _ _ I P1). cbn [bind]. do 2 eexists.
    split; [reflexivity|]. apply put_inv; auto. apply (dead_get _ _ _ I P1).
  - destruct P as [P1 P2]. destruct (alive_get _ _ _ I P2) as [s E].
    rewrite (dead_get _ _ _ I P1), E. cbn [bind]. do 2 eexists. split; [reflexivity|].
    apply move_inv; auto; [congruence|]. intros fd K.
    apply (i_owns _ _ I) in K as (o & K & _). rewrite (dead_get _ _ _ I P1) in K. discriminate.
  - destruct P as [P1 P2]. destruct (alive_get _ _ _ I P1) as [o E1].
    destruct (alive_get _ _ _ I P2) as [s E]. rewrite E1, E. cbn [bind].
    do 2 eexists. split; [reflexivity|].
    pose proof (disown_inv w d v o (FObj INVALID_DESCRIPTOR false) Lost I E1 eq_refl (or_intror eq_refl)) as I1.
    destruct (Nat.eqb_spec v p) as [->|N].
    + eapply finv_ext; [exact I1|..]; try reflexivity.
      intros u. cbn [fput w_vars]. unfold setv. destruct (Nat.eqb u p); reflexivity.
    + assert (E2 : w_vars (fput w v (Some (FObj INVALID_DESCRIPTOR false))) p = Some s).
      { cbn [fput w_vars]. rewrite setv_neq; auto. }
      assert (NS : forall fd, pass (d_who d) v Lost fd <> Stream v).
      { intros fd H. apply pass_stream in H as [[_ H]|[_ H]]; congruence. }
      eapply finv_ext; [apply (move_inv _ _ v p s I1 N E2 NS)|..]; try reflexivity.
      * intros u. cbn [fput w_vars]. unfold setv. destruct (Nat.eqb u p), (Nat.eqb u v); reflexivity.
      * intros u. cbn [d_alive]. destruct (Nat.eq_dec u v) as [->|Nu].
        -- rewrite setv_eq. auto.
        -- rewrite setv_neq by auto. reflexivity.
  - destruct P as [P1 P2]. destruct (alive_get _ _ _ I P1) as [o E]. rewrite E. cbn [bind].
    do 2 eexists. split; [reflexivity|].
    pose proof (release_inv w d v o I E) as I1.
    assert (V : w_vars (fput (release w o) v None) v = None) by apply setv_eq.
    pose proof (put_inv _ _ v fd owner I1 V) as I2.
    assert (Q : owner = true -> fd = -1 \/
              d_who (Duty (pass (d_who d) v Closed) (setv (d_alive d) v false)) fd = User).
    { intros Ho. destruct (P2 Ho) as [|U]; [auto|]. right. cbn [d_who]. unfold pass.
      rewrite U. reflexivity. }
    eapply finv_ext; [apply (I2 Q)|..]; try reflexivity.
    + intros u. cbn [fput w_vars]. destruct (Nat.eq_dec u v) as [->|Nu].
      * rewrite !setv_eq. reflexivity.
      * rewrite !setv_neq by auto. reflexivity.
    + intros u. cbn [d_alive]. destruct (Nat.eq_dec u v) as [->|Nu].
      * rewrite setv_eq. auto.
      * rewrite !setv_neq by auto. reflexivity.
  - destruct P as [P1 P2]. destruct (alive_get _ _ _ I P1) as [o E]. rewrite E. cbn [bind].
    do 2 eexists. split; [reflexivity|]. destruct k.
    + destruct (P2 eq_refl) as [fd H]. apply (i_owns _ _ I) in H as (o' & E' & O & F & _).
      rewrite E in E'. injection E' as <-.
      eapply finv_ext; [exact I|..]; try reflexivity.
      intros u. cbn [fput w_vars]. destruct (Nat.eq_dec u v) as [->|Nu].
      * rewrite setv_eq, E. destruct o. cbn in *. congruence.
      * rewrite setv_neq by auto. reflexivity.
    + apply (disown_inv w d v o); auto.
  - destruct (alive_get _ _ _ I P) as [o E]. rewrite E. cbn [bind].
    do 2 eexists. split; [reflexivity|]. apply release_inv; auto.
  - destruct P as [P1 P2]. do 2 eexists. split; [reflexivity|].
    constructor; cbn [w_vars w_open d_who d_alive].
    + apply (i_alive _ _ I).
    + intros v x. destruct (Z.eq_dec x fd) as [->|N].
      * rewrite setz_eq. rewrite <- (i_owns _ _ I). split; congruence.
      * rewrite setz_neq by auto. apply (i_owns _ _ I).
    + intros x. destruct (Z.eq_dec x fd) as [->|N].
      * rewrite !setz_eq. split; congruence.
      * rewrite !setz_neq by auto. apply (i_open _ _ I).
    + intros x. destruct (Z.eq_dec x fd) as [->|N]; auto.
      rewrite setz_neq by auto. apply (i_pos _ _ I).
    + apply (i_fd _ _ I).
  - do 2 eexists. split; [reflexivity|].
    constructor; cbn [fclose w_vars w_open d_who d_alive].
    + apply (i_alive _ _ I).
    + intros v x. destruct (Z.eq_dec x fd) as [->|N].
      * rewrite setz_eq. rewrite <- (i_owns _ _ I). split; [discriminate|destruct P; congruence].
      * rewrite setz_neq by auto. apply (i_owns _ _ I).
    + intros x. destruct (Z.eq_dec x fd) as [->|N].
      * rewrite !setz_eq. split; congruence.
      * rewrite !setz_neq by auto. apply (i_open _ _ I).
    + intros x. destruct (Z.eq_dec x fd) as [->|N].
      * rewrite setz_eq. congruence.
      * rewrite setz_neq by auto. apply (i_pos _ _ I).
    + apply (i_fd _ _ I).
Qed.

Lemma frun_ok h : forall w d, finv w d -> all_proper d h ->
  exists w' rs, frun w h = Ok (w', rs) /\ finv w' (duties d h).
Proof.
  induction h as [|c h IH]; intros w d I P; cbn [frun duties].
  - exists w, []. auto.
  - destruct P as [P1 P2]. destruct (fstep_ok w d c I P1) as (w1 & r1 & E1 & I1).
    rewrite E1. cbn [bind fst snd]. destruct (IH w1 _ I1 P2) as (w2 & rs & E2 & I2).
    rewrite E2. cbn [bind fst snd]. exists w2, (r1 :: rs). auto.
Qed.

(** Nothing is lost if owners are spared. *)
Lemma spared_step d c : (forall fd, d_who d fd <> Lost) -> spares_owners d c ->
  forall fd, d_who (duty_step d c) fd <> Lost.
Proof.
  intros N S.
  assert (P : forall who v x fd, (forall z, who z <> Lost) -> x <> Lost -> pass who v x fd <> Lost).
  { intros who v x fd H X. specialize (H fd). unfold pass. destruct (who fd) as [| |t|]; try congruence.
    destruct (Nat.eqb t v); congruence. }
  assert (G : forall who fd o v z, (forall y, who y <> Lost) -> give who fd o v z <> Lost).
  { intros who fd o v z H. unfold give. destruct (_ && _); auto. unfold setz. destruct (z =? fd); [discriminate|auto]. }
  destruct c as [v|v fd owner|v p|v p|v fd owner|v k|v|fd|fd]; cbn [duty_step d_who]; intros z; auto.
  - apply P; [auto|discriminate].
  - cbn in S. assert (Q : forall z, pass (d_who d) v Lost z = d_who d z).
    { intros y. unfold pass. specialize (S y). unfold holds_fd in S. destruct (d_who d y) as [| |t|]; auto.
      destruct (Nat.eqb_spec t v); congruence. }
    destruct (Nat.eqb v p); [rewrite Q; auto|]. apply P; [|discriminate]. intros y. rewrite Q. auto.
  - apply G. intros y. apply P; [auto|discriminate].
  - destruct k; auto. apply P; [auto|discriminate].
  - apply P; [auto|discriminate].
  - unfold setz. destruct (z =? fd); [discriminate|auto].
  - unfold setz. destruct (z =? fd); [discriminate|auto].
Qed.
Lemma spared h : forall d, (forall fd, d_who d fd <> Lost) -> all_spare d h ->
  forall fd, d_who (duties d h) fd <> Lost.
Proof.
  induction h as [|c h IH]; intros d N S; cbn [duties]; auto. destruct S as [S1 S2].
  apply IH; auto. apply spared_step; auto.
Qed.
