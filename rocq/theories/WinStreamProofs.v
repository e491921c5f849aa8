(** Simulation of file streams, pipes and named pipes of Windows by the file streams of
    [FileOwnerModel]. *)
From Coq Require Import List Arith ZArith Lia Bool.
From Verif Require Import Base FileOwnerModel FileOwnerSpec FileOwnerProofs WinStreamModel WinStreamSpec.
Import ListNotations.
Local Open Scope Z_scope.

(** * File streams *)

Definition like (g : option bool) (x : option xobj) (f : option fobj) : Prop :=
  match x, f with
  | None, None => True
  | Some x, Some f => x_fd x = f_fd f /\ (x_own x = Some (f_own f) \/ g <> None /\ x_fd x = INVALID_DESCRIPTOR)
  | _, _ => False
  end.
Definition sim (g : option bool) (w : xworld) (w' : fworld) : Prop :=
  (forall v, like g (x_vars w v) (w_vars w' v)) /\ (forall fd, x_open w fd = w_open w' fd).

Definition same (g : option bool) (a : outcome (xworld * Z)) (b : outcome (fworld * Z)) : Prop :=
  match a, b with
  | Ok (w, r), Ok (w', r') => r = r' /\ sim g w w'
  | UB, UB => True
  | _, _ => False
  end.

Lemma like_set g f f' v x y : (forall u, like g (f u) (f' u)) -> like g x y ->
  forall u, like g (setv f v x u) (setv f' v y u).
Proof. intros H K u. unfold setv. destruct (Nat.eqb u v); auto. Qed.
Lemma like_put g w w' v x y : sim g w w' -> like g x y -> sim g (xput w v x) (fput w' v y).
Proof. intros [A B] K. split; [apply like_set; assumption|exact B]. Qed.

Lemma like_release g w w' x f : sim g w w' -> like g (Some x) (Some f) ->
  exists w1, xrelease g w x = Ok w1 /\ sim g w1 (release w' f).
Proof.
  intros [A B] [E K]. unfold xrelease, release. rewrite <- E.
  destruct K as [K|[K L]].
  - rewrite K. cbn [rdg bind]. eexists. split; [reflexivity|].
    destruct (f_own f && negb (x_fd x =? INVALID_DESCRIPTOR)); split; cbn; auto.
    intro fd. unfold setz. destruct (fd =? x_fd x); auto.
  - rewrite L. cbn. rewrite !andb_false_r.
    assert (X : exists b, rdg g (x_own x) = Ok b).
    { unfold rdg. destruct (x_own x) as [b|]; [eauto|]. destruct g as [b|]; [eauto|congruence]. }
    destruct X as [b X]. rewrite X. cbn [bind]. rewrite andb_false_r. eexists. split; [reflexivity|]. split; auto.
Qed.

Lemma like_move g x f : like g (Some x) (Some f) ->
  exists b, rdg g (x_own x) = Ok b /\ like g (Some (XObj (x_fd x) (Some b))) (Some f).
Proof.
  intros [E [K|[K L]]].
  - exists (f_own f). rewrite K. split; [reflexivity|]. split; [exact E|left; reflexivity].
  - unfold rdg. destruct (x_own x) as [b|].
    + exists b. split; [reflexivity|]. split; [exact E|right; auto].
    + destruct g as [b|]; [|congruence]. exists b. split; [reflexivity|]. split; [exact E|right; auto].
Qed.

(** The values are there, or can be had. *)
Definition allowed (sys : system) (g : option bool) (c : fcall) : Prop :=
  match c with FDefault _ => sys = Posix \/ g <> None | _ => True end.

Lemma like_none g : like g (Some (XObj INVALID_DESCRIPTOR (Some false))) (Some (FObj INVALID_DESCRIPTOR false)).
Proof. split; [reflexivity|left; reflexivity]. Qed.

Lemma xstep_sim sys g w w' c : sim g w w' -> allowed sys g c -> same g (xstep sys g w c) (fstep w' c).
Proof.
  intros S A. pose proof S as [V O].
  destruct c as [v|v fd owner|v p|v p|v fd owner|v k|v|fd|fd]; cbn [xstep fstep]; unfold xplace, fplace, xget, fget.
  - pose proof (V v) as L. destruct (x_vars w v), (w_vars w' v); cbn in L; try contradiction; cbn [bind]; [exact I|].
    split; [reflexivity|]. apply like_put; [exact S|]. split; [reflexivity|]. cbn. destruct sys; [left; reflexivity|].
    right. destruct A as [A|A]; [discriminate|]. auto.
  - pose proof (V v) as L. destruct (x_vars w v), (w_vars w' v); cbn in L; try contradiction; cbn [bind]; [exact I|].
    split; [reflexivity|]. apply like_put; [exact S|]. split; [reflexivity|left; reflexivity].
  - pose proof (V v) as L. destruct (x_vars w v), (w_vars w' v); cbn in L; try contradiction; cbn [bind]; [exact I|].
    pose proof (V p) as M. destruct (x_vars w p) as [x|], (w_vars w' p) as [f|]; cbn in M; try contradiction; cbn [bind]; [|exact I].
    destruct (like_move g x f M) as [b [E K]]. rewrite E. cbn [bind].
    split; [reflexivity|]. apply like_put; [|apply like_none]. apply like_put; assumption.
  - pose proof (V v) as L. destruct (x_vars w v) as [x0|], (w_vars w' v) as [f0|]; cbn in L; try contradiction; cbn [bind]; [|exact I].
    pose proof (V p) as M. destruct (x_vars w p) as [x|], (w_vars w' p) as [f|]; cbn in M; try contradiction; cbn [bind]; [|exact I].
    destruct (like_move g x f M) as [b [E K]]. rewrite E. cbn [bind].
    split; [reflexivity|]. apply like_put; [|apply like_none]. apply like_put; assumption.
  - pose proof (V v) as M. destruct (x_vars w v) as [x|], (w_vars w' v) as [f|]; cbn in M; try contradiction; cbn [bind]; [|exact I].
    destruct (like_release g w w' x f S M) as [w1 [E K]]. rewrite E. cbn [bind].
    split; [reflexivity|]. apply like_put; [exact K|]. split; [reflexivity|left; reflexivity].
  - pose proof (V v) as M. destruct (x_vars w v) as [x|], (w_vars w' v) as [f|]; cbn in M; try contradiction; cbn [bind]; [|exact I].
    destruct M as [M _]. split; [exact M|]. apply like_put; [exact S|]. split; [exact M|left; reflexivity].
  - pose proof (V v) as M. destruct (x_vars w v) as [x|], (w_vars w' v) as [f|]; cbn in M; try contradiction; cbn [bind]; [|exact I].
    destruct (like_release g w w' x f S M) as [w1 [E K]]. rewrite E. cbn [bind].
    split; [reflexivity|]. apply like_put; [exact K|]. exact I.
  - split; [reflexivity|]. split; [exact V|]. intro z. cbn. unfold setz. destruct (z =? fd); auto.
  - split; [reflexivity|]. split; [exact V|]. intro z. cbn. unfold setz. destruct (z =? fd); auto.
Qed.

Lemma xrun_sim sys g h : forall w w', sim g w w' -> Forall (allowed sys g) h ->
  match xrun sys g w h, frun w' h with
  | Ok (w, rs), Ok (w', rs') => rs = rs' /\ sim g w w'
  | UB, UB => True
  | _, _ => False
  end.
Proof.
  induction h as [|c h IH]; intros w w' S A; cbn [xrun frun].
  - auto.
  - inversion A; subst. pose proof (xstep_sim sys g w w' c S H1) as K. unfold same in K.
    destruct (xstep sys g w c) as [[w1 r]| |], (fstep w' c) as [[w1' r']| |]; try contradiction; cbn [bind]; [|exact I].
    destruct K as [K1 K2]. cbn [fst snd]. specialize (IH w1 w1' K2 H2).
    destruct (xrun sys g w1 h) as [[w2 rs]| |], (frun w1' h) as [[w2' rs']| |]; try contradiction; cbn [bind]; [|exact I].
    destruct IH as [I1 I2]. cbn. split; [congruence|exact I2].
Qed.

Lemma start_sim g : sim g x_start f_start.
Proof. split; intro; reflexivity. Qed.

(** * PipeStream *)

Definition tr (x : qholder) : holder :=
  match x with
  | QClosed => Closed
  | QUser => User
  | QReading v => Stream (reader_of v)
  | QWriting v => Stream (writer_of v)
  | QLost => Lost
  end.

Record qrel (q : qduty) (d : duty) : Prop := {
  qr_who : forall fd, d_who d fd = tr (qd_who q fd);
  qr_reader : forall v, d_alive d (reader_of v) = qd_alive q v;
  qr_writer : forall v, d_alive d (writer_of v) = qd_alive q v;
  qr_dead : forall v fd, qd_alive q v = false -> qd_who q fd <> QReading v /\ qd_who q fd <> QWriting v
}.

Lemma rw_neq v u : reader_of v <> writer_of u.
Proof. unfold reader_of, writer_of. lia. Qed.
Lemma r_inj v u : reader_of v = reader_of u -> v = u.
Proof. unfold reader_of. lia. Qed.
Lemma w_inj v u : writer_of v = writer_of u -> v = u.
Proof. unfold writer_of. lia. Qed.
Lemma r_eqb v u : Nat.eqb (reader_of v) (reader_of u) = Nat.eqb v u.
Proof. destruct (Nat.eqb_spec v u); destruct (Nat.eqb_spec (reader_of v) (reader_of u)); unfold reader_of in *; congruence || lia. Qed.
Lemma w_eqb v u : Nat.eqb (writer_of v) (writer_of u) = Nat.eqb v u.
Proof. destruct (Nat.eqb_spec v u); destruct (Nat.eqb_spec (writer_of v) (writer_of u)); unfold writer_of in *; congruence || lia. Qed.
Lemma rw_eqb v u : Nat.eqb (reader_of v) (writer_of u) = false.
Proof. apply Nat.eqb_neq, rw_neq. Qed.
Lemma wr_eqb v u : Nat.eqb (writer_of v) (reader_of u) = false.
Proof. apply Nat.eqb_neq. intro H. symmetry in H. apply (rw_neq _ _ H). Qed.

(** Passing the reading (writing) end. *)
Lemma pass_r who qwho v y : (forall fd, who fd = tr (qwho fd)) ->
  forall fd, pass who (reader_of v) (tr y) fd = tr (qpass qwho (QReading v) y fd).
Proof.
  intros H fd. unfold pass, qpass. rewrite H. destruct (qwho fd); cbn [tr qholder_eqb]; try reflexivity.
  - rewrite r_eqb. destruct (Nat.eqb v0 v); reflexivity.
  - rewrite wr_eqb. reflexivity.
Qed.
Lemma pass_w who qwho v y : (forall fd, who fd = tr (qwho fd)) ->
  forall fd, pass who (writer_of v) (tr y) fd = tr (qpass qwho (QWriting v) y fd).
Proof.
  intros H fd. unfold pass, qpass. rewrite H. destruct (qwho fd); cbn [tr qholder_eqb]; try reflexivity.
  - rewrite rw_eqb. reflexivity.
  - rewrite w_eqb. destruct (Nat.eqb v0 v); reflexivity.
Qed.
Lemma give_r who qwho fd o v : (forall fd, who fd = tr (qwho fd)) ->
  forall z, give who fd o (reader_of v) z = tr (qgive qwho fd o (QReading v) z).
Proof. intros H z. unfold give, qgive. destruct (o && (0 <=? fd)); [|apply H]. unfold setz. destruct (z =? fd); [reflexivity|apply H]. Qed.
Lemma give_w who qwho fd o v : (forall fd, who fd = tr (qwho fd)) ->
  forall z, give who fd o (writer_of v) z = tr (qgive qwho fd o (QWriting v) z).
Proof. intros H z. unfold give, qgive. destruct (o && (0 <=? fd)); [|apply H]. unfold setz. destruct (z =? fd); [reflexivity|apply H]. Qed.
Lemma setz_tr who qwho fd x : (forall fd, who fd = tr (qwho fd)) ->
  forall z, setz who fd (tr x) z = tr (setz qwho fd x z).
Proof. intros H z. unfold setz. destruct (z =? fd); [reflexivity|apply H]. Qed.

Lemma alive_r (al qal : nat -> bool) v b : (forall u, al (reader_of u) = qal u) -> forall u, setv (setv al (reader_of v) b) (writer_of v) b (reader_of u) = setv qal v b u.
Proof. intros H u. unfold setv. rewrite rw_eqb, r_eqb. destruct (Nat.eqb u v); auto. Qed.
Lemma alive_w (al qal : nat -> bool) v b : (forall u, al (writer_of u) = qal u) -> forall u, setv (setv al (reader_of v) b) (writer_of v) b (writer_of u) = setv qal v b u.
Proof. intros H u. unfold setv. rewrite wr_eqb, w_eqb. destruct (Nat.eqb u v); auto. Qed.
Lemma alive_r' (al qal : nat -> bool) v b : (forall u, al (reader_of u) = qal u) -> forall u, setv (setv al (writer_of v) b) (reader_of v) b (reader_of u) = setv qal v b u.
Proof. intros H u. unfold setv. rewrite rw_eqb, r_eqb. destruct (Nat.eqb u v); auto. Qed.
Lemma alive_w' (al qal : nat -> bool) v b : (forall u, al (writer_of u) = qal u) -> forall u, setv (setv al (writer_of v) b) (reader_of v) b (writer_of u) = setv qal v b u.
Proof. intros H u. unfold setv. rewrite wr_eqb, w_eqb. destruct (Nat.eqb u v); auto. Qed.

Lemma tr_inj x y : tr x = tr y -> x = y.
Proof.
  destruct x, y; cbn [tr]; intro H; try discriminate; try reflexivity; injection H as H.
  - f_equal. apply r_inj. exact H.
  - exfalso. apply (rw_neq _ _ H).
  - symmetry in H. exfalso. apply (rw_neq _ _ H).
  - f_equal. apply w_inj. exact H.
Qed.
Lemma who_q q d fd x : qrel q d -> qd_who q fd = x -> d_who d fd = tr x.
Proof. intros R <-. apply (qr_who _ _ R). Qed.

Lemma test_made sys made : pipe_test sys (pipe_result sys made) = match made with Some _ => true | None => false end.
Proof. destruct sys, made; reflexivity. Qed.

Lemma pass_nothing who u x : (forall z, who z <> Stream u) -> forall z, pass who u x z = who z.
Proof.
  intros H z. unfold pass. specialize (H z). destruct (who z) as [| |t|] eqn:E; auto.
  destruct (Nat.eqb_spec t u); congruence.
Qed.
Lemma qpass_cases who x y fd : qpass who x y fd = y /\ who fd = x \/ qpass who x y fd = who fd /\ who fd <> x.
Proof.
  unfold qpass. destruct (qholder_eqb (who fd) x) eqn:E.
  - left. split; [reflexivity|]. destruct (who fd), x; cbn in E; try discriminate; try reflexivity; apply Nat.eqb_eq in E; congruence.
  - right. split; [reflexivity|]. intro H. rewrite H in E. destruct x; cbn in E; try discriminate; rewrite Nat.eqb_refl in E; discriminate.
Qed.
Lemma qgive_cases who fd o x z : qgive who fd o x z = x /\ z = fd \/ qgive who fd o x z = who z.
Proof. unfold qgive. destruct (o && (0 <=? fd)); [|auto]. unfold setz. destruct (Z.eqb_spec z fd); auto. Qed.
Lemma setv_false (al : nat -> bool) v u : setv al v true u = false -> u <> v /\ al u = false.
Proof. unfold setv. destruct (Nat.eqb_spec u v); [discriminate|auto]. Qed.

(** A proper call on a pipe is a proper sequence of calls on its members. *)
Lemma members_proper sys q d c : qrel q d -> qduty_proper q c ->
  all_proper d (member_calls sys c) /\ qrel (qduty_step q c) (duties d (member_calls sys c)).
Proof.
  intros R P. pose proof R as [W AR AW DD].
  destruct c as [v made|v r rown wr wown|v p|v p|v fd owner|v fd owner|v co|v co|v|v|fd|fd]; cbn [qduty_proper] in P.
  - destruct P as [P1 P2]. unfold member_calls. rewrite test_made.
    assert (D1 : d_alive d (reader_of v) = false) by (rewrite AR; exact P1).
    assert (D2 : setv (d_alive d) (reader_of v) true (writer_of v) = false).
    { unfold setv. rewrite wr_eqb, AW. exact P1. }
    destruct made as [[a b]|].
    + destruct P2 as [N [P2 [P3 [P4 P5]]]]. cbn [app all_proper duties duty_proper duty_step d_alive d_who].
      assert (WA : d_who d a = Closed) by (rewrite W, P4; reflexivity).
      assert (WB : d_who d b = Closed) by (rewrite W, P5; reflexivity).
      split.
      * repeat (split; [assumption|]). split; [exact (conj P2 WA)|]. split; [split; [exact P3|]|].
        { rewrite setz_neq by auto. exact WB. }
        split.
        { split; [rewrite setv_neq by apply rw_neq; apply setv_eq|].
          intros _. right. rewrite setz_neq by exact N. apply setz_eq. }
        split; [|exact I]. split; [apply setv_eq|]. intros _. right. unfold give. cbn [andb].
        replace (0 <=? a) with true by (symmetry; apply Z.leb_le; exact P2).
        rewrite setz_neq by auto. unfold pass. rewrite setz_eq. reflexivity.
      * constructor; cbn [d_who d_alive qduty_step qd_who qd_alive].
        -- intros z. unfold give. cbn [andb].
           replace (0 <=? a) with true by (symmetry; apply Z.leb_le; exact P2).
           replace (0 <=? b) with true by (symmetry; apply Z.leb_le; exact P3).
           destruct (Z.eq_dec z b) as [Ez|Nb]; [subst z; rewrite !setz_eq; reflexivity|].
           rewrite (setz_neq _ b) by exact Nb. rewrite (setz_neq (setz _ a _) b) by exact Nb.
           destruct (Z.eq_dec z a) as [Ez|Na].
           { subst z. unfold pass at 1. rewrite !setz_eq. rewrite rw_eqb. reflexivity. }
           rewrite (setz_neq _ a) by exact Na.
           assert (X : forall u, u = reader_of v \/ u = writer_of v -> d_who d z <> Stream u).
           { intros u U H. rewrite W in H. destruct (DD v z P1) as [X1 X2].
             destruct U; subst u; [apply X1|apply X2]; apply tr_inj; exact H. }
           assert (Y : forall z0, z0 = z -> pass (setz (setz (d_who d) a User) b User) (reader_of v) Closed z0 = d_who d z).
           { intros z0 ->. unfold pass. rewrite (setz_neq _ b) by exact Nb. rewrite (setz_neq _ a) by exact Na.
             specialize (X _ (or_introl eq_refl)). destruct (d_who d z) as [| |t|]; auto. destruct (Nat.eqb_spec t (reader_of v)); congruence. }
           unfold pass at 1. rewrite setz_neq by exact Na. rewrite Y by reflexivity.
           specialize (X _ (or_intror eq_refl)). rewrite <- W. destruct (d_who d z) as [| |t|] eqn:E; auto.
           destruct (Nat.eqb_spec t (writer_of v)); congruence.
        -- apply alive_r. exact AR.
        -- apply alive_w. exact AW.
        -- intros u z U. apply setv_false in U as [U1 U2]. unfold setz.
           destruct (z =? b); [split; congruence|]. destruct (z =? a); [split; congruence|]. apply DD. exact U2.
    + cbn [app all_proper duties duty_proper duty_step d_alive d_who]. split; [auto|].
      constructor; cbn [d_who d_alive qduty_step qd_who qd_alive].
      * exact W.
      * apply alive_r. exact AR.
      * apply alive_w. exact AW.
      * intros u z U. apply setv_false in U as [U1 U2]. apply DD. exact U2.
  - destruct P as [P1 [P2 [P3 P4]]]. cbn [member_calls all_proper duties duty_proper duty_step d_alive d_who]. split.
    + split; [split; [rewrite AR; exact P1|]|].
      { intro H. destruct (P2 H) as [P|P]; [auto|]. right. rewrite W, P. reflexivity. }
      split; [|exact I]. split; [unfold setv; rewrite wr_eqb, AW; exact P1|].
      intro H. destruct (P3 H) as [P|P]; [auto|]. right. unfold give. destruct (rown && (0 <=? r)).
      * rewrite setz_neq by auto. rewrite W, P. reflexivity.
      * rewrite W, P. reflexivity.
    + constructor; cbn [d_who d_alive qduty_step qd_who qd_alive].
      * apply give_w. apply give_r. exact W.
      * apply alive_r. exact AR.
      * apply alive_w. exact AW.
      * intros u z U. apply setv_false in U as [U1 U2].
        destruct (qgive_cases (qgive (qd_who q) r rown (QReading v)) wr wown (QWriting v) z) as [[E _]|E]; rewrite E; [split; congruence|].
        destruct (qgive_cases (qd_who q) r rown (QReading v) z) as [[F _]|F]; rewrite F; [split; congruence|]. apply DD. exact U2.
  - destruct P as [P1 P2]. assert (N : v <> p) by congruence.
    cbn [member_calls all_proper duties duty_proper duty_step d_alive d_who]. split.
    + split; [split; [rewrite AR; exact P1|rewrite AR; exact P2]|]. split; [|exact I].
      unfold setv. rewrite !wr_eqb, !AW. auto.
    + constructor; cbn [d_who d_alive qduty_step qd_who qd_alive].
      * change (Stream (reader_of v)) with (tr (QReading v)). change (Stream (writer_of v)) with (tr (QWriting v)).
        apply pass_w. apply pass_r. exact W.
      * apply alive_r. exact AR.
      * apply alive_w. exact AW.
      * intros u z U. apply setv_false in U as [U1 U2].
        destruct (qpass_cases (qpass (qd_who q) (QReading p) (QReading v)) (QWriting p) (QWriting v) z) as [[E _]|[E _]]; rewrite E; [split; congruence|].
        destruct (qpass_cases (qd_who q) (QReading p) (QReading v) z) as [[F _]|[F _]]; rewrite F; [split; congruence|]. apply DD. exact U2.
  - destruct P as [P1 P2].
    cbn [member_calls all_proper duties duty_proper duty_step d_alive d_who]. split.
    + split; [rewrite !AR; auto|]. split; [rewrite !AW; auto|exact I].
    + rewrite r_eqb, w_eqb.
      assert (L : forall z, pass (pass (d_who d) (reader_of v) Lost) (writer_of v) Lost z
                  = tr (qpass (qpass (qd_who q) (QReading v) QLost) (QWriting v) QLost z)).
      { change Lost with (tr QLost). apply pass_w. apply pass_r. exact W. }
      constructor; cbn [d_who d_alive qduty_step qd_who qd_alive]; [|exact AR|exact AW|].
      * destruct (Nat.eqb_spec v p) as [->|N]; [exact L|].
        intros z. rewrite <- (pass_w _ _ p (QWriting v) (pass_r _ _ p (QReading v) L)). cbn [tr].
        unfold pass. destruct (d_who d z) as [| |t|]; try reflexivity.
        destruct (Nat.eqb_spec t (reader_of v)) as [->|N1]; [|].
        -- rewrite ?rw_eqb. reflexivity.
        -- destruct (Nat.eqb_spec t (reader_of p)) as [->|N2].
           ++ rewrite ?rw_eqb. destruct (Nat.eqb_spec (reader_of p) (reader_of p)); [|congruence]. rewrite !rw_eqb. reflexivity.
           ++ destruct (Nat.eqb_spec t (writer_of v)) as [->|N3]; [reflexivity|].
              destruct (Nat.eqb_spec t (reader_of p)); [congruence|]. reflexivity.
      * intros u z U. assert (u <> v) by congruence.
        assert (NL : qpass (qpass (qd_who q) (QReading v) QLost) (QWriting v) QLost z <> QReading u
                  /\ qpass (qpass (qd_who q) (QReading v) QLost) (QWriting v) QLost z <> QWriting u).
        { destruct (qpass_cases (qpass (qd_who q) (QReading v) QLost) (QWriting v) QLost z) as [[E _]|[E _]]; rewrite E; [split; congruence|].
          destruct (qpass_cases (qd_who q) (QReading v) QLost z) as [[F _]|[F _]]; rewrite F; [split; congruence|]. apply DD. exact U. }
        destruct (Nat.eqb v p); [exact NL|].
        match goal with |- context [qpass (qpass ?l (QReading p) (QReading v)) (QWriting p) (QWriting v) z] =>
          destruct (qpass_cases (qpass l (QReading p) (QReading v)) (QWriting p) (QWriting v) z) as [[E _]|[E _]]; rewrite E; [split; congruence|];
          destruct (qpass_cases l (QReading p) (QReading v) z) as [[F _]|[F _]]; rewrite F; [split; congruence|exact NL]
        end.
  - destruct P as [P1 P2]. cbn [member_calls all_proper duties duty_proper duty_step d_alive d_who]. split.
    + split; [|exact I]. split; [rewrite AR; exact P1|]. intro H. destruct (P2 H) as [P|P]; [auto|]. right. rewrite W, P. reflexivity.
    + constructor; cbn [d_who d_alive qduty_step qd_who qd_alive]; [|exact AR|exact AW|].
      * apply give_r. apply (pass_r _ _ v QClosed W).
      * intros u z U. assert (u <> v) by congruence.
        destruct (qgive_cases (qpass (qd_who q) (QReading v) QClosed) fd owner (QReading v) z) as [[E _]|E]; rewrite E; [split; congruence|].
        destruct (qpass_cases (qd_who q) (QReading v) QClosed z) as [[F _]|[F _]]; rewrite F; [split; congruence|]. apply DD. exact U.
  - destruct P as [P1 P2]. cbn [member_calls all_proper duties duty_proper duty_step d_alive d_who]. split.
    + split; [|exact I]. split; [rewrite AW; exact P1|]. intro H. destruct (P2 H) as [P|P]; [auto|]. right. rewrite W, P. reflexivity.
    + constructor; cbn [d_who d_alive qduty_step qd_who qd_alive]; [|exact AR|exact AW|].
      * apply give_w. apply (pass_w _ _ v QClosed W).
      * intros u z U. assert (u <> v) by congruence.
        destruct (qgive_cases (qpass (qd_who q) (QWriting v) QClosed) fd owner (QWriting v) z) as [[E _]|E]; rewrite E; [split; congruence|].
        destruct (qpass_cases (qd_who q) (QWriting v) QClosed z) as [[F _]|[F _]]; rewrite F; [split; congruence|]. apply DD. exact U.
  - destruct P as [P1 P2]. cbn [member_calls all_proper duties duty_proper duty_step d_alive d_who]. split.
    + split; [|exact I]. split; [rewrite AR; exact P1|]. intro H. destruct (P2 H) as [z P]. exists z. unfold holds_fd. rewrite W, P. reflexivity.
    + constructor; cbn [d_who d_alive qduty_step qd_who qd_alive]; [|exact AR|exact AW|].
      * destruct co; [exact W|apply (pass_r _ _ v QUser W)].
      * intros u z U. destruct co; [apply DD; exact U|].
        destruct (qpass_cases (qd_who q) (QReading v) QUser z) as [[F _]|[F _]]; rewrite F; [split; congruence|]. apply DD. exact U.
  - destruct P as [P1 P2]. cbn [member_calls all_proper duties duty_proper duty_step d_alive d_who]. split.
    + split; [|exact I]. split; [rewrite AW; exact P1|]. intro H. destruct (P2 H) as [z P]. exists z. unfold holds_fd. rewrite W, P. reflexivity.
    + constructor; cbn [d_who d_alive qduty_step qd_who qd_alive]; [|exact AR|exact AW|].
      * destruct co; [exact W|apply (pass_w _ _ v QUser W)].
      * intros u z U. destruct co; [apply DD; exact U|].
        destruct (qpass_cases (qd_who q) (QWriting v) QUser z) as [[F _]|[F _]]; rewrite F; [split; congruence|]. apply DD. exact U.
  - cbn. split; [exact I|]. exact R.
  - cbn [member_calls all_proper duties duty_proper duty_step d_alive d_who]. split.
    + split; [rewrite AW; exact P|]. split; [|exact I]. unfold setv. rewrite rw_eqb, AR. exact P.
    + assert (SW : forall z, pass (pass (d_who d) (writer_of v) Closed) (reader_of v) Closed z
                 = tr (qpass (qpass (qd_who q) (QReading v) QClosed) (QWriting v) QClosed z)).
      { intro z. transitivity (tr (qpass (qpass (qd_who q) (QWriting v) QClosed) (QReading v) QClosed z));
          [exact (pass_r _ _ v QClosed (pass_w _ _ v QClosed W) z)|f_equal].
        unfold qpass. destruct (qd_who q z); cbn; try reflexivity.
        - destruct (Nat.eqb v0 v) eqn:E; cbn; try rewrite E; reflexivity.
        - destruct (Nat.eqb v0 v) eqn:E; cbn; try rewrite E; reflexivity. }
      constructor; cbn [d_who d_alive qduty_step qd_who qd_alive].
      * exact SW.
      * apply alive_r'. exact AR.
      * apply alive_w'. exact AW.
      * intros u z U. destruct (qpass_cases (qpass (qd_who q) (QReading v) QClosed) (QWriting v) QClosed z) as [[E _]|[E NE]]; rewrite E; [split; congruence|].
        destruct (qpass_cases (qd_who q) (QReading v) QClosed z) as [[F _]|[F NF]]; rewrite F in *; [split; congruence|].
        unfold setv in U. destruct (Nat.eqb_spec u v) as [Eu|Nu]; [subst u; auto|]. apply DD. exact U.
  - destruct P as [P1 P2]. cbn [member_calls all_proper duties duty_proper duty_step d_alive d_who]. split.
    + split; [|exact I]. split; [exact P1|]. rewrite W, P2. reflexivity.
    + constructor; cbn [d_who d_alive qduty_step qd_who qd_alive]; [|exact AR|exact AW|].
      * apply (setz_tr _ _ fd QUser W).
      * intros u z U. unfold setz. destruct (z =? fd); [split; congruence|]. apply DD. exact U.
  - cbn [member_calls all_proper duties duty_proper duty_step d_alive d_who]. split.
    + split; [|exact I]. rewrite W. destruct P as [P|P]; rewrite P; auto.
    + constructor; cbn [d_who d_alive qduty_step qd_who qd_alive]; [|exact AR|exact AW|].
      * apply (setz_tr _ _ fd QClosed W).
      * intros u z U. unfold setz. destruct (z =? fd); [split; congruence|]. apply DD. exact U.
Qed.

(** What may be asked has a value. *)
Definition told_ok (w : qworld) (q : qduty) : Prop :=
  forall v, qd_alive q v = true -> qd_told q v = true -> exists s, q_status w v = Some (Some s).

Lemma member_allowed sys g c : sys = Posix \/ g <> None -> Forall (allowed sys g) (member_calls sys c).
Proof.
  intro A. apply Forall_forall. intros x _. destruct x; cbn; auto.
Qed.

Lemma qstep_ok sys g w w' q d c : sys = Posix \/ g <> None ->
  sim g (q_files w) w' -> finv w' d -> qrel q d -> told_ok w q -> qduty_proper q c ->
  exists w1 w1' r, qstep sys g w c = Ok (w1, r) /\ sim g (q_files w1) w1'
    /\ finv w1' (duties d (member_calls sys c)) /\ qrel (qduty_step q c) (duties d (member_calls sys c)) /\ told_ok w1 (qduty_step q c).
Proof.
  intros A S F R T P. destruct (members_proper sys q d c R P) as [M1 M2].
  destruct (frun_ok _ _ _ F M1) as (w1' & rs & E & F1).
  pose proof (xrun_sim sys g _ _ _ S (member_allowed sys g c A)) as X. rewrite E in X.
  destruct (xrun sys g (q_files w) (member_calls sys c)) as [[x1 rs1]| |] eqn:EX; try contradiction.
  destruct X as [-> S1]. unfold qstep. rewrite EX. cbn [bind].
  destruct c; cbn [fst snd].
  9:{ cbn in P. destruct P as [P1 P2]. destruct (T v P1 P2) as [s Es]. rewrite Es.
      exists w, w1', s. split; [reflexivity|]. cbn in EX, E. injection EX as <- <-. injection E as <-. auto. }
  all: eexists (QWorld x1 _), w1', _; split; [reflexivity|]; cbn [q_files q_status];
    split; [exact S1|]; split; [exact F1|]; split; [exact M2|].
  all: intros u; unfold new_status, qduty_step.
  all: try (cbn [qd_alive qd_told q_status]; exact (T u)).
  - destruct made as [[a b]|]; cbn [qd_alive qd_told q_status]; unfold setv; destruct (Nat.eqb u v); intros U1 U2; eauto.
  - cbn [qd_alive qd_told q_status]. unfold setv. destruct (Nat.eqb u v); intros U1 U2; eauto.
  - cbn [qd_alive qd_told q_status]. unfold setv. destruct (Nat.eqb u v); intros U1 U2; [discriminate|eauto].
  - cbn [qd_alive qd_told q_status]. unfold setv. destruct (Nat.eqb u v); intros U1 U2; eauto.
  - cbn [qd_alive qd_told q_status]. unfold setv. destruct (Nat.eqb u v); intros U1 U2; [discriminate|eauto].
Qed.

Lemma qrun_ok sys g h : sys = Posix \/ g <> None -> forall w w' q d,
  sim g (q_files w) w' -> finv w' d -> qrel q d -> told_ok w q -> all_qproper q h ->
  exists w1 w1' d1 rs, qrun sys g w h = Ok (w1, rs) /\ sim g (q_files w1) w1' /\ finv w1' d1 /\ qrel (qduties q h) d1.
Proof.
  intro A. induction h as [|c h IH]; intros w w' q d S F R T P; cbn [qrun qduties].
  - exists w, w', d, []. auto.
  - destruct P as [P1 P2]. destruct (qstep_ok sys g w w' q d c A S F R T P1) as (w1 & w1' & r & E & S1 & F1 & R1 & T1).
    rewrite E. cbn [bind fst snd]. destruct (IH _ _ _ _ S1 F1 R1 T1 P2) as (w2 & w2' & d2 & rs & E2 & K).
    rewrite E2. cbn [bind fst snd]. exists w2, w2', d2, (r :: rs). auto.
Qed.

Lemma q_start_rel : qrel qduty_start duty_start.
Proof. constructor; intros; try reflexivity. split; discriminate. Qed.

(** * Named pipes *)

Section Named.
  Variable g : option bool.
  Variable kind : nat -> nkind.

  Definition nlike (h : handles) (k : nkind) (o : option nobj) (f : option fobj) : Prop :=
    match o, f with
    | None, None => True
    | Some o, Some f =>
        n_kind o = k /\ x_fd (n_file o) = f_fd f
        /\ (x_own (n_file o) = Some (f_own f) \/ f_fd f = -1 /\ exists b, x_own (n_file o) = Some b)
        /\ (f_own f = true \/ f_fd f = -1)
        /\ (exists b, n_del o = Some b)
        /\ (k = NReader -> f_fd f <> -1 -> h (f_fd f) = Some Server)
    | _, _ => False
    end.
  Record nsim (w : nworld) (w' : fworld) : Prop := {
    ns_vars : forall v, nlike (n_open w) (kind v) (n_vars w v) (w_vars w' v);
    ns_open : forall fd, w_open w' fd = true <-> n_open w fd <> None
  }.

  Lemma ns_closed w w' d fd : nsim w w' -> finv w' d -> (n_open w fd = None <-> d_who d fd = Closed).
  Proof.
    intros S F. split; intro H.
    - destruct (d_who d fd) eqn:E; auto; exfalso.
      all: assert (X : w_open w' fd = true) by (apply (i_open _ _ F); congruence); apply (ns_open _ _ S) in X; congruence.
    - destruct (n_open w fd) eqn:E; auto. exfalso.
      assert (X : w_open w' fd = true) by (apply (ns_open _ _ S); congruence). apply (i_open _ _ F) in X. auto.
  Qed.

  Lemma nlike_ext h h' k o f : (forall z, h' z = h z) -> nlike h k o f -> nlike h' k o f.
  Proof. intros E. unfold nlike. destruct o, f; auto. intros (A & B & C & D & F & G). rewrite E. auto 10. Qed.
  Lemma nsim_ext w1 w2 w' : (forall v, n_vars w2 v = n_vars w1 v) -> (forall z, n_open w2 z = n_open w1 z) ->
    nsim w1 w' -> nsim w2 w'.
  Proof.
    intros V O [A B]. constructor.
    - intro v. rewrite V. eapply nlike_ext; [exact O|apply A].
    - intro fd. rewrite O. apply B.
  Qed.
  Lemma nsim_ext' w w1' w2' : (forall v, w_vars w2' v = w_vars w1' v) -> (forall z, w_open w2' z = w_open w1' z) ->
    nsim w w1' -> nsim w w2'.
  Proof.
    intros V O [A B]. constructor.
    - intro v. rewrite V. apply A.
    - intro fd. rewrite O. apply B.
  Qed.

  Lemma put_sim w w' v o f : nsim w w' -> nlike (n_open w) (kind v) o f -> nsim (nput w v o) (fput w' v f).
  Proof.
    intros [A B] K. constructor; cbn [nput fput n_vars n_open w_vars w_open]; [|exact B].
    intro u. unfold setv. destruct (Nat.eqb_spec u v) as [E|N]; [rewrite E; exact K|apply A].
  Qed.

  (** The handle of an object is its own. *)
  Lemma its_own w w' d u f : nsim w w' -> finv w' d -> w_vars w' u = Some f -> f_fd f <> -1 -> d_who d (f_fd f) = Stream u.
  Proof.
    intros [A B] F E N. specialize (A u). rewrite E in A. destruct (n_vars w u) as [o|]; [|contradiction].
    destruct A as (_ & _ & _ & D & _). destruct D as [D|D]; [|contradiction].
    apply (i_owns _ _ F). exists f. split; [exact E|]. split; [exact D|]. split; [reflexivity|].
    destruct (i_fd _ _ F u f E D); [contradiction|assumption].
  Qed.

  Lemma open_sim w w' d fd k : nsim w w' -> finv w' d -> d_who d fd = Closed ->
    nsim (NWorld (n_vars w) (setz (n_open w) fd (Some k))) (FWorld (w_vars w') (setz (w_open w') fd true)).
  Proof.
    intros S F C. constructor; cbn [n_vars n_open w_vars w_open].
    - intro u. pose proof (ns_vars _ _ S u) as A. destruct (w_vars w' u) as [f|] eqn:E; destruct (n_vars w u) as [o|]; cbn in *; try contradiction; [|exact I].
      destruct A as (A1 & A2 & A3 & A4 & A5 & A6). repeat (split; [assumption|]). intros K N.
      rewrite setz_neq; [auto|]. intro X. pose proof (its_own w w' d u f S F E N) as Y. rewrite X, C in Y. discriminate.
    - intro z. unfold setz. destruct (z =? fd); [split; congruence|apply (ns_open _ _ S)].
  Qed.

  Definition closing (h : handles) (fd : Z) : handles := if fd =? -1 then h else CloseHandle h fd.

  Lemma close_sim w w' d v o f h1 : nsim w w' -> finv w' d -> n_vars w v = Some o -> w_vars w' v = Some f ->
    (forall z, h1 z = closing (n_open w) (f_fd f) z) ->
    forall o1 f1, nlike h1 (kind v) o1 f1 -> nsim (NWorld (setv (n_vars w) v o1) h1) (fput (release w' f) v f1).
  Proof.
    intros S F Eo Ef H o1 f1 K.
    assert (R : release w' f = if f_fd f =? -1 then w' else fclose w' (f_fd f)).
    { pose proof (ns_vars _ _ S v) as A. rewrite Eo, Ef in A. destruct A as (_ & _ & _ & D & _).
      unfold release, INVALID_DESCRIPTOR. destruct (Z.eqb_spec (f_fd f) (-1)) as [E|N].
      - rewrite andb_false_r. reflexivity.
      - destruct D as [D|D]; [|contradiction]. rewrite D. reflexivity. }
    rewrite R. constructor; cbn [n_vars n_open].
    - intro u. assert (V : w_vars (fput (if f_fd f =? -1 then w' else fclose w' (f_fd f)) v f1) u = setv (w_vars w') v f1 u).
      { destruct (f_fd f =? -1); reflexivity. }
      rewrite V. unfold setv. destruct (Nat.eqb_spec u v) as [E|N]; [rewrite E; exact K|].
      pose proof (ns_vars _ _ S u) as A. destruct (w_vars w' u) as [f2|] eqn:E2; destruct (n_vars w u) as [o2|]; cbn in *; try contradiction; [|exact I].
      destruct A as (A1 & A2 & A3 & A4 & A5 & A6). repeat (split; [assumption|]). intros K2 N2.
      rewrite H. unfold closing. destruct (Z.eqb_spec (f_fd f) (-1)) as [Z1|Z1]; [auto|].
      unfold CloseHandle. rewrite setz_neq; [auto|]. intro X.
      pose proof (its_own w w' d u f2 S F E2 N2) as Y1. pose proof (its_own w w' d v f S F Ef Z1) as Y2. rewrite X in Y1. congruence.
    - intro z. rewrite H. unfold closing. destruct (Z.eqb_spec (f_fd f) (-1)) as [Z1|Z1]; cbn [fput w_open fclose].
      + apply (ns_open _ _ S).
      + unfold CloseHandle, setz. destruct (z =? f_fd f); [split; congruence|apply (ns_open _ _ S)].
  Qed.

  Lemma nrelease_eq h k o f : nlike h k (Some o) (Some f) -> nrelease g h (n_file o) = Ok (closing h (f_fd f)).
  Proof.
    intros (A1 & A2 & A3 & A4 & A5 & A6). unfold nrelease, closing, INVALID_DESCRIPTOR. rewrite A2.
    destruct A3 as [A3|[A3 [b B]]].
    - rewrite A3. cbn [rdg bind]. destruct (Z.eqb_spec (f_fd f) (-1)) as [E|N]; [rewrite andb_false_r; reflexivity|].
      destruct A4 as [A4|A4]; [rewrite A4; reflexivity|contradiction].
    - rewrite B, A3. cbn. rewrite andb_false_r. reflexivity.
  Qed.

  Lemma ndestroy_eq w w' d v o f : nsim w w' -> finv w' d -> n_vars w v = Some o -> w_vars w' v = Some f ->
    exists h, ndestroy g (n_open w) o = Ok h /\ forall z, h z = closing (n_open w) (f_fd f) z.
  Proof.
    intros S F Eo Ef. pose proof (ns_vars _ _ S v) as A. rewrite Eo, Ef in A.
    assert (M1 : n_open w (-1) = None).
    { destruct (n_open w (-1)) eqn:E; auto. exfalso.
      assert (X : w_open w' (-1) = true) by (apply (ns_open _ _ S); congruence).
      apply (i_open _ _ F) in X. apply (i_pos _ _ F) in X. lia. }
    pose proof (nrelease_eq _ _ _ _ A) as NR.
    destruct A as (A1 & A2 & A3 & A4 & [del A5] & A6). unfold ndestroy. destruct (n_kind o) eqn:EK.
    - eexists. split; [reflexivity|]. intro z. rewrite A2. unfold destroyNamedReader, closing.
      destruct (Z.eqb_spec (f_fd f) (-1)) as [E|N]; [rewrite E, M1; reflexivity|].
      rewrite A6 by auto. reflexivity.
    - rewrite A5. cbn [rdg bind]. destruct del; [|eauto].
      eexists. split; [reflexivity|]. intro z. rewrite A2. unfold destroyNamedWriter, closing.
      destruct (Z.eqb_spec (f_fd f) (-1)) as [E|N]; [|reflexivity]. rewrite E. unfold CloseHandle, setz.
      destruct (Z.eqb_spec z (-1)) as [Ez|]; [rewrite Ez; congruence|reflexivity].
  Qed.

  Lemma named_get w w' v f : nsim w w' -> w_vars w' v = Some f -> exists o, n_vars w v = Some o.
  Proof. intros S E. pose proof (ns_vars _ _ S v) as A. rewrite E in A. destruct (n_vars w v); [eauto|contradiction]. Qed.
  Lemma named_none w w' v : nsim w w' -> w_vars w' v = None -> n_vars w v = None.
  Proof. intros S E. pose proof (ns_vars _ _ S v) as A. rewrite E in A. destruct (n_vars w v); [contradiction|reflexivity]. Qed.

  Lemma moved h k o f : nlike h k (Some o) (Some f) ->
    exists own del, rdg g (x_own (n_file o)) = Ok own
      /\ match n_kind o with NWriter => rdg g (n_del o) | NReader => Ok false end = Ok del
      /\ nlike h k (Some (NObj (n_kind o) (XObj (x_fd (n_file o)) (Some own)) (Some del))) (Some f)
      /\ nlike h k (Some (NObj (n_kind o) (XObj INVALID_DESCRIPTOR (Some false)) (Some false))) (Some (FObj INVALID_DESCRIPTOR false)).
  Proof.
    intros (A1 & A2 & A3 & A4 & [del A5] & A6).
    assert (X : exists own, rdg g (x_own (n_file o)) = Ok own /\ (own = f_own f \/ f_fd f = -1)).
    { destruct A3 as [A3|[A3 [b B]]]; [rewrite A3|rewrite B]; cbn; eauto. }
    assert (Y : exists del, match n_kind o with NWriter => rdg g (n_del o) | NReader => Ok false end = Ok del).
    { destruct (n_kind o); [eauto|]. rewrite A5. cbn. eauto. }
    destruct X as [own [X1 X2]], Y as [del' Y]. exists own, del'. split; [exact X1|]. split; [exact Y|].
    split; cbn [nlike n_kind n_file n_del x_fd x_own f_fd f_own].
    - split; [exact A1|]. split; [exact A2|]. split; [|split; [exact A4|split; [eauto|exact A6]]].
      destruct X2 as [X2|X2]; [left; congruence|right; eauto].
    - split; [exact A1|]. split; [reflexivity|]. split; [left; reflexivity|]. split; [right; reflexivity|].
      split; [eauto|]. intros _ N. exfalso. apply N. reflexivity.
  Qed.

  Lemma nstep_ok w w' d c : nsim w w' -> finv w' d -> plain kind c -> all_proper d (as_file_calls c) ->
    exists w1 w1' r rs, nstep g w c = Ok (w1, r) /\ frun w' (as_file_calls c) = Ok (w1', rs) /\ nsim w1 w1'.
  Proof.
    intros S F P A. destruct c as [v k|v k del fd|v p|v p|v del fd|v fd owner|v co|v|fd k|fd]; cbn [plain] in P; try contradiction.
    - destruct P as [-> P]. cbn [as_file_calls nstep] in *. unfold nplace. destruct (Z.eqb_spec fd (-1)) as [E|N].
      + cbn [all_proper duty_proper] in A. destruct A as [A _].
        pose proof (dead_get _ _ _ F A) as D. cbn [frun fstep]. unfold fplace. rewrite D, (named_none _ _ _ S D). cbn [bind fst snd].
        do 4 eexists. split; [reflexivity|]. split; [reflexivity|].
        assert (X : nmake (n_open w) (kind v) fd = n_open w) by (rewrite E; reflexivity). rewrite X.
        apply put_sim; [destruct w; exact S|]. cbn. rewrite E. repeat split; eauto. intros _ X'. contradiction.
      + cbn [all_proper duty_proper duty_step d_alive d_who] in A. destruct A as [[A1 A2] [[A3 A4] _]].
        pose proof (dead_get _ _ _ F A3) as D.
        pose proof (open_sim w w' d fd (match kind v with NReader => Server | NWriter => Other end) S F A2) as S1.
        cbn [frun fstep bind fst snd]. unfold fplace. cbn [w_vars]. rewrite D, (named_none _ _ _ S D). cbn [bind fst snd].
        do 4 eexists. split; [reflexivity|]. split; [reflexivity|].
        assert (X : nmake (n_open w) (kind v) fd = setz (n_open w) fd (Some (match kind v with NReader => Server | NWriter => Other end))).
        { unfold nmake, INVALID_DESCRIPTOR. destruct (Z.eqb_spec fd (-1)); [contradiction|reflexivity]. }
        rewrite X. apply put_sim; [exact S1|]. cbn. repeat split; eauto. intros K _. rewrite K. apply setz_eq.
    - cbn [as_file_calls all_proper duty_proper] in A. destruct A as [[A1 A2] _].
      pose proof (dead_get _ _ _ F A1) as D. destruct (alive_get _ _ _ F A2) as [f E].
      destruct (named_get _ _ _ _ S E) as [o Eo].
      pose proof (ns_vars _ _ S p) as L. rewrite Eo, E in L. destruct (moved _ _ _ _ L) as (own & dl & M1 & M2 & M3 & M4).
      cbn [as_file_calls frun fstep nstep]. unfold fplace, fget, nplace, nget.
      rewrite D, E, (named_none _ _ _ S D), Eo. cbn [bind fst snd]. rewrite M1. cbn [bind]. rewrite M2. cbn [bind].
      do 4 eexists. split; [reflexivity|]. split; [reflexivity|].
      apply put_sim; [|exact M4]. apply put_sim; [exact S|]. rewrite P. exact M3.
    - cbn [as_file_calls all_proper duty_proper] in A. destruct A as [[A1 A2] _].
      destruct (alive_get _ _ _ F A1) as [f0 E0]. destruct (alive_get _ _ _ F A2) as [f E].
      destruct (named_get _ _ _ _ S E) as [o Eo]. destruct (named_get _ _ _ _ S E0) as [o0 Eo0].
      pose proof (ns_vars _ _ S v) as L0. rewrite Eo0, E0 in L0.
      pose proof (ns_vars _ _ S p) as L. rewrite Eo, E in L. destruct (moved _ _ _ _ L) as (own & dl & M1 & M2 & M3 & M4).
      cbn [as_file_calls frun fstep nstep]. unfold fget, nget.
      rewrite E, E0, Eo, Eo0. cbn [bind fst snd].
      assert (KK : nkind_eqb (n_kind o0) (n_kind o) = true).
      { destruct L0 as [L0 _], L as [L _]. rewrite L0, L, P. destruct (kind p); reflexivity. }
      rewrite KK, M1. cbn [bind]. rewrite M2. cbn [bind].
      do 4 eexists. split; [reflexivity|]. split; [reflexivity|].
      apply put_sim; [|exact M4]. apply put_sim; [exact S|]. rewrite P. exact M3.
    - pose proof A as A0. cbn [as_file_calls all_proper duty_proper] in A. destruct A as [[A1 A2] A3].
      destruct (alive_get _ _ _ F A1) as [f E]. destruct (named_get _ _ _ _ S E) as [o Eo].
      pose proof (ns_vars _ _ S v) as L. rewrite Eo, E in L. pose proof (nrelease_eq _ _ _ _ L) as R.
      destruct L as (L1 & L2 & L3 & L4 & [dl L5] & L6).
      pose proof (close_sim w w' d v o f (closing (n_open w) (f_fd f)) S F Eo E (fun z => eq_refl)
        (Some (NObj (n_kind o) (XObj INVALID_DESCRIPTOR (Some false)) (n_del o))) (Some (FObj (-1) false))) as S1.
      assert (S1' : nsim (NWorld (setv (n_vars w) v (Some (NObj (n_kind o) (XObj INVALID_DESCRIPTOR (Some false)) (n_del o)))) (closing (n_open w) (f_fd f)))
                      (fput (release w' f) v (Some (FObj (-1) false)))).
      { apply S1. cbn. repeat split; eauto. intros _ X. contradiction. }
      clear S1. destruct (fstep_ok w' d (FSet v (-1) false) F (conj A1 A2)) as (w2 & r2 & E2 & F2).
      cbn [nstep as_file_calls frun]. unfold nget. rewrite Eo. cbn [bind]. rewrite R. cbn [bind].
      rewrite E2. cbn [bind fst snd]. cbn [fstep] in E2. unfold fget in E2. rewrite E in E2. cbn [bind] in E2. injection E2 as <- <-.
      destruct (Z.eqb_spec fd (-1)) as [Ez|Nz].
      + subst fd. cbn [frun bind Z.ltb Z.compare]. do 4 eexists. split; [reflexivity|]. split; [reflexivity|].
        exact S1'.
      + cbn [all_proper duty_proper] in A3. destruct A3 as [[B1 B2] [[B3 B4] _]].
        pose proof (open_sim _ _ _ fd (match n_kind o with NReader => Server | NWriter => Other end) S1' F2 B2) as S2.
        destruct (Z.ltb_spec fd 0); [lia|].
        cbn [frun fstep bind fst snd]. unfold fget. cbn [w_vars fput]. rewrite setv_eq. cbn [bind].
        do 4 eexists. split; [reflexivity|]. split; [reflexivity|].
        assert (X : nmake (closing (n_open w) (f_fd f)) (n_kind o) fd
                    = setz (closing (n_open w) (f_fd f)) fd (Some (match n_kind o with NReader => Server | NWriter => Other end))).
        { unfold nmake, INVALID_DESCRIPTOR. destruct (Z.eqb_spec fd (-1)); [contradiction|reflexivity]. }
        rewrite X.
        apply (nsim_ext (nput (NWorld (setv (n_vars w) v (Some (NObj (n_kind o) (XObj INVALID_DESCRIPTOR (Some false)) (n_del o))))
                  (setz (closing (n_open w) (f_fd f)) fd (Some (match n_kind o with NReader => Server | NWriter => Other end)))) v
                  (Some (NObj (n_kind o) (XObj fd (Some true)) (Some del))))).
        { intro u. cbn. unfold setv. destruct (Nat.eqb u v); reflexivity. }
        { intro z. reflexivity. }
        unfold release. cbn [f_own andb]. apply put_sim; [exact S2|].
        cbn. repeat split; eauto. intros K _. rewrite L1, K. apply setz_eq.
    - cbn [as_file_calls all_proper duty_proper] in A. destruct A as [A _].
      destruct (alive_get _ _ _ F A) as [f E]. destruct (named_get _ _ _ _ S E) as [o Eo].
      destruct (ndestroy_eq _ _ _ _ _ _ S F Eo E) as [h [D H]].
      cbn [nstep as_file_calls frun fstep]. unfold nget, fget. rewrite Eo, E. cbn [bind]. rewrite D. cbn [bind fst snd].
      do 4 eexists. split; [reflexivity|]. split; [reflexivity|].
      apply (close_sim w w' d v o f h S F Eo E H None None). exact I.
    - cbn [as_file_calls all_proper duty_proper] in A. destruct A as [[A1 A2] _].
      cbn [nstep as_file_calls frun fstep bind fst snd]. do 4 eexists. split; [reflexivity|]. split; [reflexivity|].
      apply (open_sim _ _ d); assumption.
    - cbn [as_file_calls all_proper duty_proper] in A. destruct A as [A _].
      cbn [nstep as_file_calls frun fstep bind fst snd]. do 4 eexists. split; [reflexivity|]. split; [reflexivity|].
      constructor; cbn [n_vars n_open w_vars w_open fclose].
      + intro u. pose proof (ns_vars _ _ S u) as L. destruct (w_vars w' u) as [f|] eqn:E; destruct (n_vars w u) as [o|]; cbn in *; try contradiction; [|exact I].
        destruct L as (A1 & A2 & A3 & A4 & A5 & A6). repeat (split; [assumption|]). intros K N.
        unfold CloseHandle. rewrite setz_neq; [auto|]. intro X. pose proof (its_own w w' d u f S F E N) as Y. rewrite X in Y. destruct A; congruence.
      + intro z. unfold CloseHandle, setz. destruct (z =? fd); [split; congruence|apply (ns_open _ _ S)].
  Qed.

  Lemma proper_app a b : forall d, all_proper d (a ++ b) -> all_proper d a /\ all_proper (duties d a) b.
  Proof.
    induction a as [|c a IH]; intros d P; cbn [app all_proper duties] in *; [auto|].
    destruct P as [P1 P2]. destruct (IH _ P2). auto.
  Qed.
  Lemma duties_app a b : forall d, duties d (a ++ b) = duties (duties d a) b.
  Proof. induction a as [|c a IH]; intro d; cbn; auto. Qed.

  Lemma nrun_ok h : forall w w' d, nsim w w' -> finv w' d -> Forall (plain kind) h ->
    all_proper d (flat_map as_file_calls h) ->
    exists w1 w1' rs, nrun g w h = Ok (w1, rs) /\ nsim w1 w1' /\ finv w1' (duties d (flat_map as_file_calls h)).
  Proof.
    induction h as [|c h IH]; intros w w' d S F P A; cbn [nrun flat_map].
    - exists w, w', []. auto.
    - inversion P; subst. cbn [flat_map] in A. apply proper_app in A as [A1 A2].
      destruct (nstep_ok w w' d c S F H1 A1) as (w1 & w1' & r & rs & E1 & E2 & S1).
      destruct (frun_ok _ _ _ F A1) as (w2' & rs2 & E3 & F1). rewrite E2 in E3. injection E3 as <- <-.
      destruct (IH _ _ _ S1 F1 H2 A2) as (w3 & w3' & rs3 & E4 & S3 & F3).
      rewrite E1. cbn [bind fst snd]. rewrite E4. cbn [bind fst snd]. rewrite duties_app. exists w3, w3', (r :: rs3). auto.
  Qed.

  Lemma n_start_sim : nsim n_start f_start.
  Proof. constructor; cbn; intros; [exact I|split; congruence]. Qed.
End Named.
