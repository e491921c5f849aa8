(** C154: file streams on Windows. C155: PipeStream. C156: named pipes on Windows. *)
From Coq Require Import List Arith ZArith Lia Bool.
From Verif Require Import Base FileOwnerModel FileOwnerSpec FileOwnerProofs FileOwnerProps
  WinStreamModel WinStreamSpec WinStreamProofs.
Import ListNotations.
Local Open Scope Z_scope.

(** * C154 *)

(** No stream is constructed by default, or reading a bool without a value gives some value. *)
Definition no_default (g : option bool) (h : list fcall) : Prop :=
  g <> None \/ forall v, ~ In (FDefault v) h.

Lemma no_default_allowed g h : no_default g h -> Forall (allowed Windows g) h.
Proof.
  intros D. apply Forall_forall. intros c C. destruct c; cbn; auto. destruct D as [D|D]; [auto|].
  exfalso. apply (D v). exact C.
Qed.

(** As on POSIX (C80): in every proper history a handle is open exactly as long as someone is
    responsible for it. *)
Theorem C154_ownership_partial : forall g h, no_default g h -> all_proper duty_start h ->
  exists w rs, xrun Windows g x_start h = Ok (w, rs)
    /\ forall fd, x_open w fd = true <-> d_who (duties duty_start h) fd <> Closed.
Proof.
  intros g h D P. destruct (frun_ok h _ _ start_inv P) as (w' & rs & E & I).
  pose proof (xrun_sim Windows g h _ _ (start_sim g) (no_default_allowed g h D)) as X. rewrite E in X.
  destruct (xrun Windows g x_start h) as [[w rs']| |]; try contradiction. destruct X as [_ [_ O]].
  exists w, rs'. split; [reflexivity|]. intro fd. rewrite O. apply (i_open _ _ I).
Qed.

(** Once all streams are destroyed, the open handles are those of the program and those lost by
    assignments to owners. *)
Theorem C154_lost_partial : forall g h, no_default g h -> all_proper duty_start h ->
  (forall v, d_alive (duties duty_start h) v = false) ->
  exists w rs, xrun Windows g x_start h = Ok (w, rs)
    /\ forall fd, x_open w fd = true <->
         d_who (duties duty_start h) fd = User \/ d_who (duties duty_start h) fd = Lost.
Proof.
  intros g h D P A. destruct (C80_lost_partial h P A) as (w' & rs & E & I).
  pose proof (xrun_sim Windows g h _ _ (start_sim g) (no_default_allowed g h D)) as X. rewrite E in X.
  destruct (xrun Windows g x_start h) as [[w rs']| |]; try contradiction. destruct X as [_ [_ O]].
  exists w, rs'. split; [reflexivity|]. intro fd. rewrite O. apply I.
Qed.

(** If nothing is assigned to owners, they are those of the program. *)
Theorem C154_no_leak_partial : forall g h, no_default g h -> all_proper duty_start h -> all_spare duty_start h ->
  (forall v, d_alive (duties duty_start h) v = false) ->
  exists w rs, xrun Windows g x_start h = Ok (w, rs)
    /\ forall fd, x_open w fd = true <-> d_who (duties duty_start h) fd = User.
Proof.
  intros g h D P S A. destruct (C154_lost_partial g h D P A) as (w & rs & E & I).
  exists w, rs. split; [exact E|]. intros fd. rewrite I. split; auto.
  intros [|H]; [auto|]. exfalso. revert H. apply spared; [discriminate|exact S].
Qed.

(** Every use of a stream that was constructed by default reads a bool without a value:
    destroying it, moving it, giving it a handle. *)
Theorem C154_default_refuted : forall w v u fd owner, x_vars w v = None -> x_vars w u = None -> u <> v ->
  xrun Windows None w [FDefault v; FDestroy v] = UB
  /\ xrun Windows None w [FDefault v; FMove u v] = UB
  /\ xrun Windows None w [FDefault v; FSet v fd owner] = UB.
Proof.
  intros w v u fd owner V U N. cbn [xrun xstep]. unfold xplace. rewrite V. cbn [bind fst snd].
  unfold xget. cbn [x_vars xput]. rewrite setv_eq, setv_neq by exact N. rewrite U. cbn [bind]. unfold xrelease. cbn. auto.
Qed.

(** Assigning to a stream that owns a handle loses it, as on POSIX. *)
Theorem C154_assign_refuted : forall g fd1 fd2, 0 <= fd1 -> 0 <= fd2 -> fd1 <> fd2 ->
  exists w rs,
    xrun Windows g x_start [UOpen fd1; UOpen fd2; FFrom 0 fd1 true; FFrom 1 fd2 true; FMoveAssign 0 1;
                  FDestroy 0; FDestroy 1] = Ok (w, rs)
    /\ x_open w fd1 = true /\ (forall v, x_vars w v = None).
Proof.
  intros g fd1 fd2 H1 H2 N.
  destruct (C80_assign_refuted fd1 fd2 H1 H2 N) as (w' & rs & E & O & _ & V).
  pose proof (xrun_sim Windows g [UOpen fd1; UOpen fd2; FFrom 0 fd1 true; FFrom 1 fd2 true; FMoveAssign 0 1;
                  FDestroy 0; FDestroy 1] _ _ (start_sim g)) as X. rewrite E in X.
  assert (A : Forall (allowed Windows g) [UOpen fd1; UOpen fd2; FFrom 0 fd1 true; FFrom 1 fd2 true; FMoveAssign 0 1;
                  FDestroy 0; FDestroy 1]) by (repeat constructor).
  specialize (X A). destruct (xrun Windows g x_start _) as [[w rs']| |]; try contradiction.
  destruct X as [_ [L Q]]. exists w, rs'. split; [reflexivity|]. split; [rewrite Q; exact O|].
  intro v. specialize (L v). rewrite V in L. destruct (x_vars w v); [contradiction|reflexivity].
Qed.

Example C154_case : no_default (Some true) file_example /\ all_proper duty_start file_example
  /\ all_spare duty_start file_example /\ no_default (Some true) lost_example /\ all_proper duty_start lost_example
  /\ d_who (duties duty_start lost_example) 3 = Lost.
Proof.
  split; [left; discriminate|]. split; [apply C80_case|]. split; [apply C80_case|].
  split; [left; discriminate|]. split; apply C80_lost_case.
Qed.

(** * C155 *)

(** On POSIX, and on Windows if reading a bool without a value gives some value: in every proper
    history a descriptor is open exactly as long as someone is responsible for it. *)
Theorem C155_ownership_partial : forall sys g h, sys = Posix \/ g <> None -> all_qproper qduty_start h ->
  exists w rs, qrun sys g q_start h = Ok (w, rs)
    /\ forall fd, x_open (q_files w) fd = true <-> qd_who (qduties qduty_start h) fd <> QClosed.
Proof.
  intros sys g h A P.
  destruct (qrun_ok sys g h A q_start f_start qduty_start duty_start (start_sim g) start_inv q_start_rel) as (w & w' & d & rs & E & S & F & R);
    [intros v V; discriminate V|exact P|].
  exists w, rs. split; [exact E|]. intro fd. rewrite (proj2 S), (i_open _ _ F), (qr_who _ _ R).
  split; intros H K; apply H.
  - rewrite K. reflexivity.
  - destruct (qd_who (qduties qduty_start h) fd); try discriminate K. reflexivity.
Qed.

(** When all pipes are destroyed, the ends that are open are those of the program and those of pipes that
    another was assigned to. *)
Theorem C155_lost_partial : forall sys g h, sys = Posix \/ g <> None -> all_qproper qduty_start h ->
  (forall v, qd_alive (qduties qduty_start h) v = false) ->
  exists w rs, qrun sys g q_start h = Ok (w, rs)
    /\ forall fd, x_open (q_files w) fd = true <->
         qd_who (qduties qduty_start h) fd = QUser \/ qd_who (qduties qduty_start h) fd = QLost.
Proof.
  intros sys g h A P D.
  destruct (qrun_ok sys g h A q_start f_start qduty_start duty_start (start_sim g) start_inv q_start_rel) as (w & w' & d & rs & E & S & F & R);
    [intros v V; discriminate V|exact P|].
  exists w, rs. split; [exact E|]. intro fd. rewrite (proj2 S), (i_open _ _ F), (qr_who _ _ R).
  destruct (qd_who (qduties qduty_start h) fd) as [| |v|v|] eqn:W; cbn.
  - split; [congruence|]. intros [|]; discriminate.
  - split; [auto|discriminate].
  - exfalso. apply (proj1 (qr_dead _ _ R v fd (D v)) W).
  - exfalso. apply (proj2 (qr_dead _ _ R v fd (D v)) W).
  - split; [auto|discriminate].
Qed.

Lemma qspared_step d c : (forall fd, qd_who d fd <> QLost) -> spares_pipes d c ->
  forall fd, qd_who (qduty_step d c) fd <> QLost.
Proof.
  intros N S.
  assert (P : forall who x y fd, (forall z, who z <> QLost) -> y <> QLost -> qpass who x y fd <> QLost).
  { intros who x y fd H X. unfold qpass. destruct (qholder_eqb (who fd) x); auto. }
  assert (G : forall who fd o x z, (forall y, who y <> QLost) -> x <> QLost -> qgive who fd o x z <> QLost).
  { intros who fd o x z H X. unfold qgive. destruct (_ && _); auto. unfold setz. destruct (z =? fd); auto. }
  assert (Z1 : forall who fd x z, (forall y : Z, who y <> QLost) -> x <> QLost -> setz who fd x z <> QLost).
  { intros who fd x z H X. unfold setz. destruct (z =? fd); auto. }
  destruct c as [v [[a b]|]|v r rown wr wown|v p|v p|v fd owner|v fd owner|v co|v co|v|v|fd|fd];
    cbn [qduty_step qd_who]; intros z; auto.
  - apply Z1; [intros; apply Z1; auto|]; discriminate.
  - apply G; [intros; apply G; auto|]; discriminate.
  - apply P; [intros; apply P; auto|]; discriminate.
  - cbn in S.
    assert (Q : forall y, qpass (qpass (qd_who d) (QReading v) QLost) (QWriting v) QLost y = qd_who d y).
    { intros y. destruct (S y) as [S1 S2].
      destruct (qpass_cases (qd_who d) (QReading v) QLost y) as [[_ E]|[E _]]; [congruence|].
      destruct (qpass_cases (qpass (qd_who d) (QReading v) QLost) (QWriting v) QLost y) as [[_ E2]|[E2 _]];
        [rewrite E in E2; congruence|]. congruence. }
    destruct (Nat.eqb v p); [rewrite Q; auto|].
    apply P; [intros; apply P; [intros; rewrite Q; auto|]|]; discriminate.
  - apply G; [intros; apply P; auto|]; discriminate.
  - apply G; [intros; apply P; auto|]; discriminate.
  - destruct co; auto. apply P; [auto|discriminate].
  - destruct co; auto. apply P; [auto|discriminate].
  - apply P; [intros; apply P; auto|]; discriminate.
  - apply Z1; [auto|discriminate].
  - apply Z1; [auto|discriminate].
Qed.
Lemma qspared h : forall d, (forall fd, qd_who d fd <> QLost) -> all_qspare d h ->
  forall fd, qd_who (qduties d h) fd <> QLost.
Proof.
  induction h as [|c h IH]; intros d N S; cbn [qduties]; auto. destruct S as [S1 S2].
  apply IH; auto. apply qspared_step; auto.
Qed.

(** If nothing is assigned to a pipe that has ends of its own, no end of a pipe is open. *)
Theorem C155_no_leak_partial : forall sys g h, sys = Posix \/ g <> None -> all_qproper qduty_start h ->
  all_qspare qduty_start h -> (forall v, qd_alive (qduties qduty_start h) v = false) ->
  exists w rs, qrun sys g q_start h = Ok (w, rs)
    /\ forall fd, x_open (q_files w) fd = true <-> qd_who (qduties qduty_start h) fd = QUser.
Proof.
  intros sys g h A P S D. destruct (C155_lost_partial sys g h A P D) as (w & rs & E & I).
  exists w, rs. split; [exact E|]. intros fd. rewrite I. split; auto.
  intros [|H]; [auto|]. exfalso. revert H. apply qspared; [discriminate|exact S].
Qed.

(** On POSIX a new pipe tells success exactly if there is one. *)
Theorem C155_status_partial : forall g w v made w' rs,
  qrun Posix g w [QDefault v made; QStatus v] = Ok (w', rs) -> (last rs (-2) = 0 <-> made <> None).
Proof.
  intros g w v made w' rs E. cbn [qrun qstep] in E. unfold qstep in E.
  destruct (xrun Posix g (q_files w) (member_calls Posix (QDefault v made))) as [[x1 r1]| |]; try discriminate.
  cbn [bind fst snd q_status new_status member_calls xrun q_files] in E. rewrite setv_eq in E. cbn [bind fst snd] in E.
  injection E as <- <-. cbn [last]. destruct made as [[a b]|]; cbn; split; intro H; try congruence; discriminate.
Qed.

(** A pipe made of given descriptors tells success. *)
Theorem C155_given_partial : forall sys g w v r ro x xo w' rs,
  qrun sys g w [QFrom v r ro x xo; QStatus v] = Ok (w', rs) -> last rs (-2) = 0.
Proof.
  intros sys g w v r ro x xo w' rs E. cbn [qrun qstep] in E. unfold qstep in E.
  destruct (xrun sys g (q_files w) (member_calls sys (QFrom v r ro x xo))) as [[x1 r1]| |]; try discriminate.
  cbn [bind fst snd q_status new_status member_calls xrun q_files] in E. rewrite setv_eq in E. cbn [bind fst snd] in E.
  injection E as <- <-. reflexivity.
Qed.
Example C155_given_case : exists w, qrun Posix None q_start [QFrom 0 3 true 4 false; QStatus 0] = Ok (w, [0; 0]).
Proof. eexists. vm_compute. reflexivity. Qed.

(** On Windows it tells success exactly if there is none. *)
Theorem C155_status_refuted : forall g w v made w' rs,
  qrun Windows g w [QDefault v made; QStatus v] = Ok (w', rs) -> (last rs (-2) = 0 <-> made = None).
Proof.
  intros g w v made w' rs E. cbn [qrun qstep] in E. unfold qstep in E.
  destruct (xrun Windows g (q_files w) (member_calls Windows (QDefault v made))) as [[x1 r1]| |]; try discriminate.
  cbn [bind fst snd q_status new_status member_calls xrun q_files] in E. rewrite setv_eq in E. cbn [bind fst snd] in E.
  injection E as <- <-. cbn [last]. destruct made as [[a b]|]; cbn; split; intro H; try congruence; discriminate.
Qed.

(** The default constructor on Windows reads a bool without a value. *)
Theorem C155_default_refuted : forall w v a b,
  x_vars (q_files w) (reader_of v) = None -> x_vars (q_files w) (writer_of v) = None ->
  qrun Windows None w [QDefault v (Some (a, b))] = UB.
Proof.
  intros w v a b R W. cbn [qrun]. unfold qstep. cbn [member_calls app pipe_test pipe_result negb Z.eqb xrun xstep].
  unfold xplace. rewrite R. cbn [bind fst snd]. unfold xput at 1. cbn [x_vars]. rewrite setv_neq by (intro H; symmetry in H; apply (rw_neq _ _ H)).
  rewrite W. cbn [bind fst snd]. unfold xget. cbn [x_vars xput]. rewrite setv_neq by apply rw_neq. rewrite setv_eq. reflexivity.
Qed.

(** A pipe constructed by moving another has a status without a value. *)
Theorem C155_moved_refuted : forall sys g w v p, qrun sys g w [QMove v p; QStatus v] = UB.
Proof.
  intros sys g w v p. cbn [qrun]. unfold qstep.
  destruct (xrun sys g (q_files w) (member_calls sys (QMove v p))) as [[x1 r1]| |] eqn:E.
  - cbn [bind fst snd q_status new_status member_calls xrun q_files]. rewrite setv_eq. reflexivity.
  - reflexivity.
  - exfalso. cbn [member_calls xrun xstep] in E. unfold xplace, xget, rdg in E.
    repeat match type of E with
    | context [match ?x with _ => _ end] => destruct x; cbn [bind fst snd] in E
    end; discriminate.
Qed.

(** Assignment tells success although the pipe that is assigned could not be made. *)
Theorem C155_assign_refuted : forall g, exists w rs,
  qrun Posix g q_start [QDefault 0 None; QDefault 1 None; QStatus 0; QAssign 1 0; QStatus 1] = Ok (w, rs)
  /\ nth 2 rs 7 = -1 /\ nth 4 rs 7 = 0 /\ (forall fd, x_open (q_files w) fd = false).
Proof. intro g. do 2 eexists. split; [vm_compute; reflexivity|]. split; [reflexivity|]. split; [reflexivity|]. intro fd. reflexivity. Qed.

Definition pipe_example : list qcall :=
  [QDefault 0 (Some (3, 4)); QStatus 0; QMove 1 0; QUserOpen 5; QSetWriter 1 5 true; QGetReader 1 false; QUserClose 3;
   QDefault 2 None; QAssign 2 1; QStatus 2; QDestroy 0; QDestroy 1; QDestroy 2].
Example C155_case : all_qproper qduty_start pipe_example
  /\ (forall v, qd_alive (qduties qduty_start pipe_example) v = false)
  /\ (exists w, qrun Posix None q_start pipe_example = Ok (w, [0; 0; 0; 0; 0; 3; 0; 0; 0; 0; 0; 0; 0]))
  /\ all_qspare qduty_start pipe_example.
Proof.
  assert (S : all_qspare qduty_start pipe_example).
  { unfold pipe_example. cbn [all_qspare spares_pipes]. do 8 (split; [exact Logic.I|]). split; [|repeat split].
    intros fd. cbn. unfold qpass, qgive, setz. cbn.
    destruct (fd =? 3); [cbn; split; discriminate|]. destruct (fd =? 5); [cbn; split; discriminate|]. destruct (fd =? 4); cbn; split; discriminate. }
  split; [|split]; [| |split; [|exact S]].
  - unfold pipe_example. cbn [all_qproper].
    repeat match goal with |- _ /\ _ => split end; cbn;
      repeat match goal with |- _ /\ _ => split end; auto; try lia; try discriminate; try reflexivity.
  - intros v. cbn. do 3 (destruct v as [|v]; [reflexivity|]). reflexivity.
  - eexists. vm_compute. reflexivity.
Qed.

Definition lost_pipes : list qcall :=
  [QDefault 0 (Some (3, 4)); QDefault 1 (Some (5, 6)); QAssign 0 1; QAssign 1 1; QAssign 0 0; QDestroy 0; QDestroy 1].
Example C155_lost_case : all_qproper qduty_start lost_pipes
  /\ (forall v, qd_alive (qduties qduty_start lost_pipes) v = false)
  /\ map (qd_who (qduties qduty_start lost_pipes)) [3; 4; 5; 6; 7] = [QLost; QLost; QLost; QLost; QClosed].
Proof.
  split; [|split; [|reflexivity]].
  - unfold lost_pipes. cbn [all_qproper].
    repeat match goal with |- _ /\ _ => split end; cbn;
      repeat match goal with |- _ /\ _ => split end; auto; try lia; try discriminate; try reflexivity.
  - intros v. cbn. do 2 (destruct v as [|v]; [reflexivity|]). reflexivity.
Qed.

(** * C156 *)

(** Named readers and writers that are made from names, moved, opened again and destroyed: a
    handle is open exactly as long as someone is responsible for it. *)
Theorem C156_ownership_partial : forall g kind h, Forall (plain kind) h ->
  all_proper duty_start (flat_map as_file_calls h) ->
  exists w rs, nrun g n_start h = Ok (w, rs)
    /\ forall fd, n_open w fd <> None <-> d_who (duties duty_start (flat_map as_file_calls h)) fd <> Closed.
Proof.
  intros g kind h P A. destruct (nrun_ok g kind h _ _ _ (n_start_sim kind) start_inv P A) as (w & w' & rs & E & S & F).
  exists w, rs. split; [exact E|]. intro fd. rewrite <- (ns_open _ _ _ S), (i_open _ _ F). tauto.
Qed.

(** open() of a reader or a writer that knows whether it owns: success exactly if the system gave a
    handle, which the object then owns; the handle it had is closed if it owned it; after a failure
    it has none, and the result is the error of the system. *)
Theorem C156_open_partial : forall g w v o own del fd error,
  n_vars w v = Some o -> x_own (n_file o) = Some own -> -1 <= fd -> error <> 0 ->
  exists w' r, nrun g w [NOpen v del fd error] = Ok (w', [r])
    /\ (r = 0 <-> fd <> -1) /\ (fd = -1 -> r = error)
    /\ (exists o', n_vars w' v = Some o' /\ n_kind o' = n_kind o
          /\ n_file o' = XObj fd (Some (negb (fd =? -1))) /\ (fd <> -1 -> n_del o' = Some del))
    /\ (forall h, h <> fd -> n_open w' h = if own && (x_fd (n_file o) =? h) && negb (h =? -1) then None else n_open w h)
    /\ (fd <> -1 -> n_open w' fd = Some (match n_kind o with NReader => Server | NWriter => Other end)).
Proof.
  intros g w v o own del fd error V O F E. cbn [nrun nstep]. unfold nget. rewrite V. cbn [bind].
  unfold nrelease. rewrite O. cbn [rdg bind].
  assert (H : forall h, (if own && negb (x_fd (n_file o) =? INVALID_DESCRIPTOR)
                         then CloseHandle (n_open w) (x_fd (n_file o)) else n_open w) h
              = if own && (x_fd (n_file o) =? h) && negb (h =? -1) then None else n_open w h).
  { intros h. unfold INVALID_DESCRIPTOR. destruct own; cbn [andb]; [|reflexivity].
    destruct (Z.eqb_spec (x_fd (n_file o)) (-1)) as [A|A]; cbn [negb].
    - destruct (Z.eqb_spec (x_fd (n_file o)) h) as [B|B]; cbn [andb]; [|reflexivity].
      destruct (Z.eqb_spec h (-1)); [reflexivity|congruence].
    - unfold CloseHandle, setz. rewrite Z.eqb_sym. destruct (Z.eqb_spec (x_fd (n_file o)) h) as [B|B]; cbn [andb].
      + destruct (Z.eqb_spec h (-1)); [congruence|reflexivity].
      + reflexivity. }
  unfold nmake. destruct (Z.ltb_spec fd 0) as [L|L].
  - assert (fd = -1) as -> by lia. cbn [INVALID_DESCRIPTOR Z.eqb Z.opp Pos.eqb bind fst snd].
    do 2 eexists. split; [reflexivity|]. split; [split; congruence|]. split; [reflexivity|].
    split; [|split; [intros h _; cbn [nput n_open]; apply H|congruence]].
    eexists. cbn [nput n_vars]. rewrite setv_eq. split; [reflexivity|]. cbn. repeat split; congruence.
  - assert (fd <> -1) by lia. unfold INVALID_DESCRIPTOR in *. destruct (Z.eqb_spec fd (-1)) as [|_]; [congruence|].
    cbn [bind fst snd].
    do 2 eexists. split; [reflexivity|]. split; [split; congruence|]. split; [congruence|].
    split; [|split].
    + eexists. cbn [nput n_vars]. rewrite setv_eq. split; [reflexivity|]. cbn. repeat split; congruence.
    + intros h N. cbn [nput n_open]. rewrite setz_neq by exact N. apply H.
    + intros _. cbn [nput n_open]. apply setz_eq.
Qed.
Example C156_open_case : exists w rs, nrun None n_start [NNamed 0 NReader false 8; NOpen 0 false (-1) 231] = Ok (w, rs)
  /\ rs = [0; 231] /\ n_open w 8 = None.
Proof. do 2 eexists. split; [vm_compute; reflexivity|]. split; reflexivity. Qed.

(** The errors of the system are positive: a test for a negative status, which on POSIX tells every
    failure (there open returns -1), tells none. *)
Theorem C156_open_sign_refuted : forall g w v o own del error,
  n_vars w v = Some o -> x_own (n_file o) = Some own -> 0 < error ->
  exists w' r, nrun g w [NOpen v del (-1) error] = Ok (w', [r]) /\ ~ r < 0
    /\ exists o', n_vars w' v = Some o' /\ x_fd (n_file o') = -1.
Proof.
  intros g w v o own del error V O E.
  destruct (C156_open_partial g w v o own del (-1) error V O) as (w' & r & R & _ & A & (o' & V' & _ & D & _) & _);
    try lia. specialize (A eq_refl). subst r.
  exists w', error. split; [exact R|]. split; [lia|]. exists o'. split; [exact V'|]. rewrite D. reflexivity.
Qed.

(** A handle that was given back to the program is closed all the same, by a reader and by a
    writer that is to delete its pipe. *)
Theorem C156_given_back_refuted : forall g k fd, 0 <= fd ->
  exists w rs, nrun g n_start [NNamed 0 k true fd; NGet 0 false; NDestroy 0] = Ok (w, rs)
    /\ nth 1 rs (-1) = fd /\ n_open w fd = None
    /\ d_who (duties duty_start (flat_map as_file_calls [NNamed 0 k true fd; NGet 0 false; NDestroy 0])) fd = User.
Proof.
  intros g k fd H. assert (N : (fd =? -1) = false) by (apply Z.eqb_neq; lia).
  cbn [nrun nstep]. unfold nplace, nmake, INVALID_DESCRIPTOR. rewrite N. cbn [n_start n_vars n_open bind fst snd].
  unfold nget, nput. cbn [n_vars n_open]. rewrite setv_eq. cbn [bind fst snd n_vars]. rewrite setv_eq. cbn [bind n_kind n_file n_del x_fd fst snd].
  assert (D : exists h, ndestroy g (setz (fun _ => None) fd (Some match k with NReader => Server | NWriter => Other end))
                (NObj k (XObj fd (Some false)) (Some true)) = Ok h /\ h fd = None).
  { unfold ndestroy. cbn [n_kind n_del n_file x_fd rdg bind]. destruct k.
    - unfold destroyNamedReader. rewrite setz_eq. eexists. split; [reflexivity|]. apply setz_eq.
    - eexists. split; [reflexivity|]. apply setz_eq. }
  destruct D as [h [D1 D2]]. unfold ndestroy in D1 |- *. cbn [n_kind n_del n_file x_fd n_open] in D1 |- *. rewrite D1. cbn [bind fst snd].
  do 2 eexists. split; [reflexivity|]. split; [reflexivity|]. split; [exact D2|].
  cbn [flat_map as_file_calls app]. rewrite N. cbn [app duties duty_step d_who d_alive]. unfold give. cbn [andb].
  replace (0 <=? fd) with true by (symmetry; apply Z.leb_le; exact H). unfold pass. rewrite setz_eq. reflexivity.
Qed.

(** setFileDescriptor is remembered: the object has the descriptor and owns it as it was told. *)
Theorem C156_set_partial : forall g w v o own fd owner,
  n_vars w v = Some o -> x_own (n_file o) = Some own ->
  exists w' r o', nrun g w [NSet v fd owner] = Ok (w', [r]) /\ n_vars w' v = Some o'
    /\ n_file o' = XObj fd (Some owner) /\ n_kind o' = n_kind o /\ n_del o' = n_del o.
Proof.
  intros g w v o own fd owner V O. cbn [nrun nstep]. unfold nget. rewrite V. cbn [bind].
  unfold nrelease. rewrite O. cbn [rdg bind fst snd]. do 3 eexists. split; [reflexivity|].
  cbn [nput n_vars]. rewrite setv_eq. split; [reflexivity|]. cbn. auto.
Qed.

(** A reader closes a serving end it was told not to own. *)
Theorem C156_not_owner_refuted : forall g fd, 0 <= fd ->
  exists w rs, nrun g n_start [NNamed 0 NReader false (-1); NUserOpen fd Server; NSet 0 fd false; NDestroy 0] = Ok (w, rs)
    /\ n_open w fd = None
    /\ d_who (duties duty_start (flat_map as_file_calls [NNamed 0 NReader false (-1); NUserOpen fd Server; NSet 0 fd false; NDestroy 0])) fd = User.
Proof.
  intros g fd H. cbn -[setz]. unfold destroyNamedReader. rewrite setz_eq. cbn -[setz].
  do 2 eexists. split; [reflexivity|]. split; [apply setz_eq|].
  cbn. unfold pass, setz. rewrite Z.eqb_refl. reflexivity.
Qed.

(** A reader that owns a handle of another sort does not close it. *)
Theorem C156_other_refuted : forall g fd, 0 <= fd ->
  exists w rs, nrun g n_start [NNamed 0 NReader false (-1); NUserOpen fd Other; NSet 0 fd true; NDestroy 0] = Ok (w, rs)
    /\ n_open w fd = Some Other
    /\ d_who (duties duty_start (flat_map as_file_calls [NNamed 0 NReader false (-1); NUserOpen fd Other; NSet 0 fd true; NDestroy 0])) fd = Closed.
Proof.
  intros g fd H. cbn -[setz]. unfold destroyNamedReader. rewrite setz_eq. cbn -[setz].
  do 2 eexists. split; [reflexivity|]. split; [apply setz_eq|].
  cbn. unfold give. cbn [andb]. replace (0 <=? fd) with true by (symmetry; apply Z.leb_le; exact H).
  unfold pass, setz. rewrite Z.eqb_refl. reflexivity.
Qed.

(** A writer constructed by default cannot be destroyed. *)
Theorem C156_default_refuted : forall w v, n_vars w v = None -> nrun None w [NDefault v NWriter; NDestroy v] = UB.
Proof.
  intros w v H. cbn [nrun nstep]. unfold nplace, nget. rewrite H. cbn [bind fst snd n_vars nput]. rewrite setv_eq. reflexivity.
Qed.

(** A NamedPipeStream that was opened cannot be destroyed either; and if a program finds true
    in the bool without a value, a handle that another thread opens meanwhile is closed. *)
Theorem C156_stream_refuted : forall between h r w k,
  stream_destroy None between h (opened_reader r) (opened_writer w) = UB
  /\ (between = (fun h => setz h w (Some k)) ->
      exists h', stream_destroy (Some true) between h (opened_reader r) (opened_writer w) = Ok h' /\ h' w = None).
Proof.
  intros between h r w k. split; [reflexivity|]. intros ->. eexists. split; [reflexivity|]. apply setz_eq.
Qed.

(** A serving end that another thread makes meanwhile is closed whatever is found. *)
Theorem C156_stream_reader_refuted : forall b h r w, r <> w ->
  exists h', stream_destroy (Some b) (fun h => setz h r (Some Server)) h (opened_reader r) (opened_writer w) = Ok h' /\ h' r = None.
Proof.
  intros b h r w N. unfold stream_destroy, ndestroy, opened_reader, opened_writer, destroyNamedReader.
  cbn [n_kind n_file x_fd n_del bind]. rewrite setz_eq. cbn [bind rdg].
  destruct b; eexists; (split; [reflexivity|]).
  - unfold destroyNamedWriter, CloseHandle. rewrite setz_neq by exact N. apply setz_eq.
  - cbn [x_own andb]. apply setz_eq.
Qed.

(** If false is found and nobody makes a serving end with the number of the reader meanwhile,
    both handles are closed and no other. *)
Theorem C156_stream_partial : forall between h r w,
  between (setz (setz h r None) w None) r <> Some Server ->
  stream_destroy (Some false) between h (opened_reader r) (opened_writer w)
  = Ok (between (setz (setz h r None) w None)).
Proof.
  intros between h r w N. unfold stream_destroy, ndestroy, opened_reader, opened_writer, destroyNamedReader, deinit, CloseHandle.
  cbn [n_kind n_file x_fd n_del bind rdg]. destruct (between (setz (setz h r None) w None) r) as [[|]|] eqn:E; [congruence|reflexivity|reflexivity].
Qed.

Definition named_example : list ncall :=
  [NNamed 0 NWriter true 8; NNamed 1 NReader false 12; NMove 2 0; NNamed 3 NReader false (-1); NAssign 3 1; NOpen 2 false 8 0;
   NUserOpen 20 Other; NDestroy 3; NDestroy 1; NDestroy 0; NOpen 2 true (-1) 2; NUserClose 20; NDestroy 2].
Definition named_kinds (v : nat) : nkind := match v with 1%nat | 3%nat => NReader | _ => NWriter end.
Example C156_case : Forall (plain named_kinds) named_example
  /\ all_proper duty_start (flat_map as_file_calls named_example)
  /\ forall fd, d_who (duties duty_start (flat_map as_file_calls named_example)) fd = Closed.
Proof.
  split; [|split].
  - unfold named_example. repeat constructor; cbn; auto; try lia; try discriminate.
  - unfold named_example. cbn [flat_map as_file_calls app Z.eqb Pos.eqb all_proper].
    repeat match goal with |- _ /\ _ => split end; cbn;
      repeat match goal with |- _ /\ _ => split end; auto; try lia; try discriminate; try reflexivity.
  - intros fd. cbn. unfold setz, pass, give. cbn.
    repeat match goal with |- context [fd =? ?x] => destruct (fd =? x) eqn:?; cbn; try discriminate; try reflexivity end.
Qed.

Print Assumptions C154_ownership_partial.
Print Assumptions C154_no_leak_partial.
Print Assumptions C154_lost_partial.
Print Assumptions C154_default_refuted.
Print Assumptions C154_assign_refuted.
Print Assumptions C155_ownership_partial.
Print Assumptions C155_no_leak_partial.
Print Assumptions C155_lost_partial.
Print Assumptions C155_status_partial.
Print Assumptions C155_given_partial.
Print Assumptions C155_status_refuted.
Print Assumptions C155_default_refuted.
Print Assumptions C155_moved_refuted.
Print Assumptions C155_assign_refuted.
Print Assumptions C156_ownership_partial.
Print Assumptions C156_set_partial.
Print Assumptions C156_open_partial.
Print Assumptions C156_open_sign_refuted.
Print Assumptions C156_given_back_refuted.
Print Assumptions C156_not_owner_refuted.
Print Assumptions C156_other_refuted.
Print Assumptions C156_default_refuted.
Print Assumptions C156_stream_refuted.
Print Assumptions C156_stream_reader_refuted.
Print Assumptions C156_stream_partial.
