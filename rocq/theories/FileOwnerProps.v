(** C80: descriptors of file streams. C81: files of named pipes. C82: NamedPipeStream. *)
From Coq Require Import List Arith ZArith Lia Bool.
From Verif Require Import Base FileOwnerModel FileOwnerSpec FileOwnerProofs.
Import ListNotations.
Local Open Scope Z_scope.

(** * C80 *)

(** In every proper history a descriptor is open exactly as long as someone is responsible
    for it: streams close what they own, once, and nothing else. *)
Theorem C80_ownership_partial : forall h, all_proper duty_start h ->
  exists w rs, frun f_start h = Ok (w, rs)
    /\ forall fd, w_open w fd = true <-> d_who (duties duty_start h) fd <> Closed.
Proof.
  intros h P. destruct (frun_ok h _ _ start_inv P) as (w & rs & E & I).
  exists w, rs. split; [exact E|]. apply (i_open _ _ I).
Qed.

(** Once all streams are destroyed, the open descriptors are those of the program and those of streams
    that another stream was assigned to (or that were assigned to themselves) while they owned. *)
Theorem C80_lost_partial : forall h, all_proper duty_start h ->
  (forall v, d_alive (duties duty_start h) v = false) ->
  exists w rs, frun f_start h = Ok (w, rs)
    /\ forall fd, w_open w fd = true <->
         d_who (duties duty_start h) fd = User \/ d_who (duties duty_start h) fd = Lost.
Proof.
  intros h P D. destruct (frun_ok h _ _ start_inv P) as (w & rs & E & I).
  exists w, rs. split; [exact E|]. intros fd. rewrite (i_open _ _ I).
  destruct (d_who (duties duty_start h) fd) as [| |v|] eqn:W.
  - split; [congruence|]. intros [|]; discriminate.
  - split; [auto|discriminate].
  - exfalso. apply (i_owns _ _ I) in W as (o & K & _).
    assert (d_alive (duties duty_start h) v = true) by (apply (i_alive _ _ I); congruence).
    rewrite D in H. discriminate.
  - split; [auto|discriminate].
Qed.

(** If nothing is assigned to a stream that owns a descriptor, they are those of the program. *)
Theorem C80_no_leak_partial : forall h, all_proper duty_start h -> all_spare duty_start h ->
  (forall v, d_alive (duties duty_start h) v = false) ->
  exists w rs, frun f_start h = Ok (w, rs)
    /\ forall fd, w_open w fd = true <-> d_who (duties duty_start h) fd = User.
Proof.
  intros h P S D. destruct (C80_lost_partial h P D) as (w & rs & E & I).
  exists w, rs. split; [exact E|]. intros fd. rewrite I. split; auto.
  intros [|H]; [auto|]. exfalso. revert H. apply spared; [discriminate|exact S].
Qed.

Definition file_example : list fcall :=
  [UOpen 3; UOpen 4; FFrom 0 3 true; FFrom 1 4 false; FMove 2 0; FSet 1 (-1) false;
   UOpen 5; FSet 2 5 true; FDefault 3; FMoveAssign 3 2; FGet 3 false; FDestroy 0; FDestroy 1;
   UClose 4; FDestroy 2; FDestroy 3].
Example C80_case : all_proper duty_start file_example
  /\ (forall v, d_alive (duties duty_start file_example) v = false)
  /\ d_who (duties duty_start file_example) 5 = User
  /\ d_who (duties duty_start file_example) 3 = Closed
  /\ all_spare duty_start file_example.
Proof.
  split.
  - unfold file_example. cbn [all_proper].
    repeat match goal with |- _ /\ _ => split end; cbn; auto; try lia; try discriminate.
    1-3: split; [lia|reflexivity].
  - split; [|split; [reflexivity|split; [reflexivity|]]].
    + intros v. cbn. do 4 (destruct v as [|v]; [reflexivity|]). reflexivity.
    + cbn. repeat (split; [exact I|]). split; [|repeat split].
      intros fd. unfold holds_fd. cbn [d_who]. unfold setz, pass.
      destruct (fd =? 5); [discriminate|]. destruct (fd =? 3); [discriminate|].
      destruct (fd =? 4); discriminate.
Qed.

Definition lost_example : list fcall :=
  [UOpen 3; UOpen 4; UOpen 5; FFrom 0 3 true; FFrom 1 4 true; FMoveAssign 0 1; FFrom 2 5 true;
   FMoveAssign 2 2; FDestroy 0; FDestroy 1; FDestroy 2].
Example C80_lost_case : all_proper duty_start lost_example
  /\ (forall v, d_alive (duties duty_start lost_example) v = false)
  /\ d_who (duties duty_start lost_example) 3 = Lost /\ d_who (duties duty_start lost_example) 4 = Closed
  /\ d_who (duties duty_start lost_example) 5 = Lost.
Proof.
  split.
  - unfold lost_example. cbn [all_proper].
    repeat match goal with |- _ /\ _ => split end; cbn; auto; try lia; try discriminate.
    all: split; [lia|reflexivity].
  - split; [|repeat split]. intros v. cbn. do 3 (destruct v as [|v]; [reflexivity|]). reflexivity.
Qed.

(** Assigning to a stream that owns a descriptor loses it: it stays open and no stream is left
    that could close it. *)
Theorem C80_assign_refuted : forall fd1 fd2, 0 <= fd1 -> 0 <= fd2 -> fd1 <> fd2 ->
  exists w rs,
    frun f_start [UOpen fd1; UOpen fd2; FFrom 0 fd1 true; FFrom 1 fd2 true; FMoveAssign 0 1;
                  FDestroy 0; FDestroy 1] = Ok (w, rs)
    /\ w_open w fd1 = true /\ w_open w fd2 = false /\ forall v, w_vars w v = None.
Proof.
  intros fd1 fd2 H1 H2 N. cbn. unfold release. cbn [f_own f_fd andb].
  unfold INVALID_DESCRIPTOR. destruct (Z.eqb_spec fd2 (-1)); [lia|]. cbn.
  do 2 eexists. split; [reflexivity|]. cbn. unfold setz. rewrite !Z.eqb_refl.
  destruct (Z.eqb_spec fd1 fd2); [congruence|]. split; auto. split; auto.
  intros v. unfold setv. do 2 (destruct v as [|v]; [reflexivity|]). reflexivity.
Qed.

(** So does assigning a stream to itself. *)
Theorem C80_self_assign_refuted : forall fd, 0 <= fd ->
  exists w rs,
    frun f_start [UOpen fd; FFrom 0 fd true; FMoveAssign 0 0; FDestroy 0] = Ok (w, rs)
    /\ w_open w fd = true /\ forall v, w_vars w v = None.
Proof.
  intros fd H. cbn. unfold release. cbn.
  do 2 eexists. split; [reflexivity|]. cbn. unfold setz. rewrite Z.eqb_refl. split; auto.
  intros v. unfold setv. destruct v; reflexivity.
Qed.

(** A stream that does not own its descriptor and is asked to "continue owning" it takes it
    over: the program's descriptor is closed. *)
Theorem C80_continue_refuted : forall fd, 0 <= fd ->
  exists w rs,
    frun f_start [UOpen fd; FFrom 0 fd false; FGet 0 true; FDestroy 0] = Ok (w, rs)
    /\ w_open w fd = false.
Proof.
  intros fd H. cbn. unfold release. cbn [f_own f_fd andb].
  unfold INVALID_DESCRIPTOR. destruct (Z.eqb_spec fd (-1)); [lia|]. cbn.
  do 2 eexists. split; [reflexivity|]. cbn. unfold setz. rewrite Z.eqb_refl. reflexivity.
Qed.

(** * C81 *)

Lemma name_eqb_refl n : name_eqb n n = true.
Proof. unfold name_eqb. destruct (list_eq_dec Z.eq_dec n n); congruence. Qed.
Lemma name_eqb_neq a b : a <> b -> name_eqb a b = false.
Proof. intros H. unfold name_eqb. destruct (list_eq_dec Z.eq_dec a b); congruence. Qed.

(** Writers made from a name and destroyed, in any order: a file is deleted exactly by the
    destruction of a writer that made it and was asked to delete it; and when no writer is left,
    no descriptor is. *)
Theorem C81_plain_partial : forall h files, all_pproper (PDuty (fun _ => None) files) h ->
  exists w, prun (p_start files) h = Ok w
    /\ (forall name, p_files w name = pd_files (pduties (PDuty (fun _ => None) files) h) name)
    /\ ((forall v, pd_writers (pduties (PDuty (fun _ => None) files) h) v = None) ->
        forall fd, p_open w fd = false).
Proof.
  intros h files P.
  assert (G : forall h w d, all_pproper d h ->
    (forall v, match pd_writers d v with
               | None => p_vars w v = None
               | Some (name, del) => exists f, p_vars w v = Some (NPW f name (Some del))
               end) ->
    (forall name, p_files w name = pd_files d name) ->
    (forall fd, p_open w fd = true -> fd <> INVALID_DESCRIPTOR /\
       exists v name del, p_vars w v = Some (NPW (FObj fd true) name del)) ->
    exists w', prun w h = Ok w' /\ (forall name, p_files w' name = pd_files (pduties d h) name)
      /\ ((forall v, pd_writers (pduties d h) v = None) -> forall fd, p_open w' fd = false)).
  { clear. induction h as [|c h IH]; intros w d P V F J; cbn [prun pduties].
    - exists w. split; [reflexivity|]. split; [exact F|]. intros A fd.
      destruct (p_open w fd) eqn:O; [|reflexivity]. destruct (J fd O) as (_ & v & n & dl & E).
      pose proof (V v) as Vv. rewrite A in Vv. congruence.
    - destruct P as [P1 P2].
      destruct c as [v|v name del fd|v p|v p|v name del fd|v name del|v];
        cbn [pduty_proper] in P1; try tauto; cbn [pstep pduty_step].
      + pose proof (V v) as Vv. rewrite P1 in Vv. unfold pplace. rewrite Vv. cbn [bind].
        apply IH; auto.
        * intros u. cbn [pduty_step pd_writers pput p_vars makeNamedWriter].
          destruct (Nat.eq_dec u v) as [->|N].
          -- rewrite !setv_eq. eauto.
          -- rewrite !setv_neq by auto. apply V.
        * intros n. cbn. unfold setf. rewrite F. reflexivity.
        * cbn [pput p_open p_vars makeNamedWriter]. intros x O.
          assert (K : p_open w x = true -> x <> INVALID_DESCRIPTOR /\ exists v0 n0 d0,
                    setv (p_vars w) v (Some (NPW (FObj fd true) name (Some del))) v0
                    = Some (NPW (FObj x true) n0 d0)).
          { intros O'. destruct (J x O') as (N & v0 & n0 & d0 & E). split; [exact N|].
            exists v0, n0, d0. rewrite setv_neq; [exact E|]. intros ->. congruence. }
          destruct (Z.eqb_spec fd (-1)) as [|NE]; [exact (K O)|]. unfold setz in O.
          destruct (Z.eqb_spec x fd) as [EX|]; [|exact (K O)].
          rewrite EX. split; [exact NE|]. exists v, name, (Some del). apply setv_eq.
      + pose proof (V v) as Vv. destruct (pd_writers d v) as [[name del]|] eqn:Dv; [|congruence].
        destruct Vv as [f Vv]. unfold pget. rewrite Vv. cbn [bind]. unfold npw_destroy.
        cbn [p_del rd bind p_file p_name].
        assert (R1 : p_files (prelease w f) = p_files w)
          by (unfold prelease; destruct (_ && _); reflexivity).
        assert (R2 : p_vars (prelease w f) = p_vars w)
          by (unfold prelease; destruct (_ && _); reflexivity).
        apply IH.
        * cbn [pduty_step] in P2. rewrite Dv in P2. destruct del; exact P2.
        * intros u. cbn [pd_writers pput p_vars]. destruct (Nat.eq_dec u v) as [->|N].
          -- rewrite !setv_eq. reflexivity.
          -- rewrite !setv_neq by auto. destruct del; cbn; rewrite R2; apply V.
        * intros n. cbn [pput p_files pd_files]. destruct del; cbn; rewrite R1; unfold setf;
            rewrite ?F; reflexivity.
        * intros x O.
          assert (O1 : p_open (prelease w f) x = true) by (destruct del; exact O).
          assert (O2 : p_open w x = true /\ (f_own f = true -> f_fd f <> INVALID_DESCRIPTOR -> x <> f_fd f)).
          { unfold prelease in O1. destruct (f_own f && negb (f_fd f =? INVALID_DESCRIPTOR)) eqn:C.
            - cbn in O1. unfold setz in O1. destruct (Z.eqb_spec x (f_fd f)); [discriminate|]. auto.
            - split; [exact O1|]. intros H1 H2. rewrite H1 in C. cbn in C.
              destruct (Z.eqb_spec (f_fd f) INVALID_DESCRIPTOR); [contradiction|discriminate]. }
          destruct O2 as (O2 & NX). destruct (J x O2) as (N & v0 & n0 & d0 & E). split; [exact N|].
          exists v0, n0, d0. destruct (Nat.eq_dec v0 v) as [->|D].
          -- exfalso. rewrite Vv in E. injection E as -> _ _. cbn in NX. exact (NX eq_refl N eq_refl).
          -- cbn [pput p_vars]. rewrite setv_neq by exact D. destruct del; cbn; rewrite R2; exact E. }
  apply G; auto; [reflexivity|discriminate].
Qed.

Example C81_case :
  all_pproper (PDuty (fun _ => None) (fun _ => false))
    [PNamed 0 [97] true 3; PNamed 1 [98] false 4; PDestroy 0; PNamed 0 [99] true 3; PDestroy 1]
  /\ pd_files (pduties (PDuty (fun _ => None) (fun _ => false))
       [PNamed 0 [97] true 3; PNamed 1 [98] false 4; PDestroy 0; PNamed 0 [99] true 3; PDestroy 1])
       [97] = false.
Proof. split; [cbn; repeat split; discriminate|reflexivity]. Qed.

Ltac pgo :=
  repeat (progress (cbn -[name_eqb PIPE_NAME_PREFIX Z.eqb Z.ltb] || unfold prelease, npw_destroy, setf, setv, INVALID_DESCRIPTOR)).

(** A writer that was moved does not delete its file: the name is not moved along. *)
Theorem C81_move_refuted : forall name fd, name <> [] -> 0 <= fd ->
  exists w, prun (p_start (fun _ => false))
      [PNamed 0 name true fd; PMove 1 0; PDestroy 1; PDestroy 0] = Ok w
    /\ p_files w name = true /\ forall v, p_vars w v = None.
Proof.
  intros name fd Hn Hf. pgo. destruct (Z.eqb_spec fd (-1)); [lia|]. pgo.
  eexists. split; [reflexivity|]. pgo. rewrite (name_eqb_neq name []) by auto.
  rewrite name_eqb_refl. split; auto.
  intros v. do 2 (destruct v as [|v]; [reflexivity|]). reflexivity.
Qed.

(** A writer that is assigned another one deletes the file it was told to keep, keeps the file the other one
    was told to delete, and never closes the descriptor it had. *)
Theorem C81_assign_refuted : forall a b fd1 fd2, a <> b -> 0 <= fd1 -> 0 <= fd2 -> fd1 <> fd2 ->
  exists w, prun (p_start (fun _ => false))
      [PNamed 0 a true fd1; PNamed 1 b false fd2; PMoveAssign 1 0; PDestroy 1; PDestroy 0] = Ok w
    /\ p_files w a = true /\ p_files w b = false
    /\ p_open w fd1 = false /\ p_open w fd2 = true
    /\ forall v, p_vars w v = None.
Proof.
  intros a b fd1 fd2 N H1 H2 D. pgo.
  destruct (Z.eqb_spec fd1 (-1)); [lia|]. pgo. destruct (Z.eqb_spec fd2 (-1)); [lia|]. pgo.
  eexists. split; [reflexivity|]. pgo. unfold setz. rewrite !name_eqb_refl, !Z.eqb_refl.
  rewrite ?(name_eqb_neq b a), ?(name_eqb_neq a b) by auto.
  destruct (Z.eqb_spec fd2 fd1); [lia|]. repeat split.
  intros v. do 2 (destruct v as [|v]; [reflexivity|]). reflexivity.
Qed.

(** A writer that is given another pipe by open() deletes the file of the first pipe, which it
    was told to keep, and keeps that of the second, which it was told to delete. *)
Theorem C81_open_refuted : forall a b fd1 fd2, a <> b -> 0 <= fd1 -> 0 <= fd2 ->
  exists w, prun (p_start (fun _ => false))
      [PNamed 0 a false fd1; POpen 0 b true fd2; PDestroy 0] = Ok w
    /\ p_files w a = false /\ p_files w b = true.
Proof.
  intros a b fd1 fd2 N H1 H2. pgo.
  destruct (Z.eqb_spec fd1 (-1)); [lia|]. pgo. destruct (Z.ltb_spec fd2 0); [lia|]. pgo.
  destruct (Z.eqb_spec fd2 (-1)); [lia|]. pgo.
  eexists. split; [reflexivity|]. pgo. rewrite !name_eqb_refl.
  rewrite (name_eqb_neq b a) by auto. auto.
Qed.

(** setName, used by NamedPipeStream, makes the writer delete another file than the one that
    was opened: its name becomes the prefix, whatever the argument. *)
Theorem C81_setName_refuted : forall name fd, 0 <= fd -> name <> PIPE_NAME_PREFIX ->
  (exists w o, prun (p_start (fun _ => true)) [PNamed 0 name true fd; PSetName 0 name true] = Ok w
     /\ p_vars w 0%nat = Some o /\ p_name o = PIPE_NAME_PREFIX)
  /\ exists w, prun (p_start (fun _ => true))
      [PNamed 0 name true fd; PSetName 0 name true; PDestroy 0] = Ok w
    /\ p_files w name = true /\ p_files w PIPE_NAME_PREFIX = false.
Proof.
  intros name fd H N. split.
  - do 2 eexists. split; [reflexivity|]. split; reflexivity.
  - pgo. destruct (Z.eqb_spec fd (-1)); [lia|]. pgo.
    eexists. split; [reflexivity|]. pgo. unfold plus_string. rewrite !name_eqb_refl.
    rewrite (name_eqb_neq name PIPE_NAME_PREFIX); auto.
Qed.

(** Destroying a default-constructed writer reads a bool that has no value. *)
Theorem C81_default_refuted : forall files v, prun (p_start files) [PDefault v; PDestroy v] = UB.
Proof.
  intros files v. cbn. unfold pget, pput. cbn [p_vars]. rewrite setv_eq. reflexivity.
Qed.

(** * C82 *)

(** Destroying any NamedPipeStream reads a bool that has no value; with a compiler that finds
    some value there, the descriptors of both ends of the pipe stay open. *)
Theorem C82_refuted : forall (w : pworld) (s : npstream),
  nps_destroy None w s = UB
  /\ forall g w', nps_destroy (Some g) w s = Ok w' -> forall fd, p_open w' fd = p_open w fd.
Proof.
  intros w s. split; [reflexivity|]. intros g w' E fd. unfold nps_destroy, nps_deinit in E.
  cbn in E. unfold prelease, npw_destroy in E. cbn in E. injection E as <-.
  destruct g; reflexivity.
Qed.

(** ... for instance those of a stream just opened. Whether its file is to be deleted or not, it
    stays: only the name that is the prefix can be removed. *)
Theorem C82_opened_refuted : forall (w : pworld) name del wfd rfd g,
  p_open w wfd = true -> p_open w rfd = true ->
  exists w', nps_destroy (Some g) w (nps_open name del wfd rfd) = Ok w'
    /\ p_open w' wfd = true /\ p_open w' rfd = true
    /\ (forall f, f <> PIPE_NAME_PREFIX -> p_files w' f = p_files w f)
    /\ p_files w' PIPE_NAME_PREFIX = (if g then false else p_files w PIPE_NAME_PREFIX).
Proof.
  intros w name del wfd rfd g H1 H2.
  assert (exists w', nps_destroy (Some g) w (nps_open name del wfd rfd) = Ok w'
    /\ (forall f, f <> PIPE_NAME_PREFIX -> p_files w' f = p_files w f)
    /\ p_files w' PIPE_NAME_PREFIX = (if g then false else p_files w PIPE_NAME_PREFIX)) as (w' & E & F).
  { destruct g; (eexists; split; [reflexivity|]); split; [intros f N| |intros f N|]; try reflexivity.
    - cbn -[PIPE_NAME_PREFIX name_eqb]. unfold setf, plus_string. rewrite name_eqb_neq; auto. }
  exists w'. split; auto. rewrite !(proj2 (C82_refuted w (nps_open name del wfd rfd)) g w' E). auto.
Qed.

Print Assumptions C80_ownership_partial.
Print Assumptions C80_no_leak_partial.
Print Assumptions C80_lost_partial.
Print Assumptions C80_assign_refuted.
Print Assumptions C80_self_assign_refuted.
Print Assumptions C80_continue_refuted.
Print Assumptions C81_plain_partial.
Print Assumptions C81_move_refuted.
Print Assumptions C81_assign_refuted.
Print Assumptions C81_open_refuted.
Print Assumptions C81_setName_refuted.
Print Assumptions C81_default_refuted.
Print Assumptions C82_refuted.
Print Assumptions C82_opened_refuted.
