(** C81: exactly which files and descriptors named pipe writers leave, in any program. *)
From Coq Require Import List Arith ZArith Lia Bool.
From Verif Require Import Base BaseLemmas FileOwnerModel FileOwnerSpec FileOwnerProofs FileOwnerProps PipeFilesSpec.
Import ListNotations.
Local Open Scope Z_scope.

Record told (files : list Z -> bool) (p : list pcall) (w : pworld) : Prop := Told {
  t_writers : forall v,
    match p_vars w v with
    | None => exists_ p v = false
    | Some o => exists_ p v = true /\ p_name o = named p v /\ p_del o = asked p v /\
        f_fd (p_file o) = has_fd p v /\ (f_own (p_file o) = true \/ f_fd (p_file o) = -1)
    end;
  t_files : forall n, p_files w n = file files p n;
  t_open : forall d, p_open w d = descriptor p d }.

Lemma prelease_open w o d : f_own o = true \/ f_fd o = -1 ->
  p_open (prelease w o) d = if (f_fd o =? d) && negb (d =? -1) then false else p_open w d.
Proof.
  intros H. unfold prelease, INVALID_DESCRIPTOR.
  destruct (Z.eqb_spec (f_fd o) (-1)) as [E|N].
  - rewrite andb_false_r. rewrite E. rewrite Z.eqb_sym. destruct (d =? -1); reflexivity.
  - destruct H as [->|H]; [|congruence]. cbn [andb negb p_open]. unfold setz. rewrite (Z.eqb_sym d).
    destruct (Z.eqb_spec (f_fd o) d) as [<-|]; [|reflexivity].
    destruct (Z.eqb_spec (f_fd o) (-1)); [congruence|reflexivity].
Qed.
Lemma prelease_vars w o : p_vars (prelease w o) = p_vars w.
Proof. unfold prelease. destruct (_ && _); reflexivity. Qed.
Lemma prelease_files w o : p_files (prelease w o) = p_files w.
Proof. unfold prelease. destruct (_ && _); reflexivity. Qed.

Lemma told_step files p w c : told files p w ->
  match (if (match c with
      | PDefault v | PNamed v _ _ _ => negb (exists_ p v)
      | PMove v q =>
          negb (exists_ p v) && exists_ p q &&
          match asked p q with Some _ => true | None => false end
      | PMoveAssign v q =>
          exists_ p v && exists_ p q && match asked p q with Some _ => true | None => false end
      | POpen v _ _ _ | PSetName v _ _ => exists_ p v
      | PDestroy v => exists_ p v && match asked p v with Some _ => true | None => false end
      end) then true else false) with
  | true => exists w', pstep w c = Ok w' /\ told files (c :: p) w'
  | false => pstep w c = UB
  end.
Proof.
  intros [W F O].
  assert (NW : forall v, p_vars w v = None -> exists_ p v = false)
    by (intros v E; specialize (W v); now rewrite E in W).
  assert (SW : forall v o, p_vars w v = Some o -> exists_ p v = true /\ p_name o = named p v /\ p_del o = asked p v /\
        f_fd (p_file o) = has_fd p v /\ (f_own (p_file o) = true \/ f_fd (p_file o) = -1))
    by (intros v o E; specialize (W v); now rewrite E in W).
  destruct c as [v|v name del fd|v q|v q|v name del fd|v name del|v]; cbn [pstep]; unfold pplace, pget.
  - destruct (p_vars w v) as [o|] eqn:EV; [destruct (SW _ _ EV) as (-> & _); reflexivity|].
    rewrite (NW _ EV). cbn [negb bind]. eexists. split; [reflexivity|].
    constructor; cbn [pput p_vars p_files p_open file descriptor]; auto.
    intros u. unfold setv. cbn [exists_ named asked has_fd]. rewrite (Nat.eqb_sym v u).
    destruct (Nat.eqb_spec u v) as [->|]; [cbn; auto 6|apply W].
  - destruct (p_vars w v) as [o|] eqn:EV; [destruct (SW _ _ EV) as (-> & _); reflexivity|].
    rewrite (NW _ EV). cbn [negb bind]. eexists. split; [reflexivity|].
    constructor; cbn [pput makeNamedWriter p_vars p_files p_open file descriptor].
    + intros u. unfold setv. cbn [exists_ named asked has_fd]. rewrite (Nat.eqb_sym v u).
      destruct (Nat.eqb_spec u v) as [->|]; [cbn; auto 6|apply W].
    + intros n. unfold setf, name_eqb. destruct (list_eq_dec Z.eq_dec n name); [reflexivity|apply F].
    + intros d. destruct (Z.eqb_spec fd (-1)) as [->|N].
      * rewrite andb_false_r. apply O.
      * rewrite andb_true_r. unfold setz. rewrite (Z.eqb_sym d). destruct (fd =? d); [reflexivity|apply O].
  - destruct (p_vars w v) as [o|] eqn:EV; [destruct (SW _ _ EV) as (-> & _); reflexivity|].
    rewrite (NW _ EV). cbn [negb bind andb].
    destruct (p_vars w q) as [s|] eqn:EQ; [|rewrite (NW _ EQ); reflexivity].
    destruct (SW _ _ EQ) as (E1 & E2 & E3 & E4 & E5). rewrite E1. cbn [bind andb].
    unfold npw_assign. rewrite E3. destruct (asked p q) as [b|] eqn:EA; [|reflexivity]. cbn [rd bind fst snd].
    eexists. split; [reflexivity|].
    constructor; cbn [pput p_vars p_files p_open file descriptor]; auto.
    intros u. unfold setv. cbn [exists_ named asked has_fd]. rewrite (Nat.eqb_sym v u), (Nat.eqb_sym q u).
    destruct (Nat.eqb_spec u q) as [->|].
    + destruct (Nat.eqb_spec q v) as [->|]; [congruence|]. cbn. auto 8.
    + destruct (Nat.eqb_spec u v) as [->|]; [cbn; auto 8|apply W].
  - destruct (p_vars w v) as [o|] eqn:EV; [|rewrite (NW _ EV); reflexivity].
    destruct (SW _ _ EV) as (D1 & D2 & D3 & D4 & D5). rewrite D1. cbn [bind andb].
    destruct (p_vars w q) as [s|] eqn:EQ; [|rewrite (NW _ EQ); reflexivity].
    destruct (SW _ _ EQ) as (E1 & E2 & E3 & E4 & E5). rewrite E1. cbn [bind andb].
    unfold npw_assign. rewrite E3. destruct (asked p q) as [b|] eqn:EA; [|reflexivity]. cbn [rd bind fst snd].
    eexists. split; [reflexivity|].
    constructor; cbn [pput p_vars p_files p_open file descriptor]; auto.
    intros u. unfold setv. cbn [exists_ named asked has_fd]. rewrite (Nat.eqb_sym v u), (Nat.eqb_sym q u).
    destruct (Nat.eqb_spec u q) as [->|]; [cbn; auto 8|].
    destruct (Nat.eqb_spec u v) as [->|]; [cbn; auto 8|apply W].
  - destruct (p_vars w v) as [o|] eqn:EV; [|rewrite (NW _ EV); reflexivity].
    destruct (SW _ _ EV) as (D1 & D2 & D3 & D4 & D5). rewrite D1. cbn [bind].
    assert (X : told files (POpen v name del fd :: p)
        (pput (makeNamedWriter (prelease w (p_file o)) name fd) v
           (Some (if fd <? 0 then NPW no_file (p_name o) (p_del o) else NPW (FObj fd true) (p_name o) (Some del))))).
    { constructor; cbn [pput makeNamedWriter p_vars p_files p_open file descriptor].
      - intros u. unfold setv. rewrite prelease_vars. cbn [exists_ named asked has_fd]. rewrite (Nat.eqb_sym v u).
        destruct (Nat.eqb_spec u v) as [->|]; [|apply W].
        cbn [andb]. destruct (Z.ltb_spec fd 0); destruct (Z.leb_spec 0 fd); try lia; cbn; auto 8.
      - intros n. unfold setf, name_eqb. rewrite prelease_files. destruct (list_eq_dec Z.eq_dec n name); [reflexivity|apply F].
      - intros d. assert (R := prelease_open w (p_file o) d D5). rewrite D4, O in R.
        destruct (Z.eqb_spec fd (-1)) as [->|N].
        + rewrite andb_false_r. exact R.
        + rewrite andb_true_r. unfold setz. rewrite (Z.eqb_sym d). destruct (fd =? d); [reflexivity|exact R]. }
    destruct (fd <? 0); eauto.
  - destruct (p_vars w v) as [o|] eqn:EV; [|rewrite (NW _ EV); reflexivity].
    destruct (SW _ _ EV) as (D1 & D2 & D3 & D4 & D5). rewrite D1. cbn [bind].
    eexists. split; [reflexivity|].
    constructor; cbn [pput p_vars p_files p_open file descriptor]; auto.
    intros u. unfold setv. cbn [exists_ named asked has_fd]. rewrite (Nat.eqb_sym v u).
    destruct (Nat.eqb_spec u v) as [->|]; [cbn -[PIPE_NAME_PREFIX]; auto 8|apply W].
  - destruct (p_vars w v) as [o|] eqn:EV; [|rewrite (NW _ EV); reflexivity].
    destruct (SW _ _ EV) as (D1 & D2 & D3 & D4 & D5). rewrite D1. cbn [bind andb].
    unfold npw_destroy. rewrite D3. destruct (asked p v) as [b|] eqn:EA; [|reflexivity]. cbn [rd bind].
    eexists. split; [reflexivity|].
    constructor; cbn [pput p_vars p_files p_open file descriptor].
    + intros u. unfold setv. cbn [exists_ named asked has_fd]. rewrite (Nat.eqb_sym v u).
      destruct (Nat.eqb_spec u v) as [->|]; [reflexivity|].
      destruct b; cbn [p_vars]; rewrite prelease_vars; apply W.
    + intros n. rewrite EA. destruct b; cbn [p_files]; rewrite prelease_files; [|apply F].
      unfold setf, name_eqb. rewrite D2. destruct (list_eq_dec Z.eq_dec n (named p v)); [reflexivity|apply F].
    + intros d. assert (R := prelease_open w (p_file o) d D5). rewrite D4, O in R. destruct b; exact R.
Qed.

Lemma prun_last : forall h w c, prun w (h ++ [c]) = bind (prun w h) (fun w => pstep w c).
Proof.
  induction h as [|c0 h IH]; intros w c; cbn [app prun].
  - cbn [bind]. destruct (pstep w c); reflexivity.
  - destruct (pstep w c0); cbn [bind]; auto.
Qed.

Lemma told_all files : forall h,
  if defined (rev h)
  then exists w, prun (p_start files) h = Ok w /\ told files (rev h) w
  else prun (p_start files) h = UB.
Proof.
  intros h. induction h as [|c h IH] using rev_ind.
  - cbn. eexists. split; [reflexivity|]. now constructor.
  - rewrite rev_unit, prun_last. cbn [defined]. destruct (defined (rev h)).
    + destruct IH as (w & -> & T). cbn [bind andb]. assert (S := told_step _ _ _ c T).
      match type of S with match (if ?b then _ else _) with _ => _ end => destruct b; exact S end.
    + now rewrite IH.
Qed.

(** For all programs: the program is undefined exactly when [defined] says so; otherwise the files that
    exist, the writers, their names and the open descriptors are exactly those the calls made so far
    say. A destructor removes the file whose name the writer was constructed with, whatever it has
    opened since; only setName changes it, to the prefix. *)
Theorem C81_exact_partial : forall files h,
  if defined (rev h)
  then exists w, prun (p_start files) h = Ok w
    /\ (forall n, p_files w n = file files (rev h) n)
    /\ (forall d, p_open w d = descriptor (rev h) d)
    /\ (forall v, match p_vars w v with
                  | None => exists_ (rev h) v = false
                  | Some o => exists_ (rev h) v = true /\ p_name o = named (rev h) v
                  end)
  else prun (p_start files) h = UB.
Proof.
  intros files h. assert (T := told_all files h). destruct (defined (rev h)); [|exact T].
  destruct T as (w & E & [W F O]). exists w. split; [exact E|]. split; [exact F|]. split; [exact O|].
  intros v. specialize (W v). destruct (p_vars w v); [|exact W]. tauto.
Qed.

(** Writer 0 makes and opens "a", then opens "b", is moved to 1, which opens "c"; both are destroyed:
    the three files are left, nothing is open. *)
Example C81_exact_case :
  let h := [PNamed 0 [97] true 3; POpen 0 [98] true 4; PMove 1 0; POpen 1 [99] true 3; PDestroy 1; PDestroy 0] in
  defined (rev h) = true /\
  map (file (fun _ => false) (rev h)) [[97]; [98]; [99]; []] = [true; true; true; false] /\
  map (descriptor (rev h)) [3; 4] = [false; false] /\
  defined (rev [PDefault 0; PMove 1 0]) = false.
Proof. repeat split. Qed.

Print Assumptions C81_exact_partial.
