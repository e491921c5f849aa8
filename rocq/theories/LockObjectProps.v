(** C96-C98: lifetime of lock objects, and the answers of tryLock and tryWait. *)
From Coq Require Import List Arith ZArith Lia Bool.
From Verif Require Import Base LockObjectModel.
Import ListNotations.

(** * Specification *)

(** The objects that exist after a history without moves, if every construction succeeds. *)
Fixpoint existing (alive : nat -> bool) (h : list lcall) : nat -> bool :=
  match h with
  | [] => alive
  | LNew v _ _ :: h => existing (lset alive v true) h
  | LDelete v _ :: h => existing (lset alive v false) h
  | _ :: h => existing alive h
  end.

(** Constructions that succeed, uses and destructions, in a sensible order; no moves. No
    destruction finds the bytes of the initializer. *)
Fixpoint plain (alive : nat -> bool) (h : list lcall) : Prop :=
  match h with
  | [] => True
  | LNew v ok _ :: h => ok = true /\ alive v = false /\ plain (lset alive v true) h
  | LUse v :: h => alive v = true /\ plain alive h
  | LDelete v same :: h =>
      alive v = true /\ same = false /\ plain (lset alive v false) h
  | _ => False
  end.

Lemma lset_eq {A} (f : nat -> A) v x : lset f v x v = x.
Proof. unfold lset. rewrite Nat.eqb_refl. reflexivity. Qed.
Lemma lset_neq {A} (f : nat -> A) v x u : u <> v -> lset f v x u = f u.
Proof. intros H. unfold lset. destruct (Nat.eqb_spec u v); congruence. Qed.

(** * C96 *)

(** Objects that are made, used and destroyed, never moved: nothing undefined happens, and the
    system has exactly the objects of the program. Missing: destructions that find the bytes of
    the initializer, constructions that fail (both refuted below), moves (C97). *)
Theorem C96_lifetime_partial : forall k h, plain (fun _ => false) h ->
  exists w, lrun k l_start h = Ok w /\
    forall v, l_live w v = existing (fun _ => false) h v.
Proof.
  intros k.
  assert (K : forall h w alive, plain alive h ->
    (forall v, l_vars w v = if alive v then Some (BSystem v) else None) ->
    (forall v, l_live w v = alive v) ->
    exists w', lrun k w h = Ok w' /\ forall v, l_live w' v = existing alive h v).
  { induction h as [|c h IH]; intros w alive P V L; [exists w; auto|].
    destruct c as [v ok told|v p s|v p s|v|v s]; cbn [plain] in P; try contradiction; cbn [lrun lstep existing].
    - destruct P as (-> & A & P). unfold lfree. rewrite V, A. cbn [bind]. rewrite L, A. cbn [bind].
      apply IH; [exact P| |].
      + intros u. cbn [l_vars]. destruct (Nat.eq_dec u v) as [->|D].
        * rewrite !lset_eq. reflexivity.
        * rewrite !lset_neq by exact D. apply V.
      + intros u. cbn [l_live]. destruct (Nat.eq_dec u v) as [->|D].
        * rewrite !lset_eq. reflexivity.
        * rewrite !lset_neq by exact D. apply L.
    - destruct P as (A & P). unfold lget. rewrite V, A. cbn [bind own]. rewrite Nat.eqb_refl, L, A.
      cbn [andb bind]. apply IH; assumption.
    - destruct P as (A & S & P). unfold lget. rewrite V, A. cbn [bind is_initializer].
      subst s.
      assert (D : ldestroy k w v (BSystem v) false = Ok (LWorld (l_vars w) (lset (l_live w) v false))).
      { unfold ldestroy. cbn [own is_initializer bind]. rewrite Nat.eqb_refl, L, A. destruct k; reflexivity. }
      rewrite D. cbn [bind]. apply IH; [exact P| |].
      + intros u. cbn [lput l_vars]. destruct (Nat.eq_dec u v) as [->|N].
        * rewrite !lset_eq. reflexivity.
        * rewrite !lset_neq by exact N. apply V.
      + intros u. cbn [lput l_live]. destruct (Nat.eq_dec u v) as [->|N].
        * rewrite !lset_eq. reflexivity.
        * rewrite !lset_neq by exact N. apply L. }
  intros h P. apply (K h l_start (fun _ => false) P); reflexivity.
Qed.

Example C96_case :
  plain (fun _ => false) [LNew 1 true false; LNew 2 true false; LUse 1; LDelete 1 false; LUse 2; LNew 1 true false] /\
  existing (fun _ => false) [LNew 1 true false; LNew 2 true false; LUse 1; LDelete 1 false; LUse 2; LNew 1 true false] 1 = true.
Proof. cbn. repeat split; congruence. Qed.

(** A destructor that finds the bytes of the initializer does not destroy the object of the
    system: it is left for ever. *)
Theorem C96_skipped_refuted : forall k v,
  exists w, lrun k l_start [LNew v true false; LUse v; LDelete v true] = Ok w /\
    l_vars w v = None /\ l_live w v = true.
Proof.
  intros k v. cbn [lrun lstep lfree l_start l_vars l_live bind]. unfold lget. cbn [l_vars].
  rewrite lset_eq. cbn [bind own l_live]. rewrite Nat.eqb_refl, lset_eq. cbn [andb bind l_vars].
  rewrite lset_eq. cbn [bind is_initializer].
  eexists. split; [reflexivity|]. cbn [lput l_vars l_live]. rewrite !lset_eq. auto.
Qed.

(** A Spin or Semaphore whose construction failed cannot be destroyed, nor can a Mutex if errno was 0;
    otherwise a Mutex can. *)
Theorem C96_failed_refuted : forall k v told same, k <> KMutex \/ told = false ->
  lrun k l_start [LNew v false told; LDelete v same] = UB.
Proof.
  intros k v told same N. cbn [lrun lstep lfree l_start l_vars bind]. unfold lget. cbn [lput l_vars].
  rewrite lset_eq. destruct k; [destruct N as [N| ->]; [congruence|reflexivity]| |]; reflexivity.
Qed.

Theorem C96_failed_mutex_partial : forall v same,
  exists w, lrun KMutex l_start [LNew v false true; LDelete v same] = Ok w /\ forall u, l_live w u = false.
Proof.
  intros v same. cbn [lrun lstep lfree l_start l_vars bind]. unfold lget. cbn [lput l_vars].
  rewrite lset_eq. cbn [bind is_initializer]. eexists. split; reflexivity.
Qed.

(** What a history without assignments does to each variable: [SGood] has an object of the
    system; [SEmpty] is a Mutex whose construction failed and was noticed; [SBroken] another
    object whose construction failed. *)
Inductive lstate := SNone | SGood | SEmpty | SBroken.

(** The variables, and the addresses at which an object of the system was left by a destructor
    that found the bytes of the initializer. *)
Definition lsteps := option ((nat -> lstate) * (nat -> bool)).

(** One call; [None]: it is undefined. *)
Definition lock_step (k : lkind) (f : nat -> lstate) (lost : nat -> bool) (c : lcall) : lsteps :=
  match c with
  | LNew v true _ =>
      match f v, lost v with SNone, false => Some (lset f v SGood, lost) | _, _ => None end
  | LNew v false told =>
      match f v with
      | SNone => Some (lset f v (match k, told with KMutex, true => SEmpty | _, _ => SBroken end), lost)
      | _ => None
      end
  | LUse v => match f v with SGood | SEmpty => Some (f, lost) | _ => None end
  | LDelete v same =>
      match f v with
      | SGood => Some (lset f v SNone, lset lost v same)
      | SEmpty => Some (lset f v SNone, lost)
      | _ => None
      end
  | LMove _ _ _ | LAssign _ _ _ => None
  end.

(** A history. *)
Fixpoint lock_steps (k : lkind) (f : nat -> lstate) (lost : nat -> bool) (h : list lcall) : lsteps :=
  match h with
  | [] => Some (f, lost)
  | c :: h => match lock_step k f lost c with Some (f, lost) => lock_steps k f lost h | None => None end
  end.

(** The history has no assignment. *)
Definition no_assignment (h : list lcall) : Prop := forall v p same, ~ In (LAssign v p same) h.

Definition lock_rel (k : lkind) (f : nat -> lstate) (lost : nat -> bool) (w : lworld) : Prop :=
  forall v,
    l_vars w v = match f v with SNone => None | SGood => Some (BSystem v)
                           | SEmpty => Some BInitializer | SBroken => Some BJunk end /\
    l_live w v = match f v with SGood => true | _ => lost v end /\
    (f v = SEmpty -> k = KMutex) /\ (f v = SGood -> lost v = false).

Lemma lock_does k f lost w c : lock_rel k f lost w ->
  (forall v p same, c <> LAssign v p same) ->
  match lock_step k f lost c with
  | None => lstep k w c = UB
  | Some (f', lost') => exists w', lstep k w c = Ok w' /\ lock_rel k f' lost' w'
  end.
Proof.
  intros R NA. destruct c as [v ok told|v p s|v p s|v|v s]; cbn [lock_step lstep].
  - destruct (R v) as (V & L & _ & _). unfold lfree. rewrite V.
    destruct ok; destruct (f v) eqn:Ef; cbn [bind]; try reflexivity.
    + rewrite L. destruct (lost v) eqn:El; [reflexivity|]. eexists. split; [reflexivity|].
      intros u. cbn [l_vars l_live]. destruct (Nat.eq_dec u v) as [->|D].
      * rewrite !lset_eq. repeat split; congruence.
      * rewrite !lset_neq by exact D. apply R.
    + eexists. split; [reflexivity|].
      intros u. cbn [lput l_vars l_live]. destruct (Nat.eq_dec u v) as [->|D].
      * rewrite !lset_eq. destruct k, told; (repeat split; try congruence); exact L.
      * rewrite !lset_neq by exact D. apply R.
  - unfold lfree. destruct (l_vars w v); [reflexivity|].
    cbn [bind]. unfold lassign, lget. cbn [lput l_vars]. rewrite lset_eq. destruct k; reflexivity.
  - exfalso. exact (NA v p s eq_refl).
  - destruct (R v) as (V & L & E & _). unfold lget. rewrite V.
    destruct (f v) eqn:Ef; cbn [bind own]; try reflexivity.
    + rewrite Nat.eqb_refl, L. exists w. split; [reflexivity|exact R].
    + rewrite (E eq_refl). exists w. split; [reflexivity|]. rewrite <- (E eq_refl). exact R.
    + destruct k; reflexivity.
  - destruct (R v) as (V & L & E & G). unfold lget. rewrite V.
    destruct (f v) eqn:Ef; cbn [bind is_initializer]; try reflexivity.
    + specialize (G eq_refl).
      assert (D : ldestroy k w v (BSystem v) false = Ok (LWorld (l_vars w) (lset (l_live w) v false))).
      { unfold ldestroy. cbn [own is_initializer bind]. rewrite Nat.eqb_refl, L. destruct k; reflexivity. }
      destruct s; [|rewrite D]; cbn [bind]; (eexists; split; [reflexivity|]);
        (intros u; cbn [lput l_vars l_live]; destruct (Nat.eq_dec u v) as [->|N];
         [rewrite !lset_eq; repeat split; congruence|rewrite !lset_neq by exact N; apply R]).
    + eexists. split; [reflexivity|].
      intros u. cbn [lput l_vars l_live]. destruct (Nat.eq_dec u v) as [->|N].
      * rewrite !lset_eq. repeat split; congruence.
      * rewrite !lset_neq by exact N. apply R.
Qed.

(** Any history without assignments, whatever fails and whatever bytes the destructors find: it
    is undefined exactly if [lock_steps] says so (every move is), and otherwise the system has
    exactly the objects of the variables that have one and those that were left. Missing:
    assignments (C97). *)
Theorem C96_exact_partial : forall k h, no_assignment h ->
  match lock_steps k (fun _ => SNone) (fun _ => false) h with
  | None => lrun k l_start h = UB
  | Some (f, lost) => exists w, lrun k l_start h = Ok w /\
      (forall v, l_live w v = true <-> f v = SGood \/ lost v = true) /\
      (forall v, l_vars w v = None <-> f v = SNone)
  end.
Proof.
  intros k h NA.
  assert (K : forall h w f lost, no_assignment h -> lock_rel k f lost w ->
    match lock_steps k f lost h with
    | None => lrun k w h = UB
    | Some (f', lost') => exists w', lrun k w h = Ok w' /\ lock_rel k f' lost' w'
    end).
  { clear h NA. induction h as [|c h IH]; intros w f lost N R; cbn [lock_steps lrun].
    - exists w. auto.
    - pose proof (lock_does k f lost w c R) as D.
      assert (NC : forall v p same, c <> LAssign v p same).
      { intros v p same ->. apply (N v p same). left. reflexivity. }
      specialize (D NC). destruct (lock_step k f lost c) as [(f', lost')|].
      + destruct D as (w' & -> & R'). cbn [bind]. apply IH; [|exact R'].
        intros v p same I. apply (N v p same). right. exact I.
      + rewrite D. reflexivity. }
  assert (R0 : lock_rel k (fun _ => SNone) (fun _ => false) l_start).
  { intros v. repeat split; congruence. }
  specialize (K h _ _ _ NA R0).
  destruct (lock_steps k (fun _ => SNone) (fun _ => false) h) as [(f, lost)|]; [|exact K].
  destruct K as (w & E & R). exists w. split; [exact E|]. split; intros v; destruct (R v) as (V & L & _ & _).
  - rewrite L. destruct (f v); split; intros H; auto; try (right; exact H);
      destruct H as [H|H]; try discriminate; exact H.
  - rewrite V. destruct (f v); split; congruence.
Qed.

(** A failed Mutex is destroyed; another is left by its destructor, so that no other can be made
    there. *)
Example C96_exact_case :
  let h := [LNew 1 false true; LUse 1; LDelete 1 false; LNew 2 true false; LUse 2; LDelete 2 true; LNew 1 true false] in
  no_assignment h /\
  match lock_steps KMutex (fun _ => SNone) (fun _ => false) h with
  | Some (f, lost) => f 1 = SGood /\ f 2 = SNone /\ lost 2 = true /\ lost 1 = false
  | None => False
  end /\
  lock_steps KMutex (fun _ => SNone) (fun _ => false) (h ++ [LNew 2 true false]) = None /\
  lock_steps KSpin (fun _ => SNone) (fun _ => false) h = None.
Proof.
  cbv zeta. split; [|vm_compute; repeat split].
  intros v p same I. cbn [In] in I. repeat (destruct I as [I|I]; [discriminate|]). contradiction.
Qed.

(** * C97 *)

(** The move constructors are undefined, for each kind of lock and in every world. *)
Theorem C97_move_refuted : forall k w v p same, lstep k w (LMove v p same) = UB.
Proof.
  intros k w v p same. cbn [lstep]. unfold lfree. destruct (l_vars w v); [reflexivity|].
  cbn [bind]. unfold lassign, lget. cbn [lput l_vars]. rewrite lset_eq.
  destruct k; reflexivity.
Qed.

(** After an assignment the target cannot be used and, unless its destructor happens to be
    skipped, not destroyed; the object of the system that belonged to the source is left for
    ever. *)
Theorem C97_assign_refuted : forall k w v p same w',
  v <> p -> l_vars w p = Some (BSystem p) -> l_live w p = true ->
  lstep k w (LAssign v p same) = Ok w' ->
  lstep k w' (LUse v) = UB /\ lstep k w' (LDelete v false) = UB /\
  l_vars w' p = Some BInitializer /\ l_live w' p = true.
Proof.
  intros k w v p same w' N EP LP E. cbn [lstep] in E. unfold lassign in E.
  destruct (lget w v) as [b| |]; cbn [bind] in E; try discriminate.
  destruct (is_initializer b same) as [i| |]; cbn [bind] in E; try discriminate.
  set (m := if match k with KSem => i | _ => negb i end then ldestroy k w v b same else Ok w) in E.
  assert (M : forall w2, m = Ok w2 -> l_vars w2 = l_vars w /\ l_live w2 p = l_live w p).
  { intros w2 Em. subst m. destruct (match k with KSem => i | _ => negb i end).
    - unfold ldestroy in Em. cbv zeta in Em. destruct k.
      + destruct (is_initializer b same) as [j| |]; cbn [bind] in Em; try discriminate.
        destruct j; [injection Em as <-; auto|].
        destruct (own w v b); [|discriminate]. injection Em as <-. cbn [l_vars l_live].
        rewrite lset_neq by congruence. auto.
      + destruct (own w v b); [|discriminate]. injection Em as <-. cbn [l_vars l_live].
        rewrite lset_neq by congruence. auto.
      + destruct (own w v b); [|discriminate]. injection Em as <-. cbn [l_vars l_live].
        rewrite lset_neq by congruence. auto.
    - injection Em as <-. auto. }
  destruct m as [w2| |]; cbn [bind] in E; try discriminate.
  destruct (M w2 eq_refl) as (M1 & M2). unfold lget in E. rewrite M1, EP in E. cbn [bind] in E.
  injection E as <-. cbn [lstep]. unfold lget. cbn [lput l_vars l_live].
  rewrite lset_neq by exact N. rewrite !lset_eq. cbn [bind is_initializer own].
  assert (F : (p =? v) = false) by (apply Nat.eqb_neq; congruence).
  unfold ldestroy. cbn [own is_initializer bind]. rewrite F. cbn [andb].
  rewrite M2. destruct k; auto.
Qed.

(** … which happens: such an assignment runs for a Mutex or Spin as target that was moved from
    before, and for a Semaphore in the ordinary case, where the object of the target is left
    too. *)
Example C97_assign_case :
  (exists w w', lrun KMutex l_start [LNew 1 true false; LNew 2 true false; LNew 3 true false; LAssign 1 2 false] = Ok w /\
     lstep KMutex w (LAssign 2 3 false) = Ok w') /\
  (exists w w', lrun KSem l_start [LNew 1 true false; LNew 2 true false] = Ok w /\
     lstep KSem w (LAssign 1 2 false) = Ok w' /\ l_live w' 1 = true /\ l_live w' 2 = true).
Proof.
  split; [do 2 eexists|do 2 eexists]; (split; [cbv; reflexivity|]); [cbv; reflexivity|].
  split; [cbv; reflexivity|]. split; reflexivity.
Qed.

(** Assignment to a Semaphore that was moved from destroys what is not there. *)
Theorem C97_semaphore_refuted : forall w v p same,
  l_vars w v = Some BInitializer -> lstep KSem w (LAssign v p same) = UB.
Proof.
  intros w v p same E. cbn [lstep]. unfold lassign, lget. rewrite E. reflexivity.
Qed.

(** What is true: a Mutex that was moved from can be used and destroyed (its bytes are the
    static initializer). *)
Theorem C97_source_partial : forall w p same, l_vars w p = Some BInitializer ->
  lstep KMutex w (LUse p) = Ok w /\
  exists w', lstep KMutex w (LDelete p same) = Ok w' /\ l_live w' = l_live w.
Proof.
  intros w p same E. cbn [lstep]. unfold lget. rewrite E. cbn [bind own is_initializer].
  split; [reflexivity|]. eexists. split; reflexivity.
Qed.

(** * C98 *)

(** tryLock() answers true exactly if the system took the lock, for every answer of the system;
    a busy lock changes no status, another error is the status. *)
Theorem C98_try_lock : forall status result,
  (fst (try_lock status result) = true <-> result = 0%Z) /\
  (result = 0%Z \/ result = EBUSY -> snd (try_lock status result) = status) /\
  (result <> 0%Z -> result <> EBUSY -> snd (try_lock status result) = (- result)%Z).
Proof.
  intros status result. unfold try_lock, EBUSY. cbv zeta.
  destruct (Z.eqb_spec (- result) 0); [|destruct (Z.eqb_spec (- result) (Z.opp 16))]; cbn [fst snd];
    (split; [split; intros; try discriminate; try reflexivity; lia|split; intros; try reflexivity; lia]).
Qed.

(** The same for tryWait() and the errors POSIX allows for sem_trywait. *)
Theorem C98_try_wait_partial : forall status result errno,
  (result = 0 \/ (result = -1 /\ (errno = EAGAIN \/ errno = EDEADLK \/ errno = EINTR \/ errno = EINVAL)))%Z ->
  (fst (try_wait status result errno) = true <-> result = 0%Z) /\
  (result = 0%Z \/ errno = EAGAIN -> snd (try_wait status result errno) = status) /\
  (result <> 0%Z -> errno <> EAGAIN -> snd (try_wait status result errno) = (- errno)%Z).
Proof.
  intros status result errno [-> |(-> & [-> |[-> |[-> | ->]]])]; cbn;
    (split; [split; intros; try discriminate; reflexivity|split; intros; try reflexivity; try congruence]);
    match goal with H : _ \/ _ |- _ => destruct H; discriminate end.
Qed.

Example C98_case : try_wait 0 (-1) EAGAIN = (false, 0%Z) /\ try_lock 0 EDEADLK = (false, (-35)%Z).
Proof. split; reflexivity. Qed.

(** For every other error tryWait() answers that the semaphore was taken. *)
Theorem C98_other_error_refuted : forall status errno,
  errno <> EAGAIN -> errno <> EDEADLK -> errno <> EINTR -> errno <> EINVAL ->
  try_wait status (-1) errno = (true, status).
Proof.
  intros status errno N1 N2 N3 N4. unfold try_wait, EAGAIN, EDEADLK, EINTR, EINVAL, EBUSY in *.
  cbn [Z.eqb]. cbv zeta.
  destruct (Z.eqb_spec (- errno) (Z.opp 11)); [lia|]. destruct (Z.eqb_spec (- errno) (Z.opp 35)); [lia|].
  destruct (Z.eqb_spec (- errno) (Z.opp 4)); [lia|]. destruct (Z.eqb_spec (- errno) (Z.opp 22)); [lia|].
  reflexivity.
Qed.

Print Assumptions C96_lifetime_partial.
Print Assumptions C96_exact_partial.
Print Assumptions C96_skipped_refuted.
Print Assumptions C96_failed_refuted.
Print Assumptions C96_failed_mutex_partial.
Print Assumptions C97_move_refuted.
Print Assumptions C97_assign_refuted.
Print Assumptions C97_semaphore_refuted.
Print Assumptions C97_source_partial.
Print Assumptions C98_try_lock.
Print Assumptions C98_try_wait_partial.
Print Assumptions C98_other_error_refuted.
