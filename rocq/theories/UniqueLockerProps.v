(** C48: theorems about UniqueLocker. *)
From Coq Require Import List Arith ZArith Lia Bool.
From Verif Require Import Base LockModel LockProofs UniqueLockerModel UniqueLockerSpec UniqueLockerProofs.
Import ListNotations.

(** Any number of threads, variables and locks. If every call is proper then nothing is
    undefined (a call may have to wait). At any moment every lock was acquired as often as it
    was released, plus once for every locker that is locked; its remaining count agrees; and
    every status returned was success. In particular, once all lockers are destroyed, each
    lock was released as often as it was acquired. *)
Theorem C48_balance_partial : forall n kinds values h,
  duties_proper n kinds values h ->
  urun (u_start n kinds values) h = Diverge \/
  exists w rs, urun (u_start n kinds values) h = Ok (w, rs) /\
    let s := duty_run (repeat Gone n) h rs in
    (forall l,
       w_acquired w l = w_released w l + owed s l /\
       l_count (w_locks w l) + owed s l = match kinds l with KSemaphore => values l | _ => 1 end) /\
    (Forall (eq Gone) s -> forall l, w_acquired w l = w_released w l) /\
    (forall z, In (RStatus z) rs -> z = SUCCESS).
Proof.
  intros n kinds values h P.
  destruct (urun_ok kinds values h _ _ (u_start_inv kinds values n) P)
    as [(w & rs & R & Len & F & I)|R]; [right|left; exact R].
  exists w, rs. split; [exact R|]. cbv zeta. split; [|split].
  - intros l. split; [apply (i_balance _ _ _ _ I)|apply (i_count _ _ _ _ I)].
  - intros G l. rewrite (i_balance _ _ _ _ I).
    assert (Z : owed (duty_run (repeat Gone n) h rs) l = 0); [|lia].
    unfold owed. clear - G. induction G as [|x s <- G IH]; [reflexivity|exact IH].
  - intros z Hz. rewrite Forall_forall in F. apply (F _ Hz).
Qed.

(** A proper call waits only if it is lock() on a lock all of whose acquisitions are owed. *)
Theorem C48_waits_partial : forall n kinds values h t c w rs,
  duties_proper n kinds values (h ++ [(t, c)]) ->
  urun (u_start n kinds values) h = Ok (w, rs) ->
  let s := duty_run (repeat Gone n) h rs in
  (exists r, ustep w t c = Ok r) \/
  exists v l, (c = ULock v /\ duty_of s v = For l None \/ c = UNew v l WithLock) /\
    owed s l = match kinds l with KSemaphore => values l | _ => 1 end.
Proof.
  intros n kinds values h t c w rs P R s.
  assert (P' : duties_proper n kinds values h).
  { intros h1 t1 c1 h2 w1 rs1 E. apply (P h1 t1 c1 (h2 ++ [(t, c)])).
    rewrite E, <- app_assoc. reflexivity. }
  destruct (urun_ok kinds values h _ _ (u_start_inv kinds values n) P')
    as [(w' & rs' & R' & Len & F & I)|R']; [|congruence].
  rewrite R in R'. injection R' as <- <-.
  assert (Pc := P h t c [] w rs eq_refl R).
  destruct (ustep_ok kinds values w s t c I Pc) as [(w1 & r & E & _)|[E (l & B & O)]]; [left; eauto|].
  right. destruct B as [(v & B1 & B2)|(v & B)]; exists v, l; auto.
Qed.

(** A proper history: two lockers of a mutex and one of a semaphore of value one; one is moved
    before it is used. *)
Definition c48_kinds (l : nat) : lock_kind := if l =? 0 then KMutex else KSemaphore.
Definition c48_history : list (nat * ucall) :=
  [(7, UNew 0 0 WithLock); (8, UNew 1 0 WithTry); (8, UNew 2 1 Plain); (8, UMove 3 2);
   (8, ULock 3); (7, UUnlock 0); (8, UTryLock 1); (8, UDestroy 1); (8, UDestroy 3); (7, UDestroy 0);
   (8, UDestroy 2)].

Fixpoint all_proper (w : uworld) (s : list duty) (h : list (nat * ucall)) : Prop :=
  match h with
  | [] => True
  | (t, c) :: h =>
      duty_proper s t c /\
      match ustep w t c with
      | Ok (w', r) => all_proper w' (duty_step s t c r) h
      | _ => True
      end
  end.

Lemma all_proper_from h : forall w s, all_proper w s h -> proper_from w s h.
Proof.
  induction h as [|[t c] h IH]; intros w s A h1 t1 c1 h2 w1 rs E R.
  - destruct h1; discriminate.
  - cbn [all_proper] in A. destruct A as [A1 A2]. destruct h1 as [|[t' c'] h1].
    + cbn in R, E. injection E as <- <- <-. injection R as <- <-. exact A1.
    + cbn [app] in E. injection E as <- <- ->. cbn [urun] in R.
      destruct (ustep w t c) as [[w' r]| |]; try discriminate. cbn [bind fst snd] in R.
      destruct (urun w' h1) as [[w2 rs2]| |] eqn:R2; try discriminate. cbn [bind fst snd] in R.
      injection R as <- <-. cbn [duty_run]. apply (IH w' _ A2 h1 t1 c1 h2 w2 rs2 eq_refl R2).
Qed.

Example C48_case :
  duties_proper 4 c48_kinds (fun _ => 1) c48_history /\
  match urun (u_start 4 c48_kinds (fun _ => 1)) c48_history with
  | Ok (w, rs) => w_acquired w 0 = 2 /\ w_released w 0 = 2 /\ w_acquired w 1 = 1 /\
                  nth 1 rs RNothing = RBool false /\ nth 6 rs RNothing = RBool true
  | _ => False
  end.
Proof.
  split.
  - apply all_proper_from. vm_compute.
    repeat match goal with |- _ /\ _ => split end; eauto 6; try lia; try discriminate.
  - vm_compute. repeat split.
Qed.

(** * Refutations *)

Ltac ugo K :=
  repeat (first [rewrite set_same | rewrite Nat.eqb_refl | rewrite K
    | progress cbn [urun ustep u_start fresh w_vars nth_error repeat bind put_var upd w_locks
        w_acquired w_released u_make l_kind lock_new u_lock get_var callback_lock q_callbacks q_data
        q_locked acquire l_count l_owner l_status set_status get_status fst snd u_move_assign
        u_destroy u_unlock callback_unlock release u_tryLock callback_try bump app]
    | progress unfold acquire, release, lock_new, bump]).

(** A locker that was locked is moved from: its target never releases the lock, and
    destroying the source is undefined (its callback is null). For every kind of lock. *)
Theorem C48_move_locked_refuted : forall kinds values l t,
  (kinds l = KSemaphore -> 1 <= values l) ->
  (exists w rs,
     urun (u_start 2 kinds values) [(t, UNew 0 l WithLock); (t, UMove 1 0); (t, UDestroy 1)] = Ok (w, rs) /\
     w_acquired w l = 1 /\ w_released w l = 0) /\
  urun (u_start 2 kinds values)
    [(t, UNew 0 l WithLock); (t, UMove 1 0); (t, UDestroy 1); (t, UDestroy 0)] = UB.
Proof.
  intros kinds values l t V.
  destruct (kinds l) eqn:K; ugo K;
    try (destruct (values l) as [|m] eqn:EV; [specialize (V eq_refl); lia|]; ugo K);
    (split; [eexists; eexists; split; [reflexivity|]; ugo K; split; reflexivity|reflexivity]).
Qed.

(** Assigning over a locker that is locked: the lock it had is never released. *)
Theorem C48_move_onto_locked_refuted : forall kinds values l l' t,
  (kinds l = KSemaphore -> 1 <= values l) ->
  exists w rs,
    urun (u_start 2 kinds values)
      [(t, UNew 0 l WithLock); (t, UNew 1 l' Plain); (t, UMoveAssign 0 1); (t, UDestroy 0);
       (t, UDestroy 1)] = Ok (w, rs) /\
    w_acquired w l = 1 /\ w_released w l = 0.
Proof.
  intros kinds values l l' t V.
  destruct (kinds l) eqn:K; ugo K;
    try (destruct (values l) as [|m] eqn:EV; [specialize (V eq_refl); lia|]; ugo K);
    (destruct (l_kind _); ugo K;
     (eexists; eexists; split; [reflexivity|]; ugo K; split; reflexivity)).
Qed.

(** A locker that is locked is copied: both release. With a semaphore there is one release too
    many; with a spin lock or a mutex the second one is undefined. *)
Theorem C48_copy_refuted : forall kinds values l t,
  (kinds l = KSemaphore -> 1 <= values l) ->
  let h := [(t, UNew 0 l WithLock); (t, UCopy 1 0); (t, UDestroy 1); (t, UDestroy 0)] in
  (kinds l = KSemaphore ->
   exists w rs, urun (u_start 2 kinds values) h = Ok (w, rs) /\
     w_acquired w l = 1 /\ w_released w l = 2) /\
  (kinds l <> KSemaphore -> urun (u_start 2 kinds values) h = UB).
Proof.
  intros kinds values l t V h. subst h.
  destruct (kinds l) eqn:K; ugo K; split; intros E; try congruence; try reflexivity.
  destruct (values l) as [|m] eqn:EV; [specialize (V eq_refl); lia|]. ugo K.
  eexists; eexists; split; [reflexivity|]; ugo K; split; reflexivity.
Qed.

(** lock() is called twice: a semaphore is acquired twice and released once; a spin lock or a
    mutex waits for its own thread. *)
Theorem C48_lock_twice_refuted : forall kinds values l t,
  let h := [(t, UNew 0 l WithLock); (t, ULock 0); (t, UDestroy 0)] in
  (kinds l = KSemaphore -> 2 <= values l ->
   exists w rs, urun (u_start 1 kinds values) h = Ok (w, rs) /\
     w_acquired w l = 2 /\ w_released w l = 1) /\
  (kinds l <> KSemaphore -> urun (u_start 1 kinds values) h = Diverge).
Proof.
  intros kinds values l t h. subst h.
  destruct (kinds l) eqn:K; ugo K; split; intros E; try congruence; try reflexivity.
  intros V. destruct (values l) as [|[|m]] eqn:EV; [lia|lia|]. ugo K.
  eexists; eexists; split; [reflexivity|]; ugo K; split; reflexivity.
Qed.

(** The constructor with UNLOCK releases what was not acquired. *)
Theorem C48_unlock_constructor_refuted : forall kinds values l t,
  let h := [(t, UNew 0 l WithUnlock); (t, UDestroy 0)] in
  (kinds l = KSemaphore ->
   exists w rs, urun (u_start 1 kinds values) h = Ok (w, rs) /\
     w_acquired w l = 0 /\ w_released w l = 1) /\
  (kinds l <> KSemaphore -> urun (u_start 1 kinds values) h = UB).
Proof.
  intros kinds values l t h. subst h.
  destruct (kinds l) eqn:K; ugo K; split; intros E; try congruence; try reflexivity.
  eexists; eexists; split; [reflexivity|]; ugo K; split; reflexivity.
Qed.

Example C48_refuted_case :
  ((fun _ : nat => KSemaphore) 3 = KSemaphore -> 1 <= (fun _ : nat => 2) 3) /\ KSpin <> KSemaphore.
Proof. split; [intros; lia|discriminate]. Qed.

Print Assumptions C48_balance_partial.
Print Assumptions C48_waits_partial.
Print Assumptions C48_move_locked_refuted.
Print Assumptions C48_move_onto_locked_refuted.
Print Assumptions C48_copy_refuted.
Print Assumptions C48_lock_twice_refuted.
Print Assumptions C48_unlock_constructor_refuted.
