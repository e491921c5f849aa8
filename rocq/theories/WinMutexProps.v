(** C157 - C162: theorems about mutexes on Windows, the life of Mutex and Semaphore objects there,
    and the mutexes for PKCS#11 modules. *)
From Coq Require Import List Arith ZArith Bool Lia.
From Verif Require Import Base WinLockModel WinLockProps WinMutexModel WinMutexSpec WinMutexProofs.
Import ListNotations.

(** * C157: a mutex excludes *)

(** Any number of threads, any interleaving: if everybody unlocks only what they locked, at most
    one thread is between a lock() or a successful tryLock() that returned and the unlock() that
    follows. *)
Theorem C157_exclusion : forall moves c h,
  mrun (tquiet (mutex_new None)) moves = (c, h) -> fair_use [] h ->
  length (holders [] h) <= 1.
Proof.
  intros moves c h E F. pose proof (minv_run _ _ _ _ _ minv_new E F) as V.
  pose proof (minv_bound _ _ 0 V) as B. pose proof (carried_nonneg (tc_threads c 0)). lia.
Qed.

Lemma only_sum c hs t : minv c hs -> only c t ->
  (Z.of_nat (wm_count (tc_mem c)) + mcarried (tc_threads c t) + Z.of_nat (length hs) = 1)%Z.
Proof.
  intros (_ & SP & N & I & E) O.
  assert (G : forall N, sum (fun u => mcarried (tc_threads c u)) N = if t <? N then mcarried (tc_threads c t) else 0%Z).
  { clear N I E. induction N as [|N IH]; [reflexivity|]. cbn [sum]. rewrite IH.
    destruct (Nat.eq_dec N t) as [->|D].
    - destruct (Nat.ltb_spec t t), (Nat.ltb_spec t (S t)); lia.
    - assert (X : mcarried (tc_threads c N) = 0%Z) by (destruct (O N D) as [-> | ->]; reflexivity).
      rewrite X. destruct (Nat.ltb_spec t N), (Nat.ltb_spec t (S N)); lia. }
  rewrite G in E. destruct (Nat.ltb_spec t N); [lia|].
  rewrite (I t H). cbn. lia.
Qed.

(** lock() of a mutex that nobody holds returns, if nobody else is inside a call (but threads
    may wait in lock()): also a thread that has been waiting takes the mutex with its next
    step. *)
Theorem C157_lock : forall moves c h t,
  mrun (tquiet (mutex_new None)) moves = (c, h) -> fair_use [] h ->
  only c t -> holders [] h = [] ->
  (tc_threads c t = None ->
   snd (mrun c (TCall t MLock :: repeat (TTick t) 2)) = [TInv t MLock; TRes t MLocked]) /\
  (tc_threads c t = Some (mstart MLock) ->
   snd (mrun c (repeat (TTick t) 2)) = [TRes t MLocked]).
Proof.
  intros moves c h t E F O H. pose proof (minv_run _ _ _ _ _ minv_new E F) as V.
  pose proof (only_sum _ _ _ V O) as SUM. rewrite H in SUM. cbn [length] in SUM.
  destruct V as (OP & _). destruct c as [m th]. cbn [tc_mem tc_threads] in *.
  split; intros T; rewrite T in SUM; cbn [mcarried mstart] in SUM;
    (assert (C : wm_count m = 1) by lia); unfold mrun;
    cbn [repeat trun tstep tc_threads tc_mem fst snd]; rewrite T;
    cbn [mstart fst snd tc_threads tc_mem]; rewrite ?tset_same;
    cbn [mpstep touch wm_open wm_count]; rewrite ?OP, ?C;
    cbn [fst snd tc_threads tc_mem]; rewrite ?tset_same; reflexivity.
Qed.

(** While somebody holds it, a thread in lock() does not return. *)
Theorem C157_waits : forall moves c h t,
  mrun (tquiet (mutex_new None)) moves = (c, h) -> fair_use [] h -> holders [] h <> [] ->
  tc_threads c t = None ->
  forall n, snd (mrun c (TCall t MLock :: repeat (TTick t) n)) = [TInv t MLock].
Proof.
  intros moves c h t E F H T n. pose proof (minv_run _ _ _ _ _ minv_new E F) as V.
  pose proof (minv_bound _ _ t V) as B. destruct V as (OP & _).
  assert (C : wm_count (tc_mem c) = 0).
  { pose proof (carried_nonneg (tc_threads c t)). destruct (holders [] h) eqn:HH; [congruence|]. cbn [length] in B. lia. }
  assert (L : forall n c, tc_threads c t = Some PWait -> wm_open (tc_mem c) = true -> wm_count (tc_mem c) = 0 ->
                snd (mrun c (repeat (TTick t) n)) = []).
  { clear. induction n as [|n IH]; intros c T O C; [reflexivity|]. unfold mrun in *.
    cbn [repeat trun tstep fst snd]. rewrite T. cbn [mpstep touch wm_open wm_count]. rewrite O, C.
    cbn [fst snd app]. apply IH; cbn; auto using tset_same. }
  unfold mrun in *. cbn [trun tstep fst snd]. rewrite T. cbn [fst snd app]. f_equal. 
  apply L; cbn; auto using tset_same.
Qed.

(** tryLock() returns at once, and true exactly if nobody holds the mutex (when nobody else is
    inside a call but lock()). *)
Theorem C157_try_lock : forall moves c h t,
  mrun (tquiet (mutex_new None)) moves = (c, h) -> fair_use [] h -> only c t -> tc_threads c t = None ->
  snd (mrun c [TCall t MTryLock; TTick t])
  = [TInv t MTryLock; TRes t (MTried (match holders [] h with [] => true | _ => false end))].
Proof.
  intros moves c h t E F O T. pose proof (minv_run _ _ _ _ _ minv_new E F) as V.
  pose proof (only_sum _ _ _ V O) as SUM. destruct V as (OP & _). rewrite T in SUM. cbn [mcarried] in SUM.
  destruct c as [m th]. cbn [tc_mem tc_threads] in *.
  unfold mrun. cbn [trun tstep tc_threads tc_mem fst snd]. rewrite T.
  cbn [mstart fst snd tc_threads tc_mem]. rewrite tset_same. cbn [mpstep touch wm_open wm_count]. rewrite OP.
  destruct (holders [] h) as [|a l]; cbn [length] in SUM.
  - assert (C : wm_count m = 1) by lia. rewrite C. reflexivity.
  - assert (C : wm_count m = 0) by lia. rewrite C. reflexivity.
Qed.

(** unlock() always returns, and after that the mutex is free. *)
Theorem C157_unlock : forall moves c h t,
  mrun (tquiet (mutex_new None)) moves = (c, h) -> fair_use [] h -> tc_threads c t = None ->
  In t (holders [] h) ->
  exists c', mrun c (mcomplete (t, MUnlock)) = (c', [TInv t MUnlock; TRes t MUnlocked]) /\
    fair_use [] (h ++ [TInv t MUnlock; TRes t MUnlocked]) /\
    holders [] (h ++ [TInv t MUnlock; TRes t MUnlocked]) = [] /\ wm_status (tc_mem c') = 0%Z.
Proof.
  intros moves c h t E F T IN. pose proof (minv_run _ _ _ _ _ minv_new E F) as V.
  pose proof (minv_bound _ _ t V) as B. destruct V as (OP & _). rewrite T in B. cbn [mcarried] in B.
  destruct (holders [] h) as [|a [|b l]] eqn:HH; cbn [length] in B; [contradiction| |lia].
  destruct IN as [->|[]]. assert (C : wm_count (tc_mem c) = 0) by lia.
  destruct c as [m th]. cbn [tc_mem tc_threads] in *.
  unfold mrun, mcomplete. cbn [repeat trun tstep tc_threads tc_mem fst snd]. rewrite T.
  cbn [mstart fst snd tc_threads tc_mem]. rewrite tset_same. cbn [mpstep touch wm_open wm_count]. rewrite OP, C.
  cbn [fst snd tc_threads tc_mem]. rewrite tset_same. cbn [mpstep fst snd tc_threads tc_mem app].
  eexists. split; [reflexivity|]. split; [|split].
  - rewrite fair_app. split; [exact F|]. rewrite HH. cbn. auto.
  - rewrite holders_app, HH. cbn. destruct (Nat.eq_dec t t); [reflexivity|congruence].
  - reflexivity.
Qed.

(** An unlock() too many does nothing but set the status: the mutex is not free twice. *)
Theorem C157_spare_unlock : forall moves c h t,
  mrun (tquiet (mutex_new None)) moves = (c, h) -> fair_use [] h ->
  only c t -> tc_threads c t = None -> holders [] h = [] ->
  exists c', mrun c (mcomplete (t, MUnlock)) = (c', [TInv t MUnlock; TRes t MUnlocked]) /\
    wm_count (tc_mem c') = wm_count (tc_mem c) /\ wm_status (tc_mem c') = (-298)%Z.
Proof.
  intros moves c h t E F O T H. pose proof (minv_run _ _ _ _ _ minv_new E F) as V.
  pose proof (only_sum _ _ _ V O) as SUM. destruct V as (OP & _). rewrite H, T in SUM. cbn [mcarried length] in SUM.
  assert (C : wm_count (tc_mem c) = 1) by lia.
  destruct c as [m th]. cbn [tc_mem tc_threads] in *.
  unfold mrun, mcomplete. cbn [repeat trun tstep tc_threads tc_mem fst snd]. rewrite T.
  cbn [mstart fst snd tc_threads tc_mem]. rewrite tset_same. cbn [mpstep touch wm_open wm_count]. rewrite OP, C.
  cbn [fst snd tc_threads tc_mem]. rewrite tset_same. cbn [mpstep fst snd tc_threads tc_mem app].
  eexists. split; [reflexivity|]. cbn. auto.
Qed.

Definition C157_moves : list (tmove mop) :=
  [TCall 1 MLock; TTick 1; TCall 2 MLock; TTick 2; TTick 1; TCall 3 MTryLock; TTick 3; TTick 2;
   TCall 1 MUnlock; TTick 1; TTick 2; TTick 1; TTick 2].
Example C157_case :
  snd (mrun (tquiet (mutex_new None)) C157_moves)
  = [TInv 1 MLock; TInv 2 MLock; TRes 1 MLocked; TInv 3 MTryLock; TRes 3 (MTried false);
     TInv 1 MUnlock; TRes 1 MUnlocked; TRes 2 MLocked] /\
  fair_use [] (snd (mrun (tquiet (mutex_new None)) C157_moves)) /\
  holders [] (snd (mrun (tquiet (mutex_new None)) C157_moves)) = [2].
Proof. split; [vm_compute; reflexivity|]. split; [vm_compute; tauto|vm_compute; reflexivity]. Qed.
(** A thread waits while another one holds the mutex. *)
Example C157_waits_case :
  let r := mrun (tquiet (mutex_new None)) [TCall 1 MLock; TTick 1; TTick 1; TCall 2 MLock; TTick 2] in
  fair_use [] (snd r) /\ holders [] (snd r) = [1] /\ tc_threads (fst r) 3 = None /\ only (fst r) 3.
Proof.
  cbv zeta. split; [vm_compute; tauto|]. split; [vm_compute; reflexivity|]. split; [reflexivity|].
  intros u D. destruct u as [|[|[|[|u]]]]; vm_compute; auto.
Qed.

(** * C158: the semaphores behind Mutex objects *)

(** Over every proper history of construction (also when the system fails), moves, assignments,
    uses and deletion: nothing is undefined, every Mutex has its own open semaphore, and there
    are no others. *)
Theorem C158_one_each : forall h, proper (fun _ => false) h ->
  exists s rs, lrun KMutex xs_start h = Ok (s, rs) /\ one_each s.
Proof.
  intros h P.
  destruct (lrun_ok KMutex h xs_start (fun _ => false) (fun _ => false) (linv_start _)) as (s & rs & E & V & _);
    [intros v; reflexivity|intros v H; discriminate|exact P|apply kassigns_mutex|].
  exists s, rs. split; [exact E|]. eapply linv_one_each, V.
Qed.

(** When all objects have been deleted no semaphore is left. *)
Theorem C158_none_left : forall h, proper (fun _ => false) h ->
  (forall v, fold_left alive_after h (fun _ => false) v = false) ->
  exists s rs, lrun KMutex xs_start h = Ok (s, rs) /\ forall n c m, xs_kernel s n <> Some (Sem c m).
Proof.
  intros h P A.
  destruct (lrun_ok KMutex h xs_start (fun _ => false) (fun _ => false) (linv_start _)) as (s & rs & E & V & L);
    [intros v; reflexivity|intros v H; discriminate|exact P|apply kassigns_mutex|].
  exists s, rs. split; [exact E|]. intros n c m K. destruct (li_all _ _ V _ _ _ K) as (v & st & X).
  specialize (L v). rewrite A, X in L. discriminate.
Qed.

Lemma reach k h moved0 : proper (fun _ => false) h -> kassigns k moved0 h -> (forall v, moved0 v = false) ->
  forall s rs, lrun k xs_start h = Ok (s, rs) ->
  linv k s /\ lives s (fold_left alive_after h (fun _ => false)).
Proof.
  intros P K M0 s rs E.
  destruct (lrun_ok k h xs_start (fun _ => false) moved0 (linv_start _)) as (s' & rs' & E' & V & L);
    [intros v; reflexivity|intros v H; rewrite M0 in H; discriminate|exact P|exact K|].
  rewrite E in E'. injection E' as <- <-. auto.
Qed.

(** No handle of other code is ever closed or changed. *)
Theorem C158_foreign : forall h c s rs s' r n, proper (fun _ => false) (h ++ [c]) ->
  lrun KMutex xs_start h = Ok (s, rs) -> lstep KMutex s c = Ok (s', r) ->
  xs_kernel s n = Some Foreign -> c <> XForeignClose n -> xs_kernel s' n = Some Foreign.
Proof.
  intros h c s rs s' r n P E S F NC.
  assert (A : forall h live, proper live (h ++ [c]) -> proper live h /\ can_call (fold_left alive_after h live) c).
  { clear. induction h as [|d h IH]; intros live; cbn.
    - intros (A & _). split; [exact I|exact A].
    - intros (A & B). destruct (IH _ B). auto. }
  destruct (A _ _ P) as (P1 & P2).
  destruct (reach KMutex h (fun _ => false) P1 (kassigns_mutex _ _) (fun _ => eq_refl) _ _ E) as (V & L).
  destruct (lstep_ok KMutex s c _ (fun _ => false) V L ltac:(intros v H; discriminate) P2 ltac:(intros X; discriminate))
    as (s1 & r1 & E1 & _ & _ & _ & G).
  rewrite S in E1. injection E1 as <- <-. eauto.
Qed.

(** After a move the target is what the source was (also if it is locked); the source has
    nothing. After an assignment also the semaphore that the target had is closed. *)
Theorem C158_move : forall h s rs v p, proper (fun _ => false) h ->
  lrun KMutex xs_start h = Ok (s, rs) -> xs_vars s v = None -> xs_vars s p <> None ->
  exists s', lstep KMutex s (XMove v p) = Ok (s', XDone) /\
    xs_vars s' v = xs_vars s p /\ xs_vars s' p = Some (XLock Invalid 0) /\
    (forall u, u <> v -> u <> p -> xs_vars s' u = xs_vars s u) /\
    (forall n, xs_kernel s' n = xs_kernel s n).
Proof.
  intros h s rs v p P E EV NP.
  destruct (reach KMutex h (fun _ => false) P (kassigns_mutex _ _) (fun _ => eq_refl) _ _ E) as (V & L).
  destruct (xs_vars s p) as [q|] eqn:EP; [|congruence].
  assert (D : v <> p) by congruence.
  cbn [lstep]. rewrite EV. destruct (Nat.eqb_spec v p) as [|_]; [contradiction|].
  destruct (assign_ok KMutex (set_var s v (Some (XLock Null 0))) v p (XLock Null 0) q) as (s' & E' & _ & EV' & EK).
  - apply linv_nothing; [exact V|rewrite EV; exact I|exact I].
  - cbn. apply set_same.
  - cbn. rewrite set_other by congruence. exact EP.
  - discriminate.
  - rewrite E'. cbn [bind]. exists s'. split; [reflexivity|]. rewrite EV'. cbn. repeat split.
    + rewrite set_other by exact D. apply set_same.
    + apply set_same.
    + intros u D1 D2. rewrite !set_other by assumption. reflexivity.
    + exact EK.
Qed.
Theorem C158_assign : forall h s rs v p o q, proper (fun _ => false) h ->
  lrun KMutex xs_start h = Ok (s, rs) -> xs_vars s v = Some o -> xs_vars s p = Some q -> v <> p ->
  exists s', lstep KMutex s (XAssign v p) = Ok (s', XDone) /\
    xs_vars s' v = Some q /\ xs_vars s' p = Some (XLock Invalid 0) /\
    (forall u, u <> v -> u <> p -> xs_vars s' u = xs_vars s u) /\
    (forall n, xs_kernel s' n = if match xl_handle o with Handle i => n =? i | _ => false end
                                then None else xs_kernel s n).
Proof.
  intros h s rs v p o q P E EV EP D.
  destruct (reach KMutex h (fun _ => false) P (kassigns_mutex _ _) (fun _ => eq_refl) _ _ E) as (V & L).
  cbn [lstep]. destruct (assign_ok KMutex s v p o q V EV EP ltac:(discriminate)) as (s' & E' & _ & EV' & EK).
  rewrite E'. cbn [bind]. exists s'. split; [reflexivity|]. rewrite EV'. repeat split.
  - rewrite set_other by exact D. apply set_same.
  - apply set_same.
  - intros u D1 D2. rewrite !set_other by assumption. reflexivity.
  - intros n. rewrite EK. destruct (xl_handle o); reflexivity.
Qed.

(** If the system has no semaphore to give, the new Mutex has the error as its status; every call
    on it returns, without success, and touches nothing else. *)
Theorem C158_failed_creation : forall s v value offer error,
  xs_vars s v = None -> match offer with Some n => xs_kernel s n <> None | None => True end ->
  exists s', lstep KMutex s (XNew v value offer error) = Ok (s', XDone) /\
    lstep KMutex s' (XGetStatus v) = Ok (s', XStatusIs (- error)) /\
    (exists s1, lstep KMutex s' (XAcquire v) = Ok (s1, XDone) /\
       lstep KMutex s1 (XGetStatus v) = Ok (s1, XStatusIs (- ERROR_INVALID_HANDLE)) /\
       forall n, xs_kernel s1 n = xs_kernel s n) /\
    (exists s1, lstep KMutex s' (XTry v) = Ok (s1, XTried false) /\
       lstep KMutex s1 (XGetStatus v) = Ok (s1, XStatusIs (- ERROR_INVALID_HANDLE)) /\
       forall n, xs_kernel s1 n = xs_kernel s n) /\
    (exists s1, lstep KMutex s' (XRelease v) = Ok (s1, XDone) /\
       lstep KMutex s1 (XGetStatus v) = Ok (s1, XStatusIs (- ERROR_INVALID_HANDLE)) /\
       forall n, xs_kernel s1 n = xs_kernel s n) /\
    (exists s1, lstep KMutex s' (XDelete v) = Ok (s1, XDone) /\
       forall n, xs_kernel s1 n = xs_kernel s n).
Proof.
  intros s v value offer error EV O.
  assert (C : create s offer 1 = None).
  { unfold create. destruct offer as [n|]; [|reflexivity].
    destruct (xs_kernel s n); [reflexivity|contradiction]. }
  exists (set_var s v (Some (XLock Null (- error)))). cbn [lstep]. rewrite EV, C.
  cbn [set_var xs_vars]. rewrite set_same. cbn [xl_handle xl_status is_invalid close_handle].
  split; [reflexivity|]. split; [reflexivity|].
  repeat split; eexists; (split; [reflexivity|]); unfold xl_set; cbn [xs_vars xs_kernel set_var xl_handle];
    rewrite ?set_same; auto.
Qed.

Example C158_failed_case : exists s rs,
  lrun KMutex xs_start [XForeignOpen 7; XNew 1 1 None 8; XNew 2 1 (Some 7) 8; XAcquire 2; XGetStatus 2; XTry 1]
    = Ok (s, rs) /\ rs = [XDone; XDone; XDone; XDone; XStatusIs (-6); XTried false].
Proof. eexists. eexists. split; vm_compute; reflexivity. Qed.

(** A Mutex locked in one variable is locked in the variable it was moved to; one that could not
    be created does not exclude anybody, but says so; of a Mutex that was moved away lock() does
    not return and tryLock() fails. *)
Example C158_case :
  proper (fun _ => false)
    [XNew 1 0 (Some 7) 0; XForeignOpen 8; XNew 2 0 (Some 8) 5; XAcquire 1; XMove 3 1; XTry 3; XRelease 3; XTry 3;
     XAcquire 2; XGetStatus 2; XTry 1; XAcquire 1; XNew 4 0 (Some 9) 0; XAssign 3 4; XTry 3; XDelete 1; XDelete 2;
     XDelete 3; XDelete 4] /\
  exists s rs, lrun KMutex xs_start
    [XNew 1 0 (Some 7) 0; XForeignOpen 8; XNew 2 0 (Some 8) 5; XAcquire 1; XMove 3 1; XTry 3; XRelease 3; XTry 3;
     XAcquire 2; XGetStatus 2; XTry 1; XAcquire 1; XNew 4 0 (Some 9) 0; XAssign 3 4; XTry 3; XDelete 1; XDelete 2;
     XDelete 3; XDelete 4] = Ok (s, rs) /\
  rs = [XDone; XDone; XDone; XDone; XDone; XTried false; XDone; XTried true; XDone; XStatusIs (-6); XTried false;
        XBlocked; XDone; XDone; XTried true; XDone; XDone; XDone; XDone] /\
  map (xs_kernel s) [7; 8; 9] = [None; Some Foreign; None].
Proof.
  split; [cbn; tauto|]. do 2 eexists. split; [vm_compute; reflexivity|]. split; vm_compute; reflexivity.
Qed.

(** * C159: the same for Semaphore *)

(** The same, if a Semaphore is assigned only to objects that were moved away. Missing: exactly
    the other assignments, which leak (below). *)
Theorem C159_one_each_partial : forall h, proper (fun _ => false) h -> assigns_empty (fun _ => false) h ->
  exists s rs, lrun KSemaphore xs_start h = Ok (s, rs) /\ one_each s.
Proof.
  intros h P A.
  destruct (lrun_ok KSemaphore h xs_start (fun _ => false) (fun _ => false) (linv_start _)) as (s & rs & E & V & _);
    [intros v; reflexivity|intros v H; discriminate|exact P|apply kassigns_semaphore, A|].
  exists s, rs. split; [exact E|]. eapply linv_one_each, V.
Qed.
Theorem C159_none_left_partial : forall h, proper (fun _ => false) h -> assigns_empty (fun _ => false) h ->
  (forall v, fold_left alive_after h (fun _ => false) v = false) ->
  exists s rs, lrun KSemaphore xs_start h = Ok (s, rs) /\ forall n c m, xs_kernel s n <> Some (Sem c m).
Proof.
  intros h P A D.
  destruct (lrun_ok KSemaphore h xs_start (fun _ => false) (fun _ => false) (linv_start _)) as (s & rs & E & V & L);
    [intros v; reflexivity|intros v H; discriminate|exact P|apply kassigns_semaphore, A|].
  exists s, rs. split; [exact E|]. intros n c m K. destruct (li_all _ _ V _ _ _ K) as (v & st & X).
  specialize (L v). rewrite D, X in L. discriminate.
Qed.

Example C159_case :
  let h := [XNew 1 2 (Some 7) 0; XMove 2 1; XNew 3 1 (Some 8) 0; XAssign 1 3; XAcquire 2; XTry 2; XTry 2;
            XTry 1; XRelease 2; XTry 2; XNew 4 0 (Some 9) 87; XGetStatus 4; XDelete 1; XDelete 2; XDelete 3; XDelete 4] in
  proper (fun _ => false) h /\ assigns_empty (fun _ => false) h /\
  exists s, lrun KSemaphore xs_start h
    = Ok (s, [XDone; XDone; XDone; XDone; XDone; XTried true; XTried false; XTried true; XDone; XTried true;
              XDone; XStatusIs (-87); XDone; XDone; XDone; XDone]) /\
  map (xs_kernel s) [7; 8; 9] = [None; None; None].
Proof.
  cbv zeta. split; [cbn; tauto|]. split; [cbn; tauto|]. eexists. split; [vm_compute; reflexivity|]. vm_compute. reflexivity.
Qed.

(** Assignment to a Semaphore that is in use leaks its semaphore, whatever it is assigned; it
    stays open when everything has been deleted. *)
Theorem C159_assign_refuted : forall v p a b x y, v <> p -> a <> b -> 0 < x -> 0 < y ->
  exists s rs, lrun KSemaphore xs_start
    [XNew v x (Some a) 0; XNew p y (Some b) 0; XAssign v p; XDelete v; XDelete p] = Ok (s, rs) /\
  (forall u, xs_vars s u = None) /\ xs_kernel s a = Some (Sem x x) /\ xs_kernel s b = None.
Proof.
  intros v p a b x y D1 D2 LX LY.
  assert (X0 : (0 <? x) = true) by (apply Nat.ltb_lt; exact LX).
  assert (Y0 : (0 <? y) = true) by (apply Nat.ltb_lt; exact LY).
  unfold lrun, lstep, xassign.
  do 12 (cbn [lstep xs_start xs_vars create xs_kernel bind fst snd set_var set_kernel xl_handle is_invalid close_handle xassign];
         rewrite ?X0, ?Y0, ?set_same; rewrite ?(set_other _ v _ p) by congruence; rewrite ?(set_other _ p _ v) by congruence;
         rewrite ?(set_other _ a _ b) by congruence; rewrite ?(set_other _ b _ a) by congruence).
  do 2 eexists. split; [reflexivity|]. cbn [xs_vars xs_kernel set_var set_kernel xs_start]. split; [|split].
  - intros u. unfold set. destruct (u =? p), (u =? v); reflexivity.
  - rewrite !(set_other _ b _ a) by congruence. apply set_same.
  - apply set_same.
Qed.

(** * C160: the status *)

(** If no two calls overlap the status is that of the last call. (lock() of a held mutex does not
    return, so it is not called.) Missing: calls that overlap, refuted below. *)
Theorem C160_sequential_partial : forall calls, sequential false calls ->
  exists c, mrun (tquiet (mutex_new None)) (concat (map mcomplete calls)) = (c, statuses false 0 calls).
Proof.
  assert (K : forall calls held status th, (forall u, th u = None) -> sequential held calls ->
    exists c, mrun (TC (WM true (if held then 0 else 1) status false false) th) (concat (map mcomplete calls))
              = (c, statuses held status calls)).
  { induction calls as [|[t o] calls IH]; intros held status th I SQ; [eexists; reflexivity|].
    destruct SQ as (Q1 & Q2 & Q3).
    assert (ST : exists th', (forall u, th' u = None) /\
      mrun (TC (WM true (if held then 0 else 1) status false false) th) (mcomplete (t, o))
      = (TC (WM true (if held_after held o then 0 else 1) (expected_status held o status) false false) th',
         firstn 2 (statuses held status ((t, o) :: calls)))).
    { unfold mrun, mcomplete. cbn [fst snd repeat trun tstep tc_threads]. rewrite (I t).
      assert (FF : forall f : nat -> option mpc, (forall u, u <> t -> f u = None) -> forall u, tset f t None u = None).
      { intros f H u. destruct (Nat.eq_dec u t) as [->|D]; [apply tset_same|].
        rewrite tset_other by exact D. apply H. exact D. }
      destruct o; cbn [mstart fst snd tc_threads tc_mem]; try congruence; try (rewrite (Q1 eq_refl) in *);
        try destruct held; cbn [negb];
        repeat (cbn [mpstep touch wm_open wm_count orb fst snd tc_threads tc_mem]; rewrite ?tset_same);
        (eexists; split; [|reflexivity]); apply FF; intros u D; rewrite ?tset_other by exact D; apply I. }
    destruct ST as (th' & I' & E). destruct (IH (held_after held o) (expected_status held o status) th' I' Q3) as (c & E2).
    exists c. unfold mrun in *. cbn [map concat]. rewrite trun_app, E. cbn [fst snd]. rewrite E2. reflexivity. }
  intros calls SQ. apply (K calls false 0%Z (fun _ => None)); auto.
Qed.
Example C160_case :
  sequential false [(1, MLock); (2, MTryLock); (1, MUnlock); (2, MGetStatus); (2, MUnlock); (1, MGetStatus)] /\
  statuses false 0 [(1, MLock); (2, MTryLock); (1, MUnlock); (2, MGetStatus); (2, MUnlock); (1, MGetStatus)]
  = [TInv 1 MLock; TRes 1 MLocked; TInv 2 MTryLock; TRes 2 (MTried false); TInv 1 MUnlock; TRes 1 MUnlocked;
     TInv 2 MGetStatus; TRes 2 (MStatusIs 0); TInv 2 MUnlock; TRes 2 MUnlocked; TInv 1 MGetStatus;
     TRes 1 (MStatusIs (-298))].
Proof. split; [cbn; repeat split; congruence|reflexivity]. Qed.

(** Step by step. *)
Lemma run_call m th t o rest c' h : th t = None ->
  mrun (TC m (tset th t (Some (mstart o)))) rest = (c', h) ->
  mrun (TC m th) (TCall t o :: rest) = (c', TInv t o :: h).
Proof. intros T E. unfold mrun in *. cbn [trun tstep tc_threads]. rewrite T. cbn [fst snd tc_mem app]. rewrite E. reflexivity. Qed.
Lemma run_inl m th t p m' p' rest c' h : th t = Some p -> mpstep p m = (m', inl p') ->
  mrun (TC m' (tset th t (Some p'))) rest = (c', h) -> mrun (TC m th) (TTick t :: rest) = (c', h).
Proof. intros T S E. unfold mrun in *. cbn [trun tstep tc_threads tc_mem]. rewrite T, S. cbn [fst snd app]. rewrite E. reflexivity. Qed.
Lemma run_inr m th t p m' r rest c' h : th t = Some p -> mpstep p m = (m', inr r) ->
  mrun (TC m' (tset th t None)) rest = (c', h) -> mrun (TC m th) (TTick t :: rest) = (c', TRes t r :: h).
Proof. intros T S E. unfold mrun in *. cbn [trun tstep tc_threads tc_mem]. rewrite T, S. cbn [fst snd app]. rewrite E. reflexivity. Qed.
Ltac lookup := repeat (first [rewrite tset_same | rewrite tset_other by congruence]); reflexivity.
Ltac one_step := first
  [ eapply run_call; [lookup|]
  | eapply run_inl; [lookup|cbv; reflexivity|]
  | eapply run_inr; [lookup|cbv; reflexivity|] ].

(** A thread that got the mutex reads a failure, that of an unlock() of another thread; and the
    other thread reads success although its call failed. *)
Theorem C160_status_refuted : forall a b, a <> b ->
  (exists c, mrun (tquiet (mutex_new None))
    [TCall b MUnlock; TTick b; TCall a MLock; TTick a; TTick a; TTick b; TCall a MGetStatus; TTick a]
  = (c, [TInv b MUnlock; TInv a MLock; TRes a MLocked; TRes b MUnlocked; TInv a MGetStatus;
     TRes a (MStatusIs (-298))])) /\
  (exists c, mrun (tquiet (mutex_new None))
    [TCall b MUnlock; TTick b; TCall a MLock; TTick a; TTick b; TTick a; TCall b MGetStatus; TTick b]
  = (c, [TInv b MUnlock; TInv a MLock; TRes b MUnlocked; TRes a MLocked; TInv b MGetStatus;
     TRes b (MStatusIs 0)])).
Proof.
  intros a b N.
  split; eexists; unfold tquiet, mutex_new; repeat one_step; reflexivity.
Qed.

(** * C161: deletion *)

(** If the object is deleted when all calls have returned, and not used after that, nobody
    touches it when it is gone. Missing: deletion by the last thread that got the mutex, while
    the unlock() of the one before has not returned (refuted below). *)
Theorem C161_touched_partial : forall moves c h d,
  Forall (fun mv => match mv with TCall _ MDelete => False | _ => True end) moves ->
  mrun (tquiet (mutex_new None)) moves = (c, h) -> (forall u, tc_threads c u = None) ->
  wm_touched (tc_mem c) = false /\
  let r := mrun c (mcomplete (d, MDelete)) in
  snd r = [TInv d MDelete; TRes d MDeleted] /\ wm_deleted (tc_mem (fst r)) = true /\
  wm_open (tc_mem (fst r)) = false /\ wm_touched (tc_mem (fst r)) = false.
Proof.
  intros moves c h d A E Q.
  assert (K : forall moves c, Forall (fun mv => match mv with TCall _ MDelete => False | _ => True end) moves ->
    (forall u, match tc_threads c u with Some PClose | Some (PClosed _) => False | _ => True end) ->
    wm_deleted (tc_mem c) = false -> wm_touched (tc_mem c) = false ->
    wm_deleted (tc_mem (fst (mrun c moves))) = false /\ wm_touched (tc_mem (fst (mrun c moves))) = false).
  { clear. induction moves as [|mv moves IH]; intros c A NC D T; [auto|].
    inversion A as [|? ? A1 A2]; subst. unfold mrun in *. cbn [trun fst].
    assert (G : forall m x t, wm_deleted m = false -> wm_touched m = false ->
      match x with Some PClose | Some (PClosed _) => False | _ => True end ->
      let r := TC m (tset (tc_threads c) t x) in
      (forall u, match tc_threads r u with Some PClose | Some (PClosed _) => False | _ => True end) /\
      wm_deleted (tc_mem r) = false /\ wm_touched (tc_mem r) = false).
    { intros m x t D1 T1 X. cbn. split; [|auto]. intros u. unfold tset. destruct (u =? t); [exact X|apply NC]. }
    destruct mv as [t o|t]; cbn [tstep].
    - specialize (NC t) as NT. destruct (tc_threads c t) as [p|] eqn:TT; [apply IH; auto|].
      cbn [fst]. destruct (G (tc_mem c) (Some (mstart o)) t D T) as (G1 & G2 & G3); [destruct o; auto; contradiction|].
      apply IH; assumption.
    - specialize (NC t) as NT. destruct (tc_threads c t) as [p|] eqn:TT; [|apply IH; auto].
      assert (S1 : wm_deleted (fst (mpstep p (tc_mem c))) = false /\ wm_touched (fst (mpstep p (tc_mem c))) = false /\
                   match snd (mpstep p (tc_mem c)) with inl PClose | inl (PClosed _) => False | _ => True end).
      { destruct p; cbn [mpstep]; try contradiction; cbn [touch wm_open wm_count];
          try (destruct (wm_open (tc_mem c)); [destruct (wm_count (tc_mem c))|]);
          cbn; rewrite ?D, ?T; auto. }
      destruct S1 as (S1 & S2 & S3).
      destruct (mpstep p (tc_mem c)) as [m [p'|r]]; cbn [fst snd] in *.
      + destruct (G m (Some p') t S1 S2) as (G1 & G2 & G3); [destruct p'; auto|]. apply IH; assumption.
      + destruct (G m None t S1 S2) as (G1 & G2 & G3); [exact I|]. apply IH; assumption. }
  destruct (K moves (tquiet (mutex_new None)) A) as (D & T); [intros u; exact I|reflexivity|reflexivity|].
  rewrite E in D, T. cbn [fst] in D, T. split; [exact T|].
  destruct c as [m th]. cbn [tc_mem tc_threads] in *. cbv zeta.
  unfold mrun, mcomplete. cbn [fst snd repeat trun tstep tc_threads]. rewrite (Q d).
  cbn [mstart fst snd tc_threads tc_mem]. rewrite tset_same. cbn [mpstep fst snd tc_threads tc_mem]. rewrite tset_same.
  cbn [mpstep touch fst snd tc_threads tc_mem wm_open wm_deleted wm_touched app]. rewrite D, T. auto.
Qed.
Example C161_case :
  let r := mrun (tquiet (mutex_new None)) [TCall 1 MLock; TTick 1; TTick 1; TCall 1 MUnlock; TTick 1; TTick 1] in
  forall u, tc_threads (fst r) u = None.
Proof. intros r u. destruct u as [|[|u]]; reflexivity. Qed.

Definition C161_moves (a b : nat) : list (tmove mop) :=
  [TCall a MLock; TTick a; TTick a; TCall b MLock; TTick b; TCall a MUnlock; TTick a;
   TTick b; TTick b; TCall b MUnlock; TTick b; TTick b; TCall b MDelete; TTick b; TTick b; TTick a].
(** Thread a unlocks; b, which waited, gets the mutex, unlocks and deletes the object, as every
    owner may who knows that nobody will lock it again; then a, still in unlock(), writes to the
    deleted object. *)
Theorem C161_unlock_refuted : forall a b, a <> b ->
  exists c, mrun (tquiet (mutex_new None)) (C161_moves a b)
    = (c, [TInv a MLock; TRes a MLocked; TInv b MLock; TInv a MUnlock; TRes b MLocked; TInv b MUnlock;
           TRes b MUnlocked; TInv b MDelete; TRes b MDeleted; TRes a MUnlocked]) /\
  wm_touched (tc_mem c) = true.
Proof.
  intros a b N. unfold C161_moves. eexists.
  split; [unfold tquiet, mutex_new; repeat one_step; reflexivity|reflexivity].
Qed.

(** * C162: mutexes for PKCS#11 modules *)

Lemma pk_sim l : forall (h : mheap) (s : pk_state), (forall a, match s a, h a with
      | None, None => True
      | Some b, Some m => wm_open m = true /\ wm_count m = (if b then 0 else 1)
      | _, _ => False
      end) ->
  forall s' rs, pk_run s l = Some (s', rs) -> exists h', crun h l = Ok (h', rs).
Proof.
  induction l as [|c l IH]; intros h s R s' rs; cbn [pk_run crun].
  - intros E. injection E as <- <-. eauto.
  - destruct (pk_step s c) as [[s1 r]|] eqn:ES; [|discriminate].
    destruct (pk_run s1 l) as [[s2 rs1]|] eqn:ER; [|discriminate]. intros E. injection E as <- <-.
    assert (G : exists h1, cstep h c = Ok (h1, r) /\ forall a, match s1 a, h1 a with
      | None, None => True
      | Some b, Some m => wm_open m = true /\ wm_count m = (if b then 0 else 1)
      | _, _ => False
      end).
    { assert (U : forall (a : nat) (x : option bool) (y : option wmutex) (u : nat), match x, y with
        | None, None => True
        | Some b, Some m => wm_open m = true /\ wm_count m = (if b then 0 else 1)
        | _, _ => False
        end -> match set s a x u, set h a y u with
        | None, None => True
        | Some b, Some m => wm_open m = true /\ wm_count m = (if b then 0 else 1)
        | _, _ => False
        end).
      { intros a x y u H. unfold set. destruct (u =? a); [exact H|apply R]. }
      destruct c as [[|] [a|] [e|]|[a|]|[a|]|[a|]]; cbn [pk_step cstep] in *;
        try (injection ES as <- <-; eexists; split; [reflexivity|]; exact R); try discriminate.
      - specialize (R a) as RA. destruct (s a) as [b|] eqn:SA, (h a) as [m|] eqn:HA; try contradiction.
        + injection ES as <- <-. eexists; split; [reflexivity|]. exact R.
        + injection ES as <- <-. eexists; split; [reflexivity|]. intros u. apply U. cbn. auto.
      - specialize (R a) as RA. destruct (s a) as [b|] eqn:SA, (h a) as [m|] eqn:HA; try contradiction; try discriminate.
        injection ES as <- <-. eexists; split; [reflexivity|]. intros u. apply U. exact I.
      - specialize (R a) as RA. destruct (s a) as [b|] eqn:SA, (h a) as [m|] eqn:HA; try contradiction; try discriminate.
        destruct RA as (O & C). destruct b; injection ES as <- <-.
        + cbn [alone mstart mpstep touch wm_open wm_count]. rewrite O, C. cbn [mpstep touch wm_open wm_count]. rewrite O, C.
          eexists; split; [reflexivity|]. exact R.
        + cbn [alone mstart mpstep touch wm_open wm_count]. rewrite O, C. cbn [mpstep alone].
          eexists; split; [reflexivity|]. intros u. apply U. cbn. auto.
      - specialize (R a) as RA. destruct (s a) as [[|]|] eqn:SA, (h a) as [m|] eqn:HA; try contradiction; try discriminate.
        destruct RA as (O & C). injection ES as <- <-.
        cbn [alone mstart mpstep touch wm_open wm_count]. rewrite O, C. cbn [mpstep alone].
        eexists; split; [reflexivity|]. intros u. apply U. cbn. auto. }
    destruct G as (h1 & E1 & R1). rewrite E1. cbn [bind fst snd].
    destruct (IH h1 s1 R1 _ _ ER) as (h' & E2). rewrite E2. cbn [bind fst snd]. eauto.
Qed.

(** As long as the system can create mutexes and the module unlocks only what is locked, the
    functions do what the standard asks for. Missing: the other cases, refuted below. *)
Theorem C162_functions_partial : forall l s rs,
  pk_run (fun _ => None) l = Some (s, rs) -> exists h, crun c_start l = Ok (h, rs).
Proof. intros l s rs. apply pk_sim. intros a. exact I. Qed.
Example C162_case : exists s, pk_run (fun _ => None)
  [CCreate true (Some 4) None; CCreate true (Some 5) None; CLock (Some 4); CLock (Some 5); CUnlock (Some 4);
   CLock (Some 4); CLock (Some 4); CDestroy (Some 5); CCreate true (Some 5) None; CLock None; CCreate true None None;
   CCreate false (Some 6) None]
  = Some (s, [Some (OK, Some 4); Some (OK, Some 5); Some (OK, None); Some (OK, None); Some (OK, None);
     Some (OK, None); None; Some (OK, None); Some (OK, Some 5); Some (ARGUMENTS_BAD, None);
     Some (HOST_MEMORY, None); Some (ARGUMENTS_BAD, None)]).
Proof. eexists. vm_compute. reflexivity. Qed.

(** When the system cannot create the mutex, the creation is reported as a success; then
    every lock succeeds at once, any number of times: the module has no mutual exclusion and
    cannot know it. *)
Theorem C162_create_refuted : forall a e n,
  exists h, crun c_start (CCreate true (Some a) (Some e) :: repeat (CLock (Some a)) n)
    = Ok (h, Some (OK, Some a) :: repeat (Some (OK, None)) n).
Proof.
  intros a e n. cbn [crun]. unfold cstep at 1. change (c_start a) with (@None wmutex). cbn [bind fst snd].
  assert (K : forall n h m, h a = Some m -> wm_open m = false ->
    exists h', crun h (repeat (CLock (Some a)) n) = Ok (h', repeat (Some (OK, None)) n)).
  { clear. induction n as [|n IH]; intros h m E O; cbn [repeat crun]; [eauto|].
    cbn [cstep]. rewrite E. cbn [alone mstart mpstep touch wm_open]. rewrite O. cbn [mpstep alone bind fst snd].
    match goal with |- context [crun (set h a (Some ?x)) _] => destruct (IH (set h a (Some x)) x) as (h' & E') end;
      [apply set_same|cbn; exact O|].
    rewrite E'. cbn [bind fst snd]. eauto. }
  destruct (K n (set c_start a (Some (mutex_new (Some e)))) (mutex_new (Some e))) as (h' & E');
    [apply set_same|reflexivity|].
  rewrite E'. cbn [bind fst snd]. eauto.
Qed.
(** Unlocking a mutex that is not locked is reported as a success; the standard asks for
    CKR_MUTEX_NOT_LOCKED. *)
Theorem C162_unlock_refuted : forall a n,
  exists h, crun c_start (CCreate true (Some a) None :: repeat (CUnlock (Some a)) n)
    = Ok (h, Some (OK, Some a) :: repeat (Some (OK, None)) n).
Proof.
  intros a n. cbn [crun]. unfold cstep at 1. change (c_start a) with (@None wmutex). cbn [bind fst snd].
  assert (K : forall n h m, h a = Some m -> wm_open m = true -> wm_count m = 1 ->
    exists h', crun h (repeat (CUnlock (Some a)) n) = Ok (h', repeat (Some (OK, None)) n)).
  { clear. induction n as [|n IH]; intros h m E O C; cbn [repeat crun]; [eauto|].
    cbn [cstep]. rewrite E. cbn [alone mstart mpstep touch wm_open wm_count]. rewrite O, C. cbn [mpstep alone bind fst snd].
    match goal with |- context [crun (set h a (Some ?x)) _] => destruct (IH (set h a (Some x)) x) as (h' & E') end;
      [apply set_same|cbn; exact O|cbn; exact C|].
    rewrite E'. cbn [bind fst snd]. eauto. }
  destruct (K n (set c_start a (Some (mutex_new None))) (mutex_new None)) as (h' & E');
    [apply set_same|reflexivity|reflexivity|].
  rewrite E'. cbn [bind fst snd]. eauto.
Qed.

(** * C192: a Mutex that the system could not make *)

(** Calls one after the other: none waits, tryLock() gives false, and the status is the error of
    the system first and then that of an invalid handle. *)
Theorem C192_answers : forall e calls, Forall (fun c => snd c <> MDelete) calls ->
  exists c, mrun (tquiet (mutex_new (Some e))) (concat (map mcomplete calls)) = (c, broken_answers (- e) calls).
Proof.
  intros e. change (mutex_new (Some e)) with (WM false 0 (- e) false false).
  unfold tquiet. generalize (- e)%Z. intros s calls F.
  assert (G : forall calls, Forall (fun c => snd c <> MDelete) calls -> forall s th, (forall t, th t = None) ->
            exists c, mrun (TC (WM false 0 s false false) th) (concat (map mcomplete calls)) = (c, broken_answers s calls)).
  { clear. induction calls as [|(t, o) calls IH]; intros F s th Q; [eexists; reflexivity|].
    apply Forall_cons_iff in F. destruct F as (F1 & F2). cbn [snd] in F1.
    assert (STEP : exists th', (forall u, th' u = None) /\
       mrun (TC (WM false 0 s false false) th) (mcomplete (t, o)) =
        (TC (WM false 0 (match o with MGetStatus | MDelete => s | _ => (-6)%Z end) false false) th',
         firstn 2 (broken_answers s ((t, o) :: calls)))).
    { unfold mrun, mcomplete. destruct o; try congruence;
        repeat (cbn [repeat trun tstep tc_threads tc_mem fst snd mstart mpstep touch wm_open wm_count
                     set_wm_count set_wm_status wm_status wm_deleted wm_touched orb app firstn broken_answers];
                rewrite ?Q, ?tset_same);
        eexists; (split; [|reflexivity]); intros u; unfold tset; destruct (Nat.eqb_spec u t); auto. }
    destruct STEP as (th' & Q' & E).
    destruct (IH F2 (match o with MGetStatus | MDelete => s | _ => (-6)%Z end) th' Q') as (c & E2). exists c. unfold mrun in *. cbn [map concat].
    rewrite trun_app, E. cbn [fst snd]. rewrite E2. reflexivity. }
  apply (G calls F s). reflexivity.
Qed.

(** Any threads at once: no call waits for another, tryLock() never gives true and the status
    tells of an error. *)
Definition broken (e : Z) (c : tconfig wmutex mpc) : Prop :=
  wm_open (tc_mem c) = false /\ (wm_status (tc_mem c) = - e \/ wm_status (tc_mem c) = -6)%Z /\
  forall t, match tc_threads c t with
            | Some (PClose | PClosed _) => False
            | Some (PWaited s | PTryFailed s | PReleased s) => s = (-6)%Z
            | _ => True
            end.

Definition broken_ok (e : Z) (ev : tevent mop mres) : Prop :=
  match ev with
  | TRes _ (MTried b) => b = false
  | TRes _ (MStatusIs s) => (s = - e \/ s = -6)%Z
  | _ => True
  end.

Lemma broken_step e c mv c' h : broken e c -> tstep mstart mpstep c mv = (c', h) ->
  (forall ev, In ev h -> ~ deletes ev) -> broken e c' /\ Forall (broken_ok e) h.
Proof.
  intros (O & S6 & T) E D. destruct mv as [t o|t]; cbn [tstep] in E.
  - destruct (tc_threads c t) eqn:ET; injection E as <- <-.
    + split; [split; auto|constructor].
    + split; [|repeat constructor]. split; [exact O|]. split; [exact S6|]. cbn [tc_threads]. intros u.
      unfold tset. destruct (Nat.eqb_spec u t); [|apply T].
      destruct o; cbn [mstart]; auto. apply (D (TInv t MDelete)); [left; reflexivity|]. exists t. reflexivity.
  - destruct (tc_threads c t) as [p|] eqn:ET; [|injection E as <- <-; split; [split; auto|constructor]].
    pose proof (T t) as Tt. rewrite ET in Tt. destruct c as [[op cnt st del tou] th]. cbn in O, S6, ET, T. subst op.
    cbn [tc_mem tc_threads] in E.
    destruct p; cbn [mpstep touch wm_open wm_count wm_status wm_deleted wm_touched set_wm_status] in E; try contradiction;
      injection E as <- <-; (split; [|apply Forall_forall; intros ev IN; cbn in IN; (contradiction || (destruct IN as [<-|[]]; cbn; auto))]);
      (split; [reflexivity|]);
      (split; [cbn [tc_mem wm_status]; auto|]); cbn [tc_threads]; intros u; unfold tset;
      destruct (Nat.eqb_spec u t); auto; try apply T; reflexivity.
Qed.

Theorem C192_any_threads : forall e moves c h,
  mrun (tquiet (mutex_new (Some e))) moves = (c, h) -> (forall ev, In ev h -> ~ deletes ev) ->
  (forall t, ~ In (TRes t (MTried true)) h) /\
  (forall t s, In (TRes t (MStatusIs s)) h -> s = (- e)%Z \/ s = (-6)%Z) /\
  (forall t, tc_threads c t <> None -> exists r c', mrun c (repeat (TTick t) 2) = (c', [TRes t r])).
Proof.
  intros e moves c h E D.
  assert (G : forall moves c0 c h, broken e c0 -> mrun c0 moves = (c, h) -> (forall ev, In ev h -> ~ deletes ev) ->
            broken e c /\ Forall (broken_ok e) h).
  { clear. unfold mrun. induction moves as [|mv moves IH]; intros c0 c h B E D; cbn [trun] in E.
    - injection E as <- <-. split; [exact B|constructor].
    - destruct (tstep mstart mpstep c0 mv) as (c1, h1) eqn:E1. cbn [fst snd] in E.
      destruct (trun mstart mpstep c1 moves) as (c2, h2) eqn:E2. injection E as <- <-.
      destruct (broken_step _ _ _ _ _ B E1) as (B1 & F1); [intros ev I; apply D, in_or_app; auto|].
      destruct (IH _ _ _ B1 E2) as (B2 & F2); [intros ev I; apply D, in_or_app; auto|].
      split; [exact B2|]. apply Forall_app. auto. }
  assert (B0 : broken e (tquiet (mutex_new (Some e)))) by (split; [reflexivity|]; split; [left; reflexivity|intros t; exact I]).
  destruct (G _ _ _ _ B0 E D) as (B & F).
  rewrite Forall_forall in F. split; [|split].
  - intros t I. specialize (F _ I). discriminate.
  - intros t s I. exact (F _ I).
  - intros t N. destruct B as (O & _ & T). specialize (T t). destruct c as [m th]. cbn [tc_mem tc_threads] in *.
    destruct (th t) as [p|] eqn:ET; [|congruence]. unfold mrun.
    destruct p; try contradiction;
      repeat (cbn [repeat trun tstep tc_threads tc_mem fst snd mpstep touch wm_open set_wm_status app];
              rewrite ?ET, ?O, ?tset_same); do 2 eexists; reflexivity.
Qed.

(** So it excludes nobody: as many threads as there are can have returned from lock(). *)
Theorem C192_excludes_nobody : forall e ts, NoDup ts ->
  exists c h, mrun (tquiet (mutex_new (Some e))) (concat (map (fun t => mcomplete (t, MLock)) ts)) = (c, h) /\
    fair_use [] h /\ holders [] h = rev ts.
Proof.
  intros e ts N.
  destruct (C192_answers e (map (fun t => (t, MLock)) ts)) as (c & E).
  { apply Forall_map. apply Forall_forall. intros t _. discriminate. }
  rewrite map_map in E. do 2 eexists. split; [exact E|]. clear.
  assert (G : forall l s hs, fair_use hs (broken_answers s (map (fun t => (t, MLock)) l)) /\
     holders hs (broken_answers s (map (fun t => (t, MLock)) l)) = rev l ++ hs).
  { induction l as [|t l IH]; intros s hs; cbn [map broken_answers fair_use rev app]; [split; [exact I|reflexivity]|].
    destruct (IH (-6)%Z (t :: hs)) as (F & H). cbn [holders_after allowed]. split; [auto|].
    unfold holders in *. cbn [fold_left holders_after]. rewrite H, <- app_assoc. reflexivity. }
  destruct (G ts (- e)%Z []) as (F & H). rewrite app_nil_r in H. auto.
Qed.

Example C192_case :
  Forall (fun c => snd c <> MDelete) [(1, MGetStatus); (1, MLock); (2, MLock); (2, MTryLock); (1, MGetStatus)] /\
  broken_answers (-8) [(1, MGetStatus); (2, MTryLock); (1, MGetStatus)]
  = [TInv 1 MGetStatus; TRes 1 (MStatusIs (-8)); TInv 2 MTryLock; TRes 2 (MTried false);
     TInv 1 MGetStatus; TRes 1 (MStatusIs (-6))] /\ NoDup [1; 2].
Proof.
  split; [repeat constructor; discriminate|]. split; [reflexivity|]. repeat constructor; cbn; intuition discriminate.
Qed.

Print Assumptions C157_exclusion.
Print Assumptions C157_lock.
Print Assumptions C157_waits.
Print Assumptions C157_try_lock.
Print Assumptions C157_unlock.
Print Assumptions C157_spare_unlock.
Print Assumptions C158_one_each.
Print Assumptions C158_none_left.
Print Assumptions C158_foreign.
Print Assumptions C158_move.
Print Assumptions C158_assign.
Print Assumptions C158_failed_creation.
Print Assumptions C159_one_each_partial.
Print Assumptions C159_none_left_partial.
Print Assumptions C159_assign_refuted.
Print Assumptions C160_sequential_partial.
Print Assumptions C160_status_refuted.
Print Assumptions C161_touched_partial.
Print Assumptions C161_unlock_refuted.
Print Assumptions C162_functions_partial.
Print Assumptions C162_create_refuted.
Print Assumptions C162_unlock_refuted.
Print Assumptions C192_answers.
Print Assumptions C192_any_threads.
Print Assumptions C192_excludes_nobody.
