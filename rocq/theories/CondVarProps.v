(** C84, C85, C86, C87, C193: theorems about ConditionVariable. *)
From Coq Require Import List Arith Lia Bool.
From Verif Require Import Base LockModel LockProofs CondVarModel CondVarSpec CondVarProofs.
Import ListNotations.

(** * C84: a wait returns only after a notification *)

(** Any number of threads call wait() and isWait(), in any interleaving, and nobody notifies:
    there is no undefined behaviour, no wait() returns and nobody touches the member locked.
    Missing: 256 calls or more (refuted below), and calls of notify (see the next theorem). *)
Theorem C84_no_notification_partial : forall modulus k n moves,
  Forall (fun mv => match mv with VCall _ o => o = Wait \/ o = IsWait | VTick _ => True end) moves ->
  waits moves < modulus ->
  exists c h, vrun modulus (condvar_new k n) moves = Ok (c, h) /\
    (forall t r, In (VRes t r) h -> exists b, r = RTest b) /\
    (forall t, touches_locked c t = false).
Proof.
  intros modulus k n moves A L.
  destruct (blocked_run modulus k n moves 0 _ (blocked_new modulus k n) L A) as (c & h & E & B & R).
  exists c, h. split; [exact E|]. split; [exact R|].
  intros t. destruct B as (_ & _ & P & _). unfold touches_locked.
  destruct (P t) as [->|[->|[[->| ->]|[->|(b & ->)]]]]; reflexivity.
Qed.

(** One thread waits again and again, another one notifies, and wait() is not called while a
    notify() is running: in every interleaving there is no undefined behaviour, and at every
    moment there have been at most as many returns from wait() as calls of notify(). *)
Theorem C84_one_waiter_partial : forall modulus k w n moves,
  2 <= modulus -> w <> n ->
  two_threads w n moves -> polite modulus w n (condvar_new k n) moves ->
  exists c h, vrun modulus (condvar_new k n) moves = Ok (c, h) /\
    returned w h <= notified h.
Proof.
  intros modulus k w n moves M2 WN TT PO.
  destruct (joined_run modulus k w n M2 WN moves _ 0 0 (joined_new modulus k w n M2 WN) TT PO)
    as (c & h & E & (_ & need & _ & LE)).
  exists c, h. split; [exact E|]. lia.
Qed.

(** Two rounds of wait and notify. *)
Definition one_round : list vmove :=
  [VCall 1 Wait; VTick 1; VTick 1; VCall 0 Notify] ++ repeat (VTick 0) 4 ++ repeat (VTick 1) 6
  ++ repeat (VTick 0) 6.
Example C84_one_waiter_case : forall k,
  two_threads 1 0 (one_round ++ one_round) /\
  polite 256 1 0 (condvar_new k 0) (one_round ++ one_round) /\
  match vrun 256 (condvar_new k 0) (one_round ++ one_round) with
  | Ok (_, h) => h
  | _ => []
  end = [VInv 1 Wait; VInv 0 Notify; VRes 1 RVoid; VRes 0 RVoid;
         VInv 1 Wait; VInv 0 Notify; VRes 1 RVoid; VRes 0 RVoid].
Proof.
  intros k. split; [|split].
  - unfold two_threads, one_round. cbn [app repeat].
    repeat (apply Forall_cons; [cbn; auto|]). apply Forall_nil.
  - destruct k; unfold one_round; cbn [app repeat polite];
      repeat (split; [discriminate || (intros _; vm_compute; reflexivity)|];
              let c' := fresh in let e := fresh in let E := fresh in
              intros c' e E; vm_compute in E; injection E as <- <-); exact I.
  - destruct k; vm_compute; reflexivity.
Qed.

(** The lock is free and no thread uses the condition variable. *)
Lemma open_wait k th u : forall t, (forall v, th v = None) ->
  exists th' b, vrun 256 (CV (CVar (free k) u 0) th) (VCall t Wait :: repeat (VTick t) 8)
    = Ok (CV (CVar (free k) b 0) th', [VInv t Wait; VRes t RVoid]) /\ forall v, th' v = None.
Proof.
  intros t I. exists (set_at (set_at (set_at (set_at (set_at (set_at (set_at (set_at (set_at th
    t (Some WIncrement)) t (Some WCurrent)) t (Some WLock)) t (Some WSetLocked)) t (Some WUnlock))
    t (Some WClearLocked)) t (Some WDecrement)) t (Some (Return RVoid))) t None), false.
  split.
  - cbn [vrun repeat vstep cv_threads start]. rewrite (I t). cbn [bind fst snd cv_threads cv_mem].
    repeat (rewrite ?set_same;
      cbn [pstep bind fst snd cv_threads cv_mem set_counter set_lock set_locked v_lock v_locked
           v_counter Nat.eqb]; change (plus1 256 0) with 1; change (minus1 256 1) with 0;
      rewrite ?acquire_free, ?unlock_taken;
      cbn [pstep bind fst snd cv_threads cv_mem set_counter set_lock set_locked v_lock v_locked
           v_counter Nat.eqb app]).
    reflexivity.
  - intros v. destruct (Nat.eq_dec v t) as [->|D]; [apply set_same|].
    rewrite !set_other by exact D. apply I.
Qed.

Lemma open_waits k : forall ts th u, (forall v, th v = None) ->
  exists c, vrun 256 (CV (CVar (free k) u 0) th)
                 (concat (map (fun t => VCall t Wait :: repeat (VTick t) 8) ts))
    = Ok (c, concat (map (fun t => [VInv t Wait; VRes t RVoid]) ts)).
Proof.
  induction ts as [|t ts IH]; intros th u I; cbn [map concat].
  - eexists. reflexivity.
  - destruct (open_wait k th u t I) as (th' & b & E & I').
    destruct (IH th' b I') as (c & E2). exists c.
    rewrite (vrun_app _ _ _ _ _ _ E), E2. reflexivity.
Qed.

(** The waiting thread calls wait() again while the notify() is still running. One call of
    notify() lets both waits return, and when it has returned the lock is free: from then on
    every wait() of every thread returns at once, with no further notification. *)
Definition again : list vmove :=
  [VCall 1 Wait; VTick 1; VTick 1; VCall 0 Notify; VTick 0; VTick 0; VTick 0]
  ++ repeat (VTick 1) 6 ++ [VTick 0; VCall 1 Wait] ++ repeat (VTick 1) 4
  ++ [VTick 0; VTick 0; VTick 0] ++ repeat (VTick 1) 4.

Theorem C84_wait_again_refuted : forall k, exists c h,
  vrun 256 (condvar_new k 0) again = Ok (c, h) /\
  h = [VInv 1 Wait; VInv 0 Notify; VRes 1 RVoid; VInv 1 Wait; VRes 0 RVoid; VRes 1 RVoid] /\
  (forall t, cv_threads c t = None) /\
  forall ts, exists c',
    vrun 256 c (concat (map (fun t => VCall t Wait :: repeat (VTick t) 8) ts))
    = Ok (c', concat (map (fun t => [VInv t Wait; VRes t RVoid]) ts)).
Proof.
  intros k.
  assert (X : exists th, vrun 256 (condvar_new k 0) again
                = Ok (CV (CVar (free k) false 0) th,
                      [VInv 1 Wait; VInv 0 Notify; VRes 1 RVoid; VInv 1 Wait; VRes 0 RVoid;
                       VRes 1 RVoid]) /\ forall t, th t = None).
  { assert (Y : exists th, vrun 256 (condvar_new k 0) again
                = Ok (CV (CVar (free k) false 0) th,
                      [VInv 1 Wait; VInv 0 Notify; VRes 1 RVoid; VInv 1 Wait; VRes 0 RVoid;
                       VRes 1 RVoid]) /\ th 0 = None /\ th 1 = None /\ forall t, th (S (S t)) = None).
    { destruct k; eexists; (split; [vm_compute; reflexivity|]); repeat split. }
    destruct Y as (th & E & T0 & T1 & T2). exists th. split; [exact E|].
    intros [|[|t]]; auto. }
  destruct X as (th & E & T). eexists (CV (CVar (free k) false 0) th), _.
  split; [exact E|]. split; [reflexivity|]. split; [exact T|].
  intros ts. apply open_waits. exact T.
Qed.

(** The number of waiting threads is kept in a type with [modulus] values: the call that makes
    it wrap around returns, and nobody has notified. *)
Lemma fill_waiters M k : forall j, j < M ->
  exists c, vrun M (condvar_new k 0) (concat (map (fun t => [VCall t Wait; VTick t]) (seq 1 j)))
    = Ok (c, map (fun t => VInv t Wait) (seq 1 j)) /\
    v_counter (cv_mem c) = j /\ forall t, j < t -> cv_threads c t = None.
Proof.
  induction j as [|j IH]; intros L.
  - eexists. split; [reflexivity|]. split; [reflexivity|]. intros t _. reflexivity.
  - destruct (IH ltac:(lia)) as (c & E & EC & T).
    rewrite seq_S, !map_app, concat_app. cbn [Nat.add map concat app].
    rewrite (vrun_app _ _ _ _ _ _ E). cbn [vrun vstep]. rewrite (T (S j)) by lia.
    cbn [bind fst snd cv_threads cv_mem start]. rewrite set_same. cbn [pstep bind fst snd].
    eexists. split; [reflexivity|]. cbn [cv_mem set_counter v_counter cv_threads]. split.
    + unfold plus1. rewrite EC, Nat.mod_small by lia. lia.
    + intros t Lt. rewrite !set_other by lia. apply T. lia.
Qed.

Theorem C84_counter_wraps_refuted : forall modulus k, 0 < modulus ->
  exists c h,
    vrun modulus (condvar_new k 0)
      (concat (map (fun t => [VCall t Wait; VTick t]) (seq 1 (modulus - 1)))
       ++ [VCall modulus Wait; VTick modulus; VTick modulus; VTick modulus]) = Ok (c, h) /\
    In (VRes modulus RVoid) h /\ notified h = 0.
Proof.
  intros M k P. destruct (fill_waiters M k (M - 1) ltac:(lia)) as (c & E & EC & T).
  rewrite (vrun_app _ _ _ _ _ _ E). cbn [vrun vstep]. rewrite (T M) by lia.
  cbn [bind fst snd cv_threads cv_mem start]. rewrite set_same. cbn [pstep bind fst snd cv_threads cv_mem].
  rewrite set_same. cbn [pstep bind fst snd cv_threads cv_mem set_counter v_counter].
  replace (plus1 M (v_counter (cv_mem c))) with 0.
  2:{ unfold plus1. rewrite EC. replace (M - 1 + 1) with M by lia. rewrite Nat.mod_same; lia. }
  cbn [Nat.eqb bind fst snd cv_threads]. rewrite set_same. cbn [bind fst snd app].
  eexists _, _. split; [reflexivity|]. split.
  - apply in_or_app. right. right. left. reflexivity.
  - rewrite notified_app. cbn [notified]. rewrite Nat.add_0_r. clear.
    induction (seq 1 (M - 1)) as [|t l IH]; [reflexivity|]. exact IH.
Qed.

(** * C85: notify() wakes a waiting thread and returns *)

(** A thread is blocked in wait(), another one calls notify(); in every schedule that goes
    on to give steps to both, both calls return. *)
Theorem C85_wakes_partial : forall modulus k w n moves rounds c h,
  2 <= modulus -> w <> n ->
  two_threads w n moves -> polite modulus w n (condvar_new k n) moves ->
  vrun modulus (condvar_new k n) moves = Ok (c, h) ->
  cv_threads c w = Some WLock -> cv_threads c n = None ->
  Forall (round w n) rounds -> 17 <= length rounds ->
  exists c' h', vrun modulus c (VCall n Notify :: concat rounds) = Ok (c', h') /\
    (exists r, In (VRes w r) h') /\ (exists r, In (VRes n r) h') /\
    cv_threads c' w = None /\ cv_threads c' n = None.
Proof.
  intros modulus k w n moves rounds c h M2 WN TT PO E TW TN R L.
  destruct (joined_run modulus k w n M2 WN moves _ 0 0 (joined_new modulus k w n M2 WN) TT PO)
    as (c0 & h0 & E0 & J). rewrite E in E0. injection E0 as <- <-.
  destruct (joined_call modulus k w n M2 WN c _ _ n Notify J (or_intror (conj eq_refl eq_refl)))
    as (c1 & e & E1 & J1).
  assert (EX : c1 = CV (cv_mem c) (set_at (cv_threads c) n (Some NCurrent))).
  { cbn [vstep] in E1. rewrite TN in E1. injection E1 as <- <-. reflexivity. }
  assert (T1 : cv_threads c1 n = Some NCurrent) by (subst c1; apply set_same).
  assert (T2 : cv_threads c1 w = Some WLock).
  { subst c1. cbn [cv_threads]. rewrite set_other by exact WN. exact TW. }
  destruct (rounds_ok modulus k w n M2 WN rounds c1 _ _ J1 R) as (c2 & h2 & E2 & J2 & N2 & W2).
  - rewrite T1, T2. right. right. exists NCurrent.
    split; [reflexivity|]. split; [reflexivity|]. discriminate.
  - pose proof (total_bound modulus k w n M2 WN c1 _ _ J1). lia.
  - exists c2, (e ++ h2). cbn [vrun]. rewrite E1. cbn [bind fst snd]. rewrite E2.
    split; [reflexivity|].
    destruct (idle_returned _ _ _ _ _ _ _ E2 T2 W2) as (r1 & I1).
    destruct (idle_returned _ _ _ _ _ _ _ E2 T1 N2) as (r2 & I2).
    split; [exists r1; apply in_or_app; auto|]. split; [exists r2; apply in_or_app; auto|]. auto.
Qed.

(** A blocked thread and an idle notifier, and rounds: the hypotheses are met. *)
Example C85_wakes_case : forall k,
  exists c h, vrun 256 (condvar_new k 0) [VCall 1 Wait; VTick 1; VTick 1] = Ok (c, h) /\
    cv_threads c 1 = Some WLock /\ cv_threads c 0 = None /\
    Forall (round 1 0) (repeat [VTick 0; VTick 2; VTick 1] 17).
Proof.
  intros k. destruct k; (eexists _, _; split; [vm_compute; reflexivity|]);
    (split; [reflexivity|]; split; [reflexivity|]);
    apply Forall_forall; intros r IN; apply repeat_spec in IN; subst r;
    (split; [intros mv [<-|[<-|[<-|[]]]]; eauto|split; cbn; auto]).
Qed.

(** Two threads wait. One call of notify() lets both go, and does not return: however the
    schedule goes on, as long as no other call is made. *)
Definition two_waiters : list vmove :=
  [VCall 1 Wait; VTick 1; VTick 1; VCall 2 Wait; VTick 2; VTick 2;
   VCall 0 Notify; VTick 0; VTick 0; VTick 0] ++ repeat (VTick 1) 6 ++ repeat (VTick 2) 6.

Lemma hangs : forall ticks c, (forall mv, In mv ticks -> exists t, mv = VTick t) ->
  cv_threads c 0 = Some (NSpin 2) -> v_counter (cv_mem c) = 0 ->
  (forall t, t <> 0 -> cv_threads c t = None) ->
  exists c', vrun 256 c ticks = Ok (c', []) /\ cv_threads c' 0 = Some (NSpin 2).
Proof.
  induction ticks as [|mv ticks IH]; intros c T C0 EC OT.
  { exists c. auto. }
  destruct (T mv (or_introl eq_refl)) as (t & ->). cbn [vrun vstep].
  destruct (Nat.eq_dec t 0) as [->|D].
  - rewrite C0. cbn [pstep bind fst snd]. rewrite EC. cbn [Nat.eqb Nat.sub].
    destruct (IH (CV (cv_mem c) (set_at (cv_threads c) 0 (Some (NSpin 2)))))
      as (c' & E & C'); [intros mv IN; apply T; right; exact IN|apply set_same|exact EC| |].
    + intros t D. cbn [cv_threads]. rewrite set_other by exact D. auto.
    + exists c'. rewrite E. auto.
  - rewrite (OT t D). cbn [bind fst snd].
    destruct (IH c) as (c' & E & C'); auto.
    + intros mv IN. apply T. right. exact IN.
    + exists c'. rewrite E. auto.
Qed.

Theorem C85_two_waiters_refuted : forall k, exists c,
  vrun 256 (condvar_new k 0) two_waiters
  = Ok (c, [VInv 1 Wait; VInv 2 Wait; VInv 0 Notify; VRes 1 RVoid; VRes 2 RVoid]) /\
  forall ticks, (forall mv, In mv ticks -> exists t, mv = VTick t) ->
  exists c', vrun 256 c ticks = Ok (c', []) /\ cv_threads c' 0 <> None.
Proof.
  intros k.
  assert (X : exists c, vrun 256 (condvar_new k 0) two_waiters
    = Ok (c, [VInv 1 Wait; VInv 2 Wait; VInv 0 Notify; VRes 1 RVoid; VRes 2 RVoid]) /\
    cv_threads c 0 = Some (NSpin 2) /\ v_counter (cv_mem c) = 0 /\
    (forall t, t <> 0 -> cv_threads c t = None)).
  { destruct k; eexists; (split; [vm_compute; reflexivity|]);
      (split; [reflexivity|]; split; [reflexivity|]);
      intros [|[|[|t]]] D; try reflexivity; congruence. }
  destruct X as (c & E & C0 & EC & OT). exists c. split; [exact E|].
  intros ticks T. destruct (hangs ticks c T C0 EC OT) as (c' & E' & C').
  exists c'. split; [exact E'|]. rewrite C'. discriminate.
Qed.

(** With a Mutex or a Spin the notifying thread must be the one that constructed the condition
    variable: it unlocks a lock that it would otherwise not own. *)
Theorem C85_other_thread_refuted : forall k, k <> KSemaphore ->
  vrun 256 (condvar_new k 0) [VCall 1 Wait; VTick 1; VTick 1; VCall 2 Notify; VTick 2; VTick 2]
  = UB.
Proof. intros [| |] K; try (exfalso; apply K; reflexivity); vm_compute; reflexivity. Qed.

(** * C86: tryWait() tells whether there is a notification, without waiting *)

Definition try_rank (p : option pc) : option nat :=
  match p with
  | Some TRead => Some 7 | Some TTry => Some 6 | Some (TStore _) => Some 5 | Some TReturn => Some 4
  | Some TUnlock => Some 3 | Some TClearLocked => Some 2 | Some (Return (RTest _)) => Some 1
  | _ => None
  end.

Lemma try_finishes M t : forall moves c c' h j, vrun M c moves = Ok (c', h) ->
  try_rank (cv_threads c t) = Some j -> j <= ticks_of t moves ->
  exists b, In (VRes t (RTest b)) h.
Proof.
  induction moves as [|mv moves IH]; intros c c' h j E R L.
  { cbn in L. destruct (cv_threads c t) as [[]|]; cbn in R; try discriminate;
      try (injection R as <-; lia). destruct r; [discriminate|injection R as <-; lia]. }
  cbn [vrun] in E. destruct (vstep M c mv) as [[c1 e]| |] eqn:E1; try discriminate.
  cbn [bind fst snd] in E. destruct (vrun M c1 moves) as [[c2 h2]| |] eqn:E2; try discriminate.
  cbn [bind fst snd] in E. injection E as -> <-.
  assert (K : (exists b, In (VRes t (RTest b)) e) \/
              exists j', try_rank (cv_threads c1 t) = Some j' /\ j' <= ticks_of t moves).
  { destruct mv as [u o|u]; cbn [vstep ticks_of] in *.
    - destruct (cv_threads c u) as [p|] eqn:U; injection E1 as <- <-; right; [eauto|].
      exists j. split; [|exact L]. cbn [cv_threads].
      destruct (Nat.eq_dec t u) as [->|D]; [rewrite U in R; discriminate|].
      rewrite set_other by exact D. exact R.
    - destruct (Nat.eqb_spec u t) as [->|D].
      + destruct (cv_threads c t) as [p|]; [|discriminate].
        destruct p; cbn in R; try discriminate;
          try (injection R as <-; cbn [pstep] in E1).
        * injection E1 as <- <-. right. cbn [cv_threads]. rewrite set_same.
          destruct (v_locked (cv_mem c)); cbn [snd]; eexists; (split; [reflexivity|]); lia.
        * injection E1 as <- <-. right. cbn [cv_threads]. rewrite set_same.
          eexists. split; [reflexivity|]. lia.
        * injection E1 as <- <-. right. cbn [cv_threads]. rewrite set_same.
          eexists. split; [reflexivity|]. lia.
        * injection E1 as <- <-. right. cbn [cv_threads]. rewrite set_same.
          destruct (v_locked (cv_mem c)); cbn [snd]; eexists; (split; [reflexivity|]); lia.
        * destruct (unlock_data (v_lock (cv_mem c)) t) as [x| |]; try discriminate.
          cbn [bind fst snd] in E1. injection E1 as <- <-. right. cbn [cv_threads].
          rewrite set_same. eexists. split; [reflexivity|]. lia.
        * injection E1 as <- <-. right. cbn [cv_threads]. rewrite set_same.
          eexists. split; [reflexivity|]. lia.
        * destruct r as [|b]; [discriminate|]. injection E1 as <- <-. left. exists b. left.
          reflexivity.
      + right. exists j. split; [|exact L].
        destruct (cv_threads c u) as [p|]; [|injection E1 as <- <-; exact R].
        destruct p; try (destruct (pstep M u _ (cv_mem c)) as [[m q]| |]; try discriminate;
          cbn [bind fst snd] in E1); injection E1 as <- <-; cbn [cv_threads];
          rewrite set_other by congruence; exact R. }
  destruct K as [(b & IN)|(j' & R' & L')].
  - exists b. apply in_or_app. auto.
  - destruct (IH _ _ _ _ E2 R' L') as (b & IN). exists b. apply in_or_app. auto.
Qed.

(** tryWait() never blocks: in whatever state and whatever the other threads do, it returns
    after seven steps of its own. Missing: that the result is right (refuted below). *)
Theorem C86_never_blocks_partial : forall modulus c t moves c' h,
  cv_threads c t = None ->
  vrun modulus c (VCall t TryWait :: moves) = Ok (c', h) -> 7 <= ticks_of t moves ->
  exists b, In (VRes t (RTest b)) h.
Proof.
  intros modulus c t moves c' h N E L. cbn [vrun vstep] in E. rewrite N in E.
  cbn [bind fst snd] in E.
  destruct (vrun modulus _ moves) as [[c2 h2]| |] eqn:E2; try discriminate.
  cbn [bind fst snd] in E. injection E as -> <-.
  destruct (try_finishes modulus t moves _ _ _ 7 E2) as (b & IN); [|exact L|].
  - cbn [cv_threads start]. rewrite set_same. reflexivity.
  - exists b. right. exact IN.
Qed.

(** … and it takes all seven of them on a condition variable whose lock is free. *)
Example C86_never_blocks_case :
  match vrun 256 (CV (CVar (free KSemaphore) false 0) (fun _ => None))
          (VCall 3 TryWait :: repeat (VTick 3) 7) with
  | Ok (_, h) => h
  | _ => []
  end = [VInv 3 TryWait; VRes 3 (RTest true)].
Proof. vm_compute. reflexivity. Qed.

(** Nobody has notified; tryWait() of the thread that constructed the condition variable says
    that there was a notification, and releases the lock: from then on every wait() of every
    thread returns at once. *)
Theorem C86_always_true_refuted : forall k, exists c,
  vrun 256 (condvar_new k 0) (VCall 0 TryWait :: repeat (VTick 0) 5)
  = Ok (c, [VInv 0 TryWait; VRes 0 (RTest true)]) /\
  forall ts, exists c',
    vrun 256 c (concat (map (fun t => VCall t Wait :: repeat (VTick t) 8) ts))
    = Ok (c', concat (map (fun t => [VInv t Wait; VRes t RVoid]) ts)).
Proof.
  intros k.
  assert (X : exists th, vrun 256 (condvar_new k 0) (VCall 0 TryWait :: repeat (VTick 0) 5)
    = Ok (CV (CVar (free k) false 0) th, [VInv 0 TryWait; VRes 0 (RTest true)]) /\
    forall t, th t = None).
  { assert (Y : exists th, vrun 256 (condvar_new k 0) (VCall 0 TryWait :: repeat (VTick 0) 5)
      = Ok (CV (CVar (free k) false 0) th, [VInv 0 TryWait; VRes 0 (RTest true)]) /\
      th 0 = None /\ forall t, th (S t) = None).
    { destruct k; eexists; (split; [vm_compute; reflexivity|]); split; reflexivity. }
    destruct Y as (th & E & T0 & T1). exists th. split; [exact E|]. intros [|t]; auto. }
  destruct X as (th & E & T). eexists. split; [exact E|]. intros ts. apply open_waits. exact T.
Qed.

(** … and the same call of another thread is undefined with a Mutex or a Spin. *)
Theorem C86_other_thread_refuted : forall k t, k <> KSemaphore -> t <> 0 ->
  vrun 256 (condvar_new k 0) (VCall t TryWait :: repeat (VTick t) 3) = UB.
Proof.
  intros k t K T. unfold condvar_new.
  cbn [vrun vstep repeat cv_threads bind fst snd start cv_mem].
  rewrite set_same. cbn [pstep bind fst snd v_locked cv_mem cv_threads].
  rewrite set_same. cbn [pstep bind fst snd v_locked cv_mem cv_threads].
  rewrite set_same. cbn [pstep bind fst snd v_locked v_lock cv_mem cv_threads].
  destruct k; try (exfalso; apply K; reflexivity); cbn; destruct t; try congruence; reflexivity.
Qed.

(** * C87: a condition variable can be used by several threads without data races *)

(** One thread waits and one notifies, the intended use: both can be about to write the
    (plain) member locked of the UniqueLocker. *)
Theorem C87_race_refuted : forall k, exists c h,
  vrun 256 (condvar_new k 0)
    [VCall 1 Wait; VTick 1; VTick 1; VCall 0 Notify; VTick 0; VTick 0; VTick 1] = Ok (c, h) /\
  writes_locked c 0 = true /\ writes_locked c 1 = true.
Proof. intros [| |]; (eexists _, _; split; [vm_compute; reflexivity|]); split; reflexivity. Qed.

(** In the intended use that assignment in notify() is the only access that races: both threads
    are about to access locked only when the notifying thread has unlocked and has not yet
    written locked. *)
Theorem C87_one_place_partial : forall modulus k w n moves c h,
  2 <= modulus -> w <> n ->
  two_threads w n moves -> polite modulus w n (condvar_new k n) moves ->
  vrun modulus (condvar_new k n) moves = Ok (c, h) ->
  touches_locked c w = true -> touches_locked c n = true ->
  exists counterValue, cv_threads c n = Some (NClearLocked counterValue).
Proof.
  intros modulus k w n moves c h M2 WN TT PO E TW TN.
  destruct (joined_run modulus k w n M2 WN moves _ 0 0 (joined_new modulus k w n M2 WN) TT PO)
    as (c0 & h0 & E0 & (_ & need & J & _)). rewrite E in E0. injection E0 as <- <-.
  unfold touches_locked in TW, TN.
  destruct (cv_threads c n) as [pn|]; [|discriminate].
  destruct (cv_threads c w) as [pw|]; [|discriminate].
  destruct pn; try discriminate; try (eexists; reflexivity); exfalso;
    inversion J; subst;
    repeat match goal with
      | H : _ \/ _ |- _ => destruct H
      | H : (_, _) = (_, _) |- _ => injection H as ? ?
      | H : Some _ = Some _ |- _ => injection H as ?
      | H : Some _ = None |- _ => discriminate H
      end; subst; discriminate.
Qed.

(** [touches_locked] and [writes_locked] miss no access: a step that does not touch locked does
    the same whatever locked is and leaves it, and a step that does not write it leaves it. *)
Theorem C87_accesses : forall modulus c t p b,
  cv_threads c t = Some p ->
  (touches_locked c t = false ->
   pstep modulus t p (set_locked (cv_mem c) b)
   = (let! r := pstep modulus t p (cv_mem c) in Ok (set_locked (fst r) b, snd r))) /\
  (writes_locked c t = false ->
   forall r, pstep modulus t p (cv_mem c) = Ok r -> v_locked (fst r) = v_locked (cv_mem c)) /\
  (* and there is an access where they say so: a step that writes leaves a value that does not
     depend on locked, or one that was computed from it before *)
  (writes_locked c t = true -> touches_locked c t = true /\
   forall r r', pstep modulus t p (set_locked (cv_mem c) b) = Ok r ->
     pstep modulus t p (set_locked (cv_mem c) (negb b)) = Ok r' -> v_locked (fst r) = v_locked (fst r')).
Proof.
  intros modulus c t p b P. unfold touches_locked, writes_locked. rewrite P.
  destruct c as [v th]. cbn [cv_mem] in *. destruct v as [x lk n]. unfold set_locked.
  cbn [v_lock v_locked v_counter]. split; [|split].
  - intros T. destruct p; try discriminate T; cbn; try reflexivity;
      try (destruct (acquire x t); reflexivity);
      unfold unlock_data; destruct (release (l_kind x) x t); reflexivity.
  - intros T r. destruct p; try discriminate T; cbn;
      try (destruct (acquire x t); cbn); unfold unlock_data;
      try (destruct (release (l_kind x) x t); cbn); intros E;
      try discriminate E; injection E as <-; reflexivity.
  - intros T. destruct p; try discriminate T; (split; [reflexivity|]); cbn;
      intros r r' E E'; injection E as <-; injection E' as <-; reflexivity.
Qed.

(** * C193: isWait tells whether a thread waits *)

Lemma number_same : forall ts c c', (forall t, In t ts -> in_wait c t = in_wait c' t) ->
  number_in_wait c ts = number_in_wait c' ts.
Proof.
  induction ts as [|x ts IH]; intros c c' E; [reflexivity|]. unfold number_in_wait in *. cbn [filter].
  rewrite (E x) by (left; reflexivity).
  specialize (IH c c' (fun t I => E t (or_intror I))). destruct (in_wait c' x); cbn [length]; lia.
Qed.
Lemma number_le ts c : number_in_wait c ts <= length ts.
Proof. unfold number_in_wait. induction ts as [|x ts IH]; cbn; [lia|]. destruct (in_wait c x); cbn; lia. Qed.
(** One thread begins or ends to wait. *)
Lemma number_change : forall ts c c' t, NoDup ts -> In t ts ->
  (forall u, u <> t -> in_wait c' u = in_wait c u) ->
  number_in_wait c' ts + Nat.b2n (in_wait c t) = number_in_wait c ts + Nat.b2n (in_wait c' t).
Proof.
  induction ts as [|x ts IH]; intros c c' t ND I E; [contradiction|]. inversion ND as [|? ? NI ND']; subst.
  unfold number_in_wait in *. cbn [filter]. destruct (Nat.eq_dec x t) as [->|N].
  - assert (S1 : length (filter (in_wait c') ts) = length (filter (in_wait c) ts)).
    { apply (number_same ts c' c). intros u Iu. apply E. intros ->. contradiction. }
    destruct (in_wait c t), (in_wait c' t); cbn [length Nat.b2n]; lia.
  - destruct I as [->|I]; [contradiction|]. specialize (IH c c' t ND' I E). rewrite (E x N).
    destruct (in_wait c x); cbn [length]; lia.
Qed.

Section Count.
  Variables (M : nat) (ts : list nat).
  Hypothesis (ND : NoDup ts) (LT : length ts < M).

  Definition counted (c : cvconfig) : Prop := v_counter (cv_mem c) = number_in_wait c ts
    /\ forall t, cv_threads c t <> Some UDecrement.

  Lemma counted_step c mv c' h : counted c -> In (mover mv) ts -> (forall t, mv <> VCall t Unwait) ->
    vstep M c mv = Ok (c', h) -> counted c'.
  Proof.
    intros (C & NU) I NX E. destruct mv as [t o|t]; cbn [vstep mover] in *.
    - destruct (cv_threads c t) as [p|] eqn:T; injection E as <- <-; [split; assumption|].
      assert (X : in_wait c t = false) by (unfold in_wait; rewrite T; reflexivity).
      set (c' := CV _ _).
      assert (X' : in_wait c' t = false).
      { unfold in_wait, c'. cbn [cv_threads]. rewrite set_same. destruct o; reflexivity. }
      split.
      + pose proof (number_change ts c c' t ND I) as G. rewrite X, X' in G.
        cbn [c' cv_mem]. rewrite C. symmetry. cbn [Nat.b2n] in G. rewrite !Nat.add_0_r in G. apply G.
        intros u Nu. unfold in_wait, c'. cbn [cv_threads]. rewrite set_other by congruence. reflexivity.
      + intros u. cbn [c' cv_threads]. destruct (Nat.eq_dec u t) as [->|Nu].
        * rewrite set_same. destruct o; try discriminate. exfalso. exact (NX t eq_refl).
        * rewrite set_other by congruence. apply NU.
    - destruct (cv_threads c t) as [p|] eqn:T; [|injection E as <- <-; split; assumption].
      assert (K : exists m p', c' = CV m (set_at (cv_threads c) t p') /\ p' <> Some UDecrement
        /\ v_counter m + Nat.b2n (in_wait c t)
           = v_counter (cv_mem c) + Nat.b2n (in_wait c' t)).
      { pose proof (number_le ts c) as LE. pose proof (NU t) as NUt. rewrite T in NUt.
        assert (ST : forall m p', vstep M c (VTick t) = Ok (CV m (set_at (cv_threads c) t (Some p')), []) -> True) by auto.
        assert (P1 : in_wait c t = true -> 1 <= v_counter (cv_mem c)).
        { intros X. rewrite C. pose proof (number_change ts c (CV (cv_mem c) (set_at (cv_threads c) t None)) t ND I) as G.
          rewrite X in G. unfold in_wait at 3 in G. cbn [cv_threads] in G. rewrite set_same in G. cbn [Nat.b2n] in G.
          assert (number_in_wait (CV (cv_mem c) (set_at (cv_threads c) t None)) ts + 1 = number_in_wait c ts + 0);
            [|lia]. apply G.
          intros u Nu. unfold in_wait. cbn [cv_threads]. rewrite set_other by congruence. reflexivity. }
        assert (P2 : in_wait c t = false -> v_counter (cv_mem c) + 1 < M).
        { intros X. rewrite C. pose proof (number_change ts c (CV (cv_mem c) (set_at (cv_threads c) t (Some WLock))) t ND I) as G.
          rewrite X in G. unfold in_wait at 3 in G. cbn [cv_threads] in G. rewrite set_same in G. cbn [Nat.b2n] in G.
          pose proof (number_le ts (CV (cv_mem c) (set_at (cv_threads c) t (Some WLock)))).
          assert (number_in_wait (CV (cv_mem c) (set_at (cv_threads c) t (Some WLock))) ts + 0 = number_in_wait c ts + 1);
            [|lia]. apply G.
          intros u Nu. unfold in_wait. cbn [cv_threads]. rewrite set_other by congruence. reflexivity. }
        unfold in_wait in P1, P2. rewrite T in P1, P2.
        unfold in_wait at 1. rewrite T.
        destruct p; cbn [pstep] in E; try contradiction;
          repeat match type of E with
          | context [if ?b then _ else _] => destruct b eqn:?
          | context [match acquire ?x ?y with _ => _ end] => destruct (acquire x y) eqn:?
          | context [unlock_data ?x ?y] => destruct (unlock_data x y) eqn:?
          | context [try_lock_data ?x ?y] => destruct (try_lock_data x y) eqn:?
          end; cbn [bind fst snd] in E; try discriminate E; injection E as <- _;
          (eexists _, _; split; [reflexivity|]; split; [discriminate|]);
          unfold in_wait; cbn [cv_threads cv_mem]; rewrite set_same; cbn [set_lock set_locked set_counter v_counter Nat.b2n];
          try lia.
        - unfold plus1. rewrite Nat.mod_small by (specialize (P2 eq_refl); lia). lia.
        - specialize (P1 eq_refl). match goal with H : (_ =? 0) = true |- _ => apply Nat.eqb_eq in H end. lia.
        - specialize (P1 eq_refl). unfold minus1.
          replace (v_counter (cv_mem c) + (M - 1)) with (v_counter (cv_mem c) - 1 + 1 * M) by lia.
          rewrite Nat.mod_add by lia. rewrite Nat.mod_small by lia. lia. }
      destruct K as (m & p' & -> & NP & K). split.
      + pose proof (number_change ts c (CV m (set_at (cv_threads c) t p')) t ND I) as G.
        assert (G' := G ltac:(intros u Nu; unfold in_wait; cbn [cv_threads]; rewrite set_other by congruence; reflexivity)).
        cbn [cv_mem]. lia.
      + intros u. cbn [cv_threads]. destruct (Nat.eq_dec u t) as [->|Nu].
        * rewrite set_same. exact NP.
        * rewrite set_other by congruence. apply NU.
  Qed.

  Lemma counted_run : forall moves c c' h, counted c ->
    Forall (fun mv => In (mover mv) ts /\ forall t, mv <> VCall t Unwait) moves ->
    vrun M c moves = Ok (c', h) -> counted c'.
  Proof.
    induction moves as [|mv moves IH]; intros c c' h C F E; cbn [vrun] in E.
    - injection E as <- _. exact C.
    - inversion F as [|? ? (I & NX) F']; subst.
      destruct (vstep M c mv) as [[c1 h1]| |] eqn:E1; cbn [bind fst snd] in E; try discriminate E.
      destruct (vrun M c1 moves) as [[c2 h2]| |] eqn:E2; cbn [bind fst snd] in E; try discriminate E.
      injection E as <- _. exact (IH _ _ _ (counted_step _ _ _ _ C I NX E1) F' E2).
  Qed.
End Count.

Lemma counted_new ts k n : counted ts (condvar_new k n).
Proof.
  split.
  - unfold number_in_wait. cbn. induction ts as [|x ts IH]; [reflexivity|]. cbn. exact IH.
  - intros t. cbn. discriminate.
Qed.

(** Fewer threads than the counter can count, in any interleaving of wait, tryWait, notify and
    isWait: what isWait() returns is whether a thread is inside wait() at the moment it looks.
    Missing: unwait() (refuted below). *)
Theorem C193_is_wait_partial : forall modulus k n ts moves c h t,
  NoDup ts -> length ts < modulus ->
  Forall (fun mv => In (mover mv) ts /\ forall t, mv <> VCall t Unwait) moves ->
  vrun modulus (condvar_new k n) moves = Ok (c, h) -> cv_threads c t = Some ICurrent ->
  exists b c', vrun modulus c [VTick t; VTick t] = Ok (c', [VRes t (RTest b)])
    /\ (b = true <-> exists u, in_wait c u = true /\ In u ts).
Proof.
  intros M k n ts moves c h t ND LT F E T.
  destruct (counted_run M ts ND LT moves _ _ _ (counted_new ts k n) F E) as (C & _).
  exists (negb (v_counter (cv_mem c) =? 0)). eexists. split.
  - cbn [vrun vstep]. rewrite T. cbn [pstep bind fst snd cv_threads]. rewrite set_same. cbn [bind fst snd app]. reflexivity.
  - rewrite C. unfold number_in_wait. rewrite negb_true_iff, Nat.eqb_neq. split.
    + intros N. destruct (filter (in_wait c) ts) as [|u l] eqn:FL; [cbn in N; lia|].
      exists u. apply and_comm. apply filter_In. rewrite FL. left. reflexivity.
    + intros (u & X & I) Z. assert (J : In u (filter (in_wait c) ts)) by (apply filter_In; auto).
      destruct (filter (in_wait c) ts); [contradiction J|discriminate Z].
Qed.

(** Three threads: one waits, one asks. *)
Example C193_is_wait_case : forall k,
  match vrun 256 (condvar_new k 0) [VCall 1 Wait; VTick 1; VTick 1; VCall 2 IsWait] with
  | Ok (c, _) => cv_threads c 2 = Some ICurrent /\ in_wait c 1 = true
  | _ => False
  end.
Proof. intros k. destruct k; vm_compute; split; reflexivity. Qed.

(** unwait() never waits: it returns after two steps of its own, whatever state the condition
    variable is in. It takes one off the number of threads that wait, and nothing else. *)
Theorem C193_unwait_partial : forall modulus c t, 0 < modulus -> cv_threads c t = None ->
  exists c', vrun modulus c [VCall t Unwait; VTick t; VTick t] = Ok (c', [VInv t Unwait; VRes t RVoid])
    /\ v_lock (cv_mem c') = v_lock (cv_mem c) /\ v_locked (cv_mem c') = v_locked (cv_mem c)
    /\ (v_counter (cv_mem c') + 1) mod modulus = v_counter (cv_mem c) mod modulus
    /\ forall u, cv_threads c' u = cv_threads c u.
Proof.
  intros M c t M1 T. cbn [vrun vstep]. rewrite T. cbn [start bind fst snd cv_threads cv_mem].
  rewrite set_same. cbn [pstep bind fst snd cv_threads cv_mem]. rewrite set_same. cbn [bind fst snd app].
  eexists. split; [reflexivity|]. cbn [cv_mem cv_threads set_counter v_lock v_locked v_counter].
  split; [reflexivity|]. split; [reflexivity|]. split.
  - unfold minus1. rewrite Nat.add_mod_idemp_l by lia.
    replace (v_counter (cv_mem c) + (M - 1) + 1) with (v_counter (cv_mem c) + 1 * M) by lia.
    apply Nat.mod_add. lia.
  - intros u. destruct (Nat.eq_dec u t) as [->|N].
    + rewrite set_same. symmetry. exact T.
    + rewrite !set_other by congruence. reflexivity.
Qed.

(** Only thread [n] is inside a call, and it spins for ever. *)
Definition spinning (M n : nat) (c : cvconfig) : Prop :=
  v_counter (cv_mem c) = M - 1 /\ (forall u, u <> n -> cv_threads c u = None)
  /\ ((cv_threads c n = Some NCurrent /\ l_owner (v_lock (cv_mem c)) = match l_kind (v_lock (cv_mem c)) with KSemaphore => None | _ => Some n end)
      \/ (cv_threads c n = Some (NUnlock (M - 1)) /\ l_owner (v_lock (cv_mem c)) = match l_kind (v_lock (cv_mem c)) with KSemaphore => None | _ => Some n end)
      \/ cv_threads c n = Some (NClearLocked (M - 1)) \/ cv_threads c n = Some (NSpin (M - 1))).
Lemma spins M n : 2 <= M -> forall ticks c, spinning M n c ->
  (forall mv, In mv ticks -> exists t, mv = VTick t) ->
  exists c', vrun M c ticks = Ok (c', []) /\ spinning M n c'.
Proof.
  intros M2. induction ticks as [|mv ticks IH]; intros c H A; [exists c; split; [reflexivity|exact H]|].
  destruct (A mv (or_introl eq_refl)) as (t & ->).
  assert (ST : exists c1, vstep M c (VTick t) = Ok (c1, []) /\ spinning M n c1).
  { destruct H as (C & O & P). cbn [vstep]. destruct (Nat.eq_dec t n) as [->|N].
    2:{ rewrite (O t N). exists c. split; [reflexivity|]. split; [exact C|]. split; [exact O|exact P]. }
    assert (O' : forall m p, forall u, u <> n -> cv_threads (CV m (set_at (cv_threads c) n p)) u = None).
    { intros m p u Nu. cbn [cv_threads]. rewrite set_other by congruence. apply O. exact Nu. }
    destruct P as [(T & W)|[(T & W)|[T|T]]]; rewrite T; cbn [pstep].
    - rewrite C. replace (M - 1 =? 0) with false by (symmetry; apply Nat.eqb_neq; lia). cbn [bind fst snd].
      eexists. split; [reflexivity|]. split; [exact C|]. split; [apply O'|]. right. left. cbn [cv_threads cv_mem].
      rewrite set_same. split; [reflexivity|exact W].
    - unfold unlock_data, release. destruct (v_lock (cv_mem c)) as [k cnt ow st]. cbn [l_kind l_owner] in *. subst ow.
      destruct k; cbn [l_kind l_owner]; rewrite ?Nat.eqb_refl; cbn [bind fst snd];
        (eexists; split; [reflexivity|]; split; [exact C|]; split; [apply O'|]; right; right; left; cbn [cv_threads]; apply set_same).
    - cbn [bind fst snd]. eexists. split; [reflexivity|]. split; [exact C|]. split; [apply O'|]. right. right. right.
      cbn [cv_threads]. apply set_same.
    - rewrite C. replace (M - 1 =? M - 1 - 1) with false by (symmetry; apply Nat.eqb_neq; lia). cbn [bind fst snd].
      eexists. split; [reflexivity|]. split; [exact C|]. split; [apply O'|]. right. right. right.
      cbn [cv_threads]. apply set_same. }
  destruct ST as (c1 & E1 & H1). destruct (IH c1 H1) as (c' & E & H'); [intros mv I; apply A; right; exact I|].
  exists c'. split; [|exact H']. cbn [vrun]. rewrite E1. cbn [bind fst snd]. rewrite E. reflexivity.
Qed.

(** Nobody waits and somebody calls unwait(): isWait() says that somebody waits, and the next
    notify() never returns. *)
Theorem C193_unwait_refuted : forall modulus k n t, 2 <= modulus ->
  exists c, vrun modulus (condvar_new k n) [VCall t Unwait; VTick t; VTick t] = Ok (c, [VInv t Unwait; VRes t RVoid])
  /\ (forall u, cv_threads c u = None)
  /\ (exists c', vrun modulus c [VCall t IsWait; VTick t; VTick t] = Ok (c', [VInv t IsWait; VRes t (RTest true)]))
  /\ forall ticks, (forall mv, In mv ticks -> exists u, mv = VTick u) ->
     exists c', vrun modulus c (VCall n Notify :: ticks) = Ok (c', [VInv n Notify]).
Proof.
  intros M k n t M2.
  assert (T0 : cv_threads (condvar_new k n) t = None) by reflexivity.
  destruct (C193_unwait_partial M _ t ltac:(lia) T0) as (c & E & L & LK & C & TH). exists c. split; [exact E|].
  assert (TN : forall u, cv_threads c u = None) by (intros u; rewrite TH; reflexivity).
  assert (CV : v_counter (cv_mem c) = M - 1).
  { cbn [vrun vstep] in E. rewrite T0 in E. cbn [start bind fst snd cv_threads cv_mem] in E. rewrite set_same in E.
    cbn [pstep bind fst snd cv_threads cv_mem] in E. rewrite set_same in E. cbn [bind fst snd app] in E. injection E as <-.
    cbn [cv_mem set_counter v_counter condvar_new]. unfold minus1. apply Nat.mod_small. lia. }
  split; [exact TN|]. split.
  - cbn [vrun vstep]. rewrite TN. cbn [start bind fst snd cv_threads cv_mem]. rewrite set_same.
    cbn [pstep bind fst snd cv_threads cv_mem]. rewrite set_same. cbn [bind fst snd app]. rewrite CV.
    replace (M - 1 =? 0) with false by (symmetry; apply Nat.eqb_neq; lia). eexists. reflexivity.
  - intros ticks A. cbn [vrun vstep]. rewrite TN. cbn [start bind fst snd].
    match goal with |- context [vrun M ?x ticks] => destruct (spins M n M2 ticks x) as (c' & E' & _) end.
    + split; [exact CV|]. split.
      * intros u N. cbn [cv_threads]. rewrite set_other by congruence. apply TN.
      * left. cbn [cv_threads cv_mem]. rewrite set_same, L. split; [reflexivity|]. destruct k; reflexivity.
    + exact A.
    + exists c'. rewrite E'. reflexivity.
Qed.

(** A thread waits and another one calls unwait(): isWait() says that nobody waits, and notify()
    returns without waking the thread. *)
Theorem C193_lost_waiter_refuted : forall modulus k w n, 2 <= modulus -> w <> n ->
  exists c h, vrun modulus (condvar_new k n)
      [VCall w Wait; VTick w; VTick w; VCall n Unwait; VTick n; VTick n; VCall n IsWait; VTick n; VTick n;
       VCall n Notify; VTick n; VTick n] = Ok (c, h)
  /\ in_wait c w = true /\ In (VRes n (RTest false)) h /\ last h (VInv n Wait) = VRes n RVoid
  /\ forall ticks, (forall mv, In mv ticks -> exists u, mv = VTick u) -> exists c', vrun modulus c ticks = Ok (c', []).
Proof.
  intros M k w n M2 N.
  assert (P : plus1 M 0 = 1) by (unfold plus1; apply Nat.mod_small; lia).
  assert (Q : minus1 M 1 = 0) by (unfold minus1; replace (1 + (M - 1)) with M by lia; apply Nat.mod_same; lia).
  set (mem := CVar (Lock k 0 (match k with KSemaphore => None | _ => Some n end) SUCCESS) true 0).
  assert (R : exists c h, vrun M (condvar_new k n)
      [VCall w Wait; VTick w; VTick w; VCall n Unwait; VTick n; VTick n; VCall n IsWait; VTick n; VTick n;
       VCall n Notify; VTick n; VTick n] = Ok (c, h)
    /\ cv_mem c = mem /\ cv_threads c w = Some WLock /\ (forall u, u <> w -> cv_threads c u = None)
    /\ In (VRes n (RTest false)) h /\ last h (VInv n Wait) = VRes n RVoid).
  { unfold condvar_new. cbn [vrun vstep cv_threads cv_mem start bind fst snd].
    repeat (first [rewrite set_same | rewrite set_other by congruence];
            cbn [pstep bind fst snd cv_threads cv_mem set_counter v_counter v_lock v_locked start Nat.eqb negb];
            rewrite ?P, ?Q; cbn [Nat.eqb negb]).
    eexists _, _. split; [reflexivity|]. split; [reflexivity|]. cbn [cv_threads]. split.
    - repeat first [rewrite set_same | rewrite set_other by congruence]. reflexivity.
    - split; [|split; [cbn; auto 10|reflexivity]].
      intros u Nu. destruct (Nat.eq_dec u n) as [->|Nn]; repeat first [rewrite set_same | rewrite set_other by congruence]; reflexivity. }
  destruct R as (c & h & E & CM & TW & TN & I1 & I2). exists c, h. split; [exact E|].
  split; [unfold in_wait; rewrite TW; reflexivity|]. split; [exact I1|]. split; [exact I2|].
  intros ticks A. clear E I1 I2.
  assert (IV : forall ticks c, cv_mem c = mem -> cv_threads c w = Some WLock -> (forall u, u <> w -> cv_threads c u = None) ->
    (forall mv, In mv ticks -> exists u, mv = VTick u) -> exists c', vrun M c ticks = Ok (c', [])).
  { clear. induction ticks as [|mv ticks IH]; intros c CM TW TN A; [eexists; reflexivity|].
    destruct (A mv (or_introl eq_refl)) as (t & ->). cbn [vrun vstep].
    destruct (Nat.eq_dec t w) as [->|Nt].
    - rewrite TW. cbn [pstep]. rewrite CM.
      assert (AC : acquire (v_lock mem) w = None) by (unfold mem; destruct k; reflexivity). rewrite AC. cbn [bind fst snd].
      destruct (IH (CV mem (set_at (cv_threads c) w (Some WLock)))) as (c' & E').
      + reflexivity.
      + cbn [cv_threads]. apply set_same.
      + intros u Nu. cbn [cv_threads]. rewrite set_other by congruence. apply TN. exact Nu.
      + intros mv I. apply A. right. exact I.
      + exists c'. rewrite E'. reflexivity.
    - rewrite (TN t Nt). cbn [bind fst snd]. destruct (IH c CM TW TN) as (c' & E'); [intros mv I; apply A; right; exact I|].
      exists c'. rewrite E'. reflexivity. }
  apply (IV ticks c); assumption.
Qed.

(** * Every thread executes the call it has made *)

Definition code_of (p : pc) (o : vop) : Prop :=
  match p with
  | WIncrement | WCurrent | WLock | WSetLocked | WUnlock | WClearLocked | WDecrement => o = Wait
  | TRead | TTry | TStore _ | TReturn | TUnlock | TClearLocked => o = TryWait
  | UDecrement => o = Unwait
  | ICurrent => o = IsWait
  | NCurrent | NUnlock _ | NClearLocked _ | NSpin _ | NRead | NTry | NStore _ | NReturn => o = Notify
  | Return r => result_of o r
  end.
Definition serves (c : cvconfig) (now : nat -> option vop) : Prop :=
  forall t, match cv_threads c t with
            | None => now t = None
            | Some p => exists o, now t = Some o /\ code_of p o
            end.

Lemma code_pstep : forall M t p v v' p' o, pstep M t p v = Ok (v', p') -> code_of p o -> code_of p' o.
Proof.
  intros M t p v v' p' o E C. destruct p; cbn [pstep] in E;
    repeat match type of E with
    | context [if ?b then _ else _] => destruct b eqn:?
    | context [match acquire ?x ?y with _ => _ end] => destruct (acquire x y) eqn:?
    | context [unlock_data ?x ?y] => destruct (unlock_data x y) eqn:?
    | context [try_lock_data ?x ?y] => destruct (try_lock_data x y) eqn:?
    end; cbn [bind fst snd] in E; try discriminate E; injection E as _ <-; cbn [code_of] in *;
    subst; cbn [result_of]; eauto.
Qed.
Lemma serves_step : forall M c mv c' h now, serves c now -> vstep M c mv = Ok (c', h) ->
  serves c' (fun t => calls t (now t) h) /\
  forall t r, In (VRes t r) h -> exists o, now t = Some o /\ result_of o r.
Proof.
  intros M c mv c' h now S E. destruct mv as [t o|t]; cbn [vstep] in E.
  - pose proof (S t) as St. destruct (cv_threads c t) as [p|] eqn:T; injection E as <- <-.
    + split; [exact S|]. intros u r [].
    + split; [|intros u r [X|[]]; discriminate]. intros u. cbn [cv_threads calls event_of].
      destruct (Nat.eq_dec t u) as [->|N].
      * rewrite set_same, Nat.eqb_refl. exists o. split; [reflexivity|]. destruct o; reflexivity.
      * rewrite set_other by congruence. apply Nat.eqb_neq in N. rewrite N. apply S.
  - pose proof (S t) as St. destruct (cv_threads c t) as [p|] eqn:T.
    2:{ injection E as <- <-. split; [exact S|]. intros u r []. }
    destruct St as (o & No & Co).
    assert (K : forall m p', code_of p' o -> serves (CV m (set_at (cv_threads c) t (Some p'))) now).
    { intros m p' C' u. cbn [cv_threads]. destruct (Nat.eq_dec t u) as [->|N].
      - rewrite set_same. eauto.
      - rewrite set_other by congruence. apply S. }
    assert (Q : forall q, p = q -> (forall r, q <> Return r) ->
      (let! r := pstep M t q (cv_mem c) in Ok (CV (fst r) (set_at (cv_threads c) t (Some (snd r))), [])) = Ok (c', h) ->
      serves c' (fun t => calls t (now t) h) /\ forall u r, In (VRes u r) h -> exists o, now u = Some o /\ result_of o r).
    { intros q -> _ E'. destruct (pstep M t q (cv_mem c)) as [(v', p')| |] eqn:P; cbn [bind fst snd] in E'; try discriminate.
      injection E' as <- <-. split; [|intros u r []]. cbn [calls]. apply K. eapply code_pstep; eauto. }
    destruct p; try (apply (Q _ eq_refl); [intros; discriminate|exact E]).
    injection E as <- <-. cbn [code_of] in Co. split.
    + intros u. cbn [cv_threads calls event_of]. destruct (Nat.eq_dec t u) as [->|N].
      * rewrite set_same, Nat.eqb_refl. reflexivity.
      * rewrite set_other by congruence. apply Nat.eqb_neq in N. rewrite N. apply S.
    + intros u x [X|[]]. injection X as <- <-. eauto.
Qed.

(** In every interleaving, what a thread that counts as waiting has called last, and has not returned from, is
    wait(); and every call returns a result of its kind to the thread that made it. *)
Theorem C193_caller_partial : forall modulus k n moves c h,
  vrun modulus (condvar_new k n) moves = Ok (c, h) ->
  (forall t, in_wait c t = true -> calls t None h = Some Wait) /\
  (forall t, calls t None h = None <-> cv_threads c t = None) /\
  forall before t r after, h = before ++ VRes t r :: after ->
    exists o, calls t None before = Some o /\ result_of o r.
Proof.
  intros M k n moves c h E.
  assert (G : forall moves c0 now c h, serves c0 now -> vrun M c0 moves = Ok (c, h) ->
            serves c (fun t => calls t (now t) h) /\
            forall before t r after, h = before ++ VRes t r :: after ->
              exists o, calls t (now t) before = Some o /\ result_of o r).
  { clear. induction moves as [|mv moves IH]; intros c0 now c h S E; cbn [vrun] in E.
    - injection E as <- <-. split; [exact S|]. intros [|? ?] t r after X; discriminate.
    - destruct (vstep M c0 mv) as [[c1 h1]| |] eqn:E1; cbn [bind fst snd] in E; try discriminate E.
      destruct (vrun M c1 moves) as [[c2 h2]| |] eqn:E2; cbn [bind fst snd] in E; try discriminate E.
      injection E as <- <-. destruct (serves_step M c0 mv c1 h1 now S E1) as (S1 & R1).
      destruct (IH c1 _ c2 h2 S1 E2) as (S2 & R2).
      assert (A : forall t x y z, calls t x (y ++ z) = calls t (calls t x y) z).
      { clear. intros t x y. revert x. induction y as [|e y IH]; intros x z; cbn; [reflexivity|apply IH]. }
      split.
      + intros t. pose proof (S2 t) as X. rewrite A. exact X.
      + intros before t r after X.
        destruct mv as [u o|u]; cbn [vstep] in E1.
        * destruct (cv_threads c0 u) eqn:T; injection E1 as _ <-; cbn [app] in *.
          -- exact (R2 before t r after X).
          -- destruct before as [|e before]; [discriminate|]. injection X as <- X.
             exact (R2 before t r after X).
        * assert (H1 : h1 = [] \/ exists r', h1 = [VRes u r']).
          { destruct (cv_threads c0 u) as [p|]; [|injection E1 as _ <-; auto].
            destruct p; try (destruct (pstep _ _ _ _) as [(? & ?)| |]; cbn [bind fst snd] in E1; try discriminate;
              injection E1 as _ <-; auto). injection E1 as _ <-. eauto. }
          destruct H1 as [->|(r' & ->)].
          -- exact (R2 before t r after X).
          -- destruct before as [|e before]; cbn [app] in X.
             ++ injection X as -> -> X2. cbn [calls]. apply R1. left. reflexivity.
             ++ injection X as X1 X2. subst e. exact (R2 before t r after X2). }
  assert (S0 : serves (condvar_new k n) (fun _ => None)) by (intros t; reflexivity).
  destruct (G moves _ (fun _ => None) c h S0 E) as (S & R). split; [|split; [|exact R]].
  - intros t W. pose proof (S t) as X. unfold in_wait in W. destruct (cv_threads c t) as [p|]; [|discriminate].
    destruct X as (o & -> & C). destruct p; try discriminate W; cbn [code_of] in C; now subst.
  - intros t. pose proof (S t) as X. destruct (cv_threads c t) as [p|]; [|tauto].
    destruct X as (o & -> & _). split; discriminate.
Qed.
(* A thread in wait() while another one notifies. *)
Example C193_caller_case : exists c h,
  vrun 256 (condvar_new KMutex 0) [VCall 1 Wait; VTick 1; VTick 1; VCall 0 Notify; VTick 0; VCall 2 IsWait; VTick 2; VTick 2]
  = Ok (c, h) /\ in_wait c 1 = true /\ calls 1 None h = Some Wait /\ calls 0 None h = Some Notify /\ calls 2 None h = None
  /\ In (VRes 2 (RTest true)) h.
Proof. do 2 eexists. split; [vm_compute; reflexivity|]. vm_compute. auto 10. Qed.

Print Assumptions C193_caller_partial.
Print Assumptions C87_accesses.
Print Assumptions C84_no_notification_partial.
Print Assumptions C84_one_waiter_partial.
Print Assumptions C84_wait_again_refuted.
Print Assumptions C84_counter_wraps_refuted.
Print Assumptions C85_wakes_partial.
Print Assumptions C85_two_waiters_refuted.
Print Assumptions C85_other_thread_refuted.
Print Assumptions C86_never_blocks_partial.
Print Assumptions C86_always_true_refuted.
Print Assumptions C86_other_thread_refuted.
Print Assumptions C87_race_refuted.
Print Assumptions C87_one_place_partial.
Print Assumptions C193_is_wait_partial.
Print Assumptions C193_unwait_partial.
Print Assumptions C193_unwait_refuted.
Print Assumptions C193_lost_waiter_refuted.
