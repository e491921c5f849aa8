(** C223: what getStatus() and operator bool of a Mutex, Spin or Semaphore tell, on POSIX. *)
From Coq Require Import List Arith ZArith Lia Bool.
From Verif Require Import Base LockObjectModel LockObjectProps LockStatusModel LockStatusSpec.
Import ListNotations.

(** * Histories *)

Lemma srun_app k h1 : forall h2 w, srun k w (h1 ++ h2) = bind (srun k w h1) (fun w => srun k w h2).
Proof.
  induction h1 as [|c h1 IH]; intros h2 w; [reflexivity|]. cbn [app srun].
  destruct (sstep k w c); cbn [bind]; [apply IH|reflexivity|reflexivity].
Qed.

Fixpoint alive_after (alive : nat -> bool) (h : list scall) : nat -> bool :=
  match h with
  | [] => alive
  | SNew v _ _ :: h => alive_after (lset alive v true) h
  | _ :: h => alive_after alive h
  end.

Lemma constructed_app h1 : forall h2 alive,
  constructed alive (h1 ++ h2) <-> constructed alive h1 /\ constructed (alive_after alive h1) h2.
Proof.
  induction h1 as [|c h1 IH]; intros h2 alive; [cbn; tauto|].
  destruct c; cbn [app constructed alive_after]; rewrite IH; tauto.
Qed.

Lemma alive_after_app h1 : forall h2 alive,
  alive_after alive (h1 ++ h2) = alive_after (alive_after alive h1) h2.
Proof. induction h1 as [|c h1 IH]; intros h2 alive; [reflexivity|]. destruct c; cbn; apply IH. Qed.

Section Histories.
  Variables (k : lkind) (P T : answer -> Prop) (R : answer -> Z -> Prop).
  Hypothesis HN : forall attr obj, P attr -> P obj ->
    exists s, status_new k attr obj = Ok s /\ R (first_failure k attr obj) s.
  Hypothesis HC : forall a, P a -> R a (status_call k a).
  Hypothesis HT1 : forall s a, T a -> an_error a = None \/ an_error a = Some (busy_error k) ->
    snd (status_try k s a) = s.
  Hypothesis HT2 : forall s a e, T a -> an_error a = Some e -> e <> busy_error k ->
    R a (snd (status_try k s a)).

  Definition tells (w : statuses) (v : nat) (l : option answer) : Prop :=
    match l with
    | None => w v = None
    | Some a => exists s, w v = Some s /\ R a s
    end.

  Lemma history_tells h : constructed (fun _ => false) h -> Forall (answers P T) h ->
    exists w, srun k s_start h = Ok w /\
      (forall v, tells w v (last_answer k v (busy_error k) (rev h))) /\
      (forall v, alive_after (fun _ => false) h v = true -> w v <> None).
  Proof.
    induction h as [|c h IH] using rev_ind; intros C F.
    - exists s_start. cbn. repeat split; intros; try reflexivity; discriminate.
    - apply constructed_app in C as (C & Cc). apply Forall_app in F as (F & Fc).
      inversion_clear Fc as [|? ? A _].
      destruct (IH C F) as (w & E & L & V). rewrite srun_app, E. cbn [bind srun].
      rewrite rev_app_distr. cbn [rev app].
      assert (K : forall v s, (forall u, u <> v -> tells w u (last_answer k u (busy_error k) (rev h))) ->
        forall u, u <> v -> tells (lset w v s) u (last_answer k u (busy_error k) (rev h))).
      { intros v s H u N. specialize (H u N). unfold tells in *.
        rewrite lset_neq by exact N. exact H. }
      assert (B : forall v s, forall u, w u <> None -> lset w v (Some s) u <> None).
      { intros v s u N. unfold lset. destruct (u =? v); [discriminate|exact N]. }
      destruct c as [v attr obj|v a|v a|v a]; cbn [answers] in A; cbn [sstep last_answer];
        rewrite alive_after_app; cbn [alive_after constructed] in *.
      + destruct (HN attr obj (proj1 A) (proj2 A)) as (s & Es & Rs). rewrite Es. cbn [bind].
        eexists. split; [reflexivity|]. split.
        * intros u. destruct (Nat.eqb_spec v u) as [<-|N].
          -- exists s. rewrite lset_eq. auto.
          -- apply K; [intros; apply L|congruence].
        * intros u. unfold lset. destruct (u =? v); [discriminate|apply V].
      + assert (X : w v <> None) by (apply V; tauto). destruct (w v) as [s|] eqn:W; [|congruence].
        cbn [bind]. eexists. split; [reflexivity|]. split.
        * intros u. destruct (Nat.eqb_spec v u) as [<-|N].
          -- exists (status_call k a). rewrite lset_eq. auto.
          -- apply K; [intros; apply L|congruence].
        * intros u H. apply B, V, H.
      + assert (X : w v <> None) by (apply V; tauto). destruct (w v) as [s|] eqn:W; [|congruence].
        cbn [bind]. eexists. split; [reflexivity|]. split.
        * intros u. destruct (Nat.eqb_spec v u) as [<-|N].
          -- exists (status_call k a). rewrite lset_eq. auto.
          -- apply K; [intros; apply L|congruence].
        * intros u H. apply B, V, H.
      + assert (X : w v <> None) by (apply V; tauto). destruct (w v) as [s|] eqn:W; [|congruence].
        cbn [bind]. eexists. split; [reflexivity|]. split.
        * intros u. destruct (Nat.eqb_spec v u) as [<-|N].
          -- assert (O : an_error a = None \/ an_error a = Some (busy_error k) ->
               tells (lset w v (Some (snd (status_try k s a)))) v (last_answer k v (busy_error k) (rev h))).
             { intros Q. rewrite (HT1 s a A Q). specialize (L v). unfold tells in *.
               rewrite lset_eq. destruct (last_answer k v (busy_error k) (rev h)); [|congruence].
               rewrite W in L. exact L. }
             destruct (an_error a) as [e|] eqn:Ea; [|apply O; auto].
             destruct (Z.eqb_spec e (busy_error k)) as [->|Ne]; [apply O; auto|].
             eexists. rewrite lset_eq. split; [reflexivity|]. apply (HT2 s a e); assumption.
          -- apply K; [intros; apply L|congruence].
        * intros u H. apply B, V, H.
  Qed.
End Histories.

Lemma call_ok k a : an_error a = None -> return_result (sys_call k a) = 0%Z.
Proof. intros E. unfold return_result, sys_call. rewrite E. destruct k; reflexivity. Qed.

Lemma call_sem a e : an_error a = Some e -> return_result (sys_call KSem a) = (- e)%Z.
Proof. intros E. unfold return_result, sys_call. rewrite E. reflexivity. Qed.

Lemma call_pthread k a e : k <> KSem -> an_error a = Some e -> e <> 0%Z ->
  return_result (sys_call k a) = (- an_errno a)%Z.
Proof.
  intros K E N. unfold return_result, sys_call. rewrite E. destruct k; try congruence; cbn [fst snd];
    (destruct (Z.eqb_spec e 0); [congruence|reflexivity]).
Qed.

Lemma try_pthread k s a : k <> KSem -> snd (status_try k s a) =
  match an_error a with None => s | Some e => snd (try_lock s e) end.
Proof. intros K. unfold status_try, sys_call. destruct k, (an_error a); try congruence; reflexivity. Qed.

(** * C223 *)

(** Semaphore: after every history the status of every object is that of its last call that can set it: 0
    for success, minus the number of the error otherwise. Missing: tryWait() with errors POSIX does not list
    for it (C98); the status does not tell about successful attempts (below). *)
Theorem C223_semaphore_partial : forall h,
  constructed (fun _ => false) h -> Forall (answers real listed) h ->
  exists w, srun KSem s_start h = Ok w /\
    forall v, match last_answer KSem v EAGAIN (rev h) with
              | None => w v = None
              | Some a => w v = Some (minus_error a) /\ (status_bool (minus_error a) = true <-> an_error a = None)
              end.
Proof.
  intros h C F.
  destruct (history_tells KSem real listed
    (fun a s => s = minus_error a /\ (status_bool (minus_error a) = true <-> an_error a = None)))
    with (h := h) as (w & E & L & _); try assumption.
  - intros attr obj _ Ro. exists (minus_error obj). unfold status_new, first_failure.
    split; [|split; [reflexivity|]].
    + destruct (an_error obj) as [e|] eqn:Eo.
      * rewrite (call_sem _ e Eo). unfold minus_error. rewrite Eo. reflexivity.
      * rewrite call_ok by exact Eo. unfold minus_error. rewrite Eo. reflexivity.
    + unfold status_bool, minus_error. destruct (an_error obj) as [e|] eqn:Eo; [|cbn; tauto].
      specialize (Ro e Eo). rewrite Z.eqb_eq. split; intros H; [lia|discriminate].
  - intros a Ra. unfold status_call. split.
    + destruct (an_error a) as [e|] eqn:Ea.
      * rewrite (call_sem _ e Ea). unfold minus_error. rewrite Ea. reflexivity.
      * rewrite call_ok by exact Ea. unfold minus_error. rewrite Ea. reflexivity.
    + unfold status_bool, minus_error. destruct (an_error a) as [e|] eqn:Eo; [|cbn; tauto].
      specialize (Ra e Eo). rewrite Z.eqb_eq. split; intros H; [lia|discriminate].
  - intros s a _ [Ea|Ea]; unfold status_try, sys_call; rewrite Ea; reflexivity.
  - intros s a e Ta Ea N. unfold status_try, sys_call, minus_error, status_bool. rewrite Ea.
    destruct (Ta e Ea) as [->|[->|[->| ->]]]; cbn in N |- *; try congruence;
      (split; [reflexivity|split; discriminate]).
  - exists w. split; [exact E|]. intros v. specialize (L v). unfold tells in L. cbn [busy_error] in L.
    destruct (last_answer KSem v EAGAIN (rev h)); [|exact L]. destruct L as (s & Ws & -> & B). auto.
Qed.

Definition fine := Answer None 0.
Example C223_semaphore_case :
  let h := [SNew 1 fine fine; SNew 2 fine (Answer (Some EINVAL) 0); SLock 1 (Answer (Some EINTR) 3);
            STry 1 (Answer (Some EAGAIN) 0)] in
  constructed (fun _ => false) h /\ Forall (answers real listed) h /\
  exists w, srun KSem s_start h = Ok w /\ w 1 = Some (-4)%Z /\ w 2 = Some (-22)%Z.
Proof.
  split; [cbn; auto|]. split.
  - repeat (apply Forall_cons || apply Forall_nil); cbn; unfold real, listed, EINVAL, EINTR; cbn;
      repeat split; intros e E; (discriminate E || (injection E as <-)); try lia; auto.
  - eexists. split; [reflexivity|]. split; reflexivity.
Qed.

(** Mutex and Spin: the same holds if every function of the system that fails leaves its error in errno, which
    POSIX does not ask of them. *)
Theorem C223_mutex_spin_partial : forall k h, k <> KSem ->
  constructed (fun _ => false) h -> Forall (answers (fun a => real a /\ in_errno a) real) h ->
  exists w, srun k s_start h = Ok w /\
    forall v, match last_answer k v EBUSY (rev h) with
              | None => w v = None
              | Some a => w v = Some (minus_error a) /\ (status_bool (minus_error a) = true <-> an_error a = None)
              end.
Proof.
  intros k h K C F.
  assert (B : forall a, real a -> (status_bool (minus_error a) = true <-> an_error a = None)).
  { intros a Ra. unfold status_bool, minus_error. destruct (an_error a) as [e|] eqn:Eo; [|cbn; tauto].
    specialize (Ra e Eo). rewrite Z.eqb_eq. split; intros H; [lia|discriminate]. }
  assert (M : forall a, real a -> in_errno a -> return_result (sys_call k a) = minus_error a).
  { intros a Ra Ia. unfold minus_error. destruct (an_error a) as [e|] eqn:Ea; [|apply call_ok, Ea].
    specialize (Ra e Ea). rewrite (call_pthread k a e) by (auto; lia). rewrite (Ia e Ea). reflexivity. }
  assert (U : busy_error k = EBUSY) by (destruct k; reflexivity || congruence).
  destruct (history_tells k (fun a => real a /\ in_errno a) real
    (fun a s => s = minus_error a /\ (status_bool (minus_error a) = true <-> an_error a = None)))
    with (h := h) as (w & E & L & _); try assumption.
  - intros attr obj (Ra & Ia) (Ro & Io). exists (minus_error (first_failure k attr obj)).
    unfold status_new, first_failure. destruct k; [| |congruence].
    + unfold mutex_init. rewrite (M attr), (M obj) by assumption.
      destruct (an_error attr) as [e|] eqn:Ea.
      * assert (Q : minus_error attr = (- e)%Z) by (unfold minus_error; rewrite Ea; reflexivity).
        rewrite Q. pose proof (Ra e Ea). destruct (Z.ltb_spec (- e) 0); [|lia].
        split; [reflexivity|]. split; [reflexivity|]. rewrite <- Q. apply B, Ra.
      * assert (Q : minus_error attr = 0%Z) by (unfold minus_error; rewrite Ea; reflexivity).
        rewrite Q. cbn [Z.ltb Z.compare]. split; [reflexivity|]. split; [reflexivity|]. apply B, Ro.
    + rewrite M by assumption. split; [reflexivity|]. split; [reflexivity|]. apply B, Ro.
  - intros a (Ra & Ia). unfold status_call. rewrite M by assumption. split; [reflexivity|]. apply B, Ra.
  - intros s a Ra Q. rewrite U in Q. rewrite try_pthread by exact K.
    destruct Q as [Ea|Ea]; rewrite Ea; [reflexivity|]. apply (proj2 (C98_try_lock s EBUSY)). auto.
  - intros s a e Ra Ea N. rewrite U in N. rewrite try_pthread, Ea by exact K.
    specialize (Ra e Ea) as Re. split; [|rewrite <- Ea; apply B, Ra].
    unfold minus_error. rewrite Ea. apply (proj2 (C98_try_lock s e)); lia.
  - exists w. split; [exact E|]. intros v. specialize (L v). unfold tells in L. rewrite U in L.
    destruct (last_answer k v EBUSY (rev h)); [|exact L]. destruct L as (s & Ws & -> & Bs). auto.
Qed.

(** Whether the last call failed, though not the error, is told for all answers after which errno is not 0
    when the call has failed. *)
Theorem C223_failed_partial : forall k h, k <> KSem ->
  constructed (fun _ => false) h -> Forall (answers (fun a => real a /\ some_errno a) real) h ->
  exists w, srun k s_start h = Ok w /\
    forall v, match last_answer k v EBUSY (rev h) with
              | None => w v = None
              | Some a => exists s, w v = Some s /\ (status_bool s = true <-> an_error a = None) /\
                  ((s < 0)%Z <-> an_error a <> None)
              end.
Proof.
  intros k h K C F.
  pose (R := fun a s => (status_bool s = true <-> an_error a = None) /\ ((s < 0)%Z <-> an_error a <> None)).
  assert (R0 : forall a, an_error a = None -> R a 0%Z).
  { intros a E. unfold R, status_bool. rewrite E. cbn. split; [tauto|]. split; [lia|congruence]. }
  assert (R1 : forall a e s, an_error a = Some e -> (s < 0)%Z -> R a s).
  { intros a e s E L. unfold R, status_bool. rewrite E, Z.eqb_eq.
    split; (split; intros; [lia || discriminate|discriminate || lia]). }
  assert (M : forall a, real a -> some_errno a -> R a (return_result (sys_call k a))).
  { intros a Ra Ia. destruct (an_error a) as [e|] eqn:Ea.
    - specialize (Ra e Ea). rewrite (call_pthread k a e) by (auto; lia). apply (R1 a e); [exact Ea|].
      specialize (Ia e Ea). lia.
    - rewrite call_ok by exact Ea. apply R0, Ea. }
  assert (U : busy_error k = EBUSY) by (destruct k; reflexivity || congruence).
  destruct (history_tells k (fun a => real a /\ some_errno a) real R)
    with (h := h) as (w & E & L & _); try assumption.
  - intros attr obj (Ra & Ia) (Ro & Io). unfold status_new, first_failure. destruct k; [| |congruence].
    + unfold mutex_init. destruct (an_error attr) as [e|] eqn:Ea.
      * exists (return_result (sys_call KMutex attr)). pose proof (M attr Ra Ia) as (_ & Q).
        rewrite Ea in Q. destruct (Z.ltb_spec (return_result (sys_call KMutex attr)) 0) as [_|G].
        -- split; [reflexivity|]. apply M; assumption.
        -- assert (return_result (sys_call KMutex attr) < 0)%Z by (apply Q; discriminate). lia.
      * rewrite (call_ok KMutex attr Ea). cbn [Z.ltb Z.compare]. eexists. split; [reflexivity|].
        apply M; assumption.
    + eexists. split; [reflexivity|]. apply M; assumption.
  - intros a (Ra & Ia). unfold status_call. apply M; assumption.
  - intros s a Ra Q. rewrite U in Q. rewrite try_pthread by exact K.
    destruct Q as [Ea|Ea]; rewrite Ea; [reflexivity|]. apply (proj2 (C98_try_lock s EBUSY)). auto.
  - intros s a e Ra Ea N. rewrite U in N. rewrite try_pthread, Ea by exact K.
    specialize (Ra e Ea) as Re. apply (R1 a e); [exact Ea|].
    assert (Q : snd (try_lock s e) = (- e)%Z) by (apply (proj2 (C98_try_lock s e)); lia). rewrite Q. lia.
  - exists w. split; [exact E|]. intros v. specialize (L v). unfold tells in L. rewrite U in L.
    destruct (last_answer k v EBUSY (rev h)); exact L.
Qed.

Example C223_failed_case :
  let h := [SNew 1 (Answer (Some 12%Z) 5) fine; SNew 2 fine fine; SLock 2 (Answer (Some EDEADLK) 2);
            STry 2 (Answer None 0); STry 1 (Answer (Some EINVAL) 0)] in
  constructed (fun _ => false) h /\ Forall (answers (fun a => real a /\ some_errno a) real) h /\
  exists w, srun KMutex s_start h = Ok w /\ w 1 = Some (-22)%Z /\ w 2 = Some (-2)%Z.
Proof.
  split; [cbn; auto|]. split.
  - repeat (apply Forall_cons || apply Forall_nil); cbn; unfold real, some_errno, EINVAL, EDEADLK; cbn;
      repeat split; intros e E; (discriminate E || (injection E as <-)); lia.
  - eexists. split; [reflexivity|]. split; reflexivity.
Qed.

(** Without an error in errno the failures of lock(), unlock() and of the constructors of Mutex and Spin are
    reported as success, in every state: the caller of lock() goes on without the lock. *)
Theorem C223_silent_refuted : forall k w v s e a, k <> KSem -> e <> 0%Z ->
  w v = Some s -> a = Answer (Some e) 0 ->
  (exists w', sstep k w (SLock v a) = Ok w' /\ w' v = Some 0%Z /\ status_bool 0 = true) /\
  (exists w', sstep k w (SUnlock v a) = Ok w' /\ w' v = Some 0%Z) /\
  (exists w', sstep k w (SNew v fine a) = Ok w' /\ w' v = Some 0%Z).
Proof.
  intros k w v s e a K N W ->.
  assert (X : return_result (sys_call k (Answer (Some e) 0)) = 0%Z)
    by (rewrite (call_pthread k (Answer (Some e) 0) e K eq_refl N); reflexivity).
  cbn [sstep]. rewrite W. unfold status_call, status_new, mutex_init. rewrite X.
  split; [|split].
  - eexists. split; [reflexivity|]. rewrite lset_eq. auto.
  - eexists. split; [reflexivity|]. rewrite lset_eq. auto.
  - destruct k; [| |congruence].
    + assert (Y : return_result (sys_call KMutex fine) = 0%Z) by reflexivity. rewrite Y.
      cbn [Z.ltb Z.compare an_error fine bind]. eexists. split; [reflexivity|].
      rewrite lset_eq. f_equal. exact X.
    + cbn [bind]. eexists. split; [reflexivity|]. apply lset_eq.
Qed.

(** The error that is told is that of another call, whatever it was. *)
Theorem C223_wrong_error_refuted : forall k w v s e other, k <> KSem -> e <> 0%Z -> w v = Some s ->
  exists w', sstep k w (SLock v (Answer (Some e) other)) = Ok w' /\ w' v = Some (- other)%Z.
Proof.
  intros k w v s e other K N W. cbn [sstep]. rewrite W. unfold status_call.
  rewrite (call_pthread k (Answer (Some e) other) e K eq_refl N). eexists. split; [reflexivity|]. apply lset_eq.
Qed.

(** If pthread_mutexattr_init fails and errno is 0, the mutex is made of attributes that were never
    initialised. *)
Theorem C223_attributes_refuted : forall w v e obj, e <> 0%Z ->
  sstep KMutex w (SNew v (Answer (Some e) 0) obj) = UB.
Proof.
  intros w v e obj N. cbn [sstep]. unfold status_new, mutex_init.
  rewrite (call_pthread KMutex (Answer (Some e) 0) e ltac:(discriminate) eq_refl N). reflexivity.
Qed.

(** After a successful attempt the status is still that of an earlier call that failed. *)
Theorem C223_stays_refuted : forall k w v s errno, (s < 0)%Z -> w v = Some s ->
  exists w', sstep k w (STry v (Answer None errno)) = Ok w' /\ fst (status_try k s (Answer None errno)) = true /\
    w' v = Some s /\ status_bool s = false.
Proof.
  intros k w v s errno L W. cbn [sstep]. rewrite W. eexists. split; [reflexivity|].
  rewrite lset_eq. unfold status_bool. destruct (Z.eqb_spec s 0); [lia|].
  destruct k; cbn; auto.
Qed.

(** getValue() gives the value, or minus the error; a reader can tell them apart. *)
Theorem C223_value : forall a x, real a -> (0 <= x)%Z ->
  (an_error a = None -> sem_value a x = x) /\
  (forall e, an_error a = Some e -> sem_value a x = (- e)%Z) /\
  ((sem_value a x < 0)%Z <-> an_error a <> None).
Proof.
  intros a x Ra X. unfold sem_value. destruct (an_error a) as [e|] eqn:Ea.
  - rewrite (call_sem a e Ea). specialize (Ra e Ea). destruct (Z.ltb_spec (- e) 0); [|lia].
    split; [discriminate|]. split; [intros e' H'; congruence|]. split; [discriminate|lia].
  - rewrite (call_ok KSem a Ea). cbn [Z.ltb Z.compare]. split; [reflexivity|]. split; [discriminate|].
    split; [lia|congruence].
Qed.

Example C223_value_case : sem_value (Answer None 3) 7 = 7%Z /\ sem_value (Answer (Some EINVAL) 0) 7 = (-22)%Z.
Proof. split; reflexivity. Qed.

Print Assumptions C223_semaphore_partial.
Print Assumptions C223_mutex_spin_partial.
Print Assumptions C223_failed_partial.
Print Assumptions C223_silent_refuted.
Print Assumptions C223_wrong_error_refuted.
Print Assumptions C223_attributes_refuted.
Print Assumptions C223_stays_refuted.
Print Assumptions C223_value.
