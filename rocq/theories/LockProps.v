(** C47, C69, C70, C71: theorems about scoped locks. *)
From Coq Require Import List Arith ZArith Lia Bool.
From Verif Require Import Base LockModel LockSpec LockProofs.
Import ListNotations.

Definition not_semaphore (kinds : nat -> lock_kind) (l : nat) : Prop := kinds l <> KSemaphore.

Lemma run_spin kinds values moves :
  exists c, lrun (locks_new kinds values) moves = Ok c /\
    linv kinds values (not_semaphore kinds) c.
Proof.
  apply lrun_ok; [auto|apply start_linv|]. unfold not_semaphore. intros mv _ _ l H N. auto.
Qed.

Lemma inside_held c t l : inside c t l -> held c t l <> 0.
Proof. unfold inside, held. lia. Qed.

(** * C47 *)

(** Whatever the threads do, in whatever order, interrupted or not: nothing is undefined, and
    two threads are never inside scopes guarded by the same Spin or Mutex; nor is one thread
    inside two of them. *)
Theorem C47_exclusion : forall kinds values moves,
  exists c, lrun (locks_new kinds values) moves = Ok c /\
    forall l, kinds l <> KSemaphore ->
      (forall t u, inside c t l -> inside c u l -> t = u) /\
      (forall t, open_scopes c t l <= 1).
Proof.
  intros kinds values moves. destruct (run_spin kinds values moves) as (c & E & I).
  exists c. split; [exact E|]. intros l NK. split.
  - intros t u Ht Hu. apply inside_held in Ht. apply inside_held in Hu.
    apply (v_owner _ _ _ _ I l t NK) in Ht. apply (v_owner _ _ _ _ I l u NK) in Hu. congruence.
  - intros t. assert (B := held_count _ _ _ c t l I NK).
    unfold capacity in B. destruct (kinds l); try congruence; unfold held in B; lia.
Qed.

(** When all scopes have been left the lock is free: a thread that now enters gets in, by
    itself, in two steps. More generally the lock is free as soon as no thread is inside a
    scope guarded by it or between taking it and the beginning of the scope. *)
Theorem C47_released : forall kinds values moves l t,
  kinds l <> KSemaphore ->
  exists c, lrun (locks_new kinds values) moves = Ok c /\
    (all_out c l -> exists c', lrun c [Enter t l; Tick_ t; Tick_ t] = Ok c' /\ inside c' t l) /\
    ((forall u, ~ inside c u l /\ (forall r, t_task (k_threads c u) <> Taken l r)) <->
     l_count (k_locks c l) = 1).
Proof.
  intros kinds values moves l t NK. destruct (run_spin kinds values moves) as (c & E & I).
  exists c. split; [exact E|].
  assert (F : (forall u, ~ inside c u l /\ (forall r, t_task (k_threads c u) <> Taken l r)) <->
     l_count (k_locks c l) = 1).
  { assert (C : capacity kinds values l = 1) by (unfold capacity; destruct (kinds l); congruence).
    split.
    - intros H. destruct (v_count _ _ _ _ I) as (ts & _ & _ & Sum). specialize (Sum l NK).
      rewrite C in Sum.
      assert (Z : list_sum (map (fun u => held c u l) ts) = 0); [|lia].
      clear Sum. induction ts as [|a ts IH]; [reflexivity|].
      cbn [map list_sum fold_right]. unfold list_sum in IH. rewrite IH.
      destruct (H a) as [H1 H2]. unfold inside in H1. unfold held.
      destruct (t_task (k_threads c a)) as [| |l' r|] eqn:ET; try lia.
      destruct (Nat.eqb_spec l' l) as [-> |]; [|lia]. exfalso. apply (H2 r). reflexivity.
    - intros H u. assert (B := held_count _ _ _ c u l I NK). rewrite C, H in B.
      unfold inside. unfold held in B. split; [lia|]. intros r ET. rewrite ET, Nat.eqb_refl in B. lia. }
  split; [|exact F].
  intros Out.
  assert (H1 : l_count (k_locks c l) = 1).
  { apply F. intros u. destruct (Out u) as [H1 H2]. split; [exact H1|]. intros r. congruence. }
  destruct (Out t) as [_ Rt].
  cbn [lrun lstep]. rewrite Rt. cbn [bind k_threads k_locks]. rewrite set_same. cbn [t_task].
  unfold acquire. rewrite H1. cbn [bind k_threads]. rewrite set_same. cbn [t_task bind].
  eexists. split; [reflexivity|]. unfold inside, open_scopes. cbn [k_threads].
  rewrite set_same. cbn [t_scopes filter]. rewrite locker_data, Nat.eqb_refl. discriminate.
Qed.

(** Three threads, two locks: one inside, one waiting, one inside the other. *)
Example C47_case :
  let kinds l := if l =? 0 then KSpin else KMutex in
  match lrun (locks_new kinds (fun _ => 0))
          [Enter 0 0; Enter 1 0; Tick_ 0; Tick_ 1; Tick_ 0; Enter 2 1; Tick_ 2; Tick_ 1; Tick_ 2] with
  | Ok c => open_scopes c 0 0 = 1 /\ open_scopes c 1 0 = 0 /\ open_scopes c 2 1 = 1 /\
            blocked c 1 /\ ~ blocked c 0
  | _ => False
  end.
Proof.
  cbn. repeat split. { exists 0. split; reflexivity. }
  intros (l & E & _). discriminate.
Qed.

Example C47_released_case :
  match lrun (locks_new (fun _ => KMutex) (fun _ => 0))
          [Enter 0 0; Tick_ 0; Tick_ 0; Leave 0; Tick_ 0] with
  | Ok c => all_out c 0
  | _ => False
  end.
Proof.
  cbn. intros t. unfold inside, open_scopes. cbn. unfold set_at.
  destruct (t =? 0); cbn; auto.
Qed.

(** * C69: scopes guarded by a Semaphore *)

(** Scopes open in any threads, counted against all that is held. *)
Lemma open_le_held c l : forall ts vs, NoDup ts -> NoDup vs ->
  (forall t, In t ts -> ~ In t vs -> open_scopes c t l = 0) ->
  list_sum (map (fun t => open_scopes c t l) ts) <= list_sum (map (fun u => held c u l) vs).
Proof.
  induction ts as [|b ts IHt]; intros vs N1 N2 HO; [apply Nat.le_0_l|].
  inversion N1; subst. cbn [map list_sum fold_right].
  fold (list_sum (map (fun t => open_scopes c t l) ts)).
  destruct (in_dec Nat.eq_dec b vs) as [Hb|Hb].
  - destruct (in_split b vs Hb) as (v1 & v2 & ->).
    assert (N3 : NoDup (v1 ++ v2)) by (eapply NoDup_remove_1; exact N2).
    specialize (IHt (v1 ++ v2) H2 N3).
    rewrite map_app, list_sum_app in *. cbn [map list_sum fold_right] in *.
    fold (list_sum (map (fun u => held c u l) v2)).
    assert (open_scopes c b l <= held c b l) by (unfold held; lia).
    assert (list_sum (map (fun t => open_scopes c t l) ts) <=
      list_sum (map (fun u => held c u l) v1) + list_sum (map (fun u => held c u l) v2)); [|lia].
    apply IHt. intros t Ht Nt. apply HO; [right; exact Ht|].
    intros Hin. apply Nt. apply in_app_iff in Hin. apply in_app_iff.
    destruct Hin as [|[<-|]]; auto. contradiction.
  - rewrite (HO b (or_introl eq_refl) Hb). cbn. apply IHt; auto.
    intros t Ht. apply HO. right. exact Ht.
Qed.

(** As long as no wait is interrupted: at most as many scopes are open as the semaphore was
    created with, and when all have been left it has its initial value again. *)
Theorem C69_semaphore_partial : forall kinds values moves l,
  kinds l = KSemaphore -> Forall (fun mv => ~ interrupts mv) moves ->
  exists c, lrun (locks_new kinds values) moves = Ok c /\
    (forall ts, NoDup ts -> open_by c ts l <= values l) /\
    (all_out c l -> l_count (k_locks c l) = values l).
Proof.
  intros kinds values moves l K NI.
  destruct (lrun_ok kinds values (fun _ => True) (fun _ _ => Logic.I) moves
              _ (start_linv kinds values _)) as (c & E & I).
  { intros mv Hm Hi. rewrite Forall_forall in NI. exfalso. apply (NI mv Hm Hi). }
  exists c. split; [exact E|].
  destruct (v_count _ _ _ _ I) as (us & ND & Out & Sum). specialize (Sum l Logic.I).
  unfold capacity in Sum. rewrite K in Sum.
  split.
  - intros ts NDt. unfold open_by.
    enough (list_sum (map (fun t => open_scopes c t l) ts) <= list_sum (map (fun u => held c u l) us))
      by lia.
    apply open_le_held; auto. intros t _ Nt. unfold open_scopes. rewrite (Out t Nt). reflexivity.
  - intros AO.
    assert (Z : list_sum (map (fun u => held c u l) us) = 0); [|lia].
    clear - AO. induction us as [|a us IH]; [reflexivity|].
    cbn [map list_sum fold_right]. unfold list_sum in IH. rewrite IH.
    destruct (AO a) as [H1 H2]. unfold inside in H1. unfold held. rewrite H2. lia.
Qed.

Example C69_case :
  let moves := [Enter 0 0; Tick_ 0; Tick_ 0; Enter 1 0; Tick_ 1; Tick_ 1; Enter 2 0; Tick_ 2] in
  Forall (fun mv => ~ interrupts mv) moves /\
  match lrun (locks_new (fun _ => KSemaphore) (fun _ => 2)) moves with
  | Ok c => open_by c [0; 1; 2] 0 = 2 /\ blocked c 2
  | _ => False
  end.
Proof.
  split; [repeat constructor; auto|]. cbn. split; [reflexivity|]. exists 0. split; reflexivity.
Qed.

(** An interrupted wait is taken for a successful one. In every state, a thread that is not
    inside anything and whose wait for a semaphore is interrupted gets inside, whatever the
    value of the semaphore is; when it leaves, the value has grown by one. *)
Theorem C69_interrupted_refuted : forall kinds values moves c l t,
  lrun (locks_new kinds values) moves = Ok c ->
  kinds l = KSemaphore -> t_task (k_threads c t) = Running ->
  exists c1 c2,
    lrun c [Enter t l; Interrupt t; Tick_ t] = Ok c1 /\ inside c1 t l /\
    (forall u, u <> t -> open_scopes c1 u l = open_scopes c u l) /\
    l_count (k_locks c1 l) = l_count (k_locks c l) /\ l_status (k_locks c1 l) = (-4)%Z /\
    lrun c1 [Leave t; Tick_ t] = Ok c2 /\
    l_count (k_locks c2 l) = S (l_count (k_locks c l)) /\ l_status (k_locks c2 l) = 0%Z.
Proof.
  intros kinds values moves c l t E K R.
  destruct (run_spin kinds values moves) as (c' & E' & I). rewrite E in E'. injection E' as <-.
  assert (KL : l_kind (k_locks c l) = KSemaphore) by (rewrite (v_kind _ _ _ _ I); exact K).
  cbn [lrun lstep]. rewrite R. cbn [bind k_threads k_locks]. rewrite set_same. cbn [t_task].
  rewrite KL. cbn [bind k_threads k_locks]. rewrite set_same. cbn [t_task bind k_locks t_scopes].
  rewrite KL. cbn [locker_for].
  eexists. eexists. split; [reflexivity|]. split.
  { unfold inside, open_scopes. cbn [k_threads]. rewrite set_same. cbn [t_scopes filter k_data].
    rewrite Nat.eqb_refl. discriminate. }
  split.
  { intros u N. unfold open_scopes. cbn [k_threads]. rewrite !set_other by auto. reflexivity. }
  split. { cbn [k_locks]. rewrite set_same. reflexivity. }
  split. { cbn [k_locks]. rewrite set_same. reflexivity. }
  cbn [k_threads k_locks]. rewrite set_same. cbn [t_task t_scopes k_unlock k_data].
  rewrite set_same. unfold release, set_status at 1. cbn [l_kind]. rewrite KL.
  cbn [bind k_threads k_locks]. rewrite set_same. cbn [t_task bind].
  split; [reflexivity|]. cbn [k_locks]. rewrite !set_same. split; reflexivity.
Qed.

(** A semaphore of value one, one thread inside, a second one let in by a signal. *)
Example C69_interrupted_case :
  match lrun (locks_new (fun _ => KSemaphore) (fun _ => 1))
          [Enter 0 0; Tick_ 0; Tick_ 0; Enter 1 0; Tick_ 1; Interrupt 1; Tick_ 1] with
  | Ok c => open_by c [0; 1] 0 = 2
  | _ => False
  end.
Proof. reflexivity. Qed.

(** * C70: the status of a lock *)

(** Two threads can be about to write the status of the same Spin or Mutex, which is a data
    race: one has just given the lock back, the other has just taken it. *)
Theorem C70_status_race_refuted : forall kinds values l t u,
  kinds l <> KSemaphore -> t <> u ->
  exists c, lrun (locks_new kinds values)
              [Enter t l; Tick_ t; Tick_ t; Enter u l; Leave t; Tick_ u] = Ok c /\
    writes_status c t l /\ writes_status c u l.
Proof.
  intros kinds values l t u NK N.
  destruct (kinds l) eqn:K; [| |congruence];
    cbn [lrun lstep locks_new k_threads k_locks t_task bind t_scopes];
    repeat (first [rewrite set_same | rewrite set_other by auto | rewrite Nat.eqb_refl
                  | rewrite K
                  | progress cbn [k_threads k_locks t_task bind t_scopes acquire lock_new l_count
                       l_kind l_owner l_status release set_status locker_for k_unlock k_data]
                  | progress unfold acquire, release, lock_new, set_status]);
    (eexists; split; [reflexivity|]; unfold writes_status; cbn [k_threads];
     repeat (first [rewrite set_same | rewrite set_other by auto]); split; reflexivity).
Qed.

Example C70_case : (fun _ : nat => KSpin) 5 <> KSemaphore /\ 1 <> 2.
Proof. split; discriminate. Qed.

(** Two threads that have taken the lock are never about to write at the same time. *)
Theorem C70_status_taken_partial : forall kinds values moves l,
  kinds l <> KSemaphore ->
  exists c, lrun (locks_new kinds values) moves = Ok c /\
    forall t u r r', t_task (k_threads c t) = Taken l r -> t_task (k_threads c u) = Taken l r' ->
    t = u.
Proof.
  intros kinds values moves l NK. destruct (run_spin kinds values moves) as (c & E & I).
  exists c. split; [exact E|]. intros t u r r' Ht Hu.
  assert (A : forall v r, t_task (k_threads c v) = Taken l r -> l_owner (k_locks c l) = Some v).
  { intros v q Hv. apply (v_owner _ _ _ _ I l v NK). unfold held. rewrite Hv, Nat.eqb_refl. lia. }
  assert (X := A t r Ht). assert (Y := A u r' Hu). congruence.
Qed.

(** * C71: locks taken in a fixed order do not deadlock *)

Definition increasing (c : locks) : Prop := forall t,
  match t_task (k_threads c t) with
  | Waiting l | Taken l _ => forall l', inside c t l' -> l' < l
  | _ => True
  end.

Lemma inside_scopes c t l :
  inside c t l <-> exists k, In k (t_scopes (k_threads c t)) /\ k_data k = l.
Proof.
  unfold inside, open_scopes. split.
  - intros H. destruct (filter (fun k => k_data k =? l) (t_scopes (k_threads c t))) as [|k ks] eqn:E.
    + contradiction H. reflexivity.
    + assert (In k (filter (fun k => k_data k =? l) (t_scopes (k_threads c t)))) as Hk
        by (rewrite E; left; reflexivity).
      apply filter_In in Hk. destruct Hk as [H1 H2]. exists k. split; auto.
      apply Nat.eqb_eq. exact H2.
  - intros (k & H1 & H2) Z.
    assert (Hk : In k (filter (fun k => k_data k =? l) (t_scopes (k_threads c t)))).
    { apply filter_In. split; auto. apply Nat.eqb_eq. exact H2. }
    destruct (filter (fun k => k_data k =? l) (t_scopes (k_threads c t))); [destruct Hk|discriminate].
Qed.

Lemma increasing_step c mv c' :
  increasing c -> lstep c mv = Ok c' ->
  match mv with Enter t l => forall l', inside c t l' -> l' < l | _ => True end ->
  increasing c'.
Proof.
  intros I E O.
  assert (Other : forall t th lk, (forall u, u <> t -> forall l,
    inside (Locks lk (set_at (k_threads c) t th)) u l -> inside c u l)).
  { intros t th lk u N l. unfold inside, open_scopes. cbn. rewrite set_other by auto. auto. }
  assert (Step : forall t th lk,
    match t_task th with Waiting l | Taken l _ =>
       forall l', (exists k, In k (t_scopes th) /\ k_data k = l') -> l' < l | _ => True end ->
    increasing (Locks lk (set_at (k_threads c) t th))).
  { intros t th lk H u. cbn [k_threads].
    destruct (Nat.eq_dec u t) as [->|N].
    - rewrite set_same. destruct (t_task th); auto; intros l' Hi; apply H;
        apply inside_scopes in Hi; cbn [k_threads] in Hi; rewrite set_same in Hi; exact Hi.
    - rewrite set_other by auto. specialize (I u). destruct (t_task (k_threads c u)); auto;
        intros l' Hi; apply I; apply (Other t th lk u N l' Hi). }
  destruct mv as [t l|t|t|t]; cbn [lstep] in E.
  - destruct (t_task (k_threads c t)) eqn:ET; injection E as <-; auto.
    apply Step. cbn. intros l' Hi. apply O. apply inside_scopes. exact Hi.
  - destruct (t_task (k_threads c t)) eqn:ET; try (injection E as <-; auto; fail).
    destruct (t_scopes (k_threads c t)) as [|k rest]; [injection E as <-; auto|].
    destruct (release (k_unlock k) (k_locks c (k_data k)) t) as [x| |]; try discriminate.
    cbn [bind] in E. injection E as <-. apply Step. cbn. auto.
  - assert (It := I t). destruct (t_task (k_threads c t)) as [|l|l r|l r] eqn:ET.
    + injection E as <-. exact I.
    + destruct (acquire (k_locks c l) t); injection E as <-; auto.
      apply Step. cbn. intros l' Hi. apply It. apply inside_scopes. exact Hi.
    + injection E as <-. apply Step. cbn. auto.
    + injection E as <-. apply Step. cbn. auto.
  - assert (It := I t). destruct (t_task (k_threads c t)) as [|l|l r|l r] eqn:ET;
      try (injection E as <-; exact I).
    destruct (l_kind (k_locks c l)); injection E as <-; auto.
    apply Step. cbn. intros l' Hi. apply It. apply inside_scopes. exact Hi.
Qed.

Lemma increasing_run : forall moves c c', increasing c -> ordered c moves ->
  lrun c moves = Ok c' -> increasing c'.
Proof.
  induction moves as [|mv moves IH]; intros c c' I O E; cbn [lrun ordered] in *.
  - injection E as <-. exact I.
  - destruct O as [O1 O2]. destruct (lstep c mv) as [c1| |] eqn:E1; try discriminate.
    cbn [bind] in E. apply (IH c1 c'); auto. apply (increasing_step c mv c1 I E1).
    destruct mv; auto.
Qed.

(** If every thread opens its scopes in the order of the locks, then whenever a thread is
    blocked there is one that holds a lock and is not blocked: threads never wait for each
    other in a circle. Semaphores take part, if they start above zero and no wait is
    interrupted. *)
Theorem C71_order_no_deadlock : forall kinds values moves,
  (forall l, kinds l = KSemaphore -> values l <> 0) ->
  Forall (fun mv => ~ interrupts mv) moves ->
  ordered (locks_new kinds values) moves ->
  exists c, lrun (locks_new kinds values) moves = Ok c /\
    forall t, blocked c t ->
      exists u, ~ blocked c u /\
        ((exists l, inside c u l) \/ exists l r, t_task (k_threads c u) = Taken l r).
Proof.
  intros kinds values moves V NI O.
  destruct (lrun_ok kinds values (fun _ => True) (fun _ _ => Logic.I) moves
              _ (start_linv kinds values _)) as (c & E & I).
  { intros mv Hm Hi. rewrite Forall_forall in NI. exfalso. apply (NI mv Hm Hi). }
  exists c. split; [exact E|].
  assert (Inc : increasing c).
  { eapply increasing_run; [|exact O|exact E]. intros t. cbn. exact Logic.I. }
  destruct (v_count _ _ _ _ I) as (ts & ND & Out & Sum).
  assert (Holder : forall l, l_count (k_locks c l) = 0 -> exists u, In u ts /\ held c u l <> 0).
  { intros l Z. specialize (Sum l Logic.I). rewrite Z in Sum.
    assert (C : capacity kinds values l <> 0).
    { unfold capacity. destruct (kinds l) eqn:K; auto; try (apply V; exact K). }
    assert (S : list_sum (map (fun u => held c u l) ts) <> 0) by lia. clear - S.
    induction ts as [|a ts IH]; [contradiction S; reflexivity|].
    cbn [map list_sum fold_right] in S. fold (list_sum (map (fun u => held c u l) ts)) in S.
    destruct (Nat.eq_dec (held c a l) 0) as [Z|NZ].
    - destruct IH as (u & Hu & Hh); [lia|]. exists u. split; [right|]; auto.
    - exists a. split; [left; reflexivity|exact NZ]. }
  (* a bound on the locks that are held *)
  assert (Bound : exists B, forall u l, In u ts -> inside c u l -> l < B).
  { clear. induction ts as [|a ts (B & HB)]; [exists 0; intros u l []|].
    assert (BA : exists B', forall l, inside c a l -> l < B').
    { assert (G : exists B', forall k, In k (t_scopes (k_threads c a)) -> k_data k < B').
      { induction (t_scopes (k_threads c a)) as [|k ks (B' & HB')]; [exists 0; intros k []|].
        exists (S (k_data k) + B'). intros k' [<-|Hk]; [lia|]. specialize (HB' _ Hk). lia. }
      destruct G as (B' & HB'). exists B'. intros l Hi. apply inside_scopes in Hi.
      destruct Hi as (k & Hk & <-). auto. }
    destruct BA as (B' & HB'). exists (B + B'). intros u l [<-|Hu] Hi.
    - specialize (HB' l Hi). lia.
    - specialize (HB u l Hu Hi). lia. }
  destruct Bound as (B & HB).
  assert (Main : forall n l, l_count (k_locks c l) = 0 -> B - l <= n ->
    exists u, ~ blocked c u /\
        ((exists l, inside c u l) \/ exists l r, t_task (k_threads c u) = Taken l r)).
  { induction n as [|n IH]; intros l Z Hn; destruct (Holder l Z) as (u & Hu & Hh).
    - exists u. unfold held in Hh. destruct (t_task (k_threads c u)) as [|l'|l' r|l' r] eqn:ET.
      + split; [intros (? & ? & _); congruence|]. left. exists l. unfold inside. lia.
      + exfalso. assert (Hi : inside c u l) by (unfold inside; lia). specialize (HB u l Hu Hi). lia.
      + split; [intros (? & ? & _); congruence|]. right. eauto.
      + split; [intros (? & ? & _); congruence|]. left. exists l. unfold inside. lia.
    - unfold held in Hh. destruct (t_task (k_threads c u)) as [|l'|l' r|l' r] eqn:ET.
      + exists u. split; [intros (? & ? & _); congruence|]. left. exists l. unfold inside. lia.
      + assert (Hi : inside c u l) by (unfold inside; lia).
        assert (L := HB u l Hu Hi).
        specialize (Inc u). rewrite ET in Inc. specialize (Inc l Hi).
        destruct (Nat.eq_dec (l_count (k_locks c l')) 0) as [Z'|NZ].
        * apply (IH l' Z'). lia.
        * exists u. split; [|left; eauto]. intros (l2 & E2 & Z2). congruence.
      + exists u. split; [intros (? & ? & _); congruence|]. right. eauto.
      + exists u. split; [intros (? & ? & _); congruence|]. left. exists l. unfold inside. lia. }
  intros t (l & _ & Z). apply (Main (B - l) l Z). lia.
Qed.

(** Two threads take the locks 0 and 1 in this order, and are interleaved. *)
Example C71_case :
  let moves := [Enter 0 0; Tick_ 0; Tick_ 0; Enter 1 0; Tick_ 1; Enter 0 1; Tick_ 0; Tick_ 0] in
  ordered (locks_new (fun _ => KMutex) (fun _ => 0)) moves /\
  match lrun (locks_new (fun _ => KMutex) (fun _ => 0)) moves with
  | Ok c => blocked c 1 /\ inside c 0 0 /\ inside c 0 1
  | _ => False
  end.
Proof.
  split.
  - cbn. repeat (split; [first [exact I | intros l H; exfalso; apply H; reflexivity | idtac]|
                   intros c' E; injection E as <-]); cbn; auto.
    intros l' H. apply inside_scopes in H. destruct H as (k & [<-|[]] & <-). cbn. auto.
  - cbn. split; [exists 0; split; reflexivity|]. split; discriminate.
Qed.

(** Without the order there are deadlocks: each of two threads holds what the other wants. *)
Theorem C71_order_needed : forall kinds values a b t u,
  kinds a <> KSemaphore -> kinds b <> KSemaphore -> a <> b -> t <> u ->
  exists c, lrun (locks_new kinds values)
    [Enter t a; Tick_ t; Tick_ t; Enter u b; Tick_ u; Tick_ u; Enter t b; Enter u a] = Ok c /\
    blocked c t /\ blocked c u /\ forall v, v <> t -> v <> u -> ~ exists l, inside c v l.
Proof.
  intros kinds values a b t u Ka Kb Nab Ntu.
  cbn [lrun lstep locks_new k_threads k_locks t_task bind t_scopes].
  destruct (kinds a) eqn:KA; [| |congruence]; (destruct (kinds b) eqn:KB; [| |congruence]);
    repeat (first [rewrite set_same | rewrite set_other by auto | rewrite Nat.eqb_refl
                  | rewrite KA | rewrite KB
                  | progress cbn [k_threads k_locks t_task bind t_scopes acquire lock_new l_count
                       l_kind l_owner l_status release set_status locker_for k_unlock k_data]
                  | progress unfold acquire, release, lock_new, set_status]);
    (eexists; split; [reflexivity|]; split; [|split];
     [ exists b | exists a
     | intros v N1 N2 (l & H); apply H; unfold open_scopes; cbn [k_threads];
       rewrite !set_other by auto; reflexivity];
     cbn [k_threads k_locks];
     repeat (first [rewrite set_same | rewrite set_other by auto]); split; reflexivity).
Qed.

Print Assumptions C47_exclusion.
Print Assumptions C47_released.
Print Assumptions C69_semaphore_partial.
Print Assumptions C69_interrupted_refuted.
Print Assumptions C70_status_race_refuted.
Print Assumptions C70_status_taken_partial.
Print Assumptions C71_order_no_deadlock.
Print Assumptions C71_order_needed.
