(** C46, C50, C67: theorems about QueuedArray. *)
From Coq Require Import List Arith Lia.
From Verif Require Import Base BaseLemmas PointersProofs ConcModel ConcSpec ConcProofs
  QueueModel QueueSpec QueueProofs.
Import ListNotations.

(** * C46 *)

Lemma pushed_app {A} (l1 l2 : list (nat * qop A * qres A)) :
  pushed (l1 ++ l2) = pushed l1 ++ pushed l2.
Proof.
  induction l1 as [|[[t o] r] l1 IH]; [reflexivity|]. cbn [app pushed].
  destruct o; auto. destruct r as [| [|] | | |]; auto. cbn. rewrite IH. reflexivity.
Qed.
Lemma popped_app {A} (l1 l2 : list (nat * qop A * qres A)) :
  popped (l1 ++ l2) = popped l1 ++ popped l2.
Proof.
  induction l1 as [|[[t o] r] l1 IH]; [reflexivity|]. cbn [app popped].
  destruct o; auto. destruct r as [| |[|]| |]; auto. cbn. rewrite IH. reflexivity.
Qed.

Lemma fifo_order {A} capacity s st (h : list (event (qop A) (qres A))) order :
  atomic (fifo capacity) [] Inv Res s st h order -> popped order ++ s = pushed order.
Proof.
  induction 1 as [|s st h order t o _ IH|s st h order t o s' r _ IH _ E|s st h order t r _ IH];
    auto. rewrite popped_app, pushed_app, <- IH.
  destruct o as [v|v|d| |v]; cbn [fifo] in E.
  - injection E as <- <-. cbn. rewrite !app_nil_r. reflexivity.
  - destruct (length s <? capacity); injection E as <- <-; cbn.
    + rewrite app_nil_r, app_assoc. reflexivity.
    + rewrite !app_nil_r. reflexivity.
  - destruct s as [|x s]; injection E as <- <-; cbn; rewrite ?app_nil_r; [reflexivity|].
    rewrite <- app_assoc. reflexivity.
  - injection E as <- <-. cbn. rewrite !app_nil_r. reflexivity.
  - injection E as <- <-. cbn. rewrite !app_nil_r. reflexivity.
Qed.

(** One thread initialises the object; then any number of threads push, pop and test, in any
    interleaving of their steps: no undefined behaviour, the history is that of an atomic
    bounded FIFO queue, and what was popped followed by what is still inside is what was
    pushed, in order. *)
Theorem C46_linearizable : forall (A : Type) SIZE (fresh v : A) t,
  SIZE <> 0 ->
  exists n, forall moves, Forall (fun mv => match mv with Call _ o => usage o | Tick _ => True end) moves ->
  exists c h, run (qcode SIZE fresh) (quiet queue_new) []
                ((Call t (Init v) :: repeat (Tick t) n) ++ moves)
              = Ok (c, [Inv t (Init v); Res t (RInit true)] ++ h) /\
    exists s st order, atomic (fifo SIZE) [] Inv Res s st h order /\
      length s <= SIZE /\ popped order ++ s = pushed order.
Proof.
  intros A SIZE fresh v t SP.
  destruct (init_finishes A SIZE fresh SP v (RInit true) queue_new) as (body & EC & F).
  destruct (call_alone A SIZE fresh (quiet queue_new) [] t (Init v) body _ _
              (fun _ => eq_refl) eq_refl EC F) as (n & c1 & E1 & EM & LK & TN).
  exists n. intros moves U.
  rewrite (run_app _ _ _ _ _ _ _ _ _ E1). rewrite run_history.
  destruct (run_good _ _ _ _ (qcode SIZE fresh) (fifo SIZE) [] usage (rep A SIZE)
              (sequential_queue A SIZE fresh SP) moves c1 [])
    as (c2 & h & E2 & G).
  { eapply good_start_any; eauto. }
  { exact U. }
  rewrite E2. cbn [bind fst snd]. exists c2, h. split; [reflexivity|].
  destruct G as (w & s & st & order & AT & _). exists s, st, order. split; [exact AT|].
  split; [|exact (fifo_order _ _ _ _ _ AT)].
  clear - AT. induction AT as [| | s st h order t o s' r AT IH _ E|]; auto; [cbn; lia|].
  destruct o; cbn [fifo] in E; try (injection E as <- <-; exact IH).
  - destruct (Nat.ltb_spec (length s) SIZE); injection E as <- <-; [|exact IH].
    rewrite app_length. cbn. lia.
  - destruct s; injection E as <- <-; cbn in *; lia.
Qed.

(** Two threads push and one pops, interleaved step by step. *)
Example C46_linearizable_case :
  match run (qcode 2 0) (quiet (Queue (Some [0; 0]) 0 0 0)) []
    ([Call 1 (Push 7); Call 2 (Push 8); Tick 1; Tick 2; Call 3 (Pop 0); Tick 1; Tick 3]
     ++ repeat (Tick 1) 12 ++ repeat (Tick 3) 13 ++ repeat (Tick 2) 13) with
  | Ok (_, h) => h
  | _ => []
  end
  = [Inv 1 (Push 7); Inv 2 (Push 8); Inv 3 (Pop 0); Res 1 (RPush true);
     Res 3 (RPop (Some 7)); Res 2 (RPush true)].
Proof. vm_compute. reflexivity. Qed.

(** A configuration that can be reached after initialisation. *)
Definition reachable {A : Type} (SIZE : nat) (fresh : A) (c : config (queue A) (qres A))
  (h : list (event (qop A) (qres A))) : Prop :=
  exists v moves, Forall (fun mv => match mv with Call _ o => usage o | Tick _ => True end) moves /\
    run (qcode SIZE fresh) (quiet (initialised A SIZE v 0)) [] moves = Ok (c, h).

Lemma reachable_good {A} SIZE (fresh : A) c h : SIZE <> 0 -> reachable SIZE fresh c h ->
  good _ _ _ _ (qcode SIZE fresh) (fifo SIZE) [] usage (rep A SIZE) c h.
Proof.
  intros SP (v & moves & U & E).
  destruct (run_good _ _ _ _ (qcode SIZE fresh) (fifo SIZE) [] usage (rep A SIZE)
              (sequential_queue A SIZE fresh SP) moves (quiet (initialised A SIZE v 0)) [])
    as (c2 & h2 & E2 & G); [apply start_good, rep_initialised; exact SP|exact U|].
  rewrite E in E2. injection E2 as <- <-. exact G.
Qed.

(** There are no data races: two threads are never both about to access the members. *)
Theorem C46_no_race : forall (A : Type) SIZE (fresh : A) c h t u,
  SIZE <> 0 -> reachable SIZE fresh c h -> accessing c t -> accessing c u -> t = u.
Proof.
  intros A SIZE fresh c h t u SP R It Iu.
  eapply good_inside; [apply sequential_queue; exact SP|eapply reachable_good; eauto| |];
    apply accessing_inside; assumption.
Qed.

(** There is no deadlock: in every reachable configuration every pending call can still
    return. *)
Theorem C46_no_deadlock : forall (A : Type) SIZE (fresh : A) c h t p,
  SIZE <> 0 -> reachable SIZE fresh c h -> c_threads c t = Some p ->
  exists moves c' h' r, run (qcode SIZE fresh) c h moves = Ok (c', h') /\
    Forall (fun mv => match mv with Call _ o => usage o | Tick _ => True end) moves /\
    In (Res t r) (skipn (length h) h').
Proof.
  intros A SIZE fresh c h t p SP R ET.
  destruct (good_can_finish _ _ _ _ (qcode SIZE fresh) (fifo SIZE) [] usage (rep A SIZE)
              (sequential_queue A SIZE fresh SP) c h t p) as (mv & c' & h' & r & E & A1 & I1).
  - eapply reachable_good; eauto.
  - exact ET.
  - exists mv, c', h', r. auto.
Qed.

(** * C50: signals *)

Definition ireachable {A : Type} (SIZE : nat) (fresh : A) (c : iconfig (queue A) (qres A))
  (h : list (event (qop A) (qres A))) : Prop :=
  exists v moves, Forall (fun mv => match mv with
                                    | ICall _ o | ISignal _ _ o => usage o
                                    | ITick _ => True
                                    end) moves /\
    irun (qcode SIZE fresh) (iquiet (initialised A SIZE v 0)) [] moves = Ok (c, h).

Lemma ireachable_good {A} SIZE (fresh : A) c h : SIZE <> 0 -> ireachable SIZE fresh c h ->
  good _ _ _ _ (qcode SIZE fresh) (fifo SIZE) [] usage (rep A SIZE) (i_base c) h.
Proof.
  intros SP (v & moves & U & E).
  destruct (irun_good _ _ _ _ (qcode SIZE fresh) (fifo SIZE) [] usage (rep A SIZE)
              (sequential_queue A SIZE fresh SP) moves (iquiet (initialised A SIZE v 0)) [])
    as (c2 & h2 & E2 & G); [apply start_good, rep_initialised; exact SP|exact U|].
  rewrite E in E2. injection E2 as <- <-. exact G.
Qed.

(** The thread [a] holds the lock, the handler [b] runs on top of it and waits for it. *)
Definition stuck {A : Type} (c : iconfig (queue A) (qres A)) (a b : nat) : Prop :=
  i_over c a = Some b /\ a <> b /\ inside (i_base c) a /\ c_lock (i_base c) = true /\
  (exists k, c_threads (i_base c) b = Some (Acquire k)).

Lemma stuck_step {A} SIZE (fresh : A) c h a b mv :
  SIZE <> 0 -> good _ _ _ _ (qcode SIZE fresh) (fifo SIZE) [] usage (rep A SIZE) (i_base c) h ->
  stuck c a b ->
  match mv with ICall _ o | ISignal _ _ o => usage o | ITick _ => True end ->
  exists c' e, istep (qcode SIZE fresh) c mv = Ok (c', e) /\ stuck c' a b /\
    good _ _ _ _ (qcode SIZE fresh) (fifo SIZE) [] usage (rep A SIZE) (i_base c') (h ++ e) /\
    (forall r, ~ In (Res b r) e).
Proof.
  intros SP G (OV & NE & IN & LK & k & EB) U.
  pose proof (sequential_queue A SIZE fresh SP) as SEQ.
  destruct (istep_good _ _ _ _ (qcode SIZE fresh) (fifo SIZE) [] usage (rep A SIZE) SEQ c h mv G U)
    as (c' & e & E & G').
  exists c', e. split; [exact E|].
  assert (SU : suspended c a = true) by (unfold suspended; rewrite OV, EB; reflexivity).
  assert (SAME : forall mv' ce, step (qcode SIZE fresh) (i_base c) mv' = Ok ce ->
    (match mv' with Call t _ => t <> a | Tick t => t <> a end) ->
    inside (fst ce) a /\ c_lock (fst ce) = true /\ c_threads (fst ce) b = Some (Acquire k) /\
    (forall r, ~ In (Res b r) (snd ce))).
  { intros mv' ce ES NA.
    assert (KEEP : forall t (p : option (prog (queue A) (qres A))) m l, t <> a ->
      inside (Cfg m l (fupd (c_threads (i_base c)) t p)) a).
    { intros t p m l N. unfold inside in *. cbn [c_threads]. rewrite fupd_other by congruence.
      exact IN. }
    destruct mv' as [t o|t]; cbn [step] in ES.
    - destruct (c_threads (i_base c) t) eqn:ET; injection ES as <-; cbn [fst snd].
      + repeat split; auto.
      + split; [apply KEEP; exact NA|]. split; [exact LK|].
        assert (NBT : b <> t) by congruence.
        split; [cbn; rewrite fupd_other by assumption; exact EB|].
        intros r [H|[]]; discriminate.
    - destruct (Nat.eq_dec t b) as [->|NB].
      + rewrite EB, LK in ES. injection ES as <-. cbn [fst snd]. repeat split; auto.
      + assert (OUT : ~ inside (i_base c) t).
        { intros It. apply NA. exact (good_inside _ _ _ _ _ _ _ _ _ SEQ _ _ _ _ G It IN). }
        unfold inside in OUT.
        destruct (c_threads (i_base c) t) as [[r|q|q|X g q|f q]|] eqn:ET; try (exfalso; apply OUT; exact I).
        * injection ES as <-. cbn [fst snd].
          split; [apply KEEP; exact NA|]. split; [exact LK|].
          split; [cbn; rewrite fupd_other by congruence; exact EB|].
          intros r0 [H|[]]. congruence.
        * rewrite LK in ES. injection ES as <-. cbn [fst snd]. repeat split; auto.
        * injection ES as <-. cbn [fst snd]. repeat split; auto. }
  assert (HERE : stuck c a b) by (repeat split; eauto).
  destruct mv as [t o|t|t b' o]; cbn [istep] in E.
  - destruct (suspended c t) eqn:ST.
    { injection E as <- <-. split; [exact HERE|]. split; [exact G'|auto]. }
    destruct (step (qcode SIZE fresh) (i_base c) (Call t o)) as [ce| |] eqn:ES;
      cbn [bind] in E; try discriminate. injection E as <- <-.
    destruct (SAME _ _ ES) as (I1 & L1 & B1 & R1); [congruence|].
    split; [|split; [exact G'|exact R1]]. repeat split; cbn; eauto.
  - destruct (suspended c t) eqn:ST.
    { injection E as <- <-. split; [exact HERE|]. split; [exact G'|auto]. }
    destruct (step (qcode SIZE fresh) (i_base c) (Tick t)) as [ce| |] eqn:ES;
      cbn [bind] in E; try discriminate. injection E as <- <-.
    destruct (SAME _ _ ES) as (I1 & L1 & B1 & R1); [congruence|].
    split; [|split; [exact G'|exact R1]]. repeat split; cbn; eauto.
  - destruct (suspended c t) eqn:ST.
    { injection E as <- <-. split; [exact HERE|]. split; [exact G'|auto]. }
    destruct (c_threads (i_base c) b') eqn:EB'.
    { injection E as <- <-. split; [exact HERE|]. split; [exact G'|auto]. }
    destruct (t =? b').
    { injection E as <- <-. split; [exact HERE|]. split; [exact G'|auto]. }
    destruct (step (qcode SIZE fresh) (i_base c) (Call b' o)) as [ce| |] eqn:ES;
      cbn [bind] in E; try discriminate. injection E as <- <-.
    assert (NB' : b' <> a).
    { intros ->. unfold inside in IN. rewrite EB' in IN. exact IN. }
    destruct (SAME _ _ ES NB') as (I1 & L1 & B1 & R1).
    split; [|split; [exact G'|exact R1]]. repeat split; cbn; eauto.
    rewrite fupd_other by congruence. rewrite fupd_other by congruence. exact OV.
Qed.

(** A signal that arrives while its thread is inside the queue: whatever happens afterwards,
    the handler's call never returns and the lock is never released. *)
Theorem C50_signal_blocks_refuted : forall (A : Type) SIZE (fresh : A) c h a b event_,
  SIZE <> 0 -> ireachable SIZE fresh c h ->
  inside (i_base c) a -> suspended c a = false ->
  c_threads (i_base c) b = None ->
  forall later, Forall (fun mv => match mv with
                                  | ICall _ o | ISignal _ _ o => usage o
                                  | ITick _ => True
                                  end) later ->
  exists c' new, irun (qcode SIZE fresh) c h (ISignal a b (Push event_) :: later)
                 = Ok (c', h ++ Inv b (Push event_) :: new) /\
    (forall r, ~ In (Res b r) new) /\ c_lock (i_base c') = true.
Proof.
  intros A SIZE fresh c h a b ev SP R IN SU EB later U.
  pose proof (ireachable_good _ _ _ _ SP R) as G.
  pose proof (sequential_queue A SIZE fresh SP) as SEQ.
  assert (NE : a <> b). { intros ->. unfold inside in IN. rewrite EB in IN. exact IN. }
  assert (LK : c_lock (i_base c) = true) by (eapply good_lock; eauto).
  cbn [irun istep]. rewrite SU, EB. destruct (Nat.eqb_spec a b) as [|_]; [contradiction|].
  cbn [step]. rewrite EB. cbn [bind fst snd].
  set (c1 := ICfg _ _).
  assert (G1 : good _ _ _ _ (qcode SIZE fresh) (fifo SIZE) [] usage (rep A SIZE) (i_base c1)
                 (h ++ [Inv b (Push ev)])).
  { destruct (step_good _ _ _ _ (qcode SIZE fresh) (fifo SIZE) [] usage (rep A SIZE) SEQ
                (i_base c) h (Call b (Push ev)) G I) as (c' & e & E & G1).
    cbn [step] in E. rewrite EB in E. injection E as <- <-. exact G1. }
  assert (S1 : stuck c1 a b).
  { unfold stuck, c1. cbn [i_over i_base].
    split; [apply fupd_same|]. split; [exact NE|].
    split. { unfold inside in *. cbn [set_thread c_threads]. rewrite fupd_other by exact NE. exact IN. }
    split; [exact LK|]. cbn [set_thread c_threads]. rewrite fupd_same. cbn [qcode].
    unfold push_code. eauto. }
  clearbody c1. clear G R IN SU EB LK.
  assert (K : forall later c1 h1,
    Forall (fun mv : imove (qop A) => match mv with
                                  | ICall _ o | ISignal _ _ o => usage o
                                  | ITick _ => True
                                  end) later ->
    good _ _ _ _ (qcode SIZE fresh) (fifo SIZE) [] usage (rep A SIZE) (i_base c1) h1 ->
    stuck c1 a b ->
    exists c' new, irun (qcode SIZE fresh) c1 h1 later = Ok (c', h1 ++ new) /\
      (forall r, ~ In (Res b r) new) /\ c_lock (i_base c') = true).
  { clear - SP. induction later as [|mv later IH]; intros c1 h1 U G S; cbn [irun].
    - exists c1, []. rewrite app_nil_r. split; [reflexivity|]. split; [auto|apply S].
    - inversion U; subst.
      destruct (stuck_step SIZE fresh c1 h1 a b mv SP G S H1) as (c2 & e & -> & S2 & G2 & R2).
      cbn [bind fst snd].
      destruct (IH c2 (h1 ++ e) H2 G2 S2) as (c' & new & E & RN & L).
      exists c', (e ++ new). rewrite E, app_assoc. split; [reflexivity|]. split; [|exact L].
      intros r HI. apply in_app_iff in HI as [HI|HI]; [exact (R2 r HI)|exact (RN r HI)]. }
  destruct (K later c1 _ U G1 S1) as (c' & new & E & RN & L).
  exists c', new. rewrite E. rewrite <- app_assoc. auto.
Qed.

(** The main thread is inside push when the signal arrives. *)
Example C50_signal_blocks_case :
  exists c h, ireachable 2 0 c h /\ inside (i_base c) 1 /\ suspended c 1 = false /\
    c_threads (i_base c) 5 = None.
Proof.
  eexists _, _. split.
  - exists 0, [ICall 1 (Push 7); ITick 1; ITick 1]. split; [repeat constructor|].
    vm_compute. reflexivity.
  - vm_compute. auto.
Qed.

Lemma iticks {A} SIZE (fresh : A) t : forall n c h c1 h1,
  run (qcode SIZE fresh) (i_base c) h (repeat (Tick t) n) = Ok (c1, h1) ->
  match i_over c t with
  | None => True
  | Some x => x <> t /\ c_threads (i_base c) x = None
  end ->
  irun (qcode SIZE fresh) c h (repeat (ITick t) n) = Ok (ICfg c1 (i_over c), h1).
Proof.
  induction n as [|n IH]; intros c h c1 h1 E H; cbn [repeat run irun] in *.
  - injection E as <- <-. destruct c; reflexivity.
  - cbn [istep].
    assert (SU : suspended c t = false).
    { unfold suspended. destruct (i_over c t) as [x|]; [|reflexivity]. destruct H as [_ ->]. reflexivity. }
    rewrite SU.
    destruct (step (qcode SIZE fresh) (i_base c) (Tick t)) as [[c2 e]| |] eqn:ES;
      cbn [bind fst snd] in *; try discriminate.
    rewrite (IH (ICfg c2 (i_over c)) (h ++ e) c1 h1); [reflexivity|exact E|].
    cbn [i_over i_base]. destruct (i_over c t) as [x|]; [|exact I].
    destruct H as [NX EX]. split; [exact NX|]. cbn [step] in ES.
    destruct (c_threads (i_base c) t) as [[r|q|q|X g q|f q]|].
    + injection ES as <- <-. cbn. rewrite fupd_other by exact NX. exact EX.
    + destruct (c_lock (i_base c)); injection ES as <- <-; [exact EX|].
      cbn. rewrite fupd_other by exact NX. exact EX.
    + injection ES as <- <-. cbn. rewrite fupd_other by exact NX. exact EX.
    + destruct (g (c_mem (i_base c))); cbn [bind] in ES; try discriminate.
      injection ES as <- <-. cbn. rewrite fupd_other by exact NX. exact EX.
    + destruct (f (c_mem (i_base c))); cbn [bind] in ES; try discriminate.
      injection ES as <- <-. cbn. rewrite fupd_other by exact NX. exact EX.
    + injection ES as <- <-. exact EX.
Qed.

(** A signal that arrives while nobody is inside: the handler finishes by its own steps. *)
Theorem C50_signal_outside_partial : forall (A : Type) SIZE (fresh : A) c h a b event_,
  SIZE <> 0 -> ireachable SIZE fresh c h ->
  (forall u, ~ inside (i_base c) u) -> suspended c a = false -> a <> b ->
  c_threads (i_base c) b = None ->
  exists n c' stored,
    irun (qcode SIZE fresh) c h (ISignal a b (Push event_) :: repeat (ITick b) n)
    = Ok (c', h ++ [Inv b (Push event_); Res b (RPush stored)]) /\
    suspended c' a = false.
Proof.
  intros A SIZE fresh c h a b ev SP R OUT SU NE EB.
  pose proof (ireachable_good _ _ _ _ SP R) as G.
  pose proof (sequential_queue A SIZE fresh SP) as SEQ.
  assert (LK : c_lock (i_base c) = false).
  { destruct (c_lock (i_base c)) eqn:L; [|reflexivity].
    destruct (proj1 (good_lock _ _ _ _ _ _ _ _ _ SEQ _ _ G) L) as [u Iu]. destruct (OUT u Iu). }
  destruct (step_good _ _ _ _ (qcode SIZE fresh) (fifo SIZE) [] usage (rep A SIZE) SEQ
              (i_base c) h (Call b (Push ev)) G I) as (c1 & e & E1 & G1).
  cbn [step] in E1. rewrite EB in E1. injection E1 as <- <-.
  destruct G1 as (w & s & st & order & AT & TH & LKw & RP). cbn [set_thread c_lock] in LKw.
  rewrite LK in LKw. destruct w as [?|]; [discriminate|].
  destruct (finish_waiting _ _ _ _ (qcode SIZE fresh) (fifo SIZE) [] usage (rep A SIZE) SEQ
     (set_thread (i_base c) b (Some (qcode SIZE fresh (Push ev)))) (h ++ [Inv b (Push ev)])
     None s st order b (Push ev) AT TH RP LK eq_refl I) as (n & c2 & E2 & L2 & T2).
  { cbn. apply fupd_same. }
  exists n. cbn [irun istep]. rewrite SU, EB. destruct (Nat.eqb_spec a b) as [|_]; [contradiction|].
  cbn [step]. rewrite EB. cbn [bind fst snd].
  assert (IT := iticks SIZE fresh b n
    (ICfg (set_thread (i_base c) b (Some (qcode SIZE fresh (Push ev))))
          (fupd (fupd (i_over c) b None) a (Some b))) _ _ _ E2).
  cbn [i_base i_over] in IT. rewrite fupd_other, fupd_same in IT by congruence.
  specialize (IT I). rewrite IT.
  assert (exists stored, snd (fifo SIZE s (Push ev)) = RPush stored) as [stored ES].
  { cbn [fifo]. destruct (length s <? SIZE); eexists; reflexivity. }
  eexists _, stored. rewrite ES, <- app_assoc. split; [reflexivity|].
  unfold suspended. cbn [i_over i_base]. rewrite fupd_same, T2. reflexivity.
Qed.

Example C50_signal_outside_case :
  exists c h, ireachable 2 0 c h /\ (forall u, ~ inside (i_base c) u) /\
    suspended c 1 = false /\ c_threads (i_base c) 1 = None.
Proof.
  eexists _, _. split.
  - exists 0, ([ICall 1 (Push 7)] ++ repeat (ITick 1) 12). split; [repeat constructor|].
    vm_compute. reflexivity.
  - split; [|vm_compute; auto]. intros u. vm_compute. intros H.
    repeat (destruct u as [|u]; try contradiction).
Qed.

(** * C67: registering sockets from several threads *)

(** Everything returned was the result of a call that took effect, and every call that took
    effect was made. *)
Lemma atomic_returns {A} capacity s st (h : list (event (qop A) (qres A))) order :
  atomic (fifo capacity) [] Inv Res s st h order ->
  (forall t r, In (Res t r) h \/ st t = Finished r -> exists o, In (t, o, r) order) /\
  (forall t o, (exists r, In (t, o, r) order) \/ st t = Waiting o -> In (Inv t o) h).
Proof.
  induction 1 as [|s st h order t o _ [I1 I2] EI|s st h order t o s' r _ [I1 I2] EW E|
                  s st h order t r _ [I1 I2] EF].
  - split.
    + intros t r [[]|H]. discriminate.
    + intros t o [[r []]|H]. discriminate.
  - split.
    + intros u r [H|H].
      * apply in_app_iff in H as [H|[H|[]]]; [|discriminate]. apply I1. auto.
      * unfold set_status in H. destruct (u =? t); [discriminate|]. apply I1. auto.
    + intros u o' [H|H]; apply in_app_iff.
      * left. apply I2. auto.
      * unfold set_status in H. destruct (Nat.eqb_spec u t) as [->|N].
        -- injection H as ->. right. left. reflexivity.
        -- left. apply I2. auto.
  - split.
    + intros u r' [H|H].
      * destruct (I1 u r' (or_introl H)) as [o' Ho]. exists o'. apply in_app_iff. auto.
      * unfold set_status in H. destruct (Nat.eqb_spec u t) as [->|N].
        -- injection H as ->. exists o. apply in_app_iff. right. left. reflexivity.
        -- destruct (I1 u r' (or_intror H)) as [o' Ho]. exists o'. apply in_app_iff. auto.
    + intros u o' [[r' H]|H].
      * apply in_app_iff in H as [H|[H|[]]].
        -- apply I2. left. eauto.
        -- injection H as -> -> ->. apply I2. auto.
      * unfold set_status in H. destruct (u =? t); [discriminate|]. apply I2. auto.
  - split.
    + intros u r' [H|H].
      * apply in_app_iff in H as [H|[H|[]]]; [apply I1; auto|].
        injection H as -> ->. apply I1. auto.
      * unfold set_status in H. destruct (u =? t); [discriminate|]. apply I1. auto.
    + intros u o' [H|H]; apply in_app_iff; left.
      * apply I2. auto.
      * unfold set_status in H. destruct (u =? t); [discriminate|]. apply I2. auto.
Qed.

Lemma atomic_popped {A} capacity s st (h : list (event (qop A) (qres A))) order :
  atomic (fifo capacity) [] Inv Res s st h order ->
  (forall t o x, In (t, o, RPop (Some x)) order -> In x (popped order)) /\
  (forall x, In x (pushed order) -> exists t r, In (t, Push x, r) order).
Proof.
  induction 1 as [| |s st h order t o s' r _ [I1 I2] EW E|]; auto.
  - split; [intros t o x []|intros x []].
  - split.
    + intros u o' x H. rewrite popped_app. apply in_app_iff.
      apply in_app_iff in H as [H|[H|[]]]; [left; eapply I1; eauto|]. right.
      injection H as -> -> ->. destruct o' as [v|v|d| |v]; cbn [fifo] in E; try discriminate.
      * destruct (length s <? capacity); discriminate.
      * destruct s; [discriminate|]. injection E as -> ->. left. reflexivity.
    + intros x H. rewrite pushed_app in H. apply in_app_iff in H as [H|H].
      * destruct (I2 x H) as (u & r' & Hu). exists u, r'. apply in_app_iff. auto.
      * cbn [pushed] in H. destruct o as [v|v|d| |v]; try destruct H.
        destruct r as [|[|]| | |]; try destruct H as [<-|[]]; try destruct H.
        exists t, (RPush true). apply in_app_iff. right. left. reflexivity.
Qed.

(** Two threads register their first socket; the first one has looked at the queue before the
    second one created it, and creates it again after the second one stored an event: the
    event is lost, the marker comes out in its place. No sequential queue does this. *)
Theorem C67_create_once_refuted : forall (A : Type) SIZE (fresh v marker : A),
  SIZE <> 0 -> v <> marker ->
  exists moves c h,
    run (qcode SIZE fresh) (quiet queue_new) [] moves = Ok (c, h) /\
    h = [Inv 1 (Ensure marker); Inv 2 (Ensure marker); Res 2 REnsure;
         Inv 2 (Push v); Res 2 (RPush true); Res 1 REnsure;
         Inv 2 (Pop marker); Res 2 (RPop (Some marker))] /\
    ~ linearizable (fifo SIZE) [] Inv Res h.
Proof.
  intros A SIZE fresh v marker SP NV.
  set (code := qcode SIZE fresh).
  (* thread 1 looks; thread 2 looks *)
  set (m1 := [Call 1 (Ensure marker); Tick 1; Tick 1; Tick 1; Call 2 (Ensure marker);
              Tick 2; Tick 2; Tick 2; Tick 2] : list (move (qop A))).
  destruct (init_finishes A SIZE fresh SP marker REnsure queue_new) as (body & EC & F1).
  assert (E1 : exists c1, run code (quiet queue_new) [] m1
     = Ok (c1, [Inv 1 (Ensure marker); Inv 2 (Ensure marker)]) /\
     c_mem c1 = queue_new /\ c_threads c1 1 = Some (Acquire body) /\
     c_threads c1 2 = Some body).
  { unfold code, m1. eexists. split; [reflexivity|]. split; [reflexivity|].
    rewrite <- EC. split; [reflexivity|]. injection EC as <-. reflexivity. }
  destruct E1 as (c1 & E1 & M1 & T11 & T12).
  destruct (finish_mem A SIZE fresh 2 body queue_new _ _ F1 c1
    [Inv 1 (Ensure marker); Inv 2 (Ensure marker)] M1 T12)
    as (n2 & c2 & E2 & M2 & L2 & T2).
  cbn [queue_new q_count] in M2.
  (* thread 2 pushes *)
  pose proof (sequential_queue A SIZE fresh SP) as SEQ.
  destruct (SEQ (Push v) I) as (pb & EP & P).
  destruct (P (initialised A SIZE marker 0) [] (rep_initialised A SIZE SP marker))
    as (q3 & F3 & R3).
  cbn [fifo length] in F3, R3. destruct (Nat.ltb_spec 0 SIZE); [|lia]. cbn [fst snd app] in F3, R3.
  assert (E3 : exists c3, run code c2 ([Inv 1 (Ensure marker); Inv 2 (Ensure marker)] ++ [Res 2 REnsure])
      [Call 2 (Push v); Tick 2]
     = Ok (c3, [Inv 1 (Ensure marker); Inv 2 (Ensure marker); Res 2 REnsure; Inv 2 (Push v)]) /\
     c_mem c3 = initialised A SIZE marker 0 /\ c_threads c3 1 = Some (Acquire body) /\
     c_threads c3 2 = Some pb).
  { cbn [run step]. rewrite T2, fupd_same. cbn [bind fst snd step set_thread c_threads c_lock c_mem].
    rewrite fupd_same. unfold code. rewrite EP, L2. cbn [bind fst snd].
    eexists. split; [reflexivity|]. split; [exact M2|].
    cbn [c_threads]. rewrite fupd_same. split; [|reflexivity].
    rewrite !fupd_other by discriminate. rewrite T2, fupd_other by discriminate. exact T11. }
  destruct E3 as (c3 & E3 & M3 & T31 & T32).
  destruct (finish_mem A SIZE fresh 2 pb _ _ _ F3 c3
    [Inv 1 (Ensure marker); Inv 2 (Ensure marker); Res 2 REnsure; Inv 2 (Push v)] M3 T32)
    as (n4 & c4 & E4 & M4 & L4 & T4).
  (* thread 1 creates the queue again *)
  destruct (init_finishes A SIZE fresh SP marker REnsure q3) as (body' & EC' & F5).
  assert (body' = body) by congruence. subst body'.
  set (h4 := [Inv 1 (Ensure marker); Inv 2 (Ensure marker); Res 2 REnsure; Inv 2 (Push v);
              Res 2 (RPush true)] : list (event (qop A) (qres A))).
  assert (E5 : exists c5, run code c4 h4 [Tick 1] = Ok (c5, h4) /\
     c_mem c5 = q3 /\ c_threads c5 1 = Some body /\ c_threads c5 2 = None).
  { cbn [run step]. rewrite T4, fupd_other, T31, L4 by discriminate. cbn [bind fst snd].
    eexists. split; [reflexivity|]. split; [exact M4|]. cbn [c_threads].
    rewrite fupd_same. split; [reflexivity|]. rewrite fupd_other by discriminate.
    rewrite T4. apply fupd_same. }
  destruct E5 as (c5 & E5 & M5 & T51 & T52).
  destruct (finish_mem A SIZE fresh 1 body _ _ _ F5 c5 h4 M5 T51)
    as (n6 & c6 & E6 & M6 & L6 & T6).
  assert (Q3 : q_count q3 = 1) by (destruct R3 as (a & _ & _ & _ & C & _); exact C).
  rewrite Q3 in M6.
  (* thread 2 pops *)
  set (h6 := h4 ++ [Res 1 REnsure]).
  assert (F7 : exists q7 ppb, code (Pop marker) = Acquire ppb /\
    finishes _ _ ppb (initialised A SIZE marker 1) q7 (RPop (Some marker))).
  { eexists _, _. split; [reflexivity|]. unfold initialised.
    eapply F_get; [reflexivity|]. cbn [q_count Nat.eqb].
    eapply F_get; [reflexivity|]. cbn [q_first].
    eapply F_get. { unfold get_cell. cbn [q_array]. unfold read.
      destruct SIZE; [congruence|]. reflexivity. }
    eapply F_get; [reflexivity|]. eapply F_set.
    { unfold set_cell. cbn [q_array q_first]. unfold write. rewrite repeat_length.
      destruct (Nat.ltb_spec 0 SIZE); [|lia]. reflexivity. }
    eapply F_get; [reflexivity|]. eapply F_set; [reflexivity|].
    eapply F_get; [reflexivity|]. eapply F_set; [reflexivity|].
    apply F_release. }
  destruct F7 as (q7 & ppb & EPP & F7).
  assert (E7 : exists c7, run code c6 h6 [Call 2 (Pop marker); Tick 2]
     = Ok (c7, h6 ++ [Inv 2 (Pop marker)]) /\
     c_mem c7 = initialised A SIZE marker 1 /\ c_threads c7 2 = Some ppb).
  { cbn [run step]. rewrite T6, fupd_other, T52 by discriminate.
    cbn [bind fst snd step set_thread c_threads c_lock c_mem].
    rewrite fupd_same, EPP, L6. cbn [bind fst snd]. rewrite app_nil_r.
    eexists. split; [reflexivity|]. split; [exact M6|]. cbn [c_threads]. apply fupd_same. }
  destruct E7 as (c7 & E7 & M7 & T7).
  destruct (finish_mem A SIZE fresh 2 ppb _ _ _ F7 c7 (h6 ++ [Inv 2 (Pop marker)]) M7 T7)
    as (n8 & c8 & E8 & _).
  exists (m1 ++ repeat (Tick 2) n2 ++ [Call 2 (Push v); Tick 2] ++ repeat (Tick 2) n4 ++ [Tick 1]
          ++ repeat (Tick 1) n6 ++ [Call 2 (Pop marker); Tick 2] ++ repeat (Tick 2) n8), c8.
  eexists. split; [|split; [reflexivity|]].
  - rewrite (run_app _ _ _ _ _ _ _ _ _ E1), (run_app _ _ _ _ _ _ _ _ _ E2).
    rewrite (run_app _ _ _ _ _ _ _ _ _ E3), (run_app _ _ _ _ _ _ _ _ _ E4).
    rewrite (run_app _ _ _ _ _ _ _ _ _ E5), (run_app _ _ _ _ _ _ _ _ _ E6).
    rewrite (run_app _ _ _ _ _ _ _ _ _ E7), E8. reflexivity.
  - intros (s & st & order & AT).
    destruct (atomic_returns _ _ _ _ _ AT) as [RT IV].
    destruct (atomic_popped _ _ _ _ _ AT) as [PO PU].
    destruct (RT 2 (RPop (Some marker))) as [o Ho]; [left; cbn; tauto|].
    apply PO in Ho.
    assert (Hp : In marker (pushed order)).
    { rewrite <- (fifo_order _ _ _ _ _ AT). apply in_app_iff. auto. }
    destruct (PU _ Hp) as (t & r & Hin).
    assert (HI := IV t (Push marker) (or_introl (ex_intro _ r Hin))).
    cbn in HI. repeat (destruct HI as [HI|HI]; [try discriminate HI|]); try contradiction.
    injection HI as _ HE. exact (NV HE).
Qed.

(** When the queue has been created before, any number of threads may register, push and pop. *)
Theorem C67_create_once_partial : forall (A : Type) SIZE (fresh v : A) t,
  SIZE <> 0 ->
  exists n, forall moves, Forall (fun mv => match mv with Call _ o => usage o | Tick _ => True end) moves ->
  exists c h, run (qcode SIZE fresh) (quiet queue_new) []
                ((Call t (Ensure v) :: repeat (Tick t) n) ++ moves)
              = Ok (c, [Inv t (Ensure v); Res t REnsure] ++ h) /\
    linearizable (fifo SIZE) [] Inv Res h.
Proof.
  intros A SIZE fresh v t SP.
  destruct (init_finishes A SIZE fresh SP v REnsure queue_new) as (body & EC & F).
  set (c0 := quiet queue_new : config (queue A) (qres A)).
  assert (E0 : exists c1, run (qcode SIZE fresh) c0 [] ([Call t (Ensure v)] ++ repeat (Tick t) 4)
     = Ok (c1, [Inv t (Ensure v)]) /\ c_mem c1 = queue_new /\
     c_threads c1 t = Some body /\ forall u, u <> t -> c_threads c1 u = None).
  { unfold c0, quiet. cbn [app repeat run]. cbn [step c_threads bind fst snd set_thread qcode].
    do 4 (cbn [run step c_threads c_lock c_mem set_thread]; unfold ensure_code;
          rewrite ?fupd_same, ?EC;
          cbn [get_null q_array queue_new bind fst snd c_lock c_mem]).
    eexists. split; [reflexivity|]. split; [reflexivity|]. cbn [c_threads].
    rewrite fupd_same. split; [reflexivity|].
    intros u N. rewrite !fupd_other by exact N. reflexivity. }
  destruct E0 as (c1 & E1 & M1 & T1 & TO).
  destruct (finish_mem A SIZE fresh t body queue_new _ _ F c1 [Inv t (Ensure v)] M1 T1)
    as (n & c2 & E2 & M2 & L2 & T2).
  exists (4 + n). intros moves U. rewrite repeat_app.
  rewrite app_comm_cons, <- app_assoc.
  change (Call t (Ensure v) :: repeat (Tick t) 4) with ([Call t (Ensure v)] ++ repeat (Tick t) 4).
  rewrite (run_app _ _ _ _ _ _ _ _ _ E1), (run_app _ _ _ _ _ _ _ _ _ E2). rewrite run_history.
  destruct (run_good _ _ _ _ (qcode SIZE fresh) (fifo SIZE) [] usage (rep A SIZE)
              (sequential_queue A SIZE fresh SP) moves c2 [])
    as (c3 & h & E3 & G).
  { eapply good_start_any; eauto. intros u. rewrite T2. unfold fupd.
    destruct (Nat.eqb_spec u t); auto. }
  { exact U. }
  rewrite E3. cbn [bind fst snd]. exists c3, h. split; [reflexivity|].
  eapply good_linearizable; eauto.
Qed.

Print Assumptions C46_linearizable.
Print Assumptions C46_no_race.
Print Assumptions C46_no_deadlock.
Print Assumptions C50_signal_blocks_refuted.
Print Assumptions C50_signal_outside_partial.
Print Assumptions C67_create_once_refuted.
Print Assumptions C67_create_once_partial.
