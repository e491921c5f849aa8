(** Properties of the asynchronous socket events: C127 - C131. *)
From Coq Require Import List Arith ZArith Bool Lia.
From Verif Require Import Base BaseLemmas PointersProofs ConcModel QueueModel QueueProofs
  RegistrarModel EventModel EventSpec EventProofs.
Import ListNotations.

(** ** C127: an event goes to the queue of the class of its socket *)

Lemma run_from_start capacity PID before h : (forall k, capacity k <> 0) ->
  plain_history capacity ideal_start h ->
  exists w ready, erun capacity PID (catcher_start before None None) h = Ok w
    /\ einv capacity PID w (actual_run capacity h) ready.
Proof. intros CAP P. exact (erun_ok capacity PID CAP h _ _ _ (einv_start capacity PID before) P). Qed.

(** Exactly what happens to the events: [actual_step] tells where each goes. After any calls,
    the notificators called and what pop returns for any class are as it says. *)
Theorem C127_dispatch_partial capacity PID before h :
  (forall k, capacity k <> 0) -> plain_history capacity ideal_start h ->
  exists w, erun capacity PID (catcher_start before None None) h = Ok w
    /\ e_notes w = i_notes (actual_run capacity h)
    /\ e_killed w = false
    /\ forall k, exists w', registrar_pop capacity w k = Ok (w', expected_pop (actual_run capacity h) k).
Proof.
  intros CAP P.
  destruct (erun_ok capacity PID CAP h _ _ _ (einv_start capacity PID before) P) as (w & ready & E & I).
  exists w. split; [exact E|]. split; [apply (EI_notes _ _ _ _ _ I)|]. split; [apply (EI_killed _ _ _ _ _ I)|].
  intros k. destruct (registrar_pop_ok capacity CAP w ready _ _ k (EI_queues _ _ _ _ _ I)) as (q & EP & _).
  eexists. rewrite EP. reflexivity.
Qed.

(** A server socket on which listen failed is put in the queue of connected sockets, which
    nobody initialised. *)
Theorem C127_no_listen_refuted capacity PID before ok :
  (forall k, capacity k <> 0) ->
  erun capacity PID (catcher_start before None None)
    [ECreate TcpListener false; EAdd 0 None None None; EData 0; EHandle ok] = UB.
Proof.
  intros CAP. cbn [erun estep bind]. unfold registrar_add.
  replace (sock _ 0) with (Some (created TcpListener false)) by reflexivity. cbn [created k_kind].
  destruct (ensure_queue_ok capacity CAP queues_new (fun _ => false) (fun _ => []) [] TcpListener)
    as (q & E & H).
  { unfold queues_hold, holds. cbn. auto 10. }
  replace (e_queues _) with queues_new by reflexivity. rewrite E. cbn [bind].
  replace (e_status _ =? 0)%Z with true by reflexivity. cbn [bind fst].
  destruct H as (_ & _ & _ & H & _). cbn in H. destruct H as [H _].
  cbn. rewrite !Z.eqb_refl. cbn. rewrite H. reflexivity.
Qed.

(** The state after [n] events at a server socket, each handled at once. *)
Definition events (k : kind) (n : nat) : list ecall :=
  [ECreate k true; EAdd 0 None None None; ENotificator (Some 7)]
  ++ concat (repeat [match k with TcpListener => EConnect 0 | _ => EData 0 end; EHandle true] n).

Lemma events_S k n : events k (S n)
  = events k n ++ [match k with TcpListener => EConnect 0 | _ => EData 0 end; EHandle true].
Proof.
  unfold events. rewrite <- app_assoc. f_equal.
  induction n as [|n IH]; [reflexivity|]. cbn [repeat concat app] in *. rewrite IH. reflexivity.
Qed.
Lemma plain_app capacity h1 : forall s h2, plain_history capacity s h1 ->
  plain_history capacity (fold_left (actual_step capacity) h1 s) h2 -> plain_history capacity s (h1 ++ h2).
Proof.
  induction h1 as [|c h1 IH]; intros s h2 P1 P2; [exact P2|]. cbn in *. destruct P1. auto.
Qed.

Lemma events_descriptor capacity k n : k <> TcpListener ->
  plain_history capacity ideal_start (events k n)
  /\ i_kinds (actual_run capacity (events k n)) = [k] /\ i_on (actual_run capacity (events k n)) = [0]
  /\ i_wait (actual_run capacity (events k n)) = []
  /\ i_queue (actual_run capacity (events k n)) k = repeat 0%Z (min n (capacity k))
  /\ i_note (actual_run capacity (events k n)) = Some 7
  /\ i_notes (actual_run capacity (events k n)) = repeat 7 n.
Proof.
  intros NL. induction n as [|n (P & K & O & W & Q & N & NS)].
  - cbn. unfold plain. destruct k; try contradiction; auto 20.
  - rewrite events_S. unfold actual_run in *. rewrite fold_left_app.
    remember (fold_left (actual_step capacity) (events k n) ideal_start) as s eqn:ES.
    split; [apply plain_app; [exact P|]; rewrite <- ES; clear ES; destruct k; try contradiction; cbn; rewrite K; cbn; eauto 10|]. clear ES.
    destruct s as [ks on wt qu cn nt nts]. cbn [i_kinds i_on i_wait i_queue i_note i_notes] in *. subst.
    destruct k; try contradiction;
    (cbn -[Nat.ltb Nat.min repeat]; rewrite Q, repeat_length;
     split; [reflexivity|]; split; [reflexivity|]; split; [reflexivity|]; split;
     [match goal with |- context [Nat.ltb ?a ?b] => destruct (Nat.ltb_spec a b) as [L|L] end;
       [rewrite (Nat.min_l n) by lia; rewrite (Nat.min_l (S n)) by lia; symmetry; apply (repeat_cons n 0%Z)
       |rewrite (Nat.min_r n) by lia; rewrite (Nat.min_r (S n)) by lia; reflexivity]
     |split; [reflexivity|]; symmetry; apply (repeat_cons n 7)]).
Qed.

Lemma events_listener capacity n :
  let s := actual_run capacity (events TcpListener n) in
  plain_history capacity ideal_start (events TcpListener n)
  /\ i_kinds s = TcpListener :: repeat TcpAccepted n /\ i_on s = [0] /\ i_wait s = []
  /\ i_connections s = map (fun i => Accepted 0 (Z.of_nat (S i))) (seq 0 (min n (capacity TcpListener)))
  /\ i_note s = Some 7 /\ i_notes s = repeat 7 n.
Proof.
  cbv zeta. induction n as [|n (P & K & O & W & Q & N & NS)].
  - cbn. auto 20.
  - rewrite events_S. unfold actual_run in *. rewrite fold_left_app.
    remember (fold_left (actual_step capacity) (events TcpListener n) ideal_start) as s eqn:ES.
    split; [apply plain_app; [exact P|]; rewrite <- ES; clear ES; cbn; rewrite K; cbn; auto|]. clear ES.
    destruct s as [ks on wt qu cn nt nts]. cbn [i_kinds i_on i_wait i_queue i_note i_notes i_connections] in *. subst.
    cbn -[Nat.ltb Nat.min repeat seq]. rewrite map_length, seq_length, repeat_length.
    split; [f_equal; symmetry; apply (repeat_cons n TcpAccepted)|].
    split; [reflexivity|]. split; [reflexivity|]. split; [|split; [reflexivity|symmetry; apply (repeat_cons n 7)]].
    destruct (Nat.ltb_spec (min n (capacity TcpListener)) (capacity TcpListener)) as [L|L].
    + rewrite (Nat.min_l n) by lia. rewrite (Nat.min_l (S n)) by lia.
      rewrite seq_S, map_app. reflexivity.
    + rewrite (Nat.min_r n) by lia. rewrite (Nat.min_r (S n)) by lia. reflexivity.
Qed.

(** After [capacity + 1] events at a socket the notificator was called [capacity + 1] times,
    and the queue has room for [capacity] events only: after that many calls of pop there is
    nothing. *)
Theorem C127_full_refuted capacity PID before k :
  (forall k, capacity k <> 0) -> k <> TcpListener ->
  exists w w', erun capacity PID (catcher_start before None None)
      (events k (S (capacity k)) ++ repeat (EPop k) (capacity k)) = Ok w
    /\ e_notes w = repeat 7 (S (capacity k))
    /\ registrar_pop capacity w k = Ok (w', Descriptor INVALID).
Proof.
  intros CAP NL. destruct (events_descriptor capacity k (S (capacity k)) NL) as (P & K & O & W & Q & N & NS).
  assert (POPS : forall n s, plain_history capacity s (repeat (EPop k) n)
    /\ i_queue (fold_left (actual_step capacity) (repeat (EPop k) n) s) k = skipn n (i_queue s k)
    /\ i_notes (fold_left (actual_step capacity) (repeat (EPop k) n) s) = i_notes s).
  { induction n as [|n IH]; intros s; [cbn; auto|]. cbn [repeat plain_history fold_left].
    destruct (IH (actual_step capacity s (EPop k))) as (P1 & Q1 & N1).
    split; [split; [exact Logic.I|exact P1]|]. rewrite Q1, N1.
    destruct k; try contradiction; cbn [actual_step ideal_step i_queue i_notes kind_eqb];
      (split; [destruct (i_queue s _); [destruct n; reflexivity|reflexivity]|reflexivity]). }
  destruct (POPS (capacity k) (actual_run capacity (events k (S (capacity k))))) as (P1 & Q1 & N1).
  destruct (C127_dispatch_partial capacity PID before (events k (S (capacity k)) ++ repeat (EPop k) (capacity k)) CAP)
    as (w & E & EN & _ & EP).
  { apply plain_app; [exact P|exact P1]. }
  destruct (EP k) as (w' & EP').
  exists w, w'. split; [exact E|].
  assert (R : actual_run capacity (events k (S (capacity k)) ++ repeat (EPop k) (capacity k))
    = fold_left (actual_step capacity) (repeat (EPop k) (capacity k)) (actual_run capacity (events k (S (capacity k)))))
    by (unfold actual_run; apply fold_left_app).
  rewrite R in EN, EP'. rewrite N1, NS in EN. split; [exact EN|]. rewrite EP'.
  unfold expected_pop. rewrite Q1, Q, Nat.min_r by lia.
  replace (skipn (capacity k) (repeat 0%Z (capacity k))) with (@nil Z)
    by (symmetry; apply skipn_all2; rewrite repeat_length; lia).
  destruct k; try contradiction; reflexivity.
Qed.

(** If the queue of accepted connections is full, the connection is accepted all the same, and
    its descriptor is open and never told to anybody. *)
Theorem C127_full_leak_refuted capacity PID before n :
  (forall k, capacity k <> 0) ->
  exists w w' client c, erun capacity PID (catcher_start before None None)
      (events TcpListener (S (capacity TcpListener)) ++ repeat (EPop TcpListener) n) = Ok w
    /\ (exists s, sock w client = Some s /\ k_kind s = TcpAccepted)
    /\ registrar_pop capacity w TcpListener = Ok (w', Connection c)
    /\ ac_client c <> Z.of_nat client.
Proof.
  intros CAP. set (cap := capacity TcpListener).
  destruct (events_listener capacity (S cap)) as (P & K & O & W & Q & N & NS).
  assert (POPS : forall n s, plain_history capacity s (repeat (EPop TcpListener) n)
    /\ i_connections (fold_left (actual_step capacity) (repeat (EPop TcpListener) n) s) = skipn n (i_connections s)
    /\ i_kinds (fold_left (actual_step capacity) (repeat (EPop TcpListener) n) s) = i_kinds s).
  { clear. induction n as [|n IH]; intros s; [cbn; auto|]. cbn [repeat plain_history fold_left].
    destruct (IH (actual_step capacity s (EPop TcpListener))) as (P1 & Q1 & N1).
    split; [split; [exact Logic.I|exact P1]|]. rewrite Q1, N1. cbn.
    destruct (i_connections s); [destruct n; auto|auto]. }
  destruct (POPS n (actual_run capacity (events TcpListener (S cap)))) as (P1 & Q1 & N1).
  assert (PP : plain_history capacity ideal_start (events TcpListener (S cap) ++ repeat (EPop TcpListener) n))
    by (apply plain_app; [exact P|exact P1]).
  destruct (erun_ok capacity PID CAP _ _ _ _ (einv_start capacity PID before) PP) as (w & ready & E & I).
  rewrite fold_left_app in I. fold (actual_run capacity (events TcpListener (S cap))) in I.
  destruct (registrar_pop_ok capacity CAP w ready _ _ TcpListener (EI_queues _ _ _ _ _ I)) as (q & EP & _).
  rewrite Q1, Q in EP.
  eexists w, _, (S cap), _. split; [exact E|]. split.
  - destruct (EI_sock _ _ _ _ _ I (S cap) TcpAccepted) as (m & T).
    { rewrite N1, K. cbn [nth_error]. clear. induction cap; [reflexivity|assumption]. }
    exists (live PID TcpAccepted m (registered
      (fold_left (actual_step capacity) (repeat (EPop TcpListener) n)
        (actual_run capacity (events TcpListener (S cap)))) (S cap))).
    split; [apply sock_live; exact T|reflexivity].
  - split; [exact EP|].
    rewrite Nat.min_r by (unfold cap; lia). fold cap.
    destruct (skipn n (map (fun i => Accepted 0 (Z.of_nat (S i))) (seq 0 cap))) as [|c l] eqn:SK; cbn [hd].
    + unfold accepted_default, INVALID; cbn [ac_client]; lia.
    + assert (IN : In c (map (fun i => Accepted 0 (Z.of_nat (S i))) (seq 0 cap))).
      { rewrite <- (firstn_skipn n), SK. apply in_or_app. right. left. reflexivity. }
      apply in_map_iff in IN as (i & <- & IN). apply in_seq in IN. cbn [ac_client]. lia.
Qed.

Example C127_case :
  let capacity (_ : kind) := 3 in
  let h := [ECreate UdpServer true; ECreate TcpListener true; EAdd 0 None None None; EAdd 1 None None None;
            ENotificator (Some 5); EData 0; EHandle true; EConnect 1; EHandle true] in
  (forall k, capacity k <> 0) /\ plain_history capacity ideal_start h
  /\ i_notes (actual_run capacity h) = [5; 5]
  /\ expected_pop (actual_run capacity h) UdpServer = Descriptor 0
  /\ expected_pop (actual_run capacity h) TcpListener = Connection (Accepted 1 2)
  /\ expected_pop (actual_run capacity h) UdpClient = Descriptor INVALID.
Proof.
  cbv zeta. split; [discriminate|]. split; [|auto]. cbn. unfold plain. repeat split; cbn; try lia.
  exists UdpServer. split; [reflexivity|discriminate].
Qed.

(** ** C128: adding and removing a socket leaves it as it was *)

Lemma sock_upd w fd k k' x : sock w fd = Some k ->
  sock (set_table w (upd (e_table w) fd (Some k'))) x = if x =? fd then Some k' else sock w x.
Proof.
  intros T. unfold sock in *. cbn [set_table e_table].
  destruct (nth_error (e_table w) fd) as [[k0|]|] eqn:E; try discriminate T.
  assert (L : fd < length (e_table w)) by (apply nth_error_Some; congruence).
  destruct (Nat.eqb_spec x fd) as [->|N].
  - rewrite nth_error_upd_eq by exact L. reflexivity.
  - rewrite nth_error_upd_neq by auto. reflexivity.
Qed.

(** What add and then remove do to the sockets: O_ASYNC and O_NONBLOCK are off, the owner and
    the signal are 0, and nothing else is different. So a socket that had these values is as
    before. *)
Theorem C128_restored_partial capacity PID w fd k w1 :
  sock w fd = Some k ->
  registrar_add capacity PID w fd None None None = Ok (w1, 0%Z) -> e_status w = 0%Z ->
  exists w2, registrar_remove w1 fd None None None = Ok (w2, 0%Z)
    /\ forall x, sock w2 x =
         if x =? fd then Some (KS (k_kind k) (k_stream k) (k_reuse k) (k_listen k) (k_backlog k) false false 0 0)
         else sock w x.
Proof.
  intros T A ST. unfold registrar_add in A. rewrite T in A.
  destruct (ensure_queue capacity (e_queues w) (k_kind k)) as [q| |]; try discriminate A. cbn [bind] in A.
  cbn [set_queues e_status] in A. rewrite ST in A. cbn [Z.eqb] in A. unfold enable_signal in A.
  assert (T1 : sock (set_queues w q) fd = Some k) by exact T. rewrite T1 in A. injection A as <-.
  unfold registrar_remove, disable_signal. rewrite (sock_upd _ _ _ _ _ T1), Nat.eqb_refl.
  cbn [set_table set_queues e_status]. rewrite ST. cbn [Z.eqb]. eexists. split; [reflexivity|].
  intros x. cbn [k_kind k_stream k_reuse k_listen k_backlog].
  rewrite (sock_upd _ _ (KS (k_kind k) (k_stream k) (k_reuse k) (k_listen k) (k_backlog k) true true PID SIGPOLL)).
  2:{ rewrite (sock_upd _ _ _ _ _ T1), Nat.eqb_refl. reflexivity. }
  destruct (Nat.eqb_spec x fd) as [E|N]; [reflexivity|].
  rewrite (sock_upd _ _ _ _ _ T1). destruct (Nat.eqb_spec x fd); [contradiction|reflexivity].
Qed.

(** A socket that was non-blocking, or had an owner, is not as it was. *)
Theorem C128_nonblock_refuted capacity PID w fd k w1 w2 :
  sock w fd = Some k -> k_nonblock k = true \/ k_owner k <> 0%Z \/ k_signal k <> 0%Z ->
  registrar_add capacity PID w fd None None None = Ok (w1, 0%Z) -> e_status w = 0%Z ->
  registrar_remove w1 fd None None None = Ok (w2, 0%Z) -> sock w2 fd <> sock w fd.
Proof.
  intros T N A ST R. destruct (C128_restored_partial _ _ _ _ _ _ T A ST) as (w3 & R3 & X).
  rewrite R in R3. injection R3 as <-. rewrite X, T, Nat.eqb_refl. intros E. destruct k; cbn in *. injection E. intros.
  destruct N as [N|[N|N]]; congruence.
Qed.

(** An add that fails at the second or third system call has changed the socket. *)
Theorem C128_failed_add_refuted capacity PID w fd k e e3 w1 r :
  sock w fd = Some k -> e_status w = 0%Z -> k_async k = false ->
  registrar_add capacity PID w fd None (Some e) e3 = Ok (w1, r) ->
  r = (- e)%Z /\ exists k', sock w1 fd = Some k' /\ k_async k' = true /\ k_nonblock k' = true.
Proof.
  intros T ST NA A. unfold registrar_add in A. rewrite T in A.
  destruct (ensure_queue capacity (e_queues w) (k_kind k)) as [q| |]; try discriminate A. cbn [bind] in A.
  cbn [set_queues e_status] in A. rewrite ST in A. cbn [Z.eqb] in A. unfold enable_signal in A.
  assert (T1 : sock (set_queues w q) fd = Some k) by exact T. rewrite T1 in A. injection A as <- <-.
  split; [reflexivity|]. rewrite (sock_upd _ _ _ _ _ T1), Nat.eqb_refl. eauto.
Qed.

(** The first of three errors. *)
Definition first_error (e1 e2 e3 : option Z) : Z :=
  match e1, e2, e3 with
  | Some e, _, _ | None, Some e, _ | None, None, Some e => (- e)%Z
  | None, None, None => 0%Z
  end.
(** A socket of which the first [n] of the three settings (flags, owner, signal) are new. *)
Definition set_up (k : ksock) (on : bool) (owner signal : Z) (n : nat) : ksock :=
  KS (k_kind k) (k_stream k) (k_reuse k) (k_listen k) (k_backlog k)
     (if 1 <=? n then on else k_async k) (if 1 <=? n then on else k_nonblock k)
     (if 2 <=? n then owner else k_owner k) (if 3 <=? n then signal else k_signal k).
(** How many of the three calls were successful, until one was not. *)
Definition successes (e1 e2 e3 : option Z) : nat :=
  match e1, e2, e3 with
  | Some _, _, _ => 0 | None, Some _, _ => 1 | None, None, Some _ => 2 | None, None, None => 3
  end.

(** What add and remove do, whichever system call fails: the caller gets the error of the first
    that fails, what was set before it stays set, and other sockets are untouched. *)
Theorem C128_errors_partial capacity PID w fd k e1 e2 e3 w1 r :
  sock w fd = Some k -> e_status w = 0%Z ->
  (registrar_add capacity PID w fd e1 e2 e3 = Ok (w1, r) ->
     r = first_error e1 e2 e3
     /\ forall x, sock w1 x = if x =? fd then Some (set_up k true PID SIGPOLL (successes e1 e2 e3)) else sock w x)
  /\ (registrar_remove w fd e1 e2 e3 = Ok (w1, r) ->
     r = first_error e1 e2 e3
     /\ forall x, sock w1 x = if x =? fd then Some (set_up k false 0 0 (successes e1 e2 e3)) else sock w x).
Proof.
  intros T ST. split; intros A.
  - unfold registrar_add in A. rewrite T in A.
    destruct (ensure_queue capacity (e_queues w) (k_kind k)) as [q| |]; try discriminate A. cbn [bind] in A.
    cbn [set_queues e_status] in A. rewrite ST in A. cbn [Z.eqb] in A. unfold enable_signal in A.
    assert (T1 : sock (set_queues w q) fd = Some k) by exact T. rewrite T1 in A.
    destruct e1 as [e|]; [|destruct e2 as [e|]; [|destruct e3 as [e|]]]; injection A as <- <-;
      (split; [reflexivity|]); intros x; rewrite ?(sock_upd _ _ _ _ _ T1); cbn [successes set_up Nat.leb]; try reflexivity.
    destruct (Nat.eqb_spec x fd) as [->|]; [|reflexivity]. rewrite T1. destruct k; reflexivity.
  - unfold registrar_remove in A. rewrite T, ST in A. cbn [Z.eqb] in A. unfold disable_signal in A. rewrite T in A.
    destruct e1 as [e|]; [|destruct e2 as [e|]; [|destruct e3 as [e|]]]; injection A as <- <-;
      (split; [reflexivity|]); intros x; rewrite ?(sock_upd _ _ _ _ _ T); cbn [successes set_up Nat.leb]; try reflexivity.
    destruct (Nat.eqb_spec x fd) as [->|]; [|reflexivity]. rewrite T. destruct k; reflexivity.
Qed.
Example C128_errors_case PID : let w := set_table (catcher_start OtherHandler None None) [Some (created UdpClient true)] in
  exists w1, registrar_add (fun _ => 2) PID w 0 None (Some 13%Z) None = Ok (w1, (-13)%Z)
    /\ sock w1 0 = Some (set_up (created UdpClient true) true PID SIGPOLL 1).
Proof. eexists. split; vm_compute; reflexivity. Qed.

Example C128_case PID :
  let w := EW [Some (KS TcpClient true false false 0 false true 0 0)] None queues_new None [] 0 CatcherHandler false in
  exists w1, registrar_add (fun _ => 2) PID w 0 None None None = Ok (w1, 0%Z)
    /\ exists w2, registrar_add (fun _ => 2) PID w 0 None (Some 5%Z) None = Ok (w2, (-5)%Z).
Proof. eexists. split; [vm_compute; reflexivity|]. eexists. vm_compute. reflexivity. Qed.

(** ** C129: no event is lost *)

Lemma prompt_plain capacity s c : prompt capacity s c -> plain s c.
Proof. destruct c; cbn; tauto. Qed.
(** On prompt calls nothing is lost. *)
Lemma prompt_same capacity s c : length (i_wait s) <= 1 -> prompt capacity s c ->
  (forall k, i_queue (actual_step capacity s c) k = i_queue (ideal_step s c) k)
  /\ i_kinds (actual_step capacity s c) = i_kinds (ideal_step s c)
  /\ i_on (actual_step capacity s c) = i_on (ideal_step s c)
  /\ i_wait (actual_step capacity s c) = i_wait (ideal_step s c)
  /\ i_connections (actual_step capacity s c) = i_connections (ideal_step s c)
  /\ i_note (actual_step capacity s c) = i_note (ideal_step s c)
  /\ i_notes (actual_step capacity s c) = i_notes (ideal_step s c)
  /\ length (i_wait (ideal_step s c)) <= 1.
Proof.
  intros L P. destruct c as [k ok|fd|fd e1 e2 e3|fd e1 e2 e3|fd|fd|ok|k|n]; cbn [prompt] in P.
  - cbn. auto 10.
  - contradiction.
  - cbn. auto 10.
  - cbn. auto 10.
  - destruct P as [_ P]. cbn. destruct (registered s fd).
    + rewrite (P eq_refl). cbn. auto 10.
    + destruct (i_wait s); cbn; auto 10.
  - destruct P as [_ P]. cbn. destruct (registered s fd).
    + rewrite (P eq_refl). cbn. auto 10.
    + destruct (i_wait s); cbn; auto 10.
  - destruct P as [-> R]. unfold has_room in R. cbn [actual_step ideal_step]. destruct (i_wait s) as [|fd rest] eqn:W; [rewrite W; cbn; auto 20|].
    assert (rest = []) as -> by (destruct rest; [reflexivity|cbn in L; lia]).
    destruct (nth_error (i_kinds s) fd) as [k|]; [|rewrite W; cbn; auto 20].
    destruct k; apply Nat.ltb_lt in R; cbn [negb]; rewrite R; cbn -[Nat.ltb]; repeat split; auto;
      intros k'; rewrite ?andb_true_r; reflexivity.
  - destruct k; cbn; auto 10.
  - cbn. auto 10.
Qed.

Record same (a b : ideal) : Prop := {
  S_queue : forall k, i_queue a k = i_queue b k;
  S_kinds : i_kinds a = i_kinds b; S_on : i_on a = i_on b; S_wait : i_wait a = i_wait b;
  S_conn : i_connections a = i_connections b; S_note : i_note a = i_note b; S_notes : i_notes a = i_notes b
}.
Lemma actual_same capacity a b c : same a b -> same (actual_step capacity a c) (actual_step capacity b c).
Proof.
  intros [Q K O W C N NS]. destruct a as [ka oa wa qa ca na nsa], b as [kb ob wb qb cb nb nsb].
  cbn [i_queue i_kinds i_on i_wait i_connections i_note i_notes] in *. subst.
  destruct c as [k ok|fd|fd e1 e2 e3|fd e1 e2 e3|fd|fd|ok|k|n]; try (constructor; cbn; auto; fail).
  - cbn. destruct wb as [|fd rest]; [constructor; cbn; auto|].
    destruct (nth_error kb fd) as [k|]; [|constructor; cbn; auto].
    destruct k; try destruct ok; constructor; cbn; auto; intros k'; rewrite ?Q; reflexivity.
  - destruct k; constructor; cbn; auto; intros k'; rewrite ?Q; reflexivity.
Qed.
Lemma plain_same a b c : same a b -> plain b c -> plain a c.
Proof. intros S P. destruct c; cbn in *; rewrite ?(S_kinds _ _ S); exact P. Qed.

Lemma prompt_run capacity h : forall a s, same a s -> length (i_wait s) <= 1 -> prompt_history capacity s h ->
  plain_history capacity a h /\ same (fold_left (actual_step capacity) h a) (fold_left ideal_step h s).
Proof.
  induction h as [|c h IH]; intros a s S L P; [cbn; auto|]. destruct P as [P1 P2].
  destruct (prompt_same _ _ _ L P1) as (Q & K & O & W & C & N & NS & L').
  assert (S' : same (actual_step capacity a c) (ideal_step s c)).
  { destruct (actual_same capacity a s c S). constructor; congruence. }
  destruct (IH _ _ S' L' P2) as [P3 S3]. split; [|exact S3].
  cbn. split; [|exact P3]. eapply plain_same; [exact S|]. eapply prompt_plain. exact P1.
Qed.

Theorem C129_no_event_lost_partial capacity PID before h :
  (forall k, capacity k <> 0) -> prompt_history capacity ideal_start h ->
  exists w, erun capacity PID (catcher_start before None None) h = Ok w
    /\ e_notes w = i_notes (ideal_run h)
    /\ forall k, exists w', registrar_pop capacity w k = Ok (w', expected_pop (ideal_run h) k).
Proof.
  intros CAP P. destruct (prompt_run capacity h ideal_start ideal_start) as [PL S]; [constructor; auto|cbn; lia|exact P|].
  destruct (C127_dispatch_partial capacity PID before h CAP PL) as (w & E & N & _ & X).
  exists w. split; [exact E|]. split; [rewrite N; apply (S_notes _ _ S)|].
  intros k. destruct (X k) as (w' & X'). exists w'. rewrite X'. f_equal. f_equal.
  unfold expected_pop, actual_run, ideal_run. destruct k; rewrite ?(S_queue _ _ S), ?(S_conn _ _ S); reflexivity.
Qed.

(** Two events before the signal is delivered: the second is lost. For any classes of the two
    sockets. *)
Definition event_of (k : kind) (fd : nat) : ecall :=
  match k with TcpListener => EConnect fd | _ => EData fd end.
Theorem C129_two_sockets_refuted capacity PID before k1 k2 :
  (forall k, capacity k <> 0) -> k1 <> k2 ->
  let h := [ECreate k1 true; ECreate k2 true; EAdd 0 None None None; EAdd 1 None None None;
            event_of k1 0; event_of k2 1; EHandle true; EHandle true] in
  exists w w' p, erun capacity PID (catcher_start before None None) h = Ok w
    /\ e_pending w = None
    /\ registrar_pop capacity w k2 = Ok (w', p)
    /\ p = match k2 with TcpListener => Connection accepted_default | _ => Descriptor INVALID end
    /\ p <> expected_pop (ideal_run h) k2.
Proof.
  intros CAP NE h.
  assert (P : plain_history capacity ideal_start h).
  { unfold h. destruct k1, k2; try (exfalso; apply NE; reflexivity); cbn; repeat split; try lia;
      eexists; split; try reflexivity; discriminate. }
  assert (R : expected_pop (actual_run capacity h) k2
    = match k2 with TcpListener => Connection accepted_default | _ => Descriptor INVALID end
    /\ i_wait (actual_run capacity h) = []
    /\ expected_pop (actual_run capacity h) k2 <> expected_pop (ideal_run h) k2).
  { pose proof (CAP UdpServer). pose proof (CAP UdpClient). pose proof (CAP TcpListener).
    pose proof (CAP TcpAccepted). pose proof (CAP TcpClient).
    unfold h. destruct k1, k2; try (exfalso; apply NE; reflexivity);
      (split; [cbn; try destruct (0 <? _); reflexivity|split; [reflexivity|]]);
      cbn; try destruct (0 <? _); discriminate. }
  destruct R as (R1 & R2 & R3). clearbody h.
  destruct (run_from_start capacity PID before h CAP P) as (w & ready & E & I).
  destruct (registrar_pop_ok capacity CAP w ready _ _ k2 (EI_queues _ _ _ _ _ I)) as (q & EP & _).
  eexists w, _, _. split; [exact E|]. split; [rewrite (EI_pending _ _ _ _ _ I), R2; reflexivity|].
  split; [exact EP|]. split; [exact R1|exact R3].
Qed.

(** Two connections before the signal is delivered: one is accepted, the other waits in the
    kernel and no signal tells about it, however often the handler runs. *)
Theorem C129_burst_refuted capacity PID before n :
  (forall k, capacity k <> 0) ->
  let h := [ECreate TcpListener true; EAdd 0 None None None; EConnect 0; EConnect 0] ++ repeat (EHandle true) (S n) in
  exists w k, erun capacity PID (catcher_start before None None) h = Ok w
    /\ e_pending w = None /\ sock w 0 = Some k /\ k_backlog k = 1
    /\ exists w', registrar_pop capacity w TcpListener = Ok (w', Connection (Accepted 0 1))
    /\ exists w'', registrar_pop capacity w' TcpListener = Ok (w'', Connection accepted_default).
Proof.
  intros CAP h. unfold h. rewrite erun_app. cbn [erun estep bind]. unfold registrar_add.
  replace (sock _ 0) with (Some (created TcpListener true)) by reflexivity. cbn [created k_kind].
  destruct (ensure_queue_ok capacity CAP queues_new (fun _ => false) (fun _ => []) [] TcpListener)
    as (q & E & H).
  { unfold queues_hold, holds. cbn. auto 10. }
  replace (e_queues _) with queues_new by reflexivity. rewrite E. cbn [bind].
  replace (e_status _ =? 0)%Z with true by reflexivity. cbn [bind fst].
  cbn -[registrar_pop]. rewrite !Z.eqb_refl. cbn -[registrar_pop]. rewrite !Z.eqb_refl. cbn -[registrar_pop].
  match goal with |- context [push_accepted capacity ?W 0 1] => set (w0 := W) end.
  destruct (push_accepted_ok capacity CAP w0 (set_ready (fun _ => false) TcpListener) (fun _ => []) [] 0 1)
    as (q1 & E1 & H1); [exact H|reflexivity|]. rewrite E1. cbn [bind].
  replace (length (@nil accepted) <? capacity TcpListener) with true in H1
    by (symmetry; apply Nat.ltb_lt; cbn; specialize (CAP TcpListener); lia). cbn [app] in H1.
  assert (EH : forall m, erun capacity PID (notify (set_queues w0 q1)) (repeat (EHandle true) m)
     = Ok (notify (set_queues w0 q1))).
  { induction m as [|m IH]; [reflexivity|]. cbn [repeat erun estep]. exact IH. }
  exists (notify (set_queues w0 q1)). eexists. split; [apply EH|].
  split; [reflexivity|]. split; [reflexivity|]. split; [reflexivity|].
  destruct (registrar_pop_ok capacity CAP (notify (set_queues w0 q1)) _ _ _ TcpListener H1) as (q2 & E2 & H2).
  exists (set_queues (notify (set_queues w0 q1)) q2). split; [rewrite E2; reflexivity|].
  destruct (registrar_pop_ok capacity CAP (set_queues (notify (set_queues w0 q1)) q2) _ _ _ TcpListener H2) as (q3 & E3 & H3).
  exists (set_queues (set_queues (notify (set_queues w0 q1)) q2) q3). rewrite E3. reflexivity.
Qed.

(** A socket is closed while its event is in the queue: pop returns the number, which now is
    another socket, of any class. *)
Theorem C129_stale_refuted capacity PID before k :
  (forall k, capacity k <> 0) ->
  exists w w' s, erun capacity PID (catcher_start before None None)
      [ECreate UdpServer true; EAdd 0 None None None; EData 0; EHandle true; EClose 0; ECreate k true] = Ok w
    /\ registrar_pop capacity w UdpServer = Ok (w', Descriptor 0)
    /\ sock w 0 = Some s /\ k_kind s = k.
Proof.
  intros CAP.
  set (h := [ECreate UdpServer true; EAdd 0 None None None; EData 0; EHandle true]).
  assert (P : plain_history capacity ideal_start h).
  { cbn. repeat split; try lia. exists UdpServer. split; [reflexivity|discriminate]. }
  destruct (run_from_start capacity PID before h CAP P) as (w & ready & E & I).
  change [ECreate UdpServer true; EAdd 0 None None None; EData 0; EHandle true; EClose 0; ECreate k true]
    with (h ++ [EClose 0; ECreate k true]).
  rewrite erun_app, E. cbn [bind erun estep].
  assert (LEN : length (e_table w) = 1) by (rewrite (EI_len _ _ _ _ _ I); reflexivity).
  destruct (e_table w) as [|o [|? ?]] eqn:TT; try discriminate LEN.
  cbn [upd set_table e_table].
  eexists _. cbn -[registrar_pop].
  match goal with |- exists w' s, Ok ?W = Ok _ /\ _ => set (w1 := W) end.
  destruct (registrar_pop_ok capacity CAP w1 ready _ _ UdpServer (EI_queues _ _ _ _ _ I)) as (q & EP & _).
  eexists _, _. split; [reflexivity|]. fold w1. split; [rewrite EP; cbn; destruct (capacity UdpServer) eqn:CU; [exfalso; apply (CAP UdpServer); exact CU|]; reflexivity|].
  split; [reflexivity|]. destruct k; reflexivity.
Qed.

Example C129_case :
  let capacity (_ : kind) := 1 in
  let h := [ECreate UdpServer true; EAdd 0 None None None; EData 0; EHandle true; EPop UdpServer; EData 0; EHandle true] in
  (forall k, capacity k <> 0) /\ prompt_history capacity ideal_start h
  /\ expected_pop (ideal_run h) UdpServer = Descriptor 0.
Proof.
  cbv zeta. split; [discriminate|]. split; [|reflexivity]. cbn.
  repeat split; cbn; try lia; exists UdpServer; split; try reflexivity; discriminate.
Qed.

(** ** C130: alive *)

(** If the calls of fcntl succeed, alive tells whether bytes can be read or the peer has not
    closed the connection. *)
Theorem C130_alive_partial nonblock readable p :
  (forall e, p = Broken e -> e <> 0%Z) ->
  fst (tcp_alive nonblock readable p None None) = false <-> readable = 0 /\ p = PeerClosed.
Proof.
  intros NZ. cbn. destruct readable as [|n]; cbn.
  - destruct p as [| |e]; cbn; split; try (intros; discriminate); try (intros [_ H]; discriminate H); auto.
    intros H. specialize (NZ e eq_refl). destruct e; [contradiction|discriminate H|discriminate H].
  - split; [discriminate|]. intros [H _]. discriminate H.
Qed.
(** A broken connection is alive. *)
Theorem C130_broken_refuted nonblock e : e <> 0%Z ->
  fst (tcp_alive nonblock 0 (Broken e) None None) = true.
Proof. intros H. destruct e; [contradiction| |]; reflexivity. Qed.
(** A connection that is there is not, if a call of fcntl fails. *)
Theorem C130_fcntl_refuted nonblock readable p e1 e2 : e1 <> None \/ e2 <> None ->
  fst (tcp_alive nonblock readable p e1 e2) = false.
Proof. intros [H|H]; destruct e1, e2; try contradiction; reflexivity. Qed.
(** A non-blocking socket, such as a registered one, is blocking afterwards. *)
Theorem C130_nonblock_refuted readable p :
  snd (tcp_alive true readable p None None) = false.
Proof. reflexivity. Qed.
(** A blocking socket stays blocking. *)
Theorem C130_mode_partial readable p : snd (tcp_alive false readable p None None) = false.
Proof. reflexivity. Qed.
Example C130_case : fst (tcp_alive false 0 PeerThere None None) = true
  /\ fst (tcp_alive false 0 PeerClosed None None) = false /\ fst (tcp_alive false 3 PeerClosed None None) = true.
Proof. auto. Qed.

(** ** C131: registration succeeds only if signals are handled; the old action comes back *)

Lemma kept_pop capacity w k w' p : registrar_pop capacity w k = Ok (w', p) ->
  e_status w' = e_status w /\ e_disposition w' = e_disposition w.
Proof.
  unfold registrar_pop. intros H.
  destruct k; match type of H with bind ?m _ = _ => destruct m; try discriminate H end;
    cbn [bind] in H; injection H as <- <-; auto.
Qed.
Lemma kept_push capacity w k fd w' : push_descriptor capacity w k fd = Ok w' ->
  e_status w' = e_status w /\ e_disposition w' = e_disposition w.
Proof.
  unfold push_descriptor. intros H.
  destruct k; try (match type of H with bind ?m _ = _ => destruct m; try discriminate H end; cbn [bind] in H);
    injection H as <-; auto.
Qed.
Lemma kept_event PID w fd : e_status (kernel_event PID w fd) = e_status w
  /\ e_disposition (kernel_event PID w fd) = e_disposition w.
Proof.
  unfold kernel_event. destruct (sock w fd) as [k|]; [|auto].
  destruct (_ && _); [|auto]. destruct (e_disposition w) eqn:D; cbn; auto.
  destruct (e_pending w); cbn; auto.
Qed.
Lemma bound {X Y} (m : outcome X) (f : X -> outcome Y) y : bind m f = Ok y -> exists x, m = Ok x /\ f x = Ok y.
Proof. destruct m; try discriminate. intros H. exists a. auto. Qed.
Lemma kept_push_accepted capacity w fd c w' : push_accepted capacity w fd c = Ok w' ->
  e_status w' = e_status w /\ e_disposition w' = e_disposition w.
Proof.
  unfold push_accepted. intros H. match type of H with bind ?m _ = _ => destruct m; try discriminate H end.
  cbn [bind] in H. injection H as <-. auto.
Qed.
Lemma kept_accept w fd k ok w' r : sys_accept w fd k ok = Ok (w', r) ->
  e_status w' = e_status w /\ e_disposition w' = e_disposition w.
Proof.
  unfold sys_accept. intros H. destruct (k_backlog k) as [|m].
  - destruct (k_nonblock k); [|discriminate H]. injection H as <- _. auto.
  - destruct ok; injection H as <- _; auto.
Qed.
(** Only for speed: compare calls of these before unfolding them. *)
Local Strategy 100 [push_accepted push_descriptor registrar_pop].
Lemma kept_tcp capacity w fd k ok w' : handle_tcp capacity w fd k ok = Ok w' ->
  e_status w' = e_status w /\ e_disposition w' = e_disposition w.
Proof.
  unfold handle_tcp. intros E.
  destruct (negb (k_reuse k)); [exact (kept_push _ _ _ _ _ E)|].
  destruct (negb (k_listen k)); [exact (kept_push _ _ _ _ _ E)|].
  apply bound in E as ([w1 r] & A & E). apply kept_accept in A as [A1 A2].
  destruct r as [c|]; cbn [fst snd] in E.
  - apply kept_push_accepted in E as [E1 E2]. split; congruence.
  - injection E as <-. auto.
Qed.
Lemma kept_handle capacity w ok w' : handle_signal capacity w ok = Ok w' ->
  e_status w' = e_status w /\ e_disposition w' = e_disposition w.
Proof.
  intros H. unfold handle_signal in H. destruct (e_pending w) as [fd|]; [|injection H as <-; auto]. cbv zeta in H.
  remember (set_pending w None) as w0 eqn:W0.
  assert (K0 : e_status w0 = e_status w /\ e_disposition w0 = e_disposition w) by (subst w0; auto).
  destruct K0 as [K1 K2]. clear W0.
  destruct (sock w0 fd) as [k|]; [|injection H as <-; auto].
  assert (X : exists w1, w' = notify w1 /\ e_status w1 = e_status w0 /\ e_disposition w1 = e_disposition w0).
  { destruct (k_stream k).
    - destruct (handle_tcp capacity w0 fd k ok) as [w1| |] eqn:E; try discriminate H. cbn [bind] in H.
      injection H as <-. exists w1. split; [reflexivity|]. exact (kept_tcp _ _ _ _ _ _ E).
    - unfold handle_udp in H.
      destruct (k_reuse k);
        match type of H with bind ?m _ = _ => destruct m as [w1| |] eqn:E; try discriminate H end; cbn [bind] in H;
        injection H as <-; exists w1; (split; [reflexivity|]); exact (kept_push _ _ _ _ _ E). }
  destruct X as (w1 & -> & X1 & X2). rewrite <- K1, <- K2, <- X1, <- X2. unfold notify. destruct (e_note w1); auto.
Qed.
Lemma kept_step capacity PID w c w' : estep capacity PID w c = Ok w' ->
  e_status w' = e_status w /\ e_disposition w' = e_disposition w.
Proof.
  destruct c as [k ok|fd|fd e1 e2 e3|fd e1 e2 e3|fd|fd|ok|k|n]; cbn [estep]; intros H.
  - injection H as <-. auto.
  - injection H as <-. auto.
  - unfold registrar_add in H. destruct (sock w fd) as [k|]; [|injection H as <-; auto].
    destruct (ensure_queue capacity (e_queues w) (k_kind k)) as [q| |]; try discriminate H. cbn [bind] in H.
    cbv zeta in H. destruct (e_status (set_queues w q) =? 0)%Z; cbn [bind fst] in H; injection H as <-; [|auto].
    unfold enable_signal. destruct (sock (set_queues w q) fd); [|auto]. destruct e1, e2, e3; auto.
  - unfold registrar_remove in H. destruct (sock w fd) as [k|] eqn:E; [|injection H as <-; auto].
    destruct (e_status w =? 0)%Z; cbn [bind fst] in H; injection H as <-; [|auto].
    unfold disable_signal. rewrite E. destruct e1, e2, e3; auto.
  - injection H as <-. apply kept_event.
  - injection H as <-. unfold kernel_connect. destruct (sock w fd) as [k|]; [|auto].
    match goal with |- context [kernel_event PID ?x fd] => destruct (kept_event PID x fd) as [A B]; rewrite A, B; split; reflexivity end.
  - exact (kept_handle _ _ _ _ H).
  - destruct (registrar_pop capacity w k) as [[w1 p]| |] eqn:E; try discriminate H. injection H as <-.
    cbn [fst]. eapply kept_pop. exact E.
  - injection H as <-. auto.
Qed.
Lemma kept_run capacity PID h : forall w w', erun capacity PID w h = Ok w' ->
  e_status w' = e_status w /\ e_disposition w' = e_disposition w.
Proof.
  induction h as [|c h IH]; intros w w' E; cbn [erun] in E; [injection E as <-; auto|].
  destruct (estep capacity PID w c) as [w1| |] eqn:S1; try discriminate E. cbn [bind] in E.
  apply kept_step in S1 as [A B]. apply IH in E as [C D]. split; congruence.
Qed.

(** If the mask of the action could be made: whenever adding a socket succeeds, events are
    handled; and if the action could not be set, adding fails with that error. *)
Theorem C131_registered_partial capacity PID before action_error h w fd e1 e2 e3 w1 r :
  (forall e, action_error = Some e -> e <> 0%Z) ->
  erun capacity PID (catcher_start before None action_error) h = Ok w ->
  sock w fd <> None ->
  registrar_add capacity PID w fd e1 e2 e3 = Ok (w1, r) ->
  (r = 0%Z -> e1 = None -> e2 = None -> e3 = None -> e_disposition w1 = CatcherHandler)
  /\ (forall e, action_error = Some e -> r = (- e)%Z).
Proof.
  intros NZ E NN A. destruct (kept_run _ _ _ _ _ E) as [K1 K2].
  unfold registrar_add in A. destruct (sock w fd) as [k|] eqn:T; [|contradiction].
  destruct (ensure_queue capacity (e_queues w) (k_kind k)) as [q| |]; try discriminate A. cbn [bind] in A.
  cbn [set_queues e_status] in A.
  destruct action_error as [e|]; cbn in K1, K2.
  - specialize (NZ e eq_refl). rewrite K1 in A. destruct (- e =? 0)%Z eqn:Q; [apply Z.eqb_eq in Q; lia|].
    injection A as <- <-. apply Z.eqb_neq in Q. split; [intros; contradiction|].
    intros e' H. injection H as <-. reflexivity.
  - rewrite K1 in A. cbn [Z.eqb] in A. split; [|intros; discriminate].
    intros _ -> -> ->. unfold enable_signal in A.
    destruct (sock (set_queues w q) fd); injection A as <- <-; exact K2.
Qed.

(** And the destructor brings the old action back. *)
Theorem C131_restored_partial capacity PID before action_error h w :
  (forall e, action_error = Some e -> e <> 0%Z) ->
  erun capacity PID (catcher_start before None action_error) h = Ok w ->
  e_disposition (catcher_end before None w) = before.
Proof.
  intros NZ E. destruct (kept_run _ _ _ _ _ E) as [K1 K2]. unfold catcher_end.
  destruct action_error as [e|]; cbn in K1, K2; rewrite K1.
  - specialize (NZ e eq_refl). destruct (- e =? 0)%Z eqn:Q; [apply Z.eqb_eq in Q; lia|exact K2].
  - reflexivity.
Qed.

(** If the mask could not be made, the EventCatcher says that all is well: a socket is added,
    no handler is there, and the first event terminates the process. *)
Theorem C131_mask_refuted capacity PID e ae :
  (forall k, capacity k <> 0) ->
  exists w w1, erun capacity PID (catcher_start DefaultAction (Some e) ae) [ECreate UdpServer true] = Ok w
    /\ registrar_add capacity PID w 0 None None None = Ok (w1, 0%Z)
    /\ e_killed (kernel_event PID w1 0) = true.
Proof.
  intros CAP. eexists. cbn [erun estep bind].
  destruct (ensure_queue_ok capacity CAP queues_new (fun _ => false) (fun _ => []) [] UdpServer)
    as (q & E & H).
  { unfold queues_hold, holds. cbn. auto 10. }
  eexists. split; [reflexivity|]. unfold registrar_add.
  replace (sock _ 0) with (Some (created UdpServer true)) by reflexivity. cbn [created k_kind].
  replace (e_queues _) with queues_new by reflexivity. rewrite E. cbn [bind].
  split; [reflexivity|]. cbn. rewrite Z.eqb_refl. reflexivity.
Qed.
(** And the destructor sets the default action, whatever was there before. *)
Theorem C131_mask_end_refuted capacity PID before e ae h w :
  erun capacity PID (catcher_start before (Some e) ae) h = Ok w ->
  e_disposition (catcher_end before (Some e) w) = DefaultAction.
Proof.
  intros E. destruct (kept_run _ _ _ _ _ E) as [K1 K2]. unfold catcher_end. rewrite K1. reflexivity.
Qed.
Example C131_case : exists w w1, erun (fun _ => 2) 77 (catcher_start OtherHandler None None) [ECreate UdpClient true] = Ok w
  /\ registrar_add (fun _ => 2) 77 w 0 None None None = Ok (w1, 0%Z)
  /\ e_disposition w1 = CatcherHandler /\ e_disposition (catcher_end OtherHandler None w1) = OtherHandler.
Proof. eexists. eexists. split; [vm_compute; reflexivity|]. split; [vm_compute; reflexivity|]. auto. Qed.

Print Assumptions C127_dispatch_partial. Print Assumptions C127_no_listen_refuted.
Print Assumptions C127_full_refuted. Print Assumptions C127_full_leak_refuted.
Print Assumptions C128_restored_partial. Print Assumptions C128_nonblock_refuted.
Print Assumptions C128_failed_add_refuted.
Print Assumptions C128_errors_partial. Print Assumptions C129_no_event_lost_partial.
Print Assumptions C129_two_sockets_refuted. Print Assumptions C129_burst_refuted.
Print Assumptions C129_stale_refuted. Print Assumptions C130_alive_partial.
Print Assumptions C130_broken_refuted. Print Assumptions C130_fcntl_refuted.
Print Assumptions C130_nonblock_refuted. Print Assumptions C130_mode_partial.
Print Assumptions C131_registered_partial. Print Assumptions C131_restored_partial.
Print Assumptions C131_mask_refuted. Print Assumptions C131_mask_end_refuted.
