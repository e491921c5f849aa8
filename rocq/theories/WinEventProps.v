(** Properties of asynchronous socket events on Windows: C141 - C144. *)
From Coq Require Import List Arith ZArith Bool Lia.
From Verif Require Import Base BaseLemmas RegistrarModel EventModel EventSpec EventProofs
  WinEventModel WinEventSpec WinEventProofs.
Import ListNotations.

(** ** C141: an event goes to the queue of the class of its socket *)

(** Exactly what happens to events: after any calls, the notificators called and what pop
    returns for any class are as [wactual_step] tells. *)
Theorem C141_dispatch_partial capacity h :
  (forall k, capacity k <> 0) -> Forall listens h ->
  exists w, wrun capacity (wworld_new true) h = Ok w
    /\ e_notes (ww_common w) = v_notes (wactual_run capacity h)
    /\ forall k, exists c, registrar_pop capacity (ww_common w) k = Ok (c, wexpected_pop (wactual_run capacity h) k).
Proof.
  intros CAP P. destruct (wrun_start capacity CAP h P) as (w & ready & E & I).
  exists w. split; [exact E|]. split; [apply (WI_notes _ _ _ _ I)|].
  intros k. destruct (registrar_pop_ok capacity CAP (ww_common w) ready _ _ k (WI_queues _ _ _ _ I)) as (q & EP & _).
  eexists. rewrite EP. reflexivity.
Qed.

(** That a peer has closed its connection and that connecting has succeeded is never reported:
    it is not asked for. *)
Theorem C141_close_refuted capacity h w :
  (forall k, capacity k <> 0) -> Forall listens h -> wrun capacity (wworld_new true) h = Ok w ->
  forall fd error, wmessage w fd Close error = w /\ wmessage w fd Connect error = w.
Proof.
  intros CAP P E fd b. destruct (wrun_start capacity CAP h P) as (w' & ready & E' & I).
  rewrite E in E'. injection E' as <-. unfold wmessage.
  pose proof (wsock_kind _ _ _ _ fd I) as SK. destruct (v_kind _ fd) as [k|]; [|rewrite SK; auto].
  destruct SK as (m & nb & T & M & _). rewrite T, !(masked k m _ nb _ M).
  destruct k; cbn [wanted]; rewrite !andb_false_r; auto.
Qed.

(** An event that reports an error disappears: nothing is queued and nobody is notified. *)
Theorem C141_error_refuted capacity w fd e rest ok :
  ww_messages w = (fd, e, true) :: rest -> wdispatch capacity w ok = Ok (set_messages w rest).
Proof. intros E. unfold wdispatch. rewrite E. reflexivity. Qed.

(** For every class there is such an event: the program asked for it and is not told. *)
Theorem C141_error_case_refuted capacity k n : (forall k, capacity k <> 0) ->
  exists w, wrun capacity (wworld_new true)
      [WCreate k true; WAdd 0 None; WNotificator (Some n);
       WMessage 0 (match k with TcpListener => Accept | _ => Read end) true; WDispatch true] = Ok w
    /\ e_notes (ww_common w) = []
    /\ (exists c, registrar_pop capacity (ww_common w) k
        = Ok (c, match k with TcpListener => Connection accepted_default | _ => Descriptor INVALID end))
    /\ ww_messages w = [].
Proof.
  intros CAP.
  set (h := [WCreate k true; WAdd 0 None; WNotificator (Some n);
       WMessage 0 (match k with TcpListener => Accept | _ => Read end) true; WDispatch true]).
  assert (P : Forall listens h) by (repeat constructor).
  destruct (wrun_start capacity CAP h P) as (w & ready & E & I). exists w. split; [exact E|].
  split; [rewrite (WI_notes _ _ _ _ I); destruct k; reflexivity|].
  split; [|rewrite (WI_messages _ _ _ _ I); destruct k; reflexivity].
  destruct (registrar_pop_ok capacity CAP (ww_common w) ready _ _ k (WI_queues _ _ _ _ I)) as (q & EP & _).
  eexists. rewrite EP. destruct k; reflexivity.
Qed.

(** The notificator is called though there is nothing in the queue: a connection could not be
    accepted. *)
Theorem C141_notified_refuted capacity n : (forall k, capacity k <> 0) ->
  exists w, wrun capacity (wworld_new true)
      [WCreate TcpListener true; WAdd 0 None; WNotificator (Some n); WMessage 0 Accept false; WDispatch false] = Ok w
    /\ e_notes (ww_common w) = [n]
    /\ exists c, registrar_pop capacity (ww_common w) TcpListener = Ok (c, Connection accepted_default).
Proof.
  intros CAP.
  set (h := [WCreate TcpListener true; WAdd 0 None; WNotificator (Some n); WMessage 0 Accept false; WDispatch false]).
  assert (P : Forall listens h) by (repeat constructor).
  destruct (wrun_start capacity CAP h P) as (w & ready & E & I). exists w. split; [exact E|].
  split; [rewrite (WI_notes _ _ _ _ I); reflexivity|].
  destruct (registrar_pop_ok capacity CAP (ww_common w) ready _ _ TcpListener (WI_queues _ _ _ _ I)) as (q & EP & _).
  eexists. rewrite EP. reflexivity.
Qed.

(** A connection that is accepted when the queue is full is lost: the socket of the client stays
    open and no pop ever gives it. *)
Definition connections_arrive (n : nat) : list wcall :=
  [WCreate TcpListener true; WAdd 0 None] ++ concat (repeat [WMessage 0 Accept false; WDispatch true] n).

Lemma connections_spec capacity n :
  v_kinds (wactual_run capacity (connections_arrive n)) = Some TcpListener :: repeat (Some TcpAccepted) n
  /\ v_on (wactual_run capacity (connections_arrive n)) = [0]
  /\ v_wait (wactual_run capacity (connections_arrive n)) = []
  /\ v_connections (wactual_run capacity (connections_arrive n))
     = map (fun i => Accepted 0 (Z.of_nat (S i))) (seq 0 (Nat.min n (capacity TcpListener))).
Proof.
  induction n as [|n IH].
  - cbn. auto.
  - assert (E : connections_arrive (S n) = connections_arrive n ++ [WMessage 0 Accept false; WDispatch true]).
    { unfold connections_arrive. rewrite <- app_assoc. f_equal. clear. induction n as [|n IH]; [reflexivity|].
      cbn [repeat concat] in *. cbn [app] in *. do 2 f_equal. exact IH. }
    unfold wactual_run in *. rewrite E, fold_left_app. set (s := fold_left _ (connections_arrive n) wideal_start) in *.
    clearbody s. destruct s as [ks on wt qu cn nt ns]. cbn [v_kinds v_on v_wait v_connections] in IH.
    destruct IH as (-> & -> & -> & ->). cbn [fold_left wactual_step v_kind v_kinds nth_error v_registered v_on existsb
      Nat.eqb orb andb wanted v_wait app v_connections v_queue v_note v_notes length].
    rewrite map_length, seq_length, repeat_length.
    split; [rewrite <- repeat_cons; reflexivity|]. split; [reflexivity|]. split; [reflexivity|].
    destruct (Nat.ltb_spec (Nat.min n (capacity TcpListener)) (capacity TcpListener)) as [L|L].
    + assert (Nat.min (S n) (capacity TcpListener) = S (Nat.min n (capacity TcpListener))) as -> by lia.
      rewrite seq_S, map_app. cbn [map plus]. do 4 f_equal. lia.
    + assert (Nat.min (S n) (capacity TcpListener) = Nat.min n (capacity TcpListener)) as -> by lia. reflexivity.
Qed.

(** What [n] calls of popTcpServer return. *)
Fixpoint pops (capacity : kind -> nat) (k : kind) (n : nat) (w : eworld) : outcome (list popped) :=
  match n with
  | 0 => Ok []
  | S n => let! r := registrar_pop capacity w k in
           let! l := pops capacity k n (fst r) in Ok (snd r :: l)
  end.
Lemma pops_connections capacity (CAP : forall k, capacity k <> 0) n : forall w ready f l,
  queues_hold capacity (e_queues w) ready f l ->
  exists r, pops capacity TcpListener n w = Ok r
    /\ forall c, In (Connection c) r -> In c l \/ c = accepted_default.
Proof.
  induction n as [|n IH]; intros w ready f l Q; [exists []; split; [reflexivity|contradiction]|].
  cbn [pops]. destruct (registrar_pop_ok capacity CAP w ready f l TcpListener Q) as (q & E & H). rewrite E. cbn [bind fst snd].
  destruct (IH (set_queues w q) ready f (tl l) H) as (r & ER & P). rewrite ER. cbn [bind].
  eexists. split; [reflexivity|]. intros c [X|X].
  - injection X as <-. destruct l; cbn; auto.
  - destruct (P c X) as [Y|Y]; [left; destruct l; [exact Y|right; exact Y]|auto].
Qed.
Lemma pops_descriptors capacity (CAP : forall k, capacity k <> 0) k (NL : k <> TcpListener) n : forall w ready f l,
  queues_hold capacity (e_queues w) ready f l ->
  exists r, pops capacity k n w = Ok r
    /\ (forall d, In (Descriptor d) r -> In d (f k) \/ d = INVALID)
    /\ (length (f k) <= n -> forall d, In d (f k) -> In (Descriptor d) r).
Proof.
  induction n as [|n IH]; intros w ready f l Q.
  - exists []. split; [reflexivity|]. split; [contradiction|]. intros L d X. destruct (f k); [contradiction|cbn in L; lia].
  - cbn [pops]. destruct (registrar_pop_ok capacity CAP w ready f l k Q) as (q & E & H). rewrite E. cbn [bind fst snd].
    assert (Q' : queues_hold capacity (e_queues (set_queues w q)) ready (popped_from f k) l)
      by (destruct k; try contradiction; exact H).
    destruct (IH (set_queues w q) ready _ l Q') as (r & ER & P1 & P2). rewrite ER. cbn [bind].
    assert (PF : popped_from f k k = tl (f k)) by (unfold popped_from; rewrite kind_eqb_refl; reflexivity).
    rewrite PF in P1, P2.
    assert (HD : match k with TcpListener => Connection (hd accepted_default l) | _ => Descriptor (hd INVALID (f k)) end
                 = Descriptor (hd INVALID (f k))) by (destruct k; try contradiction; reflexivity).
    rewrite HD. eexists. split; [reflexivity|]. split.
    + intros d [X|X].
      * injection X as <-. destruct (f k); cbn; auto.
      * destruct (P1 d X) as [Y|Y]; [left; destruct (f k); [exact Y|right; exact Y]|auto].
    + intros L d X. destruct (f k) as [|y t] eqn:EF; [contradiction|]. cbn [hd tl length] in *.
      destruct X as [->|X]; [left; reflexivity|]. right. apply P2; [lia|exact X].
Qed.

Theorem C141_full_refuted capacity : (forall k, capacity k <> 0) ->
  let client := S (capacity TcpListener) in
  exists w, wrun capacity (wworld_new true) (connections_arrive client) = Ok w
    /\ wsock_at w client <> None
    /\ forall n, exists r, pops capacity TcpListener n (ww_common w) = Ok r
         /\ forall server, ~ In (Connection (Accepted server (Z.of_nat client))) r.
Proof.
  intros CAP client.
  assert (P : Forall listens (connections_arrive client)).
  { unfold connections_arrive. apply Forall_app. split; [repeat constructor|].
    apply Forall_concat. apply Forall_forall. intros x X. apply repeat_spec in X as ->. repeat constructor. }
  destruct (wrun_start capacity CAP _ P) as (w & ready & E & I). exists w. split; [exact E|].
  destruct (connections_spec capacity client) as (K & _ & _ & C). split.
  - pose proof (wsock_kind _ _ _ _ client I) as SK. unfold v_kind in SK. rewrite K in SK.
    assert (NT : nth_error (Some TcpListener :: repeat (Some TcpAccepted) client) client = Some (Some TcpAccepted)).
    { unfold client at 2. cbn [nth_error]. apply nth_error_repeat. unfold client. lia. }
    rewrite NT in SK.
    destruct SK as (m & nb & T & _). rewrite T. discriminate.
  - intros n. destruct (pops_connections capacity CAP n (ww_common w) ready _ _ (WI_queues _ _ _ _ I)) as (r & ER & X).
    exists r. split; [exact ER|]. intros server Y. apply X in Y as [Y|Y].
    + rewrite C in Y. apply in_map_iff in Y as (i & Y & S'). injection Y as _ Y. apply in_seq in S'. unfold client in *.
      rewrite Nat.min_r in S' by lia. apply SuccNat2Pos.inj in Y. lia.
    + unfold accepted_default in Y. injection Y as _ Y. unfold INVALID in Y. lia.
Qed.

(** Without a window every registration fails, and nothing is reported. *)
Theorem C141_no_window_partial capacity h w :
  wrun capacity (wworld_new false) h = Ok w ->
  ww_messages w = [] /\ forall fd error w' r, wadd capacity w fd error = Ok (w', r) -> (error = None -> r = (-1)%Z).
Proof.
  set (Q := fun w => ww_window w = false /\ ww_messages w = []
     /\ forall fd k, wsock_at w fd = Some k -> ws_mask k = []).
  assert (ST : forall c w w', Q w -> wstep capacity w c = Ok w' -> Q w').
  { intros c w0 w' (W & M & T) E. destruct c as [k ok|fd|fd er|fd er|fd e er|ok|k|n]; cbn [wstep] in E.
    - injection E as <-. split; [exact W|]. split; [exact M|]. intros fd k' X. unfold wsock_at in X. cbn [set_wtable ww_table] in X.
      destruct (nth_error (ww_table w0 ++ _) fd) as [[x|]|] eqn:N; try discriminate X. injection X as <-.
      apply nth_app_inv in N as [[L N]|[_ N]].
      + apply (T fd). unfold wsock_at. rewrite N. reflexivity.
      + injection N as ->. reflexivity.
    - injection E as <-. split; [exact W|]. split; [exact M|]. intros x k' X. apply (T x). unfold wsock_at in *. cbn [set_wtable ww_table] in X.
      destruct (Nat.eq_dec fd x) as [<-|N].
      + destruct (Nat.lt_ge_cases fd (length (ww_table w0))) as [L|L].
        * rewrite nth_error_upd_eq in X by exact L. discriminate X.
        * rewrite (proj2 (nth_error_None _ _)) in X; [discriminate X|]. rewrite upd_length. exact L.
      + rewrite nth_error_upd_neq in X by exact N. exact X.
    - unfold wadd in E. destruct (wsock_at w0 fd) as [k|] eqn:K; [|injection E as <-; split; auto].
      destruct (ensure_queue capacity _ _) as [q| |]; cbn [bind] in E; try discriminate E.
      cbn [set_common ww_window] in E. rewrite W in E. cbn [negb bind fst] in E. injection E as <-. split; auto.
    - injection E as <-. unfold wremove. destruct (wsock_at w0 fd); [|split; auto]. rewrite W. cbn. split; auto.
    - injection E as <-. unfold wmessage. destruct (wsock_at w0 fd) as [k|] eqn:K; [|split; auto].
      rewrite (T _ _ K). cbn. split; auto.
    - unfold wdispatch in E. rewrite M in E. injection E as <-. split; auto.
    - destruct (registrar_pop capacity (ww_common w0) k) as [r| |]; cbn [bind] in E; try discriminate E.
      injection E as <-. split; auto.
    - injection E as <-. split; auto. }
  assert (RUN : forall h w0 w, Q w0 -> wrun capacity w0 h = Ok w -> Q w).
  { clear h w. induction h as [|c h IH]; intros w0 w H E; cbn [wrun] in E; [injection E as <-; exact H|].
    destruct (wstep capacity w0 c) as [w1| |] eqn:E1; cbn [bind] in E; try discriminate E. eapply IH; [|exact E]. eapply ST; eauto. }
  intros E. apply RUN in E as (W & M & T).
  - split; [exact M|]. intros fd er w' r A N. subst er. unfold wadd in A.
    destruct (wsock_at w fd); [|injection A as _ <-; reflexivity].
    destruct (ensure_queue capacity _ _) as [q| |]; cbn [bind] in A; try discriminate A.
    cbn [set_common ww_window] in A. rewrite W in A. injection A as _ <-. reflexivity.
  - split; [reflexivity|]. split; [reflexivity|]. intros fd k X. destruct fd; discriminate X.
Qed.

Definition four (k : kind) : nat := 4.
Example C141_case :
  let h := [WCreate UdpServer true; WCreate TcpListener true; WCreate TcpClient true;
            WNotificator (Some 7); WAdd 0 None; WAdd 1 None; WAdd 2 None;
            WMessage 0 Read false; WMessage 2 Write false; WMessage 1 Accept false; WMessage 2 Close false;
            WDispatch true; WDispatch true; WDispatch true; WClose 2; WDispatch true] in
  Forall listens h
  /\ v_notes (wactual_run four h) = [7; 7; 7]
  /\ wexpected_pop (wactual_run four h) TcpListener = Connection (Accepted 1 3)
  /\ wexpected_pop (wactual_run four h) TcpClient = Descriptor 2
  /\ wexpected_pop (wactual_run four h) UdpServer = Descriptor 0
  /\ wexpected_pop (wactual_run four h) UdpClient = Descriptor INVALID.
Proof. split; [repeat constructor|]. repeat split; reflexivity. Qed.

(** ** C142: data that has arrived is not forgotten *)

Lemma uhistory_run capacity h : forall s,
  u_sock (fold_left (uideal_step capacity) h s) = fst (uhistory (u_sock s) h)
  /\ u_lib (fold_left (uideal_step capacity) h s)
     = fold_left (wactual_step capacity) (snd (uhistory (u_sock s) h)) (u_lib s).
Proof.
  induction h as [|c h IH]; intros s; [split; reflexivity|]. cbn [fold_left uhistory].
  destruct (IH (uideal_step capacity s c)) as [A B]. rewrite A, B. unfold uideal_step.
  destruct (ustep (u_sock s) c) as [k l]. cbn [u_sock u_lib].
  destruct (uhistory k h) as [k' l']. cbn [fst snd]. rewrite fold_left_app. split; reflexivity.
Qed.

Lemma put_flag_same f fd b : put_flag f fd b fd = b.
Proof. unfold put_flag. rewrite Nat.eqb_refl. reflexivity. Qed.
Lemma put_flag_other f fd b x : x <> fd -> put_flag f fd b x = f x.
Proof. intros N. unfold put_flag. destruct (Nat.eqb_spec x fd); [contradiction|reflexivity]. Qed.

Record uinv (s : uideal) : Prop := {
  UI_kinds : forall x, In x (v_kinds (u_lib s)) -> exists k, x = Some k /\ k <> TcpListener;
  UI_asked : forall fd, asked (u_sock s) fd = v_registered (u_lib s) fd;
  UI_on : forall fd, v_registered (u_lib s) fd = true -> fd < length (v_kinds (u_lib s));
  UI_wait : forall fd e b, In (fd, e, b) (v_wait (u_lib s)) -> b = false /\ fd < length (v_kinds (u_lib s));
  UI_class : forall k d, In d (v_queue (u_lib s) k) -> v_kind (u_lib s) (Z.to_nat d) = Some k
     /\ d = Z.of_nat (Z.to_nat d);
  UI_armed : forall fd, asked (u_sock s) fd = true -> armed (u_sock s) fd = true -> unread (u_sock s) fd = false;
  UI_posted : forall fd k, v_kind (u_lib s) fd = Some k ->
    asked (u_sock s) fd = true -> armed (u_sock s) fd = false ->
    u_told s fd = true \/ In (Z.of_nat fd) (v_queue (u_lib s) k) \/ In (fd, Read, false) (v_wait (u_lib s))
}.

Lemma uinv_start : uinv uideal_start.
Proof. constructor; cbn; try contradiction; try discriminate; auto. Qed.

Lemma known s fd : uinv s -> fd < length (v_kinds (u_lib s)) ->
  exists k, nth_error (v_kinds (u_lib s)) fd = Some (Some k) /\ k <> TcpListener.
Proof.
  intros I L. destruct (nth_error (v_kinds (u_lib s)) fd) as [x|] eqn:E; [|apply nth_error_None in E; lia].
  destruct (UI_kinds _ I x) as (k & -> & N); [eapply nth_error_In; eauto|]. eauto.
Qed.
Lemma known_kind s fd : uinv s -> fd < length (v_kinds (u_lib s)) ->
  exists k, v_kind (u_lib s) fd = Some k /\ k <> TcpListener.
Proof. intros I L. destruct (known s fd I L) as (k & E & N). exists k. unfold v_kind. rewrite E. auto. Qed.

(** What a message does to the specification. *)
Lemma spec_message capacity v fd e k : v_kind v fd = Some k -> v_registered v fd = true -> wanted k e = true ->
  wactual_step capacity v (WMessage fd e false)
  = WIdeal (v_kinds v) (v_on v) (v_wait v ++ [(fd, e, false)]) (v_queue v) (v_connections v) (v_note v) (v_notes v).
Proof. intros K R W. cbn [wactual_step]. rewrite K, R, W. reflexivity. Qed.
Lemma wanted_rw k e : k <> TcpListener -> e = Read \/ e = Write -> wanted k e = true.
Proof. intros N [-> | ->]; destruct k; try reflexivity; contradiction. Qed.

(** After [due], from a state in which only the armed sockets may wait for FD_READ. *)
Lemma due_ok capacity v sock told fd k :
  v_kind v fd = Some k -> k <> TcpListener -> fd < length (v_kinds v) ->
  (forall x, In x (v_kinds v) -> exists k, x = Some k /\ k <> TcpListener) ->
  (forall x, asked sock x = v_registered v x) ->
  (forall x, v_registered v x = true -> x < length (v_kinds v)) ->
  (forall x e b, In (x, e, b) (v_wait v) -> b = false /\ x < length (v_kinds v)) ->
  (forall k d, In d (v_queue v k) -> v_kind v (Z.to_nat d) = Some k /\ d = Z.of_nat (Z.to_nat d)) ->
  (forall x, x <> fd -> asked sock x = true -> armed sock x = true -> unread sock x = false) ->
  (forall x k, v_kind v x = Some k -> asked sock x = true -> armed sock x = false ->
     told x = true \/ In (Z.of_nat x) (v_queue v k) \/ In (x, Read, false) (v_wait v)) ->
  let (sock', l) := due sock fd in
  uinv (UIdeal (fold_left (wactual_step capacity) l v) sock' told).
Proof.
  intros K N L H1 H2 H3 H4 H5 H6 H7. unfold due.
  destruct (asked sock fd && armed sock fd && unread sock fd) eqn:D.
  - apply andb_true_iff in D as [D U]. apply andb_true_iff in D as [A R].
    cbn [fold_left]. rewrite (spec_message capacity v fd Read k K); [|rewrite <- H2; exact A|apply wanted_rw; auto].
    constructor; cbn [u_lib u_sock u_told v_kinds v_wait v_queue asked armed unread]; auto.
    + intros x e b X. apply in_app_or in X as [X|[X|[]]]; [eauto|]. injection X as <- <- <-. auto.
    + intros x X Y. destruct (Nat.eq_dec x fd) as [->|M].
      * rewrite put_flag_same in Y. discriminate Y.
      * rewrite put_flag_other in Y by exact M. auto.
    + intros x k' X Y Z0. destruct (Nat.eq_dec x fd) as [->|M].
      * right. right. apply in_or_app. right. left. reflexivity.
      * rewrite put_flag_other in Z0 by exact M. destruct (H7 x k' X Y Z0) as [Q|[Q|Q]]; auto.
        right. right. apply in_or_app. auto.
  - cbn [fold_left]. constructor; cbn [u_lib u_sock u_told]; auto.
    intros x X Y. destruct (Nat.eq_dec x fd) as [->|M]; [|auto].
    rewrite X, Y in D. exact D.
Qed.

Lemma uinv_step capacity s c : uinv s -> uproper capacity s c -> uinv (uideal_step capacity s c).
Proof.
  intros I P. pose proof I as [H1 H2 H3 H4 H5 H6 H7].
  destruct c as [k|fd|fd|fd|fd more| |k]; cbn [uproper] in P; unfold uideal_step; cbn [ustep].
  - (* create *)
    cbn [fold_left wactual_step].
    assert (NR : asked (u_sock s) (length (v_kinds (u_lib s))) = false).
    { rewrite H2. destruct (v_registered (u_lib s) (length (v_kinds (u_lib s)))) eqn:R; [|reflexivity].
      apply H3 in R. lia. }
    assert (VK : forall fd, fd < length (v_kinds (u_lib s)) ->
      v_kind (WIdeal (v_kinds (u_lib s) ++ [Some k]) (v_on (u_lib s)) (v_wait (u_lib s)) (v_queue (u_lib s))
                (v_connections (u_lib s)) (v_note (u_lib s)) (v_notes (u_lib s))) fd = v_kind (u_lib s) fd).
    { intros fd L. eapply v_kind_app; [reflexivity|exact L]. }
    constructor; cbn [u_lib u_sock u_told v_kinds v_wait v_queue].
    + intros x X. apply in_app_or in X as [X|[X|[]]]; [auto|]. subst x. eauto.
    + exact H2.
    + intros fd R. rewrite app_length. apply H3 in R. lia.
    + intros fd e b X. rewrite app_length. destruct (H4 _ _ _ X) as [A B]. split; [exact A|lia].
    + intros k' d X. destruct (H5 k' d X) as [A B]. split; [|exact B].
      rewrite VK; [exact A|]. unfold v_kind in A. apply nth_error_Some. destruct (nth_error _ _); discriminate.
    + exact H6.
    + intros fd k' A B C. destruct (Nat.lt_ge_cases fd (length (v_kinds (u_lib s)))) as [L|L].
      * rewrite VK in A by exact L. auto.
      * exfalso. unfold v_kind in A. cbn [v_kinds] in A.
        destruct (nth_error (v_kinds (u_lib s) ++ [Some k]) fd) as [x|] eqn:E; [|discriminate A].
        apply nth_app_inv in E as [[? _]|[-> _]]; [lia|]. congruence.
  - (* add *)
    destruct (known s fd I P) as (k & KN & N).
    assert (K : v_kind (u_lib s) fd = Some k) by (unfold v_kind; rewrite KN; reflexivity).
    set (sock := Winsock (unread (u_sock s)) (put_flag (armed (u_sock s)) fd true) (put_flag (asked (u_sock s)) fd true)).
    set (v := WIdeal (v_kinds (u_lib s)) (fd :: v_on (u_lib s)) (v_wait (u_lib s) ++ [(fd, Write, false)]) (v_queue (u_lib s))
                (v_connections (u_lib s)) (v_note (u_lib s)) (v_notes (u_lib s))).
    assert (RG : forall x, v_registered v x = (x =? fd) || v_registered (u_lib s) x) by reflexivity.
    pose proof (due_ok capacity v sock (put_flag (u_told s) fd false) fd k K N P) as D.
    assert (E0 : fold_left (wactual_step capacity) [WAdd fd None; WMessage fd Write false] (u_lib s) = v).
    { cbn [fold_left]. rewrite (spec_message capacity _ fd Write k).
      - cbn [wactual_step]. rewrite K. reflexivity.
      - cbn [wactual_step]. rewrite K. exact K.
      - cbn [wactual_step]. rewrite K. unfold v_registered. cbn [v_on existsb]. rewrite Nat.eqb_refl. reflexivity.
      - apply wanted_rw; auto. }
    assert (E1 : forall m, fold_left (wactual_step capacity) (WAdd fd None :: WMessage fd Write false :: m) (u_lib s)
                 = fold_left (wactual_step capacity) m v).
    { intros m. change (WAdd fd None :: WMessage fd Write false :: m) with ([WAdd fd None; WMessage fd Write false] ++ m).
      rewrite fold_left_app, E0. reflexivity. }
    destruct (due sock fd) as [sock' m]. rewrite E1. apply D.
    + exact H1.
    + intros x. rewrite RG. unfold sock, put_flag. cbn [asked]. destruct (x =? fd); [reflexivity|]. apply H2.
    + intros x R. rewrite RG in R. destruct (Nat.eqb_spec x fd) as [E2|M]; [rewrite E2; exact P|]. apply H3, R.
    + intros x e b X. cbn [v_wait v] in X. apply in_app_or in X as [X|[X|[]]]; [apply H4 in X; exact X|].
      injection X as <- <- <-. auto.
    + exact H5.
    + intros x M A B. unfold sock in A, B |- *. cbn [asked armed unread] in *. rewrite put_flag_other in A, B by exact M. auto.
    + intros x k' A B C. unfold sock in B, C. cbn [asked armed] in B, C.
      destruct (Nat.eq_dec x fd) as [->|M]; [rewrite put_flag_same in C; discriminate C|].
      rewrite put_flag_other in B, C by exact M. rewrite put_flag_other by exact M.
      destruct (H7 x k' A B C) as [Q|[Q|Q]]; auto. right. right. cbn [v_wait v]. apply in_or_app. auto.
  - (* remove *)
    destruct (known_kind s fd I P) as (k & K & N).
    cbn [fold_left wactual_step]. rewrite K.
    set (v := WIdeal _ _ _ _ _ _ _).
    assert (RG : forall x, v_registered v x = negb (x =? fd) && v_registered (u_lib s) x)
      by (intros; apply v_registered_remove; reflexivity).
    constructor; cbn [u_lib u_sock u_told asked armed unread]; auto.
    + intros x. rewrite RG. unfold put_flag. destruct (x =? fd); [reflexivity|]. apply H2.
    + intros x R. rewrite RG in R. apply andb_true_iff in R as [_ R]. apply H3, R.
    + intros x A B. destruct (Nat.eq_dec x fd) as [->|M]; [rewrite put_flag_same in A; discriminate A|].
      rewrite put_flag_other in A by exact M. auto.
    + intros x k' A B C. destruct (Nat.eq_dec x fd) as [->|M]; [rewrite put_flag_same in B; discriminate B|].
      rewrite put_flag_other in B by exact M. exact (H7 x k' A B C).
  - (* data *)
    destruct (known_kind s fd I P) as (k & K & N).
    set (sock := Winsock (put_flag (unread (u_sock s)) fd true) (armed (u_sock s)) (asked (u_sock s))).
    pose proof (due_ok capacity (u_lib s) sock (u_told s) fd k K N P) as D.
    destruct (due sock fd) as [sock' m]. apply D; auto.
    intros x M A B. unfold sock. cbn [unread]. rewrite put_flag_other by exact M. auto.
  - (* receive *)
    destruct (known_kind s fd I P) as (k & K & N).
    set (sock := Winsock (put_flag (unread (u_sock s)) fd (unread (u_sock s) fd && more))
                   (put_flag (armed (u_sock s)) fd true) (asked (u_sock s))).
    pose proof (due_ok capacity (u_lib s) sock (put_flag (u_told s) fd false) fd k K N P) as D.
    destruct (due sock fd) as [sock' m]. apply D; auto.
    + intros x M A B. unfold sock in *. cbn [unread armed asked] in *. rewrite put_flag_other in B by exact M.
      rewrite put_flag_other by exact M. auto.
    + intros x k' A B C. unfold sock in *. cbn [armed asked] in *.
      destruct (Nat.eq_dec x fd) as [->|M]; [rewrite put_flag_same in C; discriminate C|].
      rewrite put_flag_other in C by exact M. rewrite put_flag_other by exact M. eauto.
  - (* dispatch *)
    cbn [fold_left wactual_step]. destruct (v_wait (u_lib s)) as [|[[fd e] b] rest] eqn:W.
    + constructor; cbn [u_lib u_sock u_told]; rewrite ?W; auto.
    + destruct (H4 fd e b (or_introl eq_refl)) as [-> L].
      destruct (known_kind s fd I L) as (k & K & N). rewrite K in P. rewrite K.
      assert (LT : (length (v_queue (u_lib s) k) <? capacity k) = true) by (apply Nat.ltb_lt; exact P).
      set (notes := v_notes (u_lib s) ++ match v_note (u_lib s) with Some n => [n] | None => [] end).
      set (g := fun k' => if kind_eqb k' k then v_queue (u_lib s) k' ++ [Z.of_nat fd] else v_queue (u_lib s) k').
      assert (U : uinv (UIdeal (WIdeal (v_kinds (u_lib s)) (v_on (u_lib s)) rest g
                      (v_connections (u_lib s)) (v_note (u_lib s)) notes) (u_sock s) (u_told s))).
      { constructor; cbn [u_lib u_sock u_told v_kinds v_wait v_queue]; auto.
        - intros x e' b X. apply (H4 x e' b). right. exact X.
        - intros k' d X. unfold g in X. destruct (kind_eqb k' k) eqn:Q; [|apply H5 in X; exact X].
          apply in_app_or in X as [X|[X|[]]]; [apply H5 in X; exact X|]. subst d.
          assert (k' = k) as -> by (destruct k', k; try discriminate Q; reflexivity).
          rewrite Nat2Z.id. split; [exact K|reflexivity].
        - intros x k' A B C. destruct (H7 x k' A B C) as [Q|[Q|Q]]; auto.
          + right. left. unfold g. destruct (kind_eqb k' k); [apply in_or_app|]; auto.
          + destruct Q as [Q|Q]; [|auto]. injection Q as -> _. right. left. unfold g.
            unfold v_kind in A, K. cbn [v_kinds] in A. rewrite K in A. injection A as <-. rewrite kind_eqb_refl.
            apply in_or_app. right. left. reflexivity. }
      assert (EG : uinv (UIdeal (WIdeal (v_kinds (u_lib s)) (v_on (u_lib s)) rest
                      (fun k' => if kind_eqb k' k && (length (v_queue (u_lib s) k) <? capacity k)
                                 then v_queue (u_lib s) k' ++ [Z.of_nat fd] else v_queue (u_lib s) k')
                      (v_connections (u_lib s)) (v_note (u_lib s)) notes) (u_sock s) (u_told s))).
      { rewrite LT. destruct U as [X1 X2 X3 X4 X5 X6 X7].
        constructor; cbn [u_lib u_sock u_told v_kinds v_wait v_queue] in *; auto.
        - intros k' d X. apply (X5 k' d). unfold g. rewrite andb_true_r in X. exact X.
        - intros x k' A B C. rewrite andb_true_r. exact (X7 x k' A B C). }
      destruct k; try contradiction; exact EG.
  - (* pop *)
    cbn [fold_left wactual_step].
    assert (G : uinv (UIdeal (WIdeal (v_kinds (u_lib s)) (v_on (u_lib s)) (v_wait (u_lib s))
                     (fun k' => if kind_eqb k' k then tl (v_queue (u_lib s) k') else v_queue (u_lib s) k')
                     (v_connections (u_lib s)) (v_note (u_lib s)) (v_notes (u_lib s))) (u_sock s)
                     (match v_queue (u_lib s) k with d :: _ => put_flag (u_told s) (Z.to_nat d) true | [] => u_told s end))).
    { constructor; cbn [u_lib u_sock u_told v_kinds v_wait v_queue]; auto.
      - intros k' d X. apply (H5 k' d). destruct (kind_eqb k' k); [|exact X].
        destruct (v_queue (u_lib s) k'); [contradiction|right; exact X].
      - intros x k' A B C. destruct (H7 x k' A B C) as [Q|[Q|Q]]; auto.
        + left. destruct (v_queue (u_lib s) k); [exact Q|]. unfold put_flag. destruct (x =? _); auto.
        + destruct (kind_eqb k' k) eqn:E; [|auto].
          assert (k' = k) as -> by (destruct k', k; try discriminate E; reflexivity).
          destruct (v_queue (u_lib s) k) as [|d t]; [contradiction|]. destruct Q as [Q|Q]; [|auto].
          left. subst d. rewrite Nat2Z.id. apply put_flag_same. }
    destruct k; try contradiction; exact G.
Qed.
Lemma uinv_run capacity h : forall s, uinv s -> uproper_history capacity s h ->
  uinv (fold_left (uideal_step capacity) h s).
Proof.
  induction h as [|c h IH]; intros s I P; [exact I|]. destruct P as [P1 P2]. cbn [fold_left].
  apply IH; [apply uinv_step; assumption|exact P2].
Qed.
Lemma ulistens h : forall s, Forall listens (snd (uhistory s h)).
Proof.
  induction h as [|c h IH]; intros s; [constructor|]. cbn [uhistory].
  assert (D : forall s fd, Forall listens (snd (due s fd))).
  { intros s0 fd. unfold due. destruct (_ && _); repeat constructor. }
  destruct (ustep s c) as [s' l] eqn:E. destruct (uhistory s' h) as [s'' l'] eqn:E'. cbn [snd].
  apply Forall_app. split; [|specialize (IH s'); rewrite E' in IH; exact IH].
  destruct c; cbn [ustep] in E;
    try (match type of E with context [due ?a ?b] => specialize (D a b); destruct (due a b) end);
    injection E as <- <-; cbn [snd] in *; repeat constructor; auto.
Qed.

(** If there is room in the queues when events are dispatched: whenever there is something to
    read at a registered socket, the program was told of it and has not received since, or it
    is in the queue for its class, or the message is waiting to be dispatched. *)
Theorem C142_not_forgotten_partial capacity h :
  (forall k, capacity k <> 0) -> uproper_history capacity uideal_start h ->
  let (sock, calls) := uhistory winsock_new h in
  exists w, wrun capacity (wworld_new true) calls = Ok w
    /\ forall fd, asked sock fd = true -> unread sock fd = true ->
         u_told (uideal_run capacity h) fd = true
         \/ (exists k n r, pops capacity k n (ww_common w) = Ok r /\ In (Descriptor (Z.of_nat fd)) r)
         \/ In (fd, Read, false) (ww_messages w).
Proof.
  intros CAP P. pose proof (uinv_run capacity h _ uinv_start P) as I.
  destruct (uhistory_run capacity h uideal_start) as [ES EL]. change (u_sock uideal_start) with winsock_new in *.
  pose proof (ulistens h winsock_new) as LS.
  destruct (uhistory winsock_new h) as [sock calls]. cbn [fst snd] in *.
  destruct (wrun_start capacity CAP calls LS) as (w & ready & E & WI). exists w. split; [exact E|].
  change (wactual_run capacity calls) with (fold_left (wactual_step capacity) calls wideal_start) in WI.
  change (u_lib uideal_start) with wideal_start in EL. rewrite <- EL in WI. fold (uideal_run capacity h) in *.
  rewrite <- ES. intros fd A U.
  assert (AR : armed (u_sock (uideal_run capacity h)) fd = false).
  { destruct (armed (u_sock (uideal_run capacity h)) fd) eqn:R; [|reflexivity].
    rewrite (UI_armed _ I fd A R) in U. discriminate U. }
  assert (L : fd < length (v_kinds (u_lib (uideal_run capacity h)))).
  { apply (UI_on _ I). rewrite <- (UI_asked _ I). exact A. }
  destruct (known_kind _ fd I L) as (k & K & N).
  destruct (UI_posted _ I fd k K A AR) as [Q|[Q|Q]]; auto.
  - right. left. exists k, (length (v_queue (u_lib (uideal_run capacity h)) k)).
    destruct (pops_descriptors capacity CAP k N (length (v_queue (u_lib (uideal_run capacity h)) k)) (ww_common w) ready _ _
                (WI_queues _ _ _ _ WI)) as (r & ER & _ & X).
    exists r. split; [exact ER|]. apply X; auto.
  - right. right. rewrite (WI_messages _ _ _ _ WI). exact Q.
Qed.

(** If the queue is full when the event is dispatched, the data is forgotten for good: however
    much more arrives at the socket, no message is posted and no pop gives it. *)
Definition fill (k : kind) (n : nat) : list ucall :=
  [UCreate k; UCreate k] ++ concat (repeat [UAdd 0; UDispatch] n).
Definition forgotten (k : kind) (cap : nat) (more : nat) : list ucall :=
  fill k cap ++ [UAdd 1; UData 1; UDispatch; UDispatch] ++ repeat (UPop k) cap ++ repeat (UData 1) more.

Lemma uideal_app capacity h1 h2 :
  uideal_run capacity (h1 ++ h2) = fold_left (uideal_step capacity) h2 (uideal_run capacity h1).
Proof. unfold uideal_run. apply fold_left_app. Qed.
Lemma add_spec capacity k fd ks on wt qu cn nt ns un ar as_ told :
  nth_error ks fd = Some (Some k) -> k <> TcpListener ->
  uideal_step capacity (UIdeal (WIdeal ks on wt qu cn nt ns) (Winsock un ar as_) told) (UAdd fd)
  = UIdeal (WIdeal ks (fd :: on) (wt ++ (fd, Write, false) :: (if un fd then [(fd, Read, false)] else [])) qu cn nt ns)
      (Winsock un (if un fd then put_flag (put_flag ar fd true) fd false else put_flag ar fd true) (put_flag as_ fd true))
      (put_flag told fd false).
Proof.
  intros K N. unfold uideal_step. cbn [ustep u_sock unread armed asked]. unfold due.
  cbn [asked armed unread]. rewrite !put_flag_same. cbn [andb].
  assert (W : wanted k Write = true) by (apply wanted_rw; auto).
  assert (R : wanted k Read = true) by (apply wanted_rw; auto).
  assert (A : wactual_step capacity (WIdeal ks on wt qu cn nt ns) (WAdd fd None) = WIdeal ks (fd :: on) wt qu cn nt ns).
  { cbn [wactual_step]. unfold v_kind. cbn [v_kinds]. rewrite K. reflexivity. }
  assert (KK : forall o w, v_kind (WIdeal ks o w qu cn nt ns) fd = Some k).
  { intros. unfold v_kind. cbn [v_kinds]. rewrite K. reflexivity. }
  assert (RR : forall w, v_registered (WIdeal ks (fd :: on) w qu cn nt ns) fd = true).
  { intros. unfold v_registered. cbn [v_on existsb]. rewrite Nat.eqb_refl. reflexivity. }
  assert (M : forall w e, wanted k e = true -> wactual_step capacity (WIdeal ks (fd :: on) w qu cn nt ns) (WMessage fd e false)
              = WIdeal ks (fd :: on) (w ++ [(fd, e, false)]) qu cn nt ns).
  { intros w e WE. cbn [wactual_step]. rewrite KK, RR, WE. reflexivity. }
  destruct (un fd); cbn [fold_left u_lib u_told]; rewrite A, !M by assumption; [rewrite <- app_assoc|]; reflexivity.
Qed.
Lemma dispatch_spec capacity k fd e ks on rest qu cn nt ns sock told :
  nth_error ks fd = Some (Some k) -> k <> TcpListener ->
  uideal_step capacity (UIdeal (WIdeal ks on ((fd, e, false) :: rest) qu cn nt ns) sock told) UDispatch
  = UIdeal (WIdeal ks on rest
      (fun k' => if kind_eqb k' k && (length (qu k) <? capacity k) then qu k' ++ [Z.of_nat fd] else qu k') cn nt
      (ns ++ match nt with Some n => [n] | None => [] end)) sock told.
Proof.
  intros K N. unfold uideal_step. cbn [ustep u_sock fold_left u_lib wactual_step v_wait v_note v_notes v_queue v_connections v_kinds v_on].
  unfold v_kind. cbn [v_kinds]. rewrite K. destruct k; try contradiction; reflexivity.
Qed.
Lemma pop_spec capacity k ks on wt qu cn nt ns sock told : k <> TcpListener ->
  uideal_step capacity (UIdeal (WIdeal ks on wt qu cn nt ns) sock told) (UPop k)
  = UIdeal (WIdeal ks on wt (fun k' => if kind_eqb k' k then tl (qu k') else qu k') cn nt ns) sock
      (match qu k with d :: _ => put_flag told (Z.to_nat d) true | [] => told end).
Proof. intros N. destruct k; try contradiction; reflexivity. Qed.
Lemma data_spec capacity ks on wt qu cn nt ns un ar as_ told fd : ar fd = false ->
  uideal_step capacity (UIdeal (WIdeal ks on wt qu cn nt ns) (Winsock un ar as_) told) (UData fd)
  = UIdeal (WIdeal ks on wt qu cn nt ns) (Winsock (put_flag un fd true) ar as_) told.
Proof.
  intros A. unfold uideal_step. cbn [ustep u_sock unread armed asked]. unfold due. cbn [armed].
  rewrite A, andb_false_r. reflexivity.
Qed.
Lemma data_armed_spec capacity k ks on wt qu cn nt ns un ar as_ told fd :
  nth_error ks fd = Some (Some k) -> k <> TcpListener -> ar fd = true -> as_ fd = true ->
  existsb (Nat.eqb fd) on = true ->
  uideal_step capacity (UIdeal (WIdeal ks on wt qu cn nt ns) (Winsock un ar as_) told) (UData fd)
  = UIdeal (WIdeal ks on (wt ++ [(fd, Read, false)]) qu cn nt ns) (Winsock (put_flag un fd true) (put_flag ar fd false) as_) told.
Proof.
  intros K N A B O. unfold uideal_step. cbn [ustep u_sock unread armed asked]. unfold due. cbn [armed asked unread].
  rewrite A, B, put_flag_same. cbn [andb fold_left u_lib].
  rewrite (spec_message capacity _ fd Read k); [reflexivity| | |apply wanted_rw; auto].
  - unfold v_kind. cbn [v_kinds]. rewrite K. reflexivity.
  - exact O.
Qed.
Lemma fill_spec capacity k n : k <> TcpListener -> n <= capacity k ->
  let s := uideal_run capacity (fill k n) in
  v_kinds (u_lib s) = [Some k; Some k] /\ v_wait (u_lib s) = []
  /\ v_queue (u_lib s) k = repeat 0%Z n
  /\ unread (u_sock s) 0 = false /\ unread (u_sock s) 1 = false /\ u_told s 1 = false.
Proof.
  intros N. induction n as [|n IH]; intros L.
  - cbn. auto 10.
  - assert (E : fill k (S n) = fill k n ++ [UAdd 0; UDispatch]).
    { unfold fill. rewrite <- app_assoc. f_equal. clear. induction n as [|n IH]; [reflexivity|].
      cbn [repeat concat] in *. cbn [app] in *. do 2 f_equal. exact IH. }
    cbv zeta. rewrite E, uideal_app. specialize (IH ltac:(lia)). cbv zeta in IH.
    set (s := uideal_run capacity (fill k n)) in *. clearbody s. destruct s as [[ks on wt qu cn nt ns] [un ar as_] told].
    cbn [u_lib u_sock u_told v_kinds v_wait v_queue unread] in IH. destruct IH as (-> & -> & Q & U0 & U1 & T1).
    assert (LT : (length (qu k) <? capacity k) = true).
    { apply Nat.ltb_lt. rewrite Q, repeat_length. lia. }
    cbn [fold_left].
    rewrite (add_spec capacity k 0 [Some k; Some k] on [] qu cn nt ns un ar as_ told) by (auto; reflexivity).
    rewrite U0. cbn [andb app].
    rewrite (dispatch_spec capacity k 0 Write) by (auto; reflexivity).
    cbn [u_lib u_sock u_told v_kinds v_wait v_queue unread]. rewrite kind_eqb_refl, LT, Q. cbn [andb].
    split; [reflexivity|]. split; [reflexivity|]. split; [symmetry; apply (repeat_cons n 0%Z)|]. auto.
Qed.

Theorem C142_full_refuted capacity k more :
  (forall k, capacity k <> 0) -> k <> TcpListener ->
  let h := forgotten k (capacity k) more in
  let (sock, calls) := uhistory winsock_new h in
  asked sock 1 = true /\ unread sock 1 = true
  /\ u_told (uideal_run capacity h) 1 = false
  /\ exists w, wrun capacity (wworld_new true) calls = Ok w
    /\ ww_messages w = []
    /\ forall n, exists r, pops capacity k n (ww_common w) = Ok r /\ forall d, In (Descriptor d) r -> d = INVALID.
Proof.
  intros CAP N h.
  assert (SP : let s := uideal_run capacity h in
    asked (u_sock s) 1 = true /\ unread (u_sock s) 1 = true /\ u_told s 1 = false
    /\ v_wait (u_lib s) = [] /\ v_queue (u_lib s) k = []).
  { unfold h, forgotten. cbv zeta. rewrite uideal_app, fold_left_app.
    destruct (fill_spec capacity k (capacity k) N (le_n _)) as (F1 & F2 & F3 & F4 & F5 & F6).
    set (s := uideal_run capacity (fill k (capacity k))) in *. clearbody s. destruct s as [[ks on wt qu cn nt ns] [un ar as_] told].
    cbn [u_lib u_sock u_told v_kinds v_wait v_queue unread] in F1, F2, F3, F4, F5, F6. subst ks wt.
    assert (LT : (length (qu k) <? capacity k) = false).
    { apply Nat.ltb_ge. rewrite F3, repeat_length. lia. }
    cbn [fold_left]. rewrite (add_spec capacity k 1) by (auto; reflexivity). rewrite F5. cbn [app].
    rewrite (data_armed_spec capacity k) by (auto; reflexivity). cbn [app].
    rewrite (dispatch_spec capacity k 1 Write) by (auto; reflexivity). rewrite LT.
    rewrite (dispatch_spec capacity k 1 Read) by (auto; reflexivity).
    rewrite kind_eqb_refl, andb_false_r, LT.
    set (q2 := fun k' : kind => _).
    assert (Q2 : q2 k = repeat 0%Z (capacity k)).
    { unfold q2. rewrite !andb_false_r. exact F3. }
    clearbody q2. clear F3 LT.
    set (ar' := put_flag (put_flag ar 1 true) 1 false).
    assert (AR : ar' 1 = false) by reflexivity. clearbody ar'.
    assert (TD : put_flag told 1 false 1 = false) by reflexivity.
    set (told' := put_flag told 1 false) in *. clearbody told'.
    set (as' := put_flag as_ 1 true). assert (AS : as' 1 = true) by reflexivity. clearbody as'.
    set (un' := put_flag un 1 true). assert (UN : un' 1 = true) by reflexivity. clearbody un'.
    set (nss := (_ ++ _) ++ _). clearbody nss. set (on' := 1 :: on). clearbody on'.
    rewrite fold_left_app.
    assert (POP : forall m q td, q k = repeat 0%Z m -> td 1 = false -> exists q' td', q' k = [] /\ td' 1 = false
      /\ fold_left (uideal_step capacity) (repeat (UPop k) m)
           (UIdeal (WIdeal [Some k; Some k] on' [] q cn nt nss) (Winsock un' ar' as') td)
         = UIdeal (WIdeal [Some k; Some k] on' [] q' cn nt nss) (Winsock un' ar' as') td').
    { induction m as [|m IHm]; intros q td Q T; [exists q, td; auto|]. cbn [repeat fold_left].
      rewrite (pop_spec capacity k) by exact N. rewrite Q. cbn [repeat].
      apply IHm; [rewrite kind_eqb_refl, Q; reflexivity|]. unfold put_flag. cbn. exact T. }
    destruct (POP _ q2 told' Q2 TD) as (q' & td' & Q' & T' & EQ). rewrite EQ.
    assert (DATA : forall m u, u 1 = true -> exists u', u' 1 = true /\
      fold_left (uideal_step capacity) (repeat (UData 1) m)
           (UIdeal (WIdeal [Some k; Some k] on' [] q' cn nt nss) (Winsock u ar' as') td')
      = UIdeal (WIdeal [Some k; Some k] on' [] q' cn nt nss) (Winsock u' ar' as') td').
    { induction m as [|m IHm]; intros u U; [exists u; auto|]. cbn [repeat fold_left].
      rewrite (data_spec capacity) by exact AR. apply IHm. reflexivity. }
    destruct (DATA more un' UN) as (u' & U' & EQ2). rewrite EQ2. cbn [u_sock u_lib u_told asked unread v_wait v_queue]. auto. }
  cbv zeta in SP. destruct SP as (S1 & S2 & S3 & S4 & S5).
  destruct (uhistory_run capacity h uideal_start) as [ES EL]. change (u_sock uideal_start) with winsock_new in *.
  pose proof (ulistens h winsock_new) as LS. fold (uideal_run capacity h) in ES, EL.
  destruct (uhistory winsock_new h) as [sock calls]. cbn [fst snd] in *.
  rewrite ES in S1, S2. split; [exact S1|]. split; [exact S2|]. split; [exact S3|].
  destruct (wrun_start capacity CAP calls LS) as (w & ready & E & WI). exists w. split; [exact E|].
  change (wactual_run capacity calls) with (fold_left (wactual_step capacity) calls (u_lib uideal_start)) in WI.
  rewrite <- EL in WI. split; [rewrite (WI_messages _ _ _ _ WI); exact S4|].
  intros n. destruct (pops_descriptors capacity CAP k N n (ww_common w) ready _ _ (WI_queues _ _ _ _ WI)) as (r & ER & X & _).
  exists r. split; [exact ER|]. intros d Y. apply X in Y as [Y|Y]; [|exact Y]. rewrite S5 in Y. contradiction.
Qed.

Example C142_case :
  let h := [UCreate UdpServer; UCreate TcpClient; UAdd 0; UAdd 1; UData 1; UData 0; UDispatch; UDispatch;
            UPop TcpClient; UReceive 1 false; UData 1] in
  uproper_history four uideal_start h
  /\ asked (fst (uhistory winsock_new h)) 1 = true /\ unread (fst (uhistory winsock_new h)) 1 = true
  /\ u_told (uideal_run four h) 1 = false.
Proof. cbn. unfold four. repeat split; try discriminate; lia. Qed.

(** ** C143: a socket taken from the queue has something to read *)

(** It does not: registering a socket makes winsock report that it can be written to, and it is
    put in the queue, and the notificator called, though nothing has arrived. *)
Theorem C143_writable_refuted capacity k :
  (forall k, capacity k <> 0) -> k <> TcpListener ->
  let (sock, calls) := uhistory winsock_new [UCreate k; UAdd 0; UDispatch] in
  unread sock 0 = false
  /\ exists w c, wrun capacity (wworld_new true) calls = Ok w
       /\ registrar_pop capacity (ww_common w) k = Ok (c, Descriptor 0).
Proof.
  intros CAP N. set (h := [UCreate k; UAdd 0; UDispatch]).
  assert (EH : uhistory winsock_new h = (fst (uhistory winsock_new h), [WCreate k true; WAdd 0 None; WMessage 0 Write false; WDispatch true])) by reflexivity.
  rewrite EH. split; [reflexivity|].
  set (calls := [WCreate k true; WAdd 0 None; WMessage 0 Write false; WDispatch true]).
  assert (P : Forall listens calls) by (repeat constructor).
  destruct (wrun_start capacity CAP calls P) as (w & ready & E & I).
  destruct (registrar_pop_ok capacity CAP (ww_common w) ready _ _ k (WI_queues _ _ _ _ I)) as (q & EP & _).
  exists w. eexists. split; [exact E|]. rewrite EP. f_equal. f_equal.
  assert (LT : (0 <? capacity k) = true) by (apply Nat.ltb_lt; specialize (CAP k); lia).
  destruct k; try contradiction; cbn -[Nat.ltb]; rewrite LT; reflexivity.
Qed.

(** What holds: what is in the queue for a class are sockets of this class. *)
Theorem C143_class_partial capacity h :
  (forall k, capacity k <> 0) -> uproper_history capacity uideal_start h ->
  exists w, wrun capacity (wworld_new true) (snd (uhistory winsock_new h)) = Ok w
    /\ forall k n, k <> TcpListener -> exists r, pops capacity k n (ww_common w) = Ok r
       /\ forall d, In (Descriptor d) r -> d = INVALID
            \/ exists fd x, d = Z.of_nat fd /\ wsock_at w fd = Some x /\ ws_kind x = k.
Proof.
  intros CAP P. pose proof (uinv_run capacity h _ uinv_start P) as I.
  destruct (uhistory_run capacity h uideal_start) as [_ EL]. change (u_sock uideal_start) with winsock_new in *.
  destruct (wrun_start capacity CAP _ (ulistens h winsock_new)) as (w & ready & E & WI). exists w. split; [exact E|].
  unfold wactual_run in WI. change wideal_start with (u_lib uideal_start) in WI. rewrite <- EL in WI.
  intros k n N. destruct (pops_descriptors capacity CAP k N n (ww_common w) ready _ _ (WI_queues _ _ _ _ WI)) as (r & ER & X & _).
  exists r. split; [exact ER|]. intros d Y. apply X in Y as [Y|Y]; [right|left; exact Y].
  destruct (UI_class _ I k d Y) as [A B]. pose proof (wsock_kind _ _ _ _ (Z.to_nat d) WI) as SK. rewrite A in SK.
  destruct SK as (m & nb & T & _). exists (Z.to_nat d). eexists. split; [exact B|]. split; [exact T|reflexivity].
Qed.

(** ** C144: removing a socket undoes adding it *)

Lemma wsock_upd w fd k x : wsock_at w fd <> None ->
  wsock_at (set_wtable w (upd (ww_table w) fd (Some k))) x = if x =? fd then Some k else wsock_at w x.
Proof.
  intros N. unfold wsock_at in *. cbn [set_wtable ww_table].
  assert (L : fd < length (ww_table w)) by (apply nth_error_Some; destruct (nth_error (ww_table w) fd); [discriminate|contradiction]).
  destruct (Nat.eqb_spec x fd) as [->|D].
  - rewrite nth_error_upd_eq by exact L. reflexivity.
  - rewrite nth_error_upd_neq by auto. reflexivity.
Qed.

Definition quiet (w : wworld) (fd : nat) : Prop :=
  fd < length (ww_table w) /\ forall x, wsock_at w fd = Some x -> ws_mask x = [].
Lemma quiet_table w t fd : fd < length t -> (forall x, nth_error t fd = Some (Some x) -> ws_mask x = []) ->
  quiet (set_wtable w t) fd.
Proof.
  intros L M. split; [exact L|]. intros x X. unfold wsock_at in X. cbn [set_wtable ww_table] in X.
  destruct (nth_error t fd) as [[y|]|] eqn:E; try discriminate X. injection X as <-. auto.
Qed.
Lemma quiet_nth w fd : quiet w fd -> forall x, nth_error (ww_table w) fd = Some (Some x) -> ws_mask x = [].
Proof. intros [_ Q] x E. apply Q. unfold wsock_at. rewrite E. reflexivity. Qed.
Lemma quiet_app w l fd : quiet w fd -> quiet (set_wtable w (ww_table w ++ l)) fd.
Proof.
  intros Q. pose proof (quiet_nth _ _ Q) as E. destruct Q as [L _]. apply quiet_table.
  - rewrite app_length. lia.
  - intros x. rewrite nth_error_app1 by exact L. apply E.
Qed.
Lemma quiet_upd w d v fd : quiet w fd -> (d = fd -> forall x, v = Some x -> ws_mask x = []) ->
  quiet (set_wtable w (upd (ww_table w) d v)) fd.
Proof.
  intros Q V. pose proof (quiet_nth _ _ Q) as E. destruct Q as [L _]. apply quiet_table.
  - rewrite upd_length. exact L.
  - intros x. destruct (Nat.eq_dec d fd) as [->|N].
    + rewrite nth_error_upd_eq by exact L. intros X. injection X as X. eauto.
    + rewrite nth_error_upd_neq by auto. apply E.
Qed.
Lemma quiet_step capacity w fd c w' : quiet w fd -> (forall e, c <> WAdd fd e) -> wstep capacity w c = Ok w' ->
  quiet w' fd /\ forall e b, In (fd, e, b) (ww_messages w') -> In (fd, e, b) (ww_messages w).
Proof.
  intros Q N E. destruct c as [k ok|d|d error|d error|d e error|ok|k|n]; cbn [wstep] in E.
  - injection E as <-. split; [apply quiet_app; exact Q|auto].
  - injection E as <-. split; [apply quiet_upd; [exact Q|discriminate]|auto].
  - assert (D : d <> fd) by (intros ->; exact (N error eq_refl)).
    unfold wadd in E. destruct (wsock_at w d) as [k|]; [|injection E as <-; auto].
    destruct (ensure_queue capacity _ _) as [q| |]; cbn [bind] in E; try discriminate E.
    cbn [set_common ww_window] in E. destruct (negb (ww_window w)); [injection E as <-; auto|].
    destruct error; injection E as <-; [auto|].
    split; [|auto]. cbn [fst]. apply (quiet_upd (set_common w (set_queues (ww_common w) q)) d); [exact Q|intros; contradiction].
  - injection E as <-. unfold wremove. destruct (wsock_at w d) as [k|]; [|auto].
    destruct (negb (ww_window w)); [auto|]. destruct error; [auto|].
    split; [|auto]. cbn [fst]. apply quiet_upd; [exact Q|]. intros _ x X. injection X as <-. reflexivity.
  - injection E as <-. unfold wmessage. destruct (wsock_at w d) as [k|] eqn:K; [|auto].
    destruct (_ && _) eqn:B; [|auto]. split; [exact Q|]. cbn [set_messages ww_messages]. intros e' b X.
    apply in_app_or in X as [X|[X|[]]]; [exact X|]. injection X as -> -> ->. exfalso.
    destruct Q as [_ Q]. rewrite (Q k K) in B. discriminate B.
  - unfold wdispatch in E. destruct (ww_messages w) as [|[[d e] er] rest] eqn:M; [injection E as <-; rewrite M; auto|].
    assert (IN : forall e b, In (fd, e, b) rest -> In (fd, e, b) ((d, e, er) :: rest) \/ True) by auto.
    destruct er; [injection E as <-; split; [exact Q|right; assumption]|].
    change (wsock_at (set_messages w rest) d) with (wsock_at w d) in E.
    destruct (wsock_at w d) as [k|]; cbn [bind] in E; [|injection E as <-; split; [exact Q|right; assumption]].
    unfold whandle_tcp, whandle_udp in E.
    destruct (ws_stream k), e; try destruct ok; cbn [bind] in E;
      try (injection E as <-; split; [exact Q|right; assumption]);
      try (destruct (push_descriptor capacity _ _ _) as [q| |]; cbn [bind] in E; try discriminate E;
           injection E as <-; split; [exact Q|right; assumption]).
    destruct (push_accepted capacity _ _ _) as [q| |]; cbn [bind] in E; try discriminate E.
    injection E as <-. split; [|right; assumption]. exact (quiet_app w _ fd Q).
  - destruct (registrar_pop capacity (ww_common w) k) as [r| |]; cbn [bind] in E; try discriminate E.
    injection E as <-. auto.
  - injection E as <-. auto.
Qed.

(** After it no event of the socket is put in the queue of messages, whatever happens, until the
    socket is added again; and other sockets are not concerned. *)
Theorem C144_silent_partial capacity w fd w' :
  wremove w fd None = (w', 0%Z) ->
  (forall h w'', (forall e, ~ In (WAdd fd e) h) -> wrun capacity w' h = Ok w'' ->
     forall e b, In (fd, e, b) (ww_messages w'') -> In (fd, e, b) (ww_messages w))
  /\ (forall x, x <> fd -> wsock_at w' x = wsock_at w x) /\ ww_common w' = ww_common w.
Proof.
  intros R. unfold wremove in R. destruct (wsock_at w fd) as [k|] eqn:K; [|discriminate R].
  destruct (negb (ww_window w)); [discriminate R|]. injection R as <-.
  split; [|split; [|reflexivity]].
  - assert (L : fd < length (ww_table w)).
    { apply nth_error_Some. unfold wsock_at in K. destruct (nth_error (ww_table w) fd); discriminate. }
    assert (Q : quiet (set_wtable w (upd (ww_table w) fd (Some (set_mask k [] (ws_nonblock k))))) fd).
    { apply quiet_table; [rewrite upd_length; exact L|]. rewrite nth_error_upd_eq by exact L. intros x X.
      injection X as <-. reflexivity. }
    change (ww_messages w) with (ww_messages (set_wtable w (upd (ww_table w) fd (Some (set_mask k [] (ws_nonblock k)))))).
    set (w0 := set_wtable _ _) in *. clearbody w0. clear - Q. intros h. revert w0 Q.
    induction h as [|c h IH]; intros w0 Q w'' N E e b X; [injection E as <-; exact X|].
    cbn [wrun] in E. destruct (wstep capacity w0 c) as [w1| |] eqn:S1; cbn [bind] in E; try discriminate E.
    destruct (quiet_step capacity w0 fd c w1 Q) as [Q1 M1]; [intros e' ->; apply (N e'); left; reflexivity|exact S1|].
    apply M1. apply (IH w1 Q1 w''); auto. intros e' Y. apply (N e'). right. exact Y.
  - intros x N. rewrite wsock_upd by congruence. destruct (Nat.eqb_spec x fd); [contradiction|reflexivity].
Qed.
(** A call that fails says so with a negative result, which is the error of winsock if it was asked,
    and changes nothing; it succeeds exactly for a socket, with the window, when winsock agrees. *)
Theorem C144_failure_partial w fd error :
  (forall e, error = Some e -> (0 < e)%Z) ->
  let (w', r) := wremove w fd error in
  (r = 0%Z <-> wsock_at w fd <> None /\ ww_window w = true /\ error = None)
  /\ (r <> 0%Z -> w' = w /\ (r = -1 \/ exists e, error = Some e /\ r = - e)%Z
                  /\ (wsock_at w fd <> None -> ww_window w = true -> forall e, error = Some e -> r = (- e)%Z)).
Proof.
  intros P. unfold wremove. destruct (wsock_at w fd) as [k|]; [|destruct error as [e|]].
  - destruct (ww_window w); cbn [negb]; [destruct error as [e|]|].
    + specialize (P e eq_refl). split; [split; [lia|intros (_ & _ & X); discriminate X]|].
      intros _. split; [reflexivity|]. split; [right; exists e; auto|]. intros _ _ e' X. injection X as <-. reflexivity.
    + split; [|congruence]. split; [intros _; repeat split; discriminate|auto].
    + split; [split; [discriminate|intros (_ & X & _); discriminate X]|].
      intros _. split; [reflexivity|]. split; [auto|]. intros _ X. discriminate X.
  - specialize (P e eq_refl). split; [split; [lia|intros (X & _); congruence]|].
    intros _. split; [reflexivity|]. split; [right; exists e; auto|]. intros X. congruence.
  - split; [split; [discriminate|intros (X & _); congruence]|].
    intros _. split; [reflexivity|]. split; [auto|]. intros X. congruence.
Qed.
(** ... but the socket, which blocked before, stays non-blocking, ... *)
Theorem C144_nonblock_refuted capacity w fd k w1 w2 :
  wsock_at w fd = Some k -> ws_nonblock k = false ->
  wadd capacity w fd None = Ok (w1, 0%Z) -> wremove w1 fd None = (w2, 0%Z) ->
  exists k', wsock_at w2 fd = Some k' /\ ws_nonblock k' = true /\ ws_mask k' = [].
Proof.
  intros K NB A R. unfold wadd in A. rewrite K in A.
  destruct (ensure_queue capacity _ _) as [q| |]; cbn [bind] in A; try discriminate A.
  cbn [set_common ww_window] in A. destruct (negb (ww_window w)); [discriminate A|]. injection A as <-.
  unfold wremove in R. cbn [set_common ww_table] in R.
  assert (K1 : wsock_at (set_wtable (set_common w (set_queues (ww_common w) q))
      (upd (ww_table w) fd (Some (set_mask k (requested k) true)))) fd = Some (set_mask k (requested k) true)).
  { pose proof (wsock_upd (set_common w (set_queues (ww_common w) q)) fd (set_mask k (requested k) true) fd) as X.
    rewrite Nat.eqb_refl in X. apply X. change (wsock_at (set_common w (set_queues (ww_common w) q)) fd) with (wsock_at w fd). congruence. }
  rewrite K1 in R. destruct (negb _); [discriminate R|]. injection R as <-.
  eexists. rewrite wsock_upd by congruence. rewrite Nat.eqb_refl. split; [reflexivity|]. auto.
Qed.
(** ... and events that were waiting are still delivered. *)
Theorem C144_stale_refuted capacity k : (forall k, capacity k <> 0) -> k <> TcpListener ->
  exists w c, wrun capacity (wworld_new true)
      [WCreate k true; WAdd 0 None; WMessage 0 Read false; WRemove 0 None; WDispatch true] = Ok w
    /\ registrar_pop capacity (ww_common w) k = Ok (c, Descriptor 0).
Proof.
  intros CAP N. set (calls := [WCreate k true; WAdd 0 None; WMessage 0 Read false; WRemove 0 None; WDispatch true]).
  assert (P : Forall listens calls) by (repeat constructor).
  destruct (wrun_start capacity CAP calls P) as (w & ready & E & I).
  destruct (registrar_pop_ok capacity CAP (ww_common w) ready _ _ k (WI_queues _ _ _ _ I)) as (q & EP & _).
  exists w. eexists. split; [exact E|]. rewrite EP. f_equal. f_equal.
  assert (LT : (0 <? capacity k) = true) by (apply Nat.ltb_lt; specialize (CAP k); lia).
  destruct k; try contradiction; cbn -[Nat.ltb]; rewrite LT; reflexivity.
Qed.

Example C144_case : exists w1 w2,
  wrun four (wworld_new true) [WCreate TcpClient true; WAdd 0 None] = Ok w1
  /\ wremove w1 0 None = (w2, 0%Z) /\ wmessage w1 0 Read false <> w1 /\ wmessage w2 0 Read false = w2.
Proof.
  do 2 eexists. split; [vm_compute; reflexivity|]. split; [vm_compute; reflexivity|].
  split; [vm_compute; discriminate|]. vm_compute. reflexivity.
Qed.

Print Assumptions C141_dispatch_partial. Print Assumptions C141_close_refuted.
Print Assumptions C141_error_refuted. Print Assumptions C141_error_case_refuted.
Print Assumptions C141_notified_refuted. Print Assumptions C141_full_refuted.
Print Assumptions C141_no_window_partial. Print Assumptions C142_not_forgotten_partial.
Print Assumptions C142_full_refuted. Print Assumptions C143_writable_refuted.
Print Assumptions C143_class_partial. Print Assumptions C144_silent_partial. Print Assumptions C144_failure_partial.
Print Assumptions C144_nonblock_refuted. Print Assumptions C144_stale_refuted.
