(** Socket events: the model follows the specification; lemmas. *)
From Coq Require Import List Arith ZArith Bool Lia.
From Verif Require Import Base BaseLemmas PointersProofs ConcModel ConcSpec ConcProofs
  QueueModel QueueSpec QueueProofs RegistrarModel RegistrarProps EventModel EventSpec.
Import ListNotations.

(** ** Queues *)

(** Initialised or not, with these contents. *)
Definition holds {A} (SIZE : nat) (q : queue A) (ready : bool) (l : list A) : Prop :=
  if ready then rep A SIZE q l else q = queue_new /\ l = [].

Lemma alone_of_finishes {A} SIZE (fresh : A) o body q q' r fuel x :
  qcode SIZE fresh o = Acquire body -> finishes _ _ body q q' r ->
  alone fuel (qcode SIZE fresh o) q = Ok x -> x = (q', r).
Proof.
  intros EC F T. destruct (finishes_alone _ _ _ _ F) as [n HN].
  assert (T' : alone (S (n + fuel)) (Acquire body) q = Ok (q', r)).
  { rewrite alone_acquire. apply HN. lia. }
  rewrite EC in T. rewrite (alone_mono fuel (S (n + fuel)) _ _ _ T) in T' by lia. congruence.
Qed.

Lemma push_terminates {A} SIZE (fresh v : A) q l n : SIZE <> 0 -> rep A SIZE q l ->
  exists r, alone (15 + n) (qcode SIZE fresh (Push v)) q = Ok r.
Proof.
  intros SP (a & EA & LA & HF & ECt & LS & EL & NTH). cbn [qcode Nat.add]. unfold push_code.
  rewrite alone_acquire. rewrite (alone_get _ _ _ _ (q_count q)) by reflexivity. cbv beta.
  rewrite (alone_get _ _ _ _ SIZE) by (unfold get_capacity; rewrite EA; reflexivity). cbv beta.
  destruct (q_count q =? SIZE) eqn:E0; [eexists; reflexivity|].
  rewrite (alone_get _ _ _ _ (q_last q)) by reflexivity. cbv beta.
  erewrite alone_set.
  2:{ unfold set_cell. rewrite EA. unfold write. rewrite LA, EL.
      pose proof (Nat.mod_upper_bound (q_first q + length l) SIZE SP).
      destruct (Nat.ltb_spec ((q_first q + length l) mod SIZE) SIZE); [reflexivity|lia]. }
  erewrite alone_get by reflexivity. cbv beta. erewrite alone_set by reflexivity.
  erewrite alone_get by reflexivity. cbv beta. erewrite alone_set by reflexivity.
  eexists. reflexivity.
Qed.

Lemma push_call_ok {A} SIZE (fresh v : A) q l : SIZE <> 0 -> rep A SIZE q l ->
  exists q', push_call SIZE fresh v q = Ok (q', length l <? SIZE)
    /\ rep A SIZE q' (if length l <? SIZE then l ++ [v] else l).
Proof.
  intros SP R.
  destruct (sequential_queue A SIZE fresh SP (Push v) I) as (body & EC & B).
  destruct (B q l R) as (q' & F & R').
  destruct (push_terminates SIZE fresh v q l 5 SP R) as (r & T). change (15 + 5) with 20 in T.
  pose proof (alone_of_finishes _ _ _ _ _ _ _ _ _ EC F T) as ->.
  exists q'. unfold push_call. rewrite T. cbn [bind fst snd]. cbn [fifo] in *.
  destruct (length l <? SIZE); cbn [fst snd] in *; auto.
Qed.

Lemma pop_call_holds {A} SIZE (fresh d : A) q ready l : SIZE <> 0 -> holds SIZE q ready l ->
  exists q', pop_call SIZE fresh d q = Ok (q', hd_error l) /\ holds SIZE q' ready (tl l).
Proof.
  intros SP H. destruct ready; cbn [holds] in *.
  - destruct (sequential_queue A SIZE fresh SP (Pop d) I) as (body & EC & B).
    destruct (B q l H) as (q' & F & R').
    destruct (pop_terminates SIZE fresh d q l 5 H) as (r & T). change (15 + 5) with 20 in T.
    pose proof (alone_of_finishes _ _ _ _ _ _ _ _ _ EC F T) as ->.
    exists q'. unfold pop_call. rewrite T. cbn [bind fst snd].
    destruct l as [|x l]; cbn [fifo fst snd hd_error tl] in *; auto.
  - destruct H as [-> ->]. exists queue_new. split; [vm_compute; reflexivity|]. auto.
Qed.

Lemma fill_terminates {A} (v : A) (k : prog (queue A) (qres A)) : forall n i (a : list A) f l c fuel x,
  i + n = length a ->
  (forall a', length a' = length a -> alone fuel k (Queue (Some a') f l c) = Ok (x a')) ->
  exists r, alone (n + fuel) (fill A v i n k) (Queue (Some a) f l c) = Ok r.
Proof.
  induction n as [|n IH]; intros i a f l c fuel x L F; cbn [fill Nat.add].
  - rewrite F by reflexivity. eauto.
  - rewrite (alone_set _ _ _ _ (Queue (Some (upd a i v)) f l c)).
    2:{ unfold set_cell. cbn [q_array]. unfold write.
        destruct (Nat.ltb_spec i (length a)); [reflexivity|lia]. }
    apply (IH (S i) (upd a i v) f l c fuel x); rewrite upd_length; [lia|]. exact F.
Qed.

Lemma ensure_call_ok {A} SIZE (fresh v : A) q ready l : SIZE <> 0 -> holds SIZE q ready l ->
  exists q', ensure_call SIZE fresh v q = Ok q' /\ holds SIZE q' true l.
Proof.
  intros SP H. unfold ensure_call. destruct ready; cbn [holds] in *.
  - destruct H as (a & EA & R). exists q. split; [|exists a; auto].
    cbn [qcode]. unfold ensure_code. replace (SIZE + 20) with (S (S (S (S (SIZE + 16))))) by lia.
    rewrite alone_acquire.
    rewrite (alone_get _ _ _ _ false) by (unfold get_null; rewrite EA; reflexivity). reflexivity.
  - destruct H as [-> ->].
    destruct (init_finishes A SIZE fresh SP v REnsure queue_new) as (body & EI & F).
    exists (initialised A SIZE v 0). split.
    2:{ apply rep_initialised. exact SP. }
    cbn [qcode]. unfold ensure_code. replace (SIZE + 20) with (S (S (S (SIZE + 17)))) by lia.
    rewrite alone_acquire. rewrite (alone_get _ _ _ _ true) by reflexivity. cbv beta iota.
    change (alone (S (SIZE + 17)) (Release (init_code A SIZE fresh v REnsure)) queue_new)
      with (alone (SIZE + 17) (init_code A SIZE fresh v REnsure) (@queue_new A)).
    assert (T : exists r, alone (SIZE + 17) (init_code A SIZE fresh v REnsure) (@queue_new A) = Ok r).
    { unfold init_code. replace (SIZE + 17) with (S (S (SIZE + 15))) by lia.
      rewrite alone_acquire. rewrite (alone_set _ _ _ _ (Queue (Some (repeat fresh SIZE)) 0 0 0)) by reflexivity.
      apply (fill_terminates v _ SIZE 0 (repeat fresh SIZE) 0 0 0 15
               (fun a' => (Queue (Some a') 0 0 0, REnsure))).
      - rewrite repeat_length. lia.
      - intros a' _. reflexivity. }
    destruct T as (r & T). rewrite EI in T.
    assert (r = (initialised A SIZE v 0, REnsure)) as ->.
    { destruct (finishes_alone _ _ _ _ F) as [n HN].
      assert (T' : alone (S (n + (SIZE + 17))) (Acquire body) queue_new = Ok (initialised A SIZE v 0, REnsure)).
      { rewrite alone_acquire. apply HN. lia. }
      rewrite (alone_mono (SIZE + 17) (S (n + (SIZE + 17))) _ _ _ T) in T' by lia. congruence. }
    rewrite EI, T. reflexivity.
Qed.

(** ** The invariant *)
Section Inv.
  Variable capacity : kind -> nat.
  Variable PID : Z.
  Hypothesis CAP : forall k, capacity k <> 0.

  Definition live (k : kind) (n : nat) (on : bool) : ksock :=
    let c := created k true in
    KS k (k_stream c) (k_reuse c) (k_listen c) n on on (if on then PID else 0) (if on then SIGPOLL else 0).

  Definition queues_hold (q : queues) (ready : kind -> bool) (f : kind -> list Z) (l : list accepted) : Prop :=
    holds (capacity UdpServer) (udp_servers q) (ready UdpServer) (f UdpServer)
    /\ holds (capacity UdpClient) (udp_clients q) (ready UdpClient) (f UdpClient)
    /\ holds (capacity TcpListener) (tcp_accepted q) (ready TcpListener) l
    /\ holds (capacity TcpAccepted) (tcp_servers q) (ready TcpAccepted) (f TcpAccepted)
    /\ holds (capacity TcpClient) (tcp_clients q) (ready TcpClient) (f TcpClient).

  Record einv (w : eworld) (s : ideal) (ready : kind -> bool) : Prop := {
    EI_len : length (e_table w) = length (i_kinds s);
    EI_sock : forall fd k, nth_error (i_kinds s) fd = Some k ->
      exists n, nth_error (e_table w) fd = Some (Some (live k n (registered s fd)));
    EI_on : forall fd, registered s fd = true -> fd < length (i_kinds s);
    EI_ready : forall fd k, registered s fd = true -> nth_error (i_kinds s) fd = Some k -> ready k = true;
    EI_pending : e_pending w = hd_error (i_wait s);
    EI_one : length (i_wait s) <= 1;
    EI_wait : forall fd, In fd (i_wait s) -> exists k n, nth_error (i_kinds s) fd = Some k
      /\ ready k = true /\ nth_error (e_table w) fd = Some (Some (live k n (registered s fd)))
      /\ (k = TcpListener -> n <> 0);
    EI_queues : queues_hold (e_queues w) ready (i_queue s) (i_connections s);
    EI_note : e_note w = i_note s;
    EI_notes : e_notes w = i_notes s;
    EI_status : e_status w = 0%Z;
    EI_disp : e_disposition w = CatcherHandler;
    EI_killed : e_killed w = false
  }.

  Lemma einv_start before : einv (catcher_start before None None) ideal_start (fun _ => false).
  Proof.
    constructor; cbn; try reflexivity; try lia; try (intros; discriminate); try contradiction.
    - intros [|fd] k H; discriminate H.
    - unfold queues_hold, holds, queues_new. cbn. auto 10.
  Qed.

  Lemma all_some_lowest t : (forall i, i < length t -> exists k, nth_error t i = Some (Some k)) ->
    lowest t = length t.
  Proof.
    induction t as [|o t IH]; intros H; [reflexivity|].
    destruct (H 0) as (k & E); [cbn; lia|]. cbn in E. injection E as ->. cbn [lowest length].
    f_equal. apply IH. intros i L. apply (H (S i)). cbn. lia.
  Qed.
  Lemma einv_lowest w s ready : einv w s ready -> lowest (e_table w) = length (e_table w).
  Proof.
    intros I. apply all_some_lowest. intros i L. rewrite (EI_len _ _ _ I) in L.
    destruct (nth_error (i_kinds s) i) as [k|] eqn:E.
    - destruct (EI_sock _ _ _ I _ _ E) as (n & N). eauto.
    - apply nth_error_None in E. lia.
  Qed.
  Lemma put_last t k : lowest t = length t -> put t k = t ++ [Some k].
  Proof. intros E. unfold put. rewrite E, Nat.ltb_irrefl. reflexivity. Qed.


  Lemma live_inj k n on k' n' on' : live k n on = live k' n' on' -> k = k' /\ n = n' /\ on = on'.
  Proof. intros E. injection E. auto. Qed.

  Lemma nth_last {B} (l : list B) x : nth_error (l ++ [x]) (length l) = Some x.
  Proof. rewrite nth_error_app2, Nat.sub_diag by lia. reflexivity. Qed.
  Lemma nth_app_inv {B} (l : list B) x i y : nth_error (l ++ [x]) i = Some y ->
    (i < length l /\ nth_error l i = Some y) \/ (i = length l /\ y = x).
  Proof.
    intros E. destruct (Nat.lt_ge_cases i (length l)) as [L|L].
    - left. rewrite nth_error_app1 in E by exact L. auto.
    - right. rewrite nth_error_app2 in E by exact L.
      destruct (i - length l) as [|m] eqn:D; cbn in E; [|destruct m; discriminate E].
      injection E as <-. split; [lia|reflexivity].
  Qed.

  Lemma not_registered_new w s ready : einv w s ready -> registered s (length (i_kinds s)) = false.
  Proof.
    intros I. destruct (registered s (length (i_kinds s))) eqn:E; [|reflexivity].
    apply (EI_on _ _ _ I) in E. lia.
  Qed.

  Lemma queues_upd q ready f l k : queues_hold q ready f l -> k <> TcpListener -> forall g r',
    (forall k', k' <> k -> g k' = f k') -> (forall k', k' <> k -> r' k' = ready k') ->
    match k with
    | UdpServer => forall x, holds (capacity k) x (r' k) (g k) ->
        queues_hold (Queues x (udp_clients q) (tcp_accepted q) (tcp_servers q) (tcp_clients q)) r' g l
    | UdpClient => forall x, holds (capacity k) x (r' k) (g k) ->
        queues_hold (Queues (udp_servers q) x (tcp_accepted q) (tcp_servers q) (tcp_clients q)) r' g l
    | TcpListener => True
    | TcpAccepted => forall x, holds (capacity k) x (r' k) (g k) ->
        queues_hold (Queues (udp_servers q) (udp_clients q) (tcp_accepted q) x (tcp_clients q)) r' g l
    | TcpClient => forall x, holds (capacity k) x (r' k) (g k) ->
        queues_hold (Queues (udp_servers q) (udp_clients q) (tcp_accepted q) (tcp_servers q) x) r' g l
    end.
  Proof.
    intros (Q1 & Q2 & Q3 & Q4 & Q5) N g r' G R.
    destruct k; try exact Logic.I; intros x X; unfold queues_hold;
      cbn [udp_servers udp_clients tcp_accepted tcp_servers tcp_clients];
      rewrite ?(R UdpServer), ?(R UdpClient), ?(R TcpListener), ?(R TcpAccepted), ?(R TcpClient) by discriminate;
      rewrite ?(G UdpServer), ?(G UdpClient), ?(G TcpListener), ?(G TcpAccepted), ?(G TcpClient) by discriminate;
      auto 10.
  Qed.

  Lemma queues_ext q ready f g l : (forall k, g k = f k) -> queues_hold q ready f l -> queues_hold q ready g l.
  Proof. intros E H. unfold queues_hold in *. rewrite !E. exact H. Qed.

  Definition set_ready (ready : kind -> bool) (k : kind) : kind -> bool :=
    fun k' => if kind_eqb k' k then true else ready k'.
  Lemma kind_eqb_refl k : kind_eqb k k = true.
  Proof. destruct k; reflexivity. Qed.
  Lemma kind_eqb_neq k k' : k' <> k -> kind_eqb k' k = false.
  Proof. destruct k, k'; intros H; try reflexivity; contradiction. Qed.
  Lemma set_ready_same ready k : set_ready ready k k = true.
  Proof. unfold set_ready. rewrite kind_eqb_refl. reflexivity. Qed.
  Lemma set_ready_other ready k k' : k' <> k -> set_ready ready k k' = ready k'.
  Proof. intros H. unfold set_ready. rewrite kind_eqb_neq by exact H. reflexivity. Qed.
  Lemma set_ready_mono ready k k' : ready k' = true -> set_ready ready k k' = true.
  Proof. intros H. unfold set_ready. destruct (kind_eqb k' k); auto. Qed.

  Lemma ensure_queue_ok q ready f l k : queues_hold q ready f l ->
    exists q', ensure_queue capacity q k = Ok q' /\ queues_hold q' (set_ready ready k) f l.
  Proof.
    intros Q. pose proof Q as (Q1 & Q2 & Q3 & Q4 & Q5).
    assert (GEN : forall k, k <> TcpListener -> forall g, g = f -> forall k' : kind, k' <> k -> g k' = f k') by (intros; subst; auto).
    destruct k; unfold ensure_queue.
    - destruct (ensure_call_ok _ 0%Z INVALID _ _ _ (CAP UdpServer) Q1) as (x & E & X). rewrite E. cbn [bind].
      eexists. split; [reflexivity|].
      apply (queues_upd q ready f l UdpServer Q ltac:(discriminate) f (set_ready ready UdpServer)); auto using set_ready_other.
    - destruct (ensure_call_ok _ 0%Z INVALID _ _ _ (CAP UdpClient) Q2) as (x & E & X). rewrite E. cbn [bind].
      eexists. split; [reflexivity|].
      apply (queues_upd q ready f l UdpClient Q ltac:(discriminate) f (set_ready ready UdpClient)); auto using set_ready_other.
    - destruct (ensure_call_ok _ accepted_default accepted_default _ _ _ (CAP TcpListener) Q3) as (x & E & X).
      rewrite E. cbn [bind]. eexists. split; [reflexivity|].
      unfold queues_hold. cbn [udp_servers udp_clients tcp_accepted tcp_servers tcp_clients].
      rewrite set_ready_same, !set_ready_other by discriminate. auto 10.
    - destruct (ensure_call_ok _ 0%Z INVALID _ _ _ (CAP TcpAccepted) Q4) as (x & E & X). rewrite E. cbn [bind].
      eexists. split; [reflexivity|].
      apply (queues_upd q ready f l TcpAccepted Q ltac:(discriminate) f (set_ready ready TcpAccepted)); auto using set_ready_other.
    - destruct (ensure_call_ok _ 0%Z INVALID _ _ _ (CAP TcpClient) Q5) as (x & E & X). rewrite E. cbn [bind].
      eexists. split; [reflexivity|].
      apply (queues_upd q ready f l TcpClient Q ltac:(discriminate) f (set_ready ready TcpClient)); auto using set_ready_other.
  Qed.

  Definition pushed_to (f : kind -> list Z) (k : kind) (fd : nat) : kind -> list Z :=
    fun k' => if kind_eqb k' k then f k' ++ [Z.of_nat fd] else f k'.

  (** push to an initialised queue with room, or to a full one. *)
  Lemma push_descriptor_ok w ready f l k fd : queues_hold (e_queues w) ready f l ->
    k <> TcpListener -> ready k = true ->
    exists q, push_descriptor capacity w k fd = Ok (set_queues w q)
      /\ queues_hold q ready (if length (f k) <? capacity k then pushed_to f k fd else f) l.
  Proof.
    intros Q N R. pose proof Q as (Q1 & Q2 & Q3 & Q4 & Q5).
    assert (P : forall b : bool, forall k' : kind, k' <> k -> (if b then pushed_to f k fd else f) k' = f k').
    { intros [|] k' H; [|reflexivity]. unfold pushed_to. rewrite kind_eqb_neq by exact H. reflexivity. }
    assert (P' : forall b : bool, (if b then pushed_to f k fd else f) k = if b then f k ++ [Z.of_nat fd] else f k).
    { intros [|]; [|reflexivity]. unfold pushed_to. rewrite kind_eqb_refl. reflexivity. }
    destruct k; try contradiction; unfold push_descriptor; rewrite R in *; cbn [holds] in *;
      [destruct (push_call_ok _ 0%Z (Z.of_nat fd) _ _ (CAP _) Q1) as (x & E & X)
      |destruct (push_call_ok _ 0%Z (Z.of_nat fd) _ _ (CAP _) Q2) as (x & E & X)
      |destruct (push_call_ok _ 0%Z (Z.of_nat fd) _ _ (CAP _) Q4) as (x & E & X)
      |destruct (push_call_ok _ 0%Z (Z.of_nat fd) _ _ (CAP _) Q5) as (x & E & X)];
      rewrite E; cbn [bind fst]; (eexists; split; [reflexivity|]).
    - apply (queues_upd _ ready f l UdpServer Q ltac:(discriminate)); auto. rewrite R, P'. exact X.
    - apply (queues_upd _ ready f l UdpClient Q ltac:(discriminate)); auto. rewrite R, P'. exact X.
    - apply (queues_upd _ ready f l TcpAccepted Q ltac:(discriminate)); auto. rewrite R, P'. exact X.
    - apply (queues_upd _ ready f l TcpClient Q ltac:(discriminate)); auto. rewrite R, P'. exact X.
  Qed.
  Lemma push_accepted_ok w ready f l fd c : queues_hold (e_queues w) ready f l ->
    ready TcpListener = true ->
    exists q, push_accepted capacity w fd c = Ok (set_queues w q)
      /\ queues_hold q ready f
           (if length l <? capacity TcpListener then l ++ [Accepted (Z.of_nat fd) (Z.of_nat c)] else l).
  Proof.
    intros (Q1 & Q2 & Q3 & Q4 & Q5) R. unfold push_accepted. rewrite R in Q3. cbn [holds] in Q3.
    destruct (push_call_ok _ accepted_default (Accepted (Z.of_nat fd) (Z.of_nat c)) _ _ (CAP _) Q3) as (x & E & X).
    rewrite E. cbn [bind fst]. eexists. split; [reflexivity|].
    unfold queues_hold. cbn [udp_servers udp_clients tcp_accepted tcp_servers tcp_clients].
    rewrite R. cbn [holds]. auto 10.
  Qed.

  Definition popped_from (f : kind -> list Z) (k : kind) : kind -> list Z :=
    fun k' => if kind_eqb k' k then tl (f k') else f k'.
  Lemma hd_default {B} (d : B) l : match hd_error l with Some x => x | None => d end = hd d l.
  Proof. destruct l; reflexivity. Qed.

  Lemma registrar_pop_ok w ready f l k : queues_hold (e_queues w) ready f l ->
    exists q, registrar_pop capacity w k
      = Ok (set_queues w q, match k with TcpListener => Connection (hd accepted_default l)
                            | _ => Descriptor (hd INVALID (f k)) end)
      /\ queues_hold q ready (match k with TcpListener => f | _ => popped_from f k end)
           (match k with TcpListener => tl l | _ => l end).
  Proof.
    intros Q. pose proof Q as (Q1 & Q2 & Q3 & Q4 & Q5).
    assert (P : forall k' : kind, k' <> k -> popped_from f k k' = f k').
    { intros k' H. unfold popped_from. rewrite kind_eqb_neq by exact H. reflexivity. }
    assert (P' : popped_from f k k = tl (f k)).
    { unfold popped_from. rewrite kind_eqb_refl. reflexivity. }
    destruct k; unfold registrar_pop, pop_descriptor, pop_accepted.
    - destruct (pop_call_holds _ 0%Z INVALID _ _ _ (CAP _) Q1) as (x & E & X). rewrite E. cbn [bind fst snd].
      rewrite hd_default. eexists. split; [reflexivity|].
      apply (queues_upd _ ready f l UdpServer Q ltac:(discriminate)); auto; rewrite P'; exact X.
    - destruct (pop_call_holds _ 0%Z INVALID _ _ _ (CAP _) Q2) as (x & E & X). rewrite E. cbn [bind fst snd].
      rewrite hd_default. eexists. split; [reflexivity|].
      apply (queues_upd _ ready f l UdpClient Q ltac:(discriminate)); auto; rewrite P'; exact X.
    - destruct (pop_call_holds _ accepted_default accepted_default _ _ _ (CAP _) Q3) as (x & E & X).
      rewrite E. cbn [bind fst snd]. rewrite hd_default. eexists. split; [reflexivity|].
      unfold queues_hold. cbn [udp_servers udp_clients tcp_accepted tcp_servers tcp_clients]. auto 10.
    - destruct (pop_call_holds _ 0%Z INVALID _ _ _ (CAP _) Q4) as (x & E & X). rewrite E. cbn [bind fst snd].
      rewrite hd_default. eexists. split; [reflexivity|].
      apply (queues_upd _ ready f l TcpAccepted Q ltac:(discriminate)); auto; rewrite P'; exact X.
    - destruct (pop_call_holds _ 0%Z INVALID _ _ _ (CAP _) Q5) as (x & E & X). rewrite E. cbn [bind fst snd].
      rewrite hd_default. eexists. split; [reflexivity|].
      apply (queues_upd _ ready f l TcpClient Q ltac:(discriminate)); auto; rewrite P'; exact X.
  Qed.

  Lemma sock_live w fd k n on : nth_error (e_table w) fd = Some (Some (live k n on)) ->
    sock w fd = Some (live k n on).
  Proof. intros E. unfold sock. rewrite E. reflexivity. Qed.

  (** One handler run on a world in which the pending descriptor is known. *)
  Lemma handle_descriptor w ready f l fd k n on ok :
    e_pending w = Some fd -> nth_error (e_table w) fd = Some (Some (live k n on)) ->
    k <> TcpListener -> ready k = true -> queues_hold (e_queues w) ready f l ->
    exists q, handle_signal capacity w ok
        = Ok (notify (EW (e_table w) None q (e_note w) (e_notes w) (e_status w) (e_disposition w) (e_killed w)))
      /\ queues_hold q ready (if length (f k) <? capacity k then pushed_to f k fd else f) l.
  Proof.
    intros P T N R Q. unfold handle_signal. rewrite P. cbv zeta.
    assert (T' : sock (set_pending w None) fd = Some (live k n on)) by (apply sock_live; exact T).
    rewrite T'.
    destruct (push_descriptor_ok (set_pending w None) ready f l k fd Q N R) as (q & E & H).
    exists q. split; [|exact H].
    destruct k; try contradiction; cbn [live created k_stream]; unfold handle_tcp, handle_udp;
      cbn [live created k_reuse k_listen negb]; rewrite E; reflexivity.
  Qed.

  Lemma handle_listener w ready f l fd n on ok :
    e_pending w = Some fd -> nth_error (e_table w) fd = Some (Some (live TcpListener (S n) on)) ->
    (forall i, i < length (e_table w) -> exists k, nth_error (e_table w) i = Some (Some k)) ->
    ready TcpListener = true -> queues_hold (e_queues w) ready f l -> ok = true ->
    exists q, handle_signal capacity w ok
        = Ok (notify (EW (upd (e_table w) fd (Some (live TcpListener n on)) ++ [Some (live TcpAccepted 0 false)])
                         None q (e_note w) (e_notes w) (e_status w) (e_disposition w) (e_killed w)))
      /\ queues_hold q ready f
           (if length l <? capacity TcpListener
            then l ++ [Accepted (Z.of_nat fd) (Z.of_nat (length (e_table w)))] else l).
  Proof.
    intros P T A R Q ->. unfold handle_signal. rewrite P. cbv zeta.
    assert (T' : sock (set_pending w None) fd = Some (live TcpListener (S n) on)) by (apply sock_live; exact T).
    rewrite T'.
    set (t := upd (e_table (set_pending w None)) fd (Some (live TcpListener n on))).
    change (if k_stream (live TcpListener (S n) on)
            then handle_tcp capacity (set_pending w None) fd (live TcpListener (S n) on) true
            else handle_udp capacity (set_pending w None) fd (live TcpListener (S n) on))
      with (push_accepted capacity (set_table (set_pending w None) (put t (KS TcpAccepted true true false 0 false false 0 0)))
              fd (lowest t)).
    assert (LT : fd < length (e_table w)) by (apply nth_error_Some; congruence).
    assert (LO : lowest t = length t).
    { apply all_some_lowest. intros i L. unfold t in *. cbn [set_pending e_table] in *. rewrite upd_length in L.
      destruct (Nat.eq_dec fd i) as [<-|D].
      - rewrite nth_error_upd_eq by exact L. eauto.
      - rewrite nth_error_upd_neq by exact D. apply A. exact L. }
    rewrite (put_last _ _ LO).
    destruct (push_accepted_ok (set_table (set_pending w None)
       (t ++ [Some (KS TcpAccepted true true false 0 false false 0 0)])) ready f l fd (lowest t) Q R) as (q & E & H).
    rewrite E. cbn [bind]. exists q. split; [reflexivity|].
    rewrite LO in H. unfold t in H. cbn [set_pending e_table] in H. rewrite upd_length in H. exact H.
  Qed.

  Lemma registered_add s fd x : registered
     (Ideal (i_kinds s) (fd :: i_on s) (i_wait s) (i_queue s) (i_connections s) (i_note s) (i_notes s)) x
     = (x =? fd) || registered s x.
  Proof. reflexivity. Qed.
  Lemma registered_remove s fd x : registered
     (Ideal (i_kinds s) (filter (fun x => negb (Nat.eqb fd x)) (i_on s)) (i_wait s) (i_queue s)
            (i_connections s) (i_note s) (i_notes s)) x
     = negb (x =? fd) && registered s x.
  Proof.
    unfold registered. cbn [i_on]. induction (i_on s) as [|y l IH]; cbn [filter existsb].
    - rewrite andb_false_r. reflexivity.
    - destruct (Nat.eqb_spec fd y) as [<-|N]; cbn [negb existsb].
      + rewrite IH. destruct (x =? fd); reflexivity.
      + rewrite IH. destruct (Nat.eqb_spec x fd) as [->|M]; cbn [negb andb]; [|reflexivity].
        destruct (Nat.eqb_spec fd y); [contradiction|reflexivity].
  Qed.

  Lemma live_enable k n on :
    KS (k_kind (live k n on)) (k_stream (live k n on)) (k_reuse (live k n on)) (k_listen (live k n on))
       (k_backlog (live k n on)) true true PID SIGPOLL = live k n true.
  Proof. reflexivity. Qed.
  Lemma live_disable k n on :
    KS (k_kind (live k n on)) (k_stream (live k n on)) (k_reuse (live k n on)) (k_listen (live k n on))
       (k_backlog (live k n on)) false false 0 0 = live k n false.
  Proof. reflexivity. Qed.

  Lemma event_live w fd k n on : nth_error (e_table w) fd = Some (Some (live k n on)) ->
    e_disposition w = CatcherHandler ->
    kernel_event PID w fd = if on then match e_pending w with None => set_pending w (Some fd) | Some _ => w end else w.
  Proof.
    intros T D. unfold kernel_event. rewrite (sock_live _ _ _ _ _ T), D.
    cbn [live k_async k_owner k_signal]. destruct on; cbn [andb]; [|reflexivity].
    rewrite !Z.eqb_refl. reflexivity.
  Qed.

  Lemma estep_ok w s ready c : einv w s ready -> plain s c ->
    exists w' ready', estep capacity PID w c = Ok w' /\ einv w' (actual_step capacity s c) ready'.
  Proof.
    intros I P. pose proof I as [Len Sock On Rdy Pend One Wait Qs Note Notes St Dp Kl].
    destruct c as [k ok|fd|fd e1 e2 e3|fd e1 e2 e3|fd|fd|ok|k|n]; cbn [plain] in P; cbn [estep].
    - (* create *)
      subst ok. rewrite (put_last _ _ (einv_lowest _ _ _ I)). eexists _, ready. split; [reflexivity|].
      pose proof (not_registered_new _ _ _ I) as NR.
      constructor; cbn [actual_step ideal_step set_table e_table e_pending e_queues e_note e_notes e_status e_disposition e_killed
                        i_kinds i_wait i_queue i_connections i_note i_notes]; auto.
      + rewrite !app_length, Len. reflexivity.
      + intros fd k' E. apply nth_app_inv in E as [[L E]|[-> ->]].
        * destruct (Sock _ _ E) as (n & T). exists n. rewrite nth_error_app1 by lia. exact T.
        * exists 0. rewrite <- Len, nth_last.
          change (registered _ (length (e_table w))) with (registered s (length (e_table w))).
          rewrite Len, NR. destruct k; reflexivity.
      + intros fd R. rewrite app_length. apply On in R. cbn. lia.
      + intros fd k' R E. pose proof (On _ R). rewrite nth_error_app1 in E by assumption. eauto.
      + intros fd F. destruct (Wait fd F) as (k' & n & E & R & T & B). exists k', n.
        assert (fd < length (i_kinds s)) by (apply nth_error_Some; congruence).
        rewrite !nth_error_app1 by lia. auto.
    - contradiction.
    - (* add *)
      destruct P as (L & -> & -> & ->). unfold registrar_add.
      destruct (nth_error (i_kinds s) fd) as [k|] eqn:K; [|apply nth_error_None in K; lia].
      destruct (Sock _ _ K) as (n & T). rewrite (sock_live _ _ _ _ _ T). cbn [live k_kind].
      destruct (ensure_queue_ok _ _ _ _ k Qs) as (q & E & H). rewrite E. cbn [bind].
      cbn [set_queues e_status]. rewrite St. cbn [Z.eqb]. unfold enable_signal.
      assert (T' : sock (set_queues w q) fd = Some (live k n (registered s fd))) by (apply sock_live; exact T).
      rewrite T'. cbn [bind fst]. rewrite live_enable. eexists _, (set_ready ready k). split; [reflexivity|].
      constructor; cbn [actual_step ideal_step set_table set_queues e_table e_pending e_queues e_note e_notes e_status e_disposition e_killed
                        i_kinds i_wait i_queue i_connections i_note i_notes]; auto.
      + rewrite upd_length. exact Len.
      + intros x k' E'. cbn [actual_step ideal_step]. rewrite registered_add. destruct (Nat.eqb_spec x fd) as [->|N].
        * rewrite K in E'. injection E' as <-. exists n. rewrite nth_error_upd_eq by lia. reflexivity.
        * destruct (Sock _ _ E') as (m & T2). exists m. rewrite nth_error_upd_neq by auto. exact T2.
      + intros x R. rewrite registered_add in R. destruct (Nat.eqb_spec x fd) as [E0|N]; [rewrite E0; exact L|]. auto.
      + intros x k' R E'. rewrite registered_add in R. destruct (Nat.eqb_spec x fd) as [->|N].
        * rewrite K in E'. injection E' as <-. apply set_ready_same.
        * cbn [orb] in R. apply set_ready_mono. eauto.
      + intros x F. destruct (Wait x F) as (k' & m & E' & R & T2 & B). exists k', m.
        rewrite registered_add. split; [exact E'|]. split; [apply set_ready_mono; exact R|].
        destruct (Nat.eqb_spec x fd) as [->|N]; cbn [orb].
        * rewrite T in T2. injection T2 as E1. assert (k' = k /\ m = n) as [-> ->].
          { split; congruence. }
          rewrite nth_error_upd_eq by lia. auto.
        * rewrite nth_error_upd_neq by auto. auto.
    - (* remove *)
      destruct P as (L & -> & -> & ->). unfold registrar_remove.
      destruct (nth_error (i_kinds s) fd) as [k|] eqn:K; [|apply nth_error_None in K; lia].
      destruct (Sock _ _ K) as (n & T). rewrite (sock_live _ _ _ _ _ T). rewrite St. cbn [Z.eqb].
      unfold disable_signal. rewrite (sock_live _ _ _ _ _ T). cbn [bind fst]. rewrite live_disable.
      eexists _, ready. split; [reflexivity|].
      constructor; cbn [actual_step ideal_step set_table set_queues e_table e_pending e_queues e_note e_notes e_status e_disposition e_killed
                        i_kinds i_wait i_queue i_connections i_note i_notes]; auto.
      + rewrite upd_length. exact Len.
      + intros x k' E'. cbn [actual_step ideal_step]. rewrite registered_remove. destruct (Nat.eqb_spec x fd) as [->|N].
        * rewrite K in E'. injection E' as <-. exists n. rewrite nth_error_upd_eq by lia. reflexivity.
        * destruct (Sock _ _ E') as (m & T2). exists m. rewrite nth_error_upd_neq by auto. exact T2.
      + intros x R. rewrite registered_remove in R. apply andb_true_iff in R as [_ R]. auto.
      + intros x k' R E'. rewrite registered_remove in R. apply andb_true_iff in R as [_ R]. eauto.
      + intros x F. destruct (Wait x F) as (k' & m & E' & R & T2 & B). exists k', m.
        rewrite registered_remove. split; [exact E'|]. split; [exact R|].
        destruct (Nat.eqb_spec x fd) as [->|N]; cbn [negb andb].
        * rewrite T in T2. injection T2 as E1. assert (k' = k /\ m = n) as [-> ->].
          { split; congruence. }
          rewrite nth_error_upd_eq by lia. auto.
        * rewrite nth_error_upd_neq by auto. auto.
    - (* data *)
      destruct P as (k & K & NL). destruct (Sock _ _ K) as (n & T).
      rewrite (event_live _ _ _ _ _ T Dp). eexists _, ready. split; [reflexivity|].
      cbn [actual_step]. rewrite Pend. destruct (i_wait s) as [|x0 rest] eqn:WT; cbn [hd_error] in *.
      + destruct (registered s fd) eqn:R.
        * constructor; cbn [set_pending e_table e_pending e_queues e_note e_notes e_status e_disposition e_killed
                        i_kinds i_wait i_queue i_connections i_note i_notes]; auto.
          intros x [<-|[]]. exists k, n. rewrite <- R in T. split; [exact K|]. split; [eauto|].
          split; [exact T|]. intros E. contradiction.
        * constructor; cbn [i_kinds i_wait i_queue i_connections i_note i_notes]; auto.
      + destruct (registered s fd) eqn:R;
          (constructor; cbn [i_kinds i_wait i_queue i_connections i_note i_notes]; auto).
    - (* connect *)
      rename P into K. destruct (Sock _ _ K) as (n & T). unfold kernel_connect.
      rewrite (sock_live _ _ _ _ _ T).
      set (w1 := set_table w _).
      assert (LT : fd < length (e_table w)) by (apply nth_error_Some; congruence).
      assert (T1 : nth_error (e_table w1) fd = Some (Some (live TcpListener (S n) (registered s fd)))).
      { unfold w1. cbn [set_table e_table]. rewrite nth_error_upd_eq by exact LT. reflexivity. }
      rewrite (event_live w1 _ _ _ _ T1 Dp). eexists _, ready. split; [reflexivity|].
      assert (SOCK : forall x k', nth_error (i_kinds s) x = Some k' ->
        exists m, nth_error (e_table w1) x = Some (Some (live k' m (registered s x)))).
      { intros x k' E. destruct (Nat.eq_dec fd x) as [<-|N].
        - rewrite K in E. injection E as <-. eauto.
        - destruct (Sock _ _ E) as (m & T2). exists m. unfold w1. cbn [set_table e_table].
          rewrite nth_error_upd_neq by exact N. exact T2. }
      assert (LEN1 : length (e_table w1) = length (i_kinds s)).
      { unfold w1. cbn [set_table e_table]. rewrite upd_length. exact Len. }
      assert (WAIT : forall x, In x (i_wait s) -> exists k m, nth_error (i_kinds s) x = Some k
        /\ ready k = true /\ nth_error (e_table w1) x = Some (Some (live k m (registered s x)))
        /\ (k = TcpListener -> m <> 0)).
      { intros x F. destruct (Wait x F) as (k' & m & E' & R' & T2 & B).
        destruct (SOCK _ _ E') as (m' & T3). exists k', m'. split; [exact E'|]. split; [exact R'|].
        split; [exact T3|]. intros X. destruct (Nat.eq_dec fd x) as [<-|N].
        - rewrite T1 in T3. injection T3 as _ _ _ _ <-. discriminate.
        - unfold w1 in T3. cbn [set_table e_table] in T3. rewrite nth_error_upd_neq in T3 by exact N.
          rewrite T2 in T3. injection T3 as E3. rewrite <- E3. auto. }
      cbn [actual_step]. replace (e_pending w1) with (e_pending w) by reflexivity.
      rewrite Pend. destruct (i_wait s) as [|x0 rest] eqn:WT; cbn [hd_error] in *.
      + destruct (registered s fd) eqn:R.
        * constructor; cbn [set_pending e_table e_pending e_queues e_note e_notes e_status e_disposition e_killed
                        i_kinds i_wait i_queue i_connections i_note i_notes]; auto.
          intros x [<-|[]]. exists TcpListener, (S n). split; [exact K|]. split; [eauto|].
          split; [rewrite <- R in T1; exact T1|]. intros _. discriminate.
        * constructor; cbn [i_kinds i_wait i_queue i_connections i_note i_notes]; auto.
      + destruct (registered s fd) eqn:R;
          (constructor; cbn [i_kinds i_wait i_queue i_connections i_note i_notes]; auto).
    - (* handle *)
      clear P. cbn [actual_step].
      destruct (i_wait s) as [|fd rest] eqn:WT.
      + unfold handle_signal. rewrite Pend. cbn [hd_error]. eexists _, ready. split; [reflexivity|].
        exact I.
      + cbn [hd_error] in Pend. destruct (Wait fd (or_introl eq_refl)) as (k & n & K & R & T & B).
        assert (rest = []) as -> by (destruct rest; [reflexivity|cbn in One; lia]).
        rewrite K in *.
        assert (NTS : forall t q, e_notes (notify (EW t None q (e_note w) (e_notes w) (e_status w) (e_disposition w) (e_killed w)))
                    = i_notes s ++ match i_note s with Some x => [x] | None => [] end).
        { intros t q. unfold notify. cbn [e_note e_notes]. rewrite Note. destruct (i_note s); cbn [e_notes]; rewrite Notes; [reflexivity|].
          rewrite app_nil_r. reflexivity. }
        assert (TBL : forall t q, e_table (notify (EW t None q (e_note w) (e_notes w) (e_status w) (e_disposition w) (e_killed w))) = t
            /\ e_pending (notify (EW t None q (e_note w) (e_notes w) (e_status w) (e_disposition w) (e_killed w))) = None
            /\ e_queues (notify (EW t None q (e_note w) (e_notes w) (e_status w) (e_disposition w) (e_killed w))) = q
            /\ e_note (notify (EW t None q (e_note w) (e_notes w) (e_status w) (e_disposition w) (e_killed w))) = i_note s
            /\ e_status (notify (EW t None q (e_note w) (e_notes w) (e_status w) (e_disposition w) (e_killed w))) = 0%Z
            /\ e_disposition (notify (EW t None q (e_note w) (e_notes w) (e_status w) (e_disposition w) (e_killed w))) = CatcherHandler
            /\ e_killed (notify (EW t None q (e_note w) (e_notes w) (e_status w) (e_disposition w) (e_killed w))) = false).
        { intros t q. unfold notify. cbn [e_note]. rewrite Note. destruct (i_note s); cbn; auto 10. }
        destruct (kind_eqb k TcpListener) eqn:KL.
        * assert (k = TcpListener) as -> by (destruct k; try discriminate KL; reflexivity).
          destruct n as [|n]; [exfalso; apply (B eq_refl); reflexivity|].
          destruct ok.
          2:{ assert (EH : handle_signal capacity w false
                = Ok (notify (EW (e_table w) None (e_queues w) (e_note w) (e_notes w) (e_status w) (e_disposition w) (e_killed w)))).
              { unfold handle_signal. rewrite Pend. cbv zeta.
                assert (T' : sock (set_pending w None) fd = Some (live TcpListener (S n) (registered s fd)))
                  by (apply sock_live; exact T).
                rewrite T'. reflexivity. }
              rewrite EH. eexists _, ready. split; [reflexivity|].
              destruct (TBL (e_table w) (e_queues w)) as (X1 & X2 & X3 & X4 & X5 & X6 & X7).
              pose proof (NTS (e_table w) (e_queues w)) as X8.
              constructor; cbn [i_kinds i_wait i_queue i_connections i_note i_notes]; rewrite ?X1, ?X3; auto.
              intros x []. }
          destruct (handle_listener w ready (i_queue s) (i_connections s) fd n (registered s fd) true Pend T) as (q & E & H); auto.
          { intros i L. rewrite Len in L. destruct (nth_error (i_kinds s) i) as [k|] eqn:X.
            - destruct (Sock _ _ X) as (m & Y). eauto.
            - apply nth_error_None in X. lia. }
          rewrite E. eexists _, ready. split; [reflexivity|].
          match goal with |- einv (notify (EW ?t _ ?q _ _ _ _ _)) _ _ =>
            destruct (TBL t q) as (X1 & X2 & X3 & X4 & X5 & X6 & X7); pose proof (NTS t q) as X8 end.
          assert (LT : fd < length (e_table w)) by (apply nth_error_Some; congruence).
          pose proof (not_registered_new _ _ _ I) as NR.
          constructor; cbn [i_kinds i_wait i_queue i_connections i_note i_notes]; auto.
          -- rewrite X1, !app_length, upd_length, Len. reflexivity.
          -- rewrite X1. intros x k' E'. apply nth_app_inv in E' as [[L E']|[-> ->]].
             ++ rewrite nth_error_app1 by (rewrite upd_length; lia). destruct (Nat.eq_dec fd x) as [<-|N].
                ** rewrite K in E'. injection E' as <-. exists n. rewrite nth_error_upd_eq by exact LT. reflexivity.
                ** destruct (Sock _ _ E') as (m & T2). exists m. rewrite nth_error_upd_neq by exact N. exact T2.
             ++ exists 0. replace (length (i_kinds s)) with (length (upd (e_table w) fd (Some (live TcpListener n (registered s fd)))))
                  by (rewrite upd_length; exact Len). rewrite nth_last. f_equal. f_equal.
                rewrite upd_length, Len. change (registered _ (length (i_kinds s))) with (registered s (length (i_kinds s))).
                rewrite NR. reflexivity.
          -- intros x Y. rewrite app_length. apply On in Y. cbn. lia.
          -- intros x k' Y E'. pose proof (On _ Y). rewrite nth_error_app1 in E' by assumption. eauto.
          -- intros x [].
          -- rewrite X3. rewrite <- Len. exact H.
        * assert (NL : k <> TcpListener) by (intros ->; discriminate KL).
          destruct (handle_descriptor w ready (i_queue s) (i_connections s) fd k n (registered s fd) ok Pend T NL R Qs) as (q & E & H).
          rewrite E. eexists _, ready. split; [reflexivity|].
          set (g := fun k' => if kind_eqb k' k && (length (i_queue s k) <? capacity k)
                              then i_queue s k' ++ [Z.of_nat fd] else i_queue s k').
          assert (H' : queues_hold q ready g (i_connections s)).
          { eapply queues_ext; [|exact H]. intros k'. unfold g, pushed_to.
            destruct (length (i_queue s k) <? capacity k); destruct (kind_eqb k' k); reflexivity. }
          match goal with |- einv _ ?X _ => replace X with (Ideal (i_kinds s) (i_on s) [] g
                    (i_connections s) (i_note s) (i_notes s ++ match i_note s with Some n0 => [n0] | None => [] end))
            by (destruct k; try reflexivity; contradiction) end.
          match goal with |- einv (notify (EW ?t _ ?q _ _ _ _ _)) _ _ =>
            destruct (TBL t q) as (X1 & X2 & X3 & X4 & X5 & X6 & X7); pose proof (NTS t q) as X8 end.
          constructor; cbn [i_kinds i_wait i_queue i_connections i_note i_notes]; rewrite ?X1, ?X3; auto.
          intros x [].
    - (* pop *)
      destruct (registrar_pop_ok w ready _ _ k Qs) as (q & E & H). rewrite E. cbn [bind fst].
      eexists _, ready. split; [reflexivity|].
      destruct k; (constructor; cbn [actual_step ideal_step set_queues e_table e_pending e_queues e_note e_notes e_status e_disposition e_killed
                        i_kinds i_wait i_queue i_connections i_note i_notes]; auto).
    - (* notificator *)
      eexists _, ready. split; [reflexivity|].
      constructor; cbn [actual_step ideal_step e_table e_pending e_queues e_note e_notes e_status e_disposition e_killed
                        i_kinds i_wait i_queue i_connections i_note i_notes]; auto.
  Qed.

  Lemma erun_ok h : forall w s ready, einv w s ready -> plain_history capacity s h ->
    exists w' ready', erun capacity PID w h = Ok w' /\ einv w' (fold_left (actual_step capacity) h s) ready'.
  Proof.
    induction h as [|c h IH]; intros w s ready I P; cbn [erun fold_left].
    - eauto.
    - destruct P as [P1 P2]. destruct (estep_ok w s ready c I P1) as (w1 & r1 & E & I1).
      rewrite E. cbn [bind]. eapply IH; eauto.
  Qed.

  Lemma erun_app h1 : forall h2 w, erun capacity PID w (h1 ++ h2)
    = let! w := erun capacity PID w h1 in erun capacity PID w h2.
  Proof.
    induction h1 as [|c h1 IH]; intros h2 w; [reflexivity|]. cbn [app erun].
    destruct (estep capacity PID w c); cbn [bind]; auto.
  Qed.
End Inv.
