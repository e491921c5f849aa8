(** Model of the asynchronous socket events on Posix: registration of a socket, the signal and
    its handler, the queues and the notificator.

    Source: /repo/src/Os/Posix/Async/Network/EventCatcher.cpp,
    /repo/src/Os/Async/Network/{EventCatcherBase,Registrar}.cpp,
    /repo/src/Os/Posix/Network/{SocketFunctions,TcpSocketFunctions}.cpp.
    The queues are the QueuedArrays of QueueModel.v. Descriptors are the positions in the table of
    open files of the process. *)
From Coq Require Import List Arith ZArith Bool.
From Verif Require Import Base ConcModel QueueModel RegistrarModel.
Import ListNotations.

(** The class of the object that a socket belongs to: UdpServer, UdpClient, TcpServer,
    TcpServer::WithClient, TcpClient. *)
Inductive kind := UdpServer | UdpClient | TcpListener | TcpAccepted | TcpClient.

(** A socket of the kernel. [k_kind] only records which class made it. [k_reuse]: SO_REUSEADDR,
    [k_listen]: SO_ACCEPTCONN, [k_backlog]: connections that nobody accepted yet; then the flags
    O_ASYNC and O_NONBLOCK, and the values of F_SETOWN and F_SETSIG. Of the system. *)
Record ksock := KS {
  k_kind : kind; k_stream : bool; k_reuse : bool; k_listen : bool; k_backlog : nat;
  k_async : bool; k_nonblock : bool; k_owner : Z; k_signal : Z
}.

(** What the process does on SIGPOLL: terminate (the default), call the handler of EventCatcher,
    or something that was there before. Of the system. *)
Inductive disposition := DefaultAction | CatcherHandler | OtherHandler.

(** The process: its sockets, the descriptor that the pending SIGPOLL tells (SIGPOLL is no
    real-time signal: there is at most one pending), the queues, the notificator, the
    notificators called so far, the status of the EventCatcher, the disposition of SIGPOLL, and
    whether the process was terminated by it. *)
Record eworld := EW {
  e_table : list (option ksock); e_pending : option nat; e_queues : queues;
  e_note : option nat; e_notes : list nat;
  e_status : Z; e_disposition : disposition; e_killed : bool
}.

Section Event.
  (** Capacities of the queues, /repo/src/Os/Async/Network/Types.hpp 17-35 (that of the
      accepted connections for TcpListener). *)
  Variable capacity : kind -> nat.
  (** The process number, SIGPOLL and EBADF. *)
  Variable PID : Z.
  (** Of the system. *)
  Definition SIGPOLL : Z := 29.
  (** Of the system. *)
  Definition EBADF : Z := 9.

  (** EventCatcher::EventCatcher with makeSigAction, EventCatcher.cpp 30-39, 69-89.
      [mask_error]: an error of sigemptyset or sigaddset, [action_error]: an error of
      sigaction. After an error of the first kind the constructor returns and status stays
      STATUS_SUCCESS. *)
  Definition catcher_start (before : disposition) (mask_error action_error : option Z) : eworld :=
    let '(status, d) :=
      match mask_error with
      | Some _ => (0%Z, before)
      | None =>
          match action_error with
          | Some e => ((- e)%Z, before)
          | None => (0%Z, CatcherHandler)
          end
      end in
    EW [] None queues_new None [] status d false.

  (** EventCatcher::~EventCatcher, EventCatcher.cpp 41-47: oldAction is what sigaction stored in the constructor,
      or zeros, the default action, if it was not called. *)
  Definition catcher_end (before : disposition) (mask_error : option Z) (w : eworld) : eworld :=
    if (e_status w =? 0)%Z then
      EW (e_table w) (e_pending w) (e_queues w) (e_note w) (e_notes w) (e_status w)
         (match mask_error with Some _ => DefaultAction | None => before end) (e_killed w)
    else w.

  (** Of the model. *)
  Definition set_table (w : eworld) (t : list (option ksock)) : eworld :=
    EW t (e_pending w) (e_queues w) (e_note w) (e_notes w) (e_status w) (e_disposition w) (e_killed w).
  (** Of the model. *)
  Definition set_pending (w : eworld) (p : option nat) : eworld :=
    EW (e_table w) p (e_queues w) (e_note w) (e_notes w) (e_status w) (e_disposition w) (e_killed w).
  (** Of the model. *)
  Definition set_queues (w : eworld) (q : queues) : eworld :=
    EW (e_table w) (e_pending w) q (e_note w) (e_notes w) (e_status w) (e_disposition w) (e_killed w).

  (** Of the model: the socket behind a descriptor. *)
  Definition sock (w : eworld) (fd : nat) : option ksock :=
    match nth_error (e_table w) fd with Some (Some k) => Some k | _ => None end.

  (** A new descriptor is the lowest that is free. Of the system. *)
  Fixpoint lowest (t : list (option ksock)) : nat :=
    match t with
    | Some _ :: t => S (lowest t)
    | _ => 0
    end.
  (** Of the system: a new socket gets the lowest free descriptor. *)
  Definition put (t : list (option ksock)) (k : ksock) : list (option ksock) :=
    if lowest t <? length t then upd t (lowest t) (Some k) else t ++ [Some k].

  (** The sockets that the constructors make, SocketFunctions.cpp 68-145 and listen in
      TcpServer.cpp 19-25: servers set SO_REUSEADDR; [listen_ok]: whether listen succeeds. *)
  Definition created (k : kind) (listen_ok : bool) : ksock :=
    match k with
    | UdpServer => KS UdpServer false true false 0 false false 0 0
    | UdpClient => KS UdpClient false false false 0 false false 0 0
    | TcpListener => KS TcpListener true true listen_ok 0 false false 0 0
    | TcpAccepted => KS TcpAccepted true true false 0 false false 0 0
    | TcpClient => KS TcpClient true false false 0 false false 0 0
    end.

  (** enableSignal, EventCatcher.cpp 154-168: three calls of fcntl that may fail, with these
      errors. *)
  Definition enable_signal (w : eworld) (fd : nat) (e1 e2 e3 : option Z) : eworld * Z :=
    match sock w fd with
    | None => (w, (- EBADF)%Z)
    | Some k =>
        let flags := KS (k_kind k) (k_stream k) (k_reuse k) (k_listen k) (k_backlog k)
                        true true (k_owner k) (k_signal k) in
        let owner := KS (k_kind k) (k_stream k) (k_reuse k) (k_listen k) (k_backlog k)
                        true true PID (k_signal k) in
        let all := KS (k_kind k) (k_stream k) (k_reuse k) (k_listen k) (k_backlog k)
                      true true PID SIGPOLL in
        match e1, e2, e3 with
        | Some e, _, _ => (w, (- e)%Z)
        | None, Some e, _ => (set_table w (upd (e_table w) fd (Some flags)), (- e)%Z)
        | None, None, Some e => (set_table w (upd (e_table w) fd (Some owner)), (- e)%Z)
        | None, None, None => (set_table w (upd (e_table w) fd (Some all)), 0%Z)
        end
    end.
  (** disableSignal, EventCatcher.cpp 170-184. *)
  Definition disable_signal (w : eworld) (fd : nat) (e1 e2 e3 : option Z) : eworld * Z :=
    match sock w fd with
    | None => (w, (- EBADF)%Z)
    | Some k =>
        let flags := KS (k_kind k) (k_stream k) (k_reuse k) (k_listen k) (k_backlog k)
                        false false (k_owner k) (k_signal k) in
        let owner := KS (k_kind k) (k_stream k) (k_reuse k) (k_listen k) (k_backlog k)
                        false false 0 (k_signal k) in
        let all := KS (k_kind k) (k_stream k) (k_reuse k) (k_listen k) (k_backlog k)
                      false false 0 0 in
        match e1, e2, e3 with
        | Some e, _, _ => (w, (- e)%Z)
        | None, Some e, _ => (set_table w (upd (e_table w) fd (Some flags)), (- e)%Z)
        | None, None, Some e => (set_table w (upd (e_table w) fd (Some owner)), (- e)%Z)
        | None, None, None => (set_table w (upd (e_table w) fd (Some all)), 0%Z)
        end
    end.

  (** A call of "if (!queue) queue.init(value)" without interference. As in Registrar.cpp 24-26.
      *)
  Definition ensure_call {A : Type} (SIZE : nat) (fresh initValue : A) (q : queue A)
    : outcome (queue A) :=
    let! r := alone (SIZE + 20) (qcode SIZE fresh (Ensure initValue)) q in Ok (fst r).

  (** The queue for a kind of socket, Registrar.cpp 22-60. *)
  Definition ensure_queue (q : queues) (k : kind) : outcome queues :=
    match k with
    | UdpServer =>
        let! x := ensure_call (capacity k) 0%Z INVALID (udp_servers q) in
        Ok (Queues x (udp_clients q) (tcp_accepted q) (tcp_servers q) (tcp_clients q))
    | UdpClient =>
        let! x := ensure_call (capacity k) 0%Z INVALID (udp_clients q) in
        Ok (Queues (udp_servers q) x (tcp_accepted q) (tcp_servers q) (tcp_clients q))
    | TcpListener =>
        let! x := ensure_call (capacity k) accepted_default accepted_default (tcp_accepted q) in
        Ok (Queues (udp_servers q) (udp_clients q) x (tcp_servers q) (tcp_clients q))
    | TcpAccepted =>
        let! x := ensure_call (capacity k) 0%Z INVALID (tcp_servers q) in
        Ok (Queues (udp_servers q) (udp_clients q) (tcp_accepted q) x (tcp_clients q))
    | TcpClient =>
        let! x := ensure_call (capacity k) 0%Z INVALID (tcp_clients q) in
        Ok (Queues (udp_servers q) (udp_clients q) (tcp_accepted q) (tcp_servers q) x)
    end.

  (** Registrar::add, Registrar.cpp 22-60, for an object of the class that made the socket, with
      EventCatcher::enable, EventCatcher.cpp 51-57. (For a closed descriptor the class is not
      known here: only the error is modelled, not that the queue is initialised.) *)
  Definition registrar_add (w : eworld) (fd : nat) (e1 e2 e3 : option Z) : outcome (eworld * Z) :=
    match sock w fd with
    | None => Ok (w, (- EBADF)%Z)
    | Some k =>
        let! q := ensure_queue (e_queues w) (k_kind k) in
        let w := set_queues w q in
        if (e_status w =? 0)%Z then Ok (enable_signal w fd e1 e2 e3) else Ok (w, e_status w)
    end.
  (** Registrar::remove, Registrar.cpp 64-87, with EventCatcher::disable, 59-65. *)
  Definition registrar_remove (w : eworld) (fd : nat) (e1 e2 e3 : option Z) : outcome (eworld * Z) :=
    match sock w fd with
    | None => Ok (w, (- EBADF)%Z)
    | Some _ =>
        if (e_status w =? 0)%Z then Ok (disable_signal w fd e1 e2 e3) else Ok (w, e_status w)
    end.

  (** The kernel reports an event at a socket: if O_ASYNC and an owner are set, a signal. With
      F_SETSIG SIGPOLL it carries the descriptor; another SIGPOLL while one is pending is
      dropped. (Without F_SETSIG, SIGIO, the same number, is sent without a descriptor: taken as
      an event of which the handler gets the number 0 of si_fd; only a registration that failed
      half-way does this, and here it is ignored.). Of the system. *)
  Definition kernel_event (w : eworld) (fd : nat) : eworld :=
    match sock w fd with
    | None => w
    | Some k =>
        if k_async k && (k_owner k =? PID)%Z && (k_signal k =? SIGPOLL)%Z then
          match e_disposition w with
          | DefaultAction =>
              EW (e_table w) (e_pending w) (e_queues w) (e_note w) (e_notes w) (e_status w)
                 (e_disposition w) true
          | OtherHandler => w
          | CatcherHandler =>
              match e_pending w with
              | None => set_pending w (Some fd)
              | Some _ => w
              end
          end
        else w
    end.

  (** A connection arrives at a listening socket. Of the system. *)
  Definition kernel_connect (w : eworld) (fd : nat) : eworld :=
    match sock w fd with
    | None => w
    | Some k =>
        kernel_event
          (set_table w (upd (e_table w) fd
             (Some (KS (k_kind k) (k_stream k) (k_reuse k) (k_listen k) (S (k_backlog k))
                       (k_async k) (k_nonblock k) (k_owner k) (k_signal k))))) fd
    end.

  (** socket::tcp::server::accept, TcpSocketFunctions.cpp 55-73: [ok]: whether a descriptor is
      available. The new socket inherits SO_REUSEADDR, not the flags. Without a connection it
      fails on a non-blocking socket and waits on a blocking one (here: does not return). *)
  Definition sys_accept (w : eworld) (fd : nat) (k : ksock) (ok : bool) : outcome (eworld * option nat) :=
    match k_backlog k with
    | 0 => if k_nonblock k then Ok (w, None) else Diverge
    | S n =>
        if ok then
          let listener := KS (k_kind k) (k_stream k) (k_reuse k) (k_listen k) n
                             (k_async k) (k_nonblock k) (k_owner k) (k_signal k) in
          let t := upd (e_table w) fd (Some listener) in
          Ok (set_table w (put t (KS TcpAccepted true (k_reuse k) false 0 false false 0 0)),
              Some (lowest t))
        else Ok (w, None)
    end.

  (** push to the queue of a kind; the result is ignored. EventCatcherBase.cpp and Registrar.cpp.
      *)
  Definition push_descriptor (w : eworld) (k : kind) (fd : nat) : outcome eworld :=
    let q := e_queues w in
    let d := Z.of_nat fd in
    match k with
    | UdpServer =>
        let! r := push_call (capacity k) 0%Z d (udp_servers q) in
        Ok (set_queues w (Queues (fst r) (udp_clients q) (tcp_accepted q) (tcp_servers q) (tcp_clients q)))
    | UdpClient =>
        let! r := push_call (capacity k) 0%Z d (udp_clients q) in
        Ok (set_queues w (Queues (udp_servers q) (fst r) (tcp_accepted q) (tcp_servers q) (tcp_clients q)))
    | TcpAccepted =>
        let! r := push_call (capacity k) 0%Z d (tcp_servers q) in
        Ok (set_queues w (Queues (udp_servers q) (udp_clients q) (tcp_accepted q) (fst r) (tcp_clients q)))
    | TcpClient =>
        let! r := push_call (capacity k) 0%Z d (tcp_clients q) in
        Ok (set_queues w (Queues (udp_servers q) (udp_clients q) (tcp_accepted q) (tcp_servers q) (fst r)))
    | TcpListener => Ok w
    end.
  (** pushTcpServerAcception, Registrar.cpp. *)
  Definition push_accepted (w : eworld) (fd client : nat) : outcome eworld :=
    let q := e_queues w in
    let! r := push_call (capacity TcpListener) accepted_default
                (Accepted (Z.of_nat fd) (Z.of_nat client)) (tcp_accepted q) in
    Ok (set_queues w (Queues (udp_servers q) (udp_clients q) (fst r) (tcp_servers q) (tcp_clients q))).

  (** handleTcp, EventCatcher.cpp 117-144. isServer and isListener read SO_REUSEADDR and
      SO_ACCEPTCONN, SocketFunctions.cpp 203-219. *)
  Definition handle_tcp (w : eworld) (fd : nat) (k : ksock) (accept_ok : bool) : outcome eworld :=
    if negb (k_reuse k) then push_descriptor w TcpClient fd
    else if negb (k_listen k) then push_descriptor w TcpAccepted fd
    else
      let! r := sys_accept w fd k accept_ok in
      match snd r with
      | None => Ok (fst r)
      | Some client => push_accepted (fst r) fd client
      end.
  (** handleUdp, EventCatcher.cpp 146-152. *)
  Definition handle_udp (w : eworld) (fd : nat) (k : ksock) : outcome eworld :=
    if k_reuse k then push_descriptor w UdpServer fd else push_descriptor w UdpClient fd.

  (** EventCatcherBase::notify, EventCatcherBase.cpp 26-30. *)
  Definition notify (w : eworld) : eworld :=
    match e_note w with
    | None => w
    | Some n => EW (e_table w) (e_pending w) (e_queues w) (e_note w) (e_notes w ++ [n])
                   (e_status w) (e_disposition w) (e_killed w)
    end.

  (** The pending signal is delivered: signalHandler, EventCatcher.cpp 91-115. The type of a
      descriptor that is closed is unknown. *)
  Definition handle_signal (w : eworld) (accept_ok : bool) : outcome eworld :=
    match e_pending w with
    | None => Ok w
    | Some fd =>
        let w := set_pending w None in
        match sock w fd with
        | None => Ok w
        | Some k =>
            let! w := if k_stream k then handle_tcp w fd k accept_ok else handle_udp w fd k in
            Ok (notify w)
        end
    end.

  (** Registrar::pop of the queue of a kind, Registrar.cpp 91-149. *)
  Inductive popped := Descriptor (d : Z) | Connection (c : accepted).
  (** popUdpServer, popUdpClient, popTcpServerAcception, popTcpServer, popTcpClient, Registrar.cpp
      91-149. *)
  Definition registrar_pop (w : eworld) (k : kind) : outcome (eworld * popped) :=
    let q := e_queues w in
    match k with
    | UdpServer =>
        let! r := pop_descriptor (capacity k) (udp_servers q) in
        Ok (set_queues w (Queues (fst r) (udp_clients q) (tcp_accepted q) (tcp_servers q) (tcp_clients q)),
            Descriptor (snd r))
    | UdpClient =>
        let! r := pop_descriptor (capacity k) (udp_clients q) in
        Ok (set_queues w (Queues (udp_servers q) (fst r) (tcp_accepted q) (tcp_servers q) (tcp_clients q)),
            Descriptor (snd r))
    | TcpListener =>
        let! r := pop_accepted (capacity k) (tcp_accepted q) in
        Ok (set_queues w (Queues (udp_servers q) (udp_clients q) (fst r) (tcp_servers q) (tcp_clients q)),
            Connection (snd r))
    | TcpAccepted =>
        let! r := pop_descriptor (capacity k) (tcp_servers q) in
        Ok (set_queues w (Queues (udp_servers q) (udp_clients q) (tcp_accepted q) (fst r) (tcp_clients q)),
            Descriptor (snd r))
    | TcpClient =>
        let! r := pop_descriptor (capacity k) (tcp_clients q) in
        Ok (set_queues w (Queues (udp_servers q) (udp_clients q) (tcp_accepted q) (tcp_servers q) (fst r)),
            Descriptor (snd r))
    end.

  (** The calls of the program and the events of the system. *)
  Inductive ecall :=
  | ECreate (k : kind) (listen_ok : bool)
  | EClose (fd : nat)
  | EAdd (fd : nat) (e1 e2 e3 : option Z)
  | ERemove (fd : nat) (e1 e2 e3 : option Z)
  | EData (fd : nat)                      (* something can be read *)
  | EConnect (fd : nat)                   (* a connection arrives *)
  | EHandle (accept_ok : bool)            (* the pending signal is delivered *)
  | EPop (k : kind)
  | ENotificator (n : option nat).        (* setNotificator, unsetNotificator *)

  (** One of them, by the functions above. *)
  Definition estep (w : eworld) (c : ecall) : outcome eworld :=
    match c with
    | ECreate k ok => Ok (set_table w (put (e_table w) (created k ok)))
    | EClose fd => Ok (set_table w (upd (e_table w) fd None))
    | EAdd fd e1 e2 e3 => let! r := registrar_add w fd e1 e2 e3 in Ok (fst r)
    | ERemove fd e1 e2 e3 => let! r := registrar_remove w fd e1 e2 e3 in Ok (fst r)
    | EData fd => Ok (kernel_event w fd)
    | EConnect fd => Ok (kernel_connect w fd)
    | EHandle ok => handle_signal w ok
    | EPop k => let! r := registrar_pop w k in Ok (fst r)
    | ENotificator n =>
        Ok (EW (e_table w) (e_pending w) (e_queues w) n (e_notes w) (e_status w)
               (e_disposition w) (e_killed w))
    end.
  (** Of the model: the calls of a history, one after the other. *)
  Fixpoint erun (w : eworld) (h : list ecall) : outcome eworld :=
    match h with
    | [] => Ok w
    | c :: h => let! w := estep w c in erun w h
    end.
End Event.

(** ** tcp::alive, TcpSocketFunctions.cpp 134-155 *)

(** The connection of a socket: bytes that can be read, and whether the peer is there, has
    closed, or the connection was broken (recv fails with this error). *)
Inductive peer := PeerThere | PeerClosed | Broken (error : Z).
(** Of the system. *)
Definition EAGAIN : Z := 11.

(** recv of one byte with MSG_PEEK on a non-blocking socket. Of the system. *)
Definition peek (readable : nat) (p : peer) : Z :=
  match readable with
  | S _ => 1%Z
  | 0 => match p with
         | PeerThere => (- EAGAIN)%Z
         | PeerClosed => 0%Z
         | Broken e => (- e)%Z
         end
  end.

(** The answer and O_NONBLOCK afterwards; [e1], [e2]: errors of fcntl in enableNonblock and
    disableNonblock, SocketFunctions.cpp 221-237. *)
Definition tcp_alive (nonblock : bool) (readable : nat) (p : peer) (e1 e2 : option Z) : bool * bool :=
  match e1 with
  | Some _ => (false, nonblock)
  | None =>
      let result := peek readable p in
      match e2 with
      | Some _ => (false, true)
      | None => (negb (result =? 0)%Z, false)
      end
  end.
