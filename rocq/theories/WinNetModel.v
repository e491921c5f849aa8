(** Owners of sockets on Windows: network objects that are made, moved, assigned, reconnected and destroyed.

    Source: /repo/src/Os/Network/{NetworkBase,TcpClient,TcpServer,UdpClient,UdpServer}.cpp and
    /repo/src/Os/Windows/Network/{SocketFunctions,TcpSocketFunctions}.cpp. A socket handle is a number; INVALID_SOCKET,
    the largest SOCKET, is -1 here. Addresses and data are not part of this model. *)
From Coq Require Import List Arith ZArith Bool.
From Verif Require Import Base.
Import ListNotations.
Local Open Scope Z_scope.

(** SOCKET_INITIALIZER.descriptor, Os/Windows/Constants.hpp 27-31. *)
Definition HANDLE_INITIALIZER : Z := 0.
(** SOCKET_INVALID.descriptor, Os/Windows/Constants.hpp 33. *)
Definition HANDLE_INVALID : Z := -1.
(** The number of the error, of Windows. *)
Definition WSAENOTSOCK : Z := 10038.

(** An object derived from NetworkBase, or a TcpServer::WithClient (TcpServer.hpp 56-94). *)
Inductive wkind := WBase | WClient.
(** The members socket and status, NetworkBase.hpp 57-60. *)
Record wobj := WObj { wo_kind : wkind; wo_handle : Z; wo_status : Z }.
(** The variables (None: not constructed), the open sockets of the process, WinSockLibrary::inited. Of the model. *)
Record nworld := NW { nw_vars : list (option wobj); nw_open : list Z; nw_inited : bool }.

(** Of the model: is it an open socket? *)
Definition is_open (w : nworld) (h : Z) : bool := existsb (Z.eqb h) (nw_open w).

(** socket::destroy, Windows/Network/SocketFunctions.cpp 192-201: closesocket fails exactly for what is not an open
    socket (WSAENETDOWN, WSAEINPROGRESS and WSAEWOULDBLOCK are not modelled). The handle afterwards and the status. *)
Definition destroy (w : nworld) (h : Z) : nworld * Z * Z :=
  if is_open w h
  then (NW (nw_vars w) (filter (fun x => negb (x =? h)) (nw_open w)) (nw_inited w), HANDLE_INVALID, 0)
  else (w, h, - WSAENOTSOCK).

(** What the system answers: WSAStartup (asked only once), WSASocketW (a handle, or INVALID_SOCKET), setsockopt,
    bind, listen (0, or the error with a minus). Of the system. *)
Record answers := Answers { a_startup : bool; a_socket : option Z; a_option : bool; a_bind : bool; a_listen : Z }.

(** winsockInit, Windows/Network/SocketFunctions.cpp 322-327 and 292-305. *)
Definition winsock_init (w : nworld) (a : answers) : nworld :=
  NW (nw_vars w) (nw_open w) (nw_inited w || a_startup a).
(** WSASocketW, called by udpCreateSocket and tcpCreateSocket, Windows/Network/SocketFunctions.cpp 44-52. *)
Definition wsa_socket (w : nworld) (a : answers) : nworld * Z :=
  match a_socket a with
  | Some h => (NW (nw_vars w) (h :: nw_open w) (nw_inited w), h)
  | None => (w, HANDLE_INVALID)
  end.

(** createUdpServer Windows/Network/SocketFunctions.cpp 103-131, createTcpServer 148-175. *)
Definition create_server (w : nworld) (a : answers) : nworld * Z :=
  let w := winsock_init w a in
  if negb (nw_inited w) then (w, HANDLE_INVALID)
  else
    let (w, h) := wsa_socket w a in
    if h =? HANDLE_INVALID then (w, HANDLE_INVALID)
    else if negb (a_option a) then (fst (fst (destroy w h)), HANDLE_INVALID)
    else if negb (a_bind a) then (w, HANDLE_INVALID)            (* socket = Socket{} *)
    else (w, h).
(** createUdpClient Windows/Network/SocketFunctions.cpp 133-144, createTcpClient 177-188. *)
Definition create_client (w : nworld) (a : answers) : nworld * Z :=
  let w := winsock_init w a in
  if negb (nw_inited w) then (w, HANDLE_INVALID) else wsa_socket w a.

(** NetworkBase::operator bool, NetworkBase.cpp 37-40. *)
Definition net_bool (o : wobj) : bool := negb (HANDLE_INVALID =? wo_handle o) || (0 <=? wo_status o).
(** NetworkBase(Socket), NetworkBase.cpp 71-77; the status is 0 at first, NetworkBase.hpp 60. *)
Definition net_of_socket (h : Z) : wobj :=
  let o := WObj WBase h 0 in
  if net_bool o then o else WObj WBase h (-1).

(** UdpServer and TcpServer; UdpClient and TcpClient. *)
Inductive wclass := CUdpServer | CTcpServer | CUdpClient | CTcpClient.
(** UdpServer.cpp 17-18, UdpClient.cpp 17-18, TcpServer.cpp 19-25 (listen of an invalid socket fails), TcpClient.cpp
    17-19. *)
Definition net_create (w : nworld) (c : wclass) (a : answers) : nworld * wobj :=
  match c with
  | CUdpServer => let (w, h) := create_server w a in (w, net_of_socket h)
  | CUdpClient | CTcpClient => let (w, h) := create_client w a in (w, net_of_socket h)
  | CTcpServer =>
      let (w, h) := create_server w a in
      (w, WObj WBase h (if h =? HANDLE_INVALID then - WSAENOTSOCK else a_listen a))
  end.

(** Of the model: access to an object; without one it is undefined. *)
Definition get_obj (w : nworld) (v : nat) : outcome wobj :=
  match nth_error (nw_vars w) v with Some (Some o) => Ok o | _ => UB end.
(** Of the model: the write of a variable. *)
Definition put_obj (w : nworld) (v : nat) (o : option wobj) : nworld := NW (upd (nw_vars w) v o) (nw_open w) (nw_inited w).
(** Of the model: an object is constructed where there is none. *)
Definition place (w : nworld) (v : nat) : outcome unit :=
  match nth_error (nw_vars w) v with Some None => Ok tt | _ => UB end.

(** operator=(NetworkBase &&), NetworkBase.cpp 84-93; operator=(WithClient &&), TcpServer.cpp 90-99. *)
Definition move_assign (w : nworld) (v p : nat) : outcome nworld :=
  let! o := get_obj w v in
  let! s := get_obj w p in
  let w := put_obj w v (Some (WObj (wo_kind o) (wo_handle s) (wo_status s))) in
  Ok (put_obj w p (Some (WObj (wo_kind s) HANDLE_INITIALIZER 0))).

(** ~NetworkBase, NetworkBase.cpp 29-35; ~WithClient, TcpServer.cpp 80-88. *)
Definition destructor (w : nworld) (v : nat) : outcome nworld :=
  let! o := get_obj w v in
  let w :=
    match wo_kind o with
    | WBase => if negb (net_bool o) then w else fst (fst (destroy w (wo_handle o)))
    | WClient => if wo_handle o =? HANDLE_INITIALIZER then w else fst (fst (destroy w (wo_handle o)))
    end in
  Ok (put_obj w v None).

(** TcpClient::disconnect, TcpClient.cpp 33-37. *)
Definition disconnect (w : nworld) (v : nat) : outcome (nworld * Z) :=
  let! o := get_obj w v in
  let '(w, h, status) := destroy w (wo_handle o) in
  Ok (put_obj w v (Some (WObj (wo_kind o) h status)), status).
(** TcpClient::reconnect, TcpClient.cpp 39-48; [connected]: what connect returns. *)
Definition reconnect (w : nworld) (v : nat) (a : answers) (connected : Z) : outcome (nworld * Z) :=
  let! o := get_obj w v in
  let! r := if wo_handle o =? HANDLE_INVALID then Ok (w, 0) else disconnect w v in
  let (w, status) := r in
  if status <? 0 then Ok (w, status)
  else
    let (w, h) := create_client w a in
    Ok (put_obj w v (Some (WObj (wo_kind o) h connected)), connected).
(** TcpServer::accept, TcpServer.cpp 33-43, Windows/Network/TcpSocketFunctions.cpp 48-66; [c]: the handle that ::accept returns, or the
    error. *)
Definition accept (w : nworld) (p v : nat) (c : Z + Z) : outcome (nworld * Z) :=
  let! _ := place w v in
  let! o := get_obj w p in
  if wo_status o <? 0 then
    Ok (put_obj w v (Some (WObj WClient HANDLE_INVALID (wo_status o))), wo_status o)
  else
    match c with
    | inl h => Ok (put_obj (NW (nw_vars w) (h :: nw_open w) (nw_inited w)) v (Some (WObj WClient h 0)), 0)
    | inr e => Ok (put_obj w v (Some (WObj WClient HANDLE_INVALID (- e))), - e)
    end.

(** The calls of the classes, as a program makes them. Of the model. *)
Inductive ncall :=
| NCreate (v : nat) (c : wclass) (a : answers)
| NAccept (p v : nat) (c : Z + Z)
| NMove (v p : nat)
| NMoveAssign (v p : nat)
| NSetStatus (v : nat) (s : Z)     (* connect, send, receive and wait set the status *)
| NDisconnect (v : nat)
| NReconnect (v : nat) (a : answers) (connected : Z)
| NDestroy (v : nat).

(** One call and the status it returns, or that of the object it makes. NetworkBase(NetworkBase &&), NetworkBase.cpp
    79-82; WithClient(WithClient &&), TcpServer.cpp 70-73. *)
Definition nstep (w : nworld) (c : ncall) : outcome (nworld * Z) :=
  match c with
  | NCreate v c a =>
      let! _ := place w v in
      let (w, o) := net_create w c a in Ok (put_obj w v (Some o), wo_status o)
  | NAccept p v c => accept w p v c
  | NMove v p =>
      let! _ := place w v in
      let! s := get_obj w p in
      let w := put_obj w v (Some match wo_kind s with
                                 | WBase => net_of_socket (wo_handle s)
                                 | WClient => WObj WClient HANDLE_INVALID 0
                                 end) in
      let! w := move_assign w v p in Ok (w, 0)
  | NMoveAssign v p => let! w := move_assign w v p in Ok (w, 0)
  | NSetStatus v s => let! o := get_obj w v in Ok (put_obj w v (Some (WObj (wo_kind o) (wo_handle o) s)), s)
  | NDisconnect v => disconnect w v
  | NReconnect v a connected => reconnect w v a connected
  | NDestroy v => let! w := destructor w v in Ok (w, 0)
  end.
(** Of the model: the calls of a program. *)
Fixpoint nrun (w : nworld) (h : list ncall) : outcome (nworld * list Z) :=
  match h with
  | [] => Ok (w, [])
  | c :: h =>
      let! r := nstep w c in
      let! s := nrun (fst r) h in
      Ok (fst s, snd r :: snd s)
  end.
(** Of the model: [n] variables, nothing made yet. *)
Definition n_start (n : nat) : nworld := NW (repeat None n) [] false.
