(** Sockets owned by network objects.

    Source: /repo/src/Os/Network/{NetworkBase,TcpClient,TcpServer,UdpClient,UdpServer}.cpp and
    /repo/src/Os/Posix/Network/SocketFunctions.cpp. The descriptors of the process are a
    finite set; what the system calls return is part of the history ([env]), as far as it is
    not determined by the set: close fails exactly for a descriptor that is not open (errors
    EINTR and EIO of close are not modelled). Addresses and data are not part of this model. *)
From Coq Require Import List Arith ZArith Bool.
From Verif Require Import Base.
Import ListNotations.
Local Open Scope Z_scope.

(** STATUS_SUCCESS, STATUS_FAILED, SOCKET_INITIALIZER.descriptor, SOCKET_INVALID.descriptor,
    Os/Posix/Constants.hpp 15-27; EBADF. *)
Definition STATUS_SUCCESS : Z := 0.
(** Os/Posix/Constants.hpp 16. *)
Definition STATUS_FAILED : Z := -1.
(** SOCKET_INITIALIZER.descriptor, Os/Posix/Constants.hpp 18-22. *)
Definition FD_INITIALIZER : Z := 0.
(** SOCKET_INVALID.descriptor, Os/Posix/Constants.hpp 25-27. *)
Definition FD_INVALID : Z := -1.
(** The number of the error; of Linux. *)
Definition EBADF : Z := 9.

(** An object derived from NetworkBase (NetworkBase.hpp 57-60) or a TcpServer::WithClient
    (TcpServer.hpp, members socket and status). *)
Inductive okind := OBase | OClient.
(** NetworkBase, NetworkBase.hpp 56-60; the class is kept as a tag. *)
Record netobj := Net { o_kind : okind; o_fd : Z; o_status : Z }.

(** Variables (None: not constructed) and the open descriptors of the process. Of the model. *)
Record nworld := NWorld { n_vars : list (option netobj); n_open : list Z }.

(** Of the model. *)
Definition is_open (w : nworld) (fd : Z) : bool := existsb (Z.eqb fd) (n_open w).

(** ::socket, ::accept or another way to open [fd]. Of the system. *)
Definition sys_open (w : nworld) (fd : Z) : nworld := NWorld (n_vars w) (fd :: n_open w).
(** ::close: the set afterwards and the result with the sign of -errno. Of the system. *)
Definition sys_close (w : nworld) (fd : Z) : nworld * Z :=
  if is_open w fd
  then (NWorld (n_vars w) (filter (fun x => negb (x =? fd)) (n_open w)), 0)
  else (w, - EBADF).

(** socket::destroy, SocketFunctions.cpp 149-158: the descriptor of the socket afterwards, and
    the status. *)
Definition sock_destroy (w : nworld) (fd : Z) : nworld * Z * Z :=
  let (w, status) := sys_close w fd in
  if status <? 0 then (w, fd, status) else (w, FD_INVALID, STATUS_SUCCESS).

(** What the system calls return during the creation of an object: [e_socket] a new descriptor or
    -1, [e_option] of setsockopt, [e_bind] of bind, [e_listen] of listen with the sign of -errno.
    Of the system. *)
Record env := Env { e_socket : Z; e_option : Z; e_bind : Z; e_listen : Z }.

(** ::socket. Of the system. *)
Definition sys_socket (w : nworld) (e : env) : nworld * Z :=
  if e_socket e =? -1 then (w, -1) else (sys_open w (e_socket e), e_socket e).

(** createUdpServer SocketFunctions.cpp 68-94, createTcpServer 109-135. *)
Definition create_server (w : nworld) (e : env) : nworld * Z :=
  let (w, fd) := sys_socket w e in
  if fd =? STATUS_FAILED then (w, FD_INVALID)
  else if e_option e <? 0 then
    let '(w, _, _) := sock_destroy w fd in (w, FD_INVALID)
  else if e_bind e =? STATUS_FAILED then
    let '(w, _, _) := sock_destroy w fd in (w, FD_INVALID)
  else (w, fd).

(** createUdpClient 96-105, createTcpClient 137-145; the descriptor of Socket{} is -1
    (Os/Posix/Types.hpp 90). *)
Definition create_client (w : nworld) (e : env) : nworld * Z :=
  let (w, fd) := sys_socket w e in
  if fd =? STATUS_FAILED then (w, -1) else (w, fd).

(** NetworkBase::operator bool, NetworkBase.cpp 37-40. *)
Definition net_bool (o : netobj) : bool := negb (FD_INVALID =? o_fd o) || (0 <=? o_status o).

(** NetworkBase(Socket), NetworkBase.cpp 71-77; status is 0 at first (NetworkBase.hpp 60). *)
Definition net_of_socket (fd : Z) : netobj :=
  let o := Net OBase fd 0 in
  if net_bool o then o else Net OBase fd STATUS_FAILED.

(** UdpServer, UdpClient, TcpServer, TcpClient. *)
Inductive oclass := CUdpServer | CUdpClient | CTcpServer | CTcpClient.

(** The constructors from a port or an address: UdpServer.cpp 17-18, UdpClient.cpp 17-18,
    TcpServer.cpp 19-25 (listens and sets the status), TcpClient.cpp 17-19. *)
Definition net_create (w : nworld) (c : oclass) (e : env) : nworld * netobj :=
  match c with
  | CUdpServer => let (w, fd) := create_server w e in (w, net_of_socket fd)
  | CUdpClient | CTcpClient => let (w, fd) := create_client w e in (w, net_of_socket fd)
  | CTcpServer =>
      let (w, fd) := create_server w e in
      let o := net_of_socket fd in
      (w, Net (o_kind o) (o_fd o) (if fd =? FD_INVALID then - EBADF else e_listen e))
  end.

(** Of the model: access to a variable; one that is not constructed: undefined. *)
Definition get_obj (w : nworld) (v : nat) : outcome netobj :=
  match nth_error (n_vars w) v with
  | Some (Some o) => Ok o
  | _ => UB
  end.
(** Of the model: a change of one variable. *)
Definition put_obj (w : nworld) (v : nat) (o : option netobj) : nworld :=
  NWorld (upd (n_vars w) v o) (n_open w).
(** Of the model: a variable is constructed when it has no object. *)
Definition place (w : nworld) (v : nat) : outcome unit :=
  match nth_error (n_vars w) v with Some None => Ok tt | _ => UB end.

(** operator=(NetworkBase &&), NetworkBase.cpp 84-93; operator=(WithClient &&), TcpServer.cpp
    90-99. The source is written after the target, as in the code. *)
Definition net_move_assign (w : nworld) (v p : nat) : outcome nworld :=
  let! o := get_obj w v in
  let! s := get_obj w p in
  let w := put_obj w v (Some (Net (o_kind o) (o_fd s) (o_status s))) in
  Ok (put_obj w p (Some (Net (o_kind s) FD_INITIALIZER STATUS_SUCCESS))).

(** ~NetworkBase, NetworkBase.cpp 29-35; ~WithClient, TcpServer.cpp 80-88. *)
Definition net_destroy (w : nworld) (v : nat) : outcome nworld :=
  let! o := get_obj w v in
  let w :=
    match o_kind o with
    | OBase => if negb (net_bool o) then w else fst (fst (sock_destroy w (o_fd o)))
    | OClient => if o_fd o =? FD_INITIALIZER then w else fst (fst (sock_destroy w (o_fd o)))
    end in
  Ok (put_obj w v None).

(** TcpClient::disconnect, TcpClient.cpp 33-37. *)
Definition tcp_disconnect (w : nworld) (v : nat) : outcome (nworld * Z) :=
  let! o := get_obj w v in
  let '(w, fd, status) := sock_destroy w (o_fd o) in
  Ok (put_obj w v (Some (Net (o_kind o) fd status)), status).

(** TcpClient::reconnect, TcpClient.cpp 39-48; [connected] is the result of ::connect. *)
Definition tcp_reconnect (w : nworld) (v : nat) (e : env) (connected : Z) : outcome (nworld * Z) :=
  let! o := get_obj w v in
  let! r := (if o_fd o =? FD_INVALID then Ok (w, 0) else tcp_disconnect w v) in
  let w := fst r in
  if snd r <? 0 then Ok (w, snd r)
  else
    let (w, fd) := create_client w e in
    Ok (put_obj w v (Some (Net (o_kind o) fd connected)), connected).

(** TcpServer::accept, TcpServer.cpp 33-43, TcpSocketFunctions.cpp 55-73: the object made from
    the descriptor that ::accept returns (-1 with the error [err]); its status. *)
Definition tcp_accept (w : nworld) (p v : nat) (fd err : Z) : outcome (nworld * Z) :=
  let! _ := place w v in
  let! o := get_obj w p in
  if o_status o <? 0 then
    Ok (put_obj w v (Some (Net OClient FD_INVALID (o_status o))), o_status o)
  else if fd =? FD_INVALID then
    Ok (put_obj w v (Some (Net OClient FD_INVALID (- err))), - err)
  else Ok (put_obj (sys_open w fd) v (Some (Net OClient fd STATUS_SUCCESS)), STATUS_SUCCESS).

(** The calls; the last two are made by other parts of the process. The constructors, destructors,
    moves and accept of the classes; of the model as a list of calls. *)
Inductive ncall :=
| NCreate (v : nat) (c : oclass) (e : env)
| NAccept (p v : nat) (fd err : Z)
| NMove (v p : nat)
| NMoveAssign (v p : nat)
| NSetStatus (v : nat) (s : Z)     (* connect, send, receive and wait: they set the status *)
| NDisconnect (v : nat)
| NReconnect (v : nat) (e : env) (connected : Z)
| NDestroy (v : nat)
| FOpen (fd : Z)
| FClose (fd : Z).

(** The status a call returns, or the status of the object it makes; 0 for the other calls. The
    move constructors: NetworkBase(NetworkBase &&), NetworkBase.cpp 79-82, constructs from the
    socket and then assigns; WithClient(WithClient &&), TcpServer.cpp 70-73, assigns. *)
Definition nstep (w : nworld) (c : ncall) : outcome (nworld * Z) :=
  match c with
  | NCreate v c e =>
      let! _ := place w v in
      let (w, o) := net_create w c e in Ok (put_obj w v (Some o), o_status o)
  | NAccept p v fd err => tcp_accept w p v fd err
  | NMove v p =>
      let! _ := place w v in
      let! s := get_obj w p in
      let w := put_obj w v (Some match o_kind s with
                                 | OBase => net_of_socket (o_fd s)
                                 | OClient => Net OClient (-1) 0
                                 end) in
      let! w := net_move_assign w v p in Ok (w, 0)
  | NMoveAssign v p => let! w := net_move_assign w v p in Ok (w, 0)
  | NSetStatus v s =>
      let! o := get_obj w v in Ok (put_obj w v (Some (Net (o_kind o) (o_fd o) s)), s)
  | NDisconnect v => tcp_disconnect w v
  | NReconnect v e connected => tcp_reconnect w v e connected
  | NDestroy v => let! w := net_destroy w v in Ok (w, 0)
  | FOpen fd => Ok (sys_open w fd, 0)
  | FClose fd => Ok (fst (sys_close w fd), 0)
  end.

(** Of the model: the calls of a history one after the other. *)
Fixpoint nrun (w : nworld) (h : list ncall) : outcome (nworld * list Z) :=
  match h with
  | [] => Ok (w, [])
  | c :: h =>
      let! r := nstep w c in
      let! s := nrun (fst r) h in
      Ok (fst s, snd r :: snd s)
  end.

(** [n] variables; the process starts with the descriptors [fds]. Of the model. *)
Definition n_start (n : nat) (fds : list Z) : nworld := NWorld (repeat None n) fds.
