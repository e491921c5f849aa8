(** Bytes through a TCP connection: send and receive of TcpClient and TcpServer::WithClient, and
    the queries of NativeCallbacks.

    Source: /repo/src/Os/Network/{TcpClient,TcpServer,NetworkBase}.cpp,
    /repo/src/Os/{Posix,Windows}/Network/{TcpSocketFunctions,SocketFunctions}.cpp. *)
From Coq Require Import List Arith ZArith Bool.
From Verif Require Import Base.
Import ListNotations.
Local Open Scope Z_scope.

(** What becomes of a call. Of the model: it returns, it waits, or the process was terminated by a
    signal. *)
Inductive ran (A : Type) : Type := Ran (a : A) | Waits | Killed.
Arguments Ran {A} a.
Arguments Waits {A}.
Arguments Killed {A}.

(** The two systems the library is written for. *)
Inductive platform := Posix | Windows.

(** One direction of a connection: the bytes sent and not received yet, whether the writer has
    closed it, and whether the system of the writer knows that nobody reads any more. Of the
    system. *)
Record direction := Dir { flight : list Z; ended : bool; refused : bool }.

(** One end: the members of TcpClient (NetworkBase.hpp 57-60) or TcpServer::WithClient
    (TcpServer.hpp 82-83): whether the descriptor is still open, and the status; and whether the
    program ignores the signal SIGPIPE. *)
Record tcpend := End { is_open : bool; status : Z; ignores : bool }.

(** A connection: two ends and the direction each of them writes. Of the model. *)
Record conn := Conn { end_of : bool -> tcpend; from : bool -> direction }.
(** Of the model: a change of one end. *)
Definition set_end (c : conn) (s : bool) (e : tcpend) : conn :=
  Conn (fun x => if Bool.eqb x s then e else end_of c x) (from c).
(** Of the model: a change of one direction. *)
Definition set_from (c : conn) (s : bool) (d : direction) : conn :=
  Conn (end_of c) (fun x => if Bool.eqb x s then d else from c x).

(** What the system decides: whether the call fails and with which error, and otherwise how many
    bytes it would like to move. Of the system. *)
Record answer := Answer { fails : bool; error : Z; amount : nat }.

(** The size given to the system: a size_t, TcpSocketFunctions.cpp 29 and 110; on Windows
    static_cast<int>, Windows/Network/TcpSocketFunctions.cpp 24 and 105. *)
Definition to_int (z : Z) : Z := (z + 2 ^ 31) mod 2 ^ 32 - 2 ^ 31.
(** As above. *)
Definition size_for (p : platform) (size : nat) : Z :=
  match p with Posix => Z.of_nat size | Windows => to_int (Z.of_nat size) end.

(** Of Linux: the error of a socket nobody reads, of a descriptor that is not open. *)
Definition EPIPE : Z := 32.
(** Of Linux; on Windows WSAENOTSOCK, 10038. *)
Definition bad_descriptor (p : platform) : Z := match p with Posix => 9 | Windows => 10038 end.

(** How many bytes a call moves that can move [available] bytes at most: at least one, if there
    are any. Of the system. *)
Definition moved (a : answer) (available : nat) : nat := Nat.min available (Nat.max 1 (amount a)).

(** ::send without flags, on a descriptor that blocks: the error with a minus sign, or how many
    bytes were taken, with the direction afterwards. On POSIX systems a send into a connection
    nobody reads raises SIGPIPE first, which terminates the process if it is not ignored or
    handled. A size below zero (Windows) is refused. Of the system. *)
Definition sys_send (p : platform) (e : tcpend) (d : direction) (data : list Z) (a : answer)
  : ran (direction * Z) :=
  let size := size_for p (length data) in
  if negb (is_open e) then Ran (d, - bad_descriptor p)
  else if refused d then
    match p with
    | Posix => if ignores e then Ran (d, - EPIPE) else Killed
    | Windows => Ran (d, - error a)
    end
  else if (size <? 0) || fails a then Ran (d, - error a)
  else
    let n := moved a (Z.to_nat size) in
    Ran (Dir (flight d ++ firstn n data) (ended d) (refused d), Z.of_nat n).

(** ::recv without flags, on a descriptor that blocks: the bytes stored. Of the system. *)
Definition sys_recv (p : platform) (e : tcpend) (d : direction) (size : nat) (a : answer)
  : ran (direction * Z * list Z) :=
  let size := size_for p size in
  if negb (is_open e) then Ran (d, - bad_descriptor p, [])
  else if (size <? 0) || fails a then Ran (d, - error a, [])
  else
    match flight d with
    | [] => if ended d then Ran (d, 0, []) else Waits
    | bytes =>
        let n := moved a (Nat.min (Z.to_nat size) (length bytes)) in
        Ran (Dir (skipn n bytes) (ended d) (refused d), Z.of_nat n, firstn n bytes)
    end.

(** tcp::send, TcpSocketFunctions.cpp 107-115 and Windows 100-108, is [sys_send]; TcpClient::send,
    TcpClient.cpp 56-65 and TcpServer::WithClient::send, TcpServer.cpp 117-126: the status is set and
    STATUS_FAILED, -1, returned when it fails. *)
Definition tcp_send (p : platform) (c : conn) (s : bool) (data : list Z) (a : answer)
  : ran (conn * Z) :=
  match sys_send p (end_of c s) (from c s) data a with
  | Ran (d, result) =>
      let c := set_from c s d in
      if result <? 0
      then Ran (set_end c s (End (is_open (end_of c s)) result (ignores (end_of c s))), -1)
      else Ran (c, result)
  | Waits => Waits
  | Killed => Killed
  end.

(** tcp::receive, TcpSocketFunctions.cpp 24-34, 117-120 and Windows 18-28, 110-113, is [sys_recv];
    TcpClient::receive, TcpClient.cpp 67-76 and TcpServer::WithClient::receive, TcpServer.cpp
    128-137; the bytes stored in the range. *)
Definition tcp_receive (p : platform) (c : conn) (s : bool) (size : nat) (a : answer)
  : ran (conn * Z * list Z) :=
  match sys_recv p (end_of c s) (from c (negb s)) size a with
  | Ran (d, result, bytes) =>
      let c := set_from c (negb s) d in
      if result <? 0
      then Ran (set_end c s (End (is_open (end_of c s)) result (ignores (end_of c s))), -1, bytes)
      else Ran (c, result, bytes)
  | Waits => Waits
  | Killed => Killed
  end.

(** numberBytesToRead, TcpClient.cpp 50-54 and TcpServer.cpp 101-105, receivingBytesNumber,
    SocketFunctions.cpp 160-170 (FIONREAD; the number of bytes there is below 2^31). *)
Definition bytes_to_read (p : platform) (c : conn) (s : bool) : Z :=
  if negb (is_open (end_of c s)) then - bad_descriptor p
  else Z.of_nat (length (flight (from c (negb s)))).

(** disconnect, TcpClient.cpp 33-37, or the destructor, NetworkBase.cpp 29-35 and TcpServer.cpp
    80-88: the direction this end writes is ended. (SocketModel has what these do to the
    descriptors.) *)
Definition tcp_close (c : conn) (s : bool) : conn :=
  let d := from c s in
  set_end (set_from c s (Dir (flight d) (is_open (end_of c s) || ended d) (refused d))) s
    (End false (status (end_of c s)) (ignores (end_of c s))).

(** What happens at a connection: the calls of its two ends, and that the system of an end learns
    that the other end, which was closed, does not read any more. Of the model. *)
Inductive tcall :=
  | Send (s : bool) (data : list Z) (a : answer)
  | Receive (s : bool) (size : nat) (a : answer)
  | Close (s : bool)
  | Learn (s : bool).

(** Of the model: one thing that happens, with the result of the call and the bytes it stored. *)
Definition tstep (p : platform) (c : conn) (t : tcall) : ran (conn * Z * list Z) :=
  match t with
  | Send s data a =>
      match tcp_send p c s data a with
      | Ran (c, r) => Ran (c, r, [])
      | Waits => Waits
      | Killed => Killed
      end
  | Receive s size a => tcp_receive p c s size a
  | Close s => Ran (tcp_close c s, 0, [])
  | Learn s =>
      let d := from c s in
      Ran (if is_open (end_of c (negb s)) then c
           else set_from c s (Dir (flight d) (ended d) true), 0, [])
  end.

(** Of the model: a history, with what every call returned and stored. *)
Fixpoint trun (p : platform) (c : conn) (h : list tcall) : ran (conn * list (tcall * Z * list Z)) :=
  match h with
  | [] => Ran (c, [])
  | t :: h =>
      match tstep p c t with
      | Ran (c, r, bytes) =>
          match trun p c h with
          | Ran (c, trace) => Ran (c, (t, r, bytes) :: trace)
          | Waits => Waits
          | Killed => Killed
          end
      | Waits => Waits
      | Killed => Killed
      end
  end.

(** A new connection. Of the system; the status of both objects is 0 (connect, TcpClient.cpp
    27-31; TcpServer::accept, TcpServer.cpp 33-43). *)
Definition connected (ignoring : bool -> bool) : conn :=
  Conn (fun s => End true 0 (ignoring s)) (fun _ => Dir [] false false).

(** Of the application: what a program writes around send to send all of a range. *)
Fixpoint send_all (p : platform) (c : conn) (s : bool) (data : list Z) (answers : list answer)
  : ran (conn * bool) :=
  match data with
  | [] => Ran (c, true)
  | _ =>
      match answers with
      | [] => Waits
      | a :: answers =>
          match tcp_send p c s data a with
          | Ran (c, r) =>
              if r <? 0 then Ran (c, false) else send_all p c s (skipn (Z.to_nat r) data) answers
          | Waits => Waits
          | Killed => Killed
          end
      end
  end.

(** * Queries *)

(** SO_TYPE, SO_ACCEPTCONN and SO_REUSEADDR of a socket, and SO_ERROR, which is cleared by reading
    it. SOCK_STREAM is 1 and SOCK_DGRAM 2. Of the system. *)
Record sock := Sock { so_type : Z; so_accept : bool; so_reuse : bool; so_error : Z }.
(** Of the system: the options of the library's queries. *)
Inductive soption := SO_TYPE | SO_ACCEPTCONN | SO_REUSEADDR | SO_ERROR.
(** Of the system: the value of an option, and the socket afterwards. *)
Definition sys_option (x : sock) (o : soption) : sock * Z :=
  match o with
  | SO_TYPE => (x, so_type x)
  | SO_ACCEPTCONN => (x, if so_accept x then 1 else 0)
  | SO_REUSEADDR => (x, if so_reuse x then 1 else 0)
  | SO_ERROR => (Sock (so_type x) (so_accept x) (so_reuse x) 0, so_error x)
  end.

(** The sockets of the library: createUdpServer 68-94, createUdpClient 96-105, createTcpServer
    109-135, createTcpClient 137-145, SocketFunctions.cpp (on Windows 103-188), and listen in the
    constructor of TcpServer, TcpServer.cpp 19-25. *)
Inductive sclass := UdpServer | UdpClient | TcpServer | TcpClient.
(** As above: the options of a socket that was made without an error. *)
Definition made (k : sclass) : sock :=
  match k with
  | UdpServer => Sock 2 false true 0
  | UdpClient => Sock 2 false false 0
  | TcpServer => Sock 1 true true 0
  | TcpClient => Sock 1 false false 0
  end.

(** getSocketOption, SocketFunctions.cpp 45-55: the result (0 or the error with a minus sign) and
    the value; None: the descriptor is not a socket that is open, and ::getsockopt sets errno. *)
Definition posix_option (x : option sock) (o : soption) : option sock * Z * Z :=
  match x with
  | None => (None, - bad_descriptor Posix, 0)
  | Some x => let (x, v) := sys_option x o in (Some x, 0, v)
  end.
(** getSocketOption, Windows/Network/SocketFunctions.cpp 78-90: the value, or -errno. ::getsockopt
    of winsock does not set [errno]: it has the value some other function left there. *)
Definition windows_option (errno : Z) (x : option sock) (o : soption) : option sock * Z :=
  match x with
  | None => (None, - errno)
  | Some x => let (x, v) := sys_option x o in (Some x, v)
  end.

(** getType, SocketFunctions.cpp 185-192, Windows 227-233; getError, 194-201, Windows 235-241; the
    errno only matters on Windows. *)
Definition query (p : platform) (errno : Z) (x : option sock) (o : soption) : option sock * Z :=
  match p with
  | Posix => let '(x, r, v) := posix_option x o in (x, if r <? 0 then -1 else v)
  | Windows => let (x, v) := windows_option errno x o in (x, if v <? 0 then -1 else v)
  end.
(** isListener, SocketFunctions.cpp 203-210, Windows 243-249; isServer, 212-219, Windows
    251-257. *)
Definition query_bool (p : platform) (errno : Z) (x : option sock) (o : soption) : option sock * bool :=
  match p with
  | Posix => let '(x, r, v) := posix_option x o in (x, if r <? 0 then false else negb (v =? 0))
  | Windows => let (x, v) := windows_option errno x o in (x, if v <? 0 then false else negb (v =? 0))
  end.

(** NativeCallbacks::type (getSocketType, NetworkBase.cpp 14-17), error, isListener, isServer
    (NetworkBase.cpp 52-67). *)
Definition cb_type (p : platform) (errno : Z) (x : option sock) : Z := snd (query p errno x SO_TYPE).
(** As above. *)
Definition cb_error (p : platform) (errno : Z) (x : option sock) : option sock * Z :=
  query p errno x SO_ERROR.
(** As above. *)
Definition cb_listener (p : platform) (errno : Z) (x : option sock) : bool :=
  snd (query_bool p errno x SO_ACCEPTCONN).
(** As above. *)
Definition cb_server (p : platform) (errno : Z) (x : option sock) : bool :=
  snd (query_bool p errno x SO_REUSEADDR).
(** SocketType::UNKNOWN, NetworkBase.hpp 21-26. *)
Definition UNKNOWN : Z := -1.
(** SocketType::STREAM, SOCK_STREAM, NetworkBase.hpp 21-26. *)
Definition STREAM : Z := 1.
(** SocketType::DATAGRAM, SOCK_DGRAM, NetworkBase.hpp 21-26. *)
Definition DATAGRAM : Z := 2.
(** NetworkBase::getType, NetworkBase.cpp 100-113. *)
Definition base_type (p : platform) (errno : Z) (x : option sock) : Z :=
  let t := cb_type p errno x in
  if (t =? STREAM) || (t =? DATAGRAM) then t else UNKNOWN.
