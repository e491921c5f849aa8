(** Sockets on Windows: making and deleting them, and datagrams.

    Source: /repo/src/Os/Windows/Network/{SocketFunctions,UdpSocketFunctions}.cpp and
    /repo/src/Os/Network/{NetworkBase,UdpServer,UdpClient}.cpp. *)
From Coq Require Import List Arith ZArith Bool.
From Verif Require Import Base.
Import ListNotations.

(** * Making and deleting *)

(** What the system answers: WSAStartup, WSASocketW (a handle or INVALID_SOCKET), setsockopt,
    bind. *)
Record wanswers := WAnswers {
  a_startup : bool; a_socket : option nat; a_option : bool; a_bind : bool
}.

(** WinSockLibrary::inited, how often WSAStartup succeeded, the open socket handles of the
    process, and the objects (None: deleted) with their descriptor (None: INVALID_SOCKET). Of the
    model. *)
Record sworld := SWorld {
  s_inited : bool; s_startups : nat; s_open : list nat; s_objects : list (option (option nat))
}.
(** Of the model: nothing made yet. *)
Definition sworld_new : sworld := SWorld false 0 [] [].

(** winsockInit, SocketFunctions.cpp 322-327, WinSockLibrary::init 292-305. *)
Definition winsock_init (w : sworld) (a : wanswers) : sworld * bool :=
  if s_inited w then (w, true)
  else if a_startup a then (SWorld true (S (s_startups w)) (s_open w) (s_objects w), true)
  else (w, false).

(** WSASocketW. Of the system. *)
Definition wsa_socket (w : sworld) (a : wanswers) : sworld * option nat :=
  match a_socket a with
  | None => (w, None)
  | Some h => (SWorld (s_inited w) (s_startups w) (h :: s_open w) (s_objects w), Some h)
  end.
(** destroy, SocketFunctions.cpp 192-201, with closesocket, which fails exactly for what is not an open socket. *)
Definition close_socket (w : sworld) (s : option nat) : sworld :=
  match s with
  | None => w
  | Some h => SWorld (s_inited w) (s_startups w) (filter (fun x => negb (x =? h)) (s_open w)) (s_objects w)
  end.

(** createUdpServer SocketFunctions.cpp 103-131 and createTcpServer 148-175, which have the same form. *)
Definition create_server (w : sworld) (a : wanswers) : sworld * option nat :=
  let (w, ok) := winsock_init w a in
  if negb ok then (w, None)
  else
    let (w, s) := wsa_socket w a in
    match s with
    | None => (w, None)
    | Some h =>
        if negb (a_option a) then (close_socket w (Some h), None)
        else if negb (a_bind a) then (w, None)                      (* socket = Socket{} *)
        else (w, Some h)
    end.
(** createUdpClient SocketFunctions.cpp 133-144 and createTcpClient 177-188. *)
Definition create_client (w : sworld) (a : wanswers) : sworld * option nat :=
  let (w, ok) := winsock_init w a in
  if negb ok then (w, None) else wsa_socket w a.

(** The constructors of the classes and ~NetworkBase, NetworkBase.cpp 29-35: the status of an
    object that was not moved is 0, so it always calls destroy. (listen in the constructor of
    TcpServer is not modelled.) *)
Inductive scall := MakeServer (a : wanswers) | MakeClient (a : wanswers) | Delete (i : nat).
(** Of the model: one more object. *)
Definition add_object (r : sworld * option nat) : sworld :=
  let (w, s) := r in SWorld (s_inited w) (s_startups w) (s_open w) (s_objects w ++ [Some s]).
(** One call, by the functions above. *)
Definition sstep (w : sworld) (c : scall) : outcome sworld :=
  match c with
  | MakeServer a => Ok (add_object (create_server w a))
  | MakeClient a => Ok (add_object (create_client w a))
  | Delete i =>
      match nth_error (s_objects w) i with
      | Some (Some s) =>
          let w := close_socket w s in
          Ok (SWorld (s_inited w) (s_startups w) (s_open w) (upd (s_objects w) i None))
      | _ => UB                                                     (* there is no such object *)
      end
  end.
(** Of the model: the calls of a history one after the other. *)
Fixpoint srun (w : sworld) (h : list scall) : outcome sworld :=
  match h with
  | [] => Ok w
  | c :: h => let! w := sstep w c in srun w h
  end.

(** * Datagrams *)

(** Of the system. *)
Definition WSAEMSGSIZE : Z := 10040.

(** A datagram: the address it comes from (a number) and its bytes. Of the system. *)
Record wdatagram := WDgram { wd_from : nat; wd_data : list Z }.

(** ::recvfrom of winsock: it waits when nothing has come ([None]). When the datagram is longer
    than the buffer, the buffer is filled, and the call fails with WSAEMSGSIZE; unless MSG_PEEK is
    given, the datagram is removed in any case. The address of the sender is stored. The result:
    what waits then, the return value with the sign of -GetLastError(), the bytes stored, the
    sender. Of the system. *)
Definition win_recvfrom (waiting : list wdatagram) (size : nat) (peek : bool)
  : option (list wdatagram * Z * list Z * nat) :=
  match waiting with
  | [] => None
  | d :: ds =>
      Some (if peek then waiting else ds,
            if length (wd_data d) <=? size then Z.of_nat (length (wd_data d)) else (- WSAEMSGSIZE)%Z,
            firstn size (wd_data d), wd_from d)
  end.
(** ioctlsocket FIONREAD on a datagram socket: the bytes of all datagrams; receivingBytesNumber,
    SocketFunctions.cpp 203-212. *)
Definition win_fionread (waiting : list wdatagram) : Z :=
  Z.of_nat (list_sum (map (fun d => length (wd_data d)) waiting)).

(** SocketReceive, Os/Windows/Types.hpp 198-209: an address and a pointer to the descriptor of
    the server, null at first. *)
Record receiver := Receiver { r_address : nat; r_pointer : bool }.
(** SocketReceive with its default values, Os/Windows/Types.hpp. *)
Definition receiver_new : receiver := Receiver 0 false.

(** receiveServer, UdpSocketFunctions.cpp 42-64. *)
Definition receive_server (waiting : list wdatagram) (size : nat) (peek : bool) (from : receiver)
  : option (list wdatagram * Z * list Z * receiver) :=
  match win_recvfrom waiting size peek with
  | None => None
  | Some (waiting, r, data, a) =>
      Some (waiting, r, data, if (r <? 0)%Z then Receiver a (r_pointer from) else Receiver a true)
  end.
(** receiveClient, UdpSocketFunctions.cpp 66-85. *)
Definition receive_client (waiting : list wdatagram) (size : nat) (peek : bool)
  : option (list wdatagram * Z * list Z) :=
  match win_recvfrom waiting size peek with
  | None => None
  | Some (waiting, r, data, _) => Some (waiting, r, data)
  end.
(** waitServer UdpSocketFunctions.cpp 87-101 and waitClient 103-116. *)
Definition wait_server (waiting : list wdatagram) (from : receiver) : option (Z * receiver) :=
  match receive_server waiting 1 true from with
  | None => None
  | Some (waiting, r, _, from) =>
      if (r <? 0)%Z && negb (r =? - WSAEMSGSIZE)%Z then Some (r, from)
      else Some (win_fionread waiting, from)
  end.
(** waitClient, Windows/Network/UdpSocketFunctions.cpp. *)
Definition wait_client (waiting : list wdatagram) : option Z :=
  match receive_client waiting 1 true with
  | None => None
  | Some (waiting, r, _) =>
      if (r <? 0)%Z && negb (r =? - WSAEMSGSIZE)%Z then Some r
      else Some (win_fionread waiting)
  end.

(** What waits at the server, what it sent (address, bytes), and the state of its WithClient
    objects: socketClient, UdpServer.hpp 66-72. *)
Record uworld := UWorld {
  uw_waiting : list wdatagram; uw_sent : list (nat * list Z); uw_clients : list receiver
}.
(** Of the model: no sockets. *)
Definition uworld_new : uworld := UWorld [] [] [].

(** A datagram arrives; UdpServer::wait, UdpServer.cpp 27-33; WithClient::receive 72-78 and
    WithClient::send 80-84 of the object [i]; send follows the pointer (Os/Types.hpp 83-89).
    A call that waits is not made ([None]). *)
Inductive ucall := Arrive (d : wdatagram) | Wait | Receive (i size : nat) | Send (i : nat) (data : list Z).
(** Of the model: what a call returns. *)
Inductive answer := Nothing | Number (r : Z) (data : list Z).
(** One call, by the functions above. *)
Definition udp_step (w : uworld) (c : ucall) : outcome (option (uworld * answer)) :=
  match c with
  | Arrive d => Ok (Some (UWorld (uw_waiting w ++ [d]) (uw_sent w) (uw_clients w), Nothing))
  | Wait =>
      Ok (match wait_server (uw_waiting w) receiver_new with
          | None => None
          | Some (r, _) =>                        (* the address is not used *)
              Some (UWorld (uw_waiting w) (uw_sent w) (uw_clients w ++ [receiver_new]), Number r [])
          end)
  | Receive i size =>
      match nth_error (uw_clients w) i with
      | None => UB
      | Some from =>
          Ok (match receive_server (uw_waiting w) size false from with
              | None => None
              | Some (waiting, r, data, from) =>
                  Some (UWorld waiting (uw_sent w) (upd (uw_clients w) i from), Number r data)
              end)
      end
  | Send i data =>
      match nth_error (uw_clients w) i with
      | None => UB
      | Some to =>
          if r_pointer to
          then Ok (Some (UWorld (uw_waiting w) (uw_sent w ++ [(r_address to, data)]) (uw_clients w),
                         Number (Z.of_nat (length data)) []))
          else UB                                 (* a null pointer is followed *)
      end
  end.
(** The answers of the calls that returned. Of the model. *)
Fixpoint udp_run (w : uworld) (h : list ucall) : outcome (option (uworld * list answer)) :=
  match h with
  | [] => Ok (Some (w, []))
  | c :: h =>
      let! r := udp_step w c in
      match r with
      | None => Ok None
      | Some (w, a) =>
          let! r := udp_run w h in
          Ok (match r with None => None | Some (w, l) => Some (w, a :: l) end)
      end
  end.
