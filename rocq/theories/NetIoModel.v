(** Addresses of sockets, waiting for bytes, and replies of the UDP server.

    Source: /repo/src/Os/Posix/Network/{SocketFunctions,TcpSocketFunctions,UdpSocketFunctions}.cpp,
    /repo/src/Os/Network/{UdpServer,TcpClient}.cpp, /repo/include/FlameIDE/Os/Types.hpp. *)
From Coq Require Import List Arith ZArith Bool.
From Verif Require Import Base UtilsModel Ipv4Model.
Import ListNotations.
Local Open Scope Z_scope.

(** * Addresses *)

(** sockaddr_in as bytes: sin_addr and sin_port in network order. *)
Record sockaddr := SockAddr { sa_addr : list Z; sa_port : list Z }.

(** ::htons of a number converted to unsigned short; the bytes in memory. Of the system. *)
Definition htons (port : Z) : list Z :=
  let p := port mod 65536 in [p / 256; p mod 256].
(** Of the system. *)
Definition ntohs (bytes : list Z) : Z := nth 0 bytes 0 * 256 + nth 1 bytes 0.

(** ::inet_addr of the C library, for texts of four decimal numbers without leading zeroes; every
    other text gives INADDR_NONE. (The C library also takes octal and hexadecimal numbers and
    fewer than four numbers; these texts are not modelled.). Of the system. *)
Definition INADDR_NONE : list Z := [255; 255; 255; 255].
(** Of the system: the characters up to the NUL. *)
Fixpoint c_text (memory : list Z) : outcome (list Z) :=
  match memory with
  | [] => UB
  | c :: m => if c =? 0 then Ok [] else let! t := c_text m in Ok (c :: t)
  end.
(** Of the system: the text between the points. *)
Fixpoint inet_parts (text : list Z) : list (list Z) :=
  match text with
  | [] => [[]]
  | c :: t =>
      if c =? 46 then [] :: inet_parts t
      else match inet_parts t with
           | [] => [[c]]
           | p :: ps => (c :: p) :: ps
           end
  end.
(** Of the system: a part as a number 0 .. 255 without leading zeroes. *)
Definition inet_number (part : list Z) : option Z :=
  let v := fold_left (fun n c => 10 * n + (c - 48)) part 0 in
  match part with
  | [] => None
  | c :: rest =>
      if forallb (fun c => (48 <=? c) && (c <=? 57)) part && (v <=? 255)
         && negb ((c =? 48) && negb (match rest with [] => true | _ => false end))
      then Some v else None
  end.
(** Of the system. *)
Definition inet_addr (memory : list Z) : outcome (list Z) :=
  let! t := c_text memory in
  Ok match map inet_number (inet_parts t) with
     | [Some a; Some b; Some c; Some d] => [a; b; c; d]
     | _ => INADDR_NONE
     end.

(** ipAddressClient, SocketFunctions.cpp 36-43, with the conversion of Ipv4 to Address
    (Ipv4.cpp 147-156): the address in the socket of createUdpClient 96-105 and
    createTcpClient 137-145 when ::socket succeeds. *)
Definition ip_address_client (ip : ipv4) : outcome sockaddr :=
  let! a := ip_to_address ip in
  let! s := inet_addr (ad_text a) in
  Ok (SockAddr s (htons (ad_port a))).

(** A short in the memory of a little-endian machine. C++ on the machines the code is built for.
    *)
Definition short_at (lo hi : Z) : Z := to_short (lo + 256 * hi).

(** getIpv4, SocketFunctions.cpp 172-183: the union holds the four bytes of the address and
    the four shorts, eight bytes, at the same place; [g] are the bytes behind the address, which
    were never written. *)
Definition get_ipv4 (s : sockaddr) (g : list Z) : outcome ipv4 :=
  match sa_addr s ++ g with
  | [b0; b1; b2; b3; b4; b5; b6; b7] =>
      ip_of_numbers [short_at b0 b1; short_at b2 b3; short_at b4 b5; short_at b6 b7]
        (ntohs (sa_port s))
  | _ => UB
  end.

(** TcpClient::reconnect, TcpClient.cpp 39-48: the address of the new socket, given the address
    of the old one. *)
Definition reconnect_address (s : sockaddr) (g : list Z) : outcome sockaddr :=
  let! ip := get_ipv4 s g in ip_address_client ip.

(** * Waiting *)

(** tcp::waitBytes, TcpSocketFunctions.cpp 122-132. [polls] is what receivingBytesNumber
    (SocketFunctions.cpp 160-170) returns at each call: a number of bytes or a negative error;
    [size_t] conversion modulo 2^64. *)
Definition to_size (z : Z) : Z := z mod 2 ^ 64.
(** The loop of waitBytes, TcpSocketFunctions.cpp 122-132; one step of it is one call of the function it polls. *)
Fixpoint wait_loop (fuel : nat) (polls : nat -> Z) (i : nat) (result number : Z) : outcome Z :=
  match fuel with
  | O => Diverge
  | S fuel' =>
      if to_size result =? number then Ok result
      else
        let result := polls i in
        if result <? 0 then Ok result
        else wait_loop fuel' polls (S i) result number
  end.
(** waitBytes, TcpSocketFunctions.cpp 122-132. *)
Definition wait_bytes (fuel : nat) (polls : nat -> Z) (number : Z) : outcome Z :=
  wait_loop fuel polls 0 0 number.

(** * The UDP server *)

(** A datagram: where it comes from and its bytes. Of the system. *)
Record datagram := Dgram { d_from : sockaddr; d_data : list Z }.

(** The descriptors with the datagrams waiting in them, what was sent (descriptor, address, bytes;
    the newest first), the server objects (None: destroyed) with their descriptor. Of the system.
    *)
Record udpworld := UdpWorld {
  u_queues : Z -> list datagram;
  u_sent : list (Z * sockaddr * list Z);
  u_servers : list (option Z)
}.

(** A sockaddr_in that is all zero. *)
Definition ZERO_ADDRESS : sockaddr := SockAddr [0; 0; 0; 0] [0; 0].

(** UdpServer::WithClient, UdpServer.hpp 52-72. SocketReceive (Os/Posix/Types.hpp 93-104) has an
    address and a pointer to a descriptor: [Some p] points into the server object [p].
    [wc_server]: socketServer points to the socket of this server object. *)
Record with_client := WC {
  wc_result : Z; wc_address : sockaddr; wc_descriptor : option nat; wc_server : nat
}.

(** The descriptor in a server object; reading a destroyed object is UB. Of the model. *)
Definition server_fd (w : udpworld) (p : nat) : outcome Z :=
  match nth_error (u_servers w) p with
  | Some (Some fd) => Ok fd
  | _ => UB
  end.

(** ::recvfrom: blocks when nothing has come ([Diverge]); the data is cut to the size of the
    buffer. Of the system. *)
Definition sys_recvfrom (w : udpworld) (fd : Z) (size : nat) (peek : bool)
  : outcome (udpworld * list Z * sockaddr) :=
  match u_queues w fd with
  | [] => Diverge
  | d :: ds =>
      let w' := if peek then w
                else UdpWorld (fun x => if x =? fd then ds else u_queues w x) (u_sent w) (u_servers w) in
      Ok (w', firstn size (d_data d), d_from d)
  end.

(** ioctl FIONREAD on a datagram socket: the size of the first datagram. Of the system. *)
Definition sys_fionread (w : udpworld) (fd : Z) : Z :=
  match u_queues w fd with [] => 0 | d :: _ => Z.of_nat (length (d_data d)) end.

(** UdpServer::wait, UdpServer.cpp 27-33, udp::waitServer, UdpSocketFunctions.cpp 75-89: the
    address that waitServer stores in socketReceive is not used. *)
Definition udp_wait (w : udpworld) (p : nat) : outcome with_client :=
  let! fd := server_fd w p in
  let! r := sys_recvfrom w fd 1 true in
  Ok (WC (sys_fionread w fd) ZERO_ADDRESS None p).

(** WithClient::receive, UdpServer.cpp 72-78, udp::receiveServer, UdpSocketFunctions.cpp 32-53:
    the bytes stored in the range of [size] bytes. *)
Definition udp_receive (w : udpworld) (c : with_client) (size : nat)
  : outcome (udpworld * with_client * list Z) :=
  let! fd := server_fd w (wc_server c) in
  let! r := sys_recvfrom w fd size false in
  let '(w, data, from) := r in
  Ok (w, WC (Z.of_nat (length data)) from (Some (wc_server c)) (wc_server c), data).

(** WithClient::send, UdpServer.cpp 80-84: the conversion of SocketReceive to Socket
    (Os/Types.hpp 77-89) reads the descriptor through the pointer; udp::send,
    UdpSocketFunctions.cpp 14-30. *)
Definition udp_send (w : udpworld) (c : with_client) (data : list Z) : outcome (udpworld * with_client) :=
  match wc_descriptor c with
  | None => UB
  | Some p =>
      let! fd := server_fd w p in
      Ok (UdpWorld (u_queues w) ((fd, wc_address c, data) :: u_sent w) (u_servers w),
          WC (Z.of_nat (length data)) (wc_address c) (wc_descriptor c) (wc_server c))
  end.

(** UdpServer(UdpServer &&) into the place [q], NetworkBase.cpp 79-93: the source keeps
    SOCKET_INITIALIZER, descriptor 0. ~UdpServer. *)
Definition udp_move (w : udpworld) (q p : nat) : outcome udpworld :=
  let! fd := server_fd w p in
  Ok (UdpWorld (u_queues w) (u_sent w) (upd (upd (u_servers w) q (Some fd)) p (Some 0))).
(** The destructor of a server object, NetworkBase.cpp 29-35. *)
Definition udp_destroy (w : udpworld) (p : nat) : outcome udpworld :=
  let! fd := server_fd w p in
  Ok (UdpWorld (u_queues w) (u_sent w) (upd (u_servers w) p None)).
