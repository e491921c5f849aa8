(** UdpClient on POSIX systems: wait, send and receive.

    Source: /repo/src/Os/Network/UdpClient.cpp, /repo/src/Os/Posix/Network/UdpSocketFunctions.cpp,
    /repo/src/Os/Posix/Network/SocketFunctions.cpp. *)
From Coq Require Import List Arith ZArith Bool.
From Verif Require Import Base.
Import ListNotations.
Local Open Scope Z_scope.

(** A datagram: who sent it (a number for the address) and its bytes. Of the system. *)
Record dgram := Dgram { sender : nat; payload : list Z }.

(** The client: the address of the socket, given to the constructor (UdpClient.cpp 17-18), and the
    status (NetworkBase.hpp 57-60). Of the system: whether the socket has a port, the datagrams
    that have come, and what was sent to whom, the oldest first. *)
Record uclient := UClient {
  server : nat; ustatus : Z; bound : bool; queue : list dgram; outbox : list (nat * list Z)
}.
(** The constructor, UdpClient.cpp 17-18; ::socket succeeded. A socket has no port until it sends. *)
Definition uclient_new (address : nat) : uclient := UClient address 0 false [] [].

(** What the system says to a call: that it fails with an error, or not. Of the system. *)
Definition says := option Z.

(** Of the model: a call waits, or returns. *)
Inductive ran (A : Type) : Type := Ran (a : A) | Waits.
Arguments Ran {A} a.
Arguments Waits {A}.

(** EMSGSIZE. Of Linux. *)
Definition EMSGSIZE : Z := 90.

(** udp::send, UdpSocketFunctions.cpp 14-30: ::sendto to the address of the socket. A datagram is
    sent whole or not at all. *)
Definition udp_send (u : uclient) (data : list Z) (y : says) : uclient * Z :=
  match y with
  | Some e => (u, - e)
  | None =>
      (UClient (server u) (ustatus u) true (queue u) (outbox u ++ [(server u, data)]),
       Z.of_nat (length data))
  end.

(** udp::receiveClient, UdpSocketFunctions.cpp 55-73: ::recvfrom without flags or with MSG_PEEK; a
    datagram longer than the range is cut, and the rest is lost (POSIX; the flag MSG_TRUNC is not
    used). The address of the sender is stored in a variable that is not used. The bytes stored. *)
Definition receive_client (u : uclient) (size : nat) (peek : bool) (y : says)
  : ran (uclient * Z * list Z) :=
  match y with
  | Some e => Ran (u, - e, [])
  | None =>
      match queue u with
      | [] => Waits
      | d :: ds =>
          let u := if peek then u else UClient (server u) (ustatus u) (bound u) ds (outbox u) in
          let bytes := firstn size (payload d) in
          Ran (u, Z.of_nat (length bytes), bytes)
      end
  end.

(** receivingBytesNumber, SocketFunctions.cpp 160-170: FIONREAD, the size of the next datagram. *)
Definition bytes_number (u : uclient) (y : says) : Z :=
  match y with
  | Some e => - e
  | None => match queue u with [] => 0 | d :: _ => Z.of_nat (length (payload d)) end
  end.

(** udp::waitClient, UdpSocketFunctions.cpp 91-104; [y] is for ::recvfrom and [y'] for ::ioctl. *)
Definition wait_client (u : uclient) (y y' : says) : ran Z :=
  match receive_client u 1 true y with
  | Ran (_, result, _) =>
      if (result <? 0) && negb (result =? - EMSGSIZE) then Ran result else Ran (bytes_number u y')
  | Waits => Waits
  end.

(** setStatus, NetworkBase.cpp 95-98. *)
Definition set_status (u : uclient) (st : Z) : uclient :=
  UClient (server u) st (bound u) (queue u) (outbox u).

(** UdpClient::wait, UdpClient.cpp 26-32. *)
Definition client_wait (u : uclient) (y y' : says) : ran (uclient * Z) :=
  match wait_client u y y' with
  | Ran result => Ran (if result <? 0 then set_status u result else u, result)
  | Waits => Waits
  end.
(** UdpClient::send, UdpClient.cpp 34-40. *)
Definition client_send (u : uclient) (data : list Z) (y : says) : uclient * Z :=
  let (u, result) := udp_send u data y in
  (if result <? 0 then set_status u result else u, result).
(** UdpClient::receive, UdpClient.cpp 42-48. *)
Definition client_receive (u : uclient) (size : nat) (y : says) : ran (uclient * Z * list Z) :=
  match receive_client u size false y with
  | Ran (u, result, bytes) => Ran (if result <? 0 then set_status u result else u, result, bytes)
  | Waits => Waits
  end.

(** The calls of a program, and the arrival of a datagram at the port of the socket. Of the model. *)
Inductive ucall :=
  | UWait (y y' : says)
  | USend (data : list Z) (y : says)
  | UReceive (size : nat) (y : says)
  | UArrive (d : dgram).

(** Of the model: what happens, the result of the call and the bytes stored. A datagram can only
    arrive at a socket that has a port. *)
Definition ustep (u : uclient) (c : ucall) : ran (uclient * Z * list Z) :=
  match c with
  | UWait y y' => match client_wait u y y' with Ran (u, r) => Ran (u, r, []) | Waits => Waits end
  | USend data y => let (u, r) := client_send u data y in Ran (u, r, [])
  | UReceive size y => client_receive u size y
  | UArrive d =>
      Ran (if bound u then UClient (server u) (ustatus u) (bound u) (queue u ++ [d]) (outbox u) else u,
           0, [])
  end.

(** Of the model: a history with what each call returned. *)
Fixpoint urun (u : uclient) (h : list ucall) : ran (uclient * list (ucall * Z * list Z)) :=
  match h with
  | [] => Ran (u, [])
  | c :: h =>
      match ustep u c with
      | Ran (u, r, bytes) =>
          match urun u h with
          | Ran (u, trace) => Ran (u, (c, r, bytes) :: trace)
          | Waits => Waits
          end
      | Waits => Waits
      end
  end.
