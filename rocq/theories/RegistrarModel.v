(** Model of Registrar: pop*, push*, clear.

    Source: /repo/src/Os/Async/Network/Registrar.cpp. The five queues live in the EventCatcher
    singleton (/repo/src/Os/Async/Network/SocketQueues.hpp). *)
From Coq Require Import List Arith ZArith Bool.
From Verif Require Import Base ConcModel QueueModel.
Import ListNotations.

(** SOCKET_INVALID.descriptor, /repo/include/FlameIDE/Os/Posix/Constants.hpp 18-27. *)
Definition INVALID : Z := (-1)%Z.

(** AcceptedConnection, /repo/include/FlameIDE/Os/Async/Network/AcceptedConnection.hpp 13-30
    (only the descriptor of the client socket). *)
Record accepted : Type := Accepted { ac_server : Z; ac_client : Z }.
(** AcceptedConnection(), AcceptedConnection.hpp 13-30: the default member values. *)
Definition accepted_default : accepted := Accepted INVALID INVALID.
(** operator bool, AcceptedConnection.hpp 22-26. *)
Definition accepted_bool (c : accepted) : bool :=
  negb (ac_server c =? INVALID)%Z && negb (ac_client c =? INVALID)%Z.

Section Registrar.
  (** Capacities of the queues, /repo/src/Os/Async/Network/Types.hpp 17-35. *)
  Variables UDP_SERVERS UDP_CLIENTS ACCEPTED TCP_SERVERS TCP_CLIENTS : nat.

  (** SocketQueues.hpp: the five queues of the EventCatcher. *)
  Record queues : Type :=
    Queues {
      udp_servers : queue Z; udp_clients : queue Z; tcp_accepted : queue accepted;
      tcp_servers : queue Z; tcp_clients : queue Z }.

  (** SocketQueues(), SocketQueues.hpp 15, 34-39. *)
  Definition queues_new : queues := Queues queue_new queue_new queue_new queue_new queue_new.

  (** A call of QueuedArray::pop (no other thread interferes): 13 steps at most. *)
  Definition pop_call {A : Type} (SIZE : nat) (fresh initValue : A) (q : queue A)
    : outcome (queue A * option A) :=
    let! r := alone 20 (qcode SIZE fresh (Pop initValue)) q in
    match snd r with
    | RPop v => Ok (fst r, v)
    | _ => UB
    end.
  (** A call of QueuedArray::push, QueuedArray.hpp 75-88 (no other thread interferes). *)
  Definition push_call {A : Type} (SIZE : nat) (fresh value : A) (q : queue A)
    : outcome (queue A * bool) :=
    let! r := alone 20 (qcode SIZE fresh (Push value)) q in
    match snd r with
    | RPush b => Ok (fst r, b)
    | _ => UB
    end.

  (** popUdpServer, popUdpClient, popTcpServer, popTcpClient, Registrar.cpp 91-113, 127-149. *)
  Definition pop_descriptor (SIZE : nat) (q : queue Z) : outcome (queue Z * Z) :=
    let! r := pop_call SIZE 0%Z INVALID q in
    Ok (fst r, match snd r with Some d => d | None => INVALID end).

  (** popTcpServerAcception, Registrar.cpp 115-124. *)
  Definition pop_accepted (SIZE : nat) (q : queue accepted) : outcome (queue accepted * accepted) :=
    let! r := pop_call SIZE accepted_default accepted_default q in
    Ok (fst r, match snd r with Some d => d | None => accepted_default end).

  (** [while (pop*() != os::SOCKET_INVALID.descriptor);], Registrar.cpp 194-198. *)
  Fixpoint drain (fuel : nat) (SIZE : nat) (q : queue Z) : outcome (queue Z) :=
    match fuel with
    | O => Diverge
    | S fuel' =>
        let! r := pop_descriptor SIZE q in
        if (snd r =? INVALID)%Z then Ok (fst r) else drain fuel' SIZE (fst r)
    end.

  (** [while (popTcpServerAcception());], Registrar.cpp 196. *)
  Fixpoint drain_accepted (fuel : nat) (SIZE : nat) (q : queue accepted)
    : outcome (queue accepted) :=
    match fuel with
    | O => Diverge
    | S fuel' =>
        let! r := pop_accepted SIZE q in
        if accepted_bool (snd r) then drain_accepted fuel' SIZE (fst r) else Ok (fst r)
    end.

  (** Registrar::clear, Registrar.cpp 192-199. *)
  Definition clear (fuel : nat) (q : queues) : outcome queues :=
    let! us := drain fuel UDP_SERVERS (udp_servers q) in
    let! uc := drain fuel UDP_CLIENTS (udp_clients q) in
    let! ta := drain_accepted fuel ACCEPTED (tcp_accepted q) in
    let! ts := drain fuel TCP_SERVERS (tcp_servers q) in
    let! tc := drain fuel TCP_CLIENTS (tcp_clients q) in
    Ok (Queues us uc ta ts tc).
End Registrar.
