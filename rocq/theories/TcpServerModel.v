(** A TCP server and its clients: connect, accept, and the connections that come of them.

    Source: /repo/src/Os/Network/{TcpServer,TcpClient}.cpp,
    /repo/src/Os/{Posix,Windows}/Network/TcpSocketFunctions.cpp. The connections themselves are those
    of TcpStreamModel; the end [true] of each is the client's. *)
From Coq Require Import List Arith ZArith Bool.
From Verif Require Import Base TcpStreamModel.
Import ListNotations.
Local Open Scope Z_scope.

(** The status of the TcpServer (NetworkBase.hpp 57-60), the connections in the order in which they
    were made, and by their numbers: those that wait to be accepted, the oldest first, those that
    were accepted, in that order, and those the system gave up. The lists of the system; of the model
    as one record. *)
Record server := Server {
  sv_status : Z;
  conns : list conn;
  waiting : list nat;
  accepted : list nat;
  given_up : list nat
}.

(** TcpServer::TcpServer, TcpServer.cpp 19-25, server::listen, TcpSocketFunctions.cpp 48-53 and
    Windows 41-46, when the socket was made: the status is the result of listen. (SocketModel has the
    failures before, C72.) *)
Definition server_new (listen : answer) : server :=
  Server (if fails listen then - error listen else 0) [] [] [] [].

(** TcpClient::connect of a client made for this server, TcpClient.cpp 27-31, client::connect,
    TcpSocketFunctions.cpp 85-96 and Windows 78-89: the result, which is also the status, and the
    connection. The system refuses it when nobody listens, and may refuse it otherwise (too many wait, no way to the server). *)
Definition client_connect (w : server) (ignoring : bool -> bool) (a : answer)
  : server * Z * option nat :=
  if (sv_status w <? 0) || fails a then (w, - error a, None)
  else
    (Server (sv_status w) (conns w ++ [connected ignoring]) (waiting w ++ [length (conns w)])
            (accepted w) (given_up w), 0, Some (length (conns w))).

(** TcpServer::accept, TcpServer.cpp 33-43, server::accept, TcpSocketFunctions.cpp 55-73 and Windows
    48-66: the status of the object that is returned, and the connection it has (None: it has
    SOCKET_INVALID). *)
Definition server_accept (w : server) (a : answer) : ran (server * Z * option nat) :=
  if sv_status w <? 0 then Ran (w, sv_status w, None)
  else if fails a then Ran (w, - error a, None)
  else
    match waiting w with
    | [] => Waits
    | i :: rest =>
        Ran (Server (sv_status w) (conns w) rest (accepted w ++ [i]) (given_up w), 0, Some i)
    end.

(** Of the system: a connection that waits and whose client has closed it may be given up. *)
Definition give_up (w : server) (i : nat) : ran server :=
  match nth_error (conns w) i with
  | Some c =>
      if existsb (Nat.eqb i) (waiting w) && negb (is_open (end_of c true)) then
        Ran (Server (sv_status w) (conns w) (filter (fun k => negb (Nat.eqb k i)) (waiting w))
                    (accepted w) (given_up w ++ [i]))
      else Waits
  | None => Waits
  end.

(** Of the model: the end at which something happens at a connection, if an object is needed. *)
Definition caller (t : tcall) : option bool :=
  match t with
  | Send s _ _ | Receive s _ _ | Close s => Some s
  | Learn _ => None
  end.

(** Of the model: what happens. [Waits] is also the outcome of what cannot happen yet: a call of the
    server's end of a connection that was not accepted. *)
Inductive kcall :=
  | Connect (ignoring : bool -> bool) (a : answer)
  | Accept (a : answer)
  | GiveUp (i : nat)
  | At (i : nat) (t : tcall).

(** Of the model: one thing that happens, with the result, the connection and the bytes stored. *)
Definition kstep (p : platform) (w : server) (k : kcall) : ran (server * (Z * option nat * list Z)) :=
  match k with
  | Connect ignoring a =>
      let '(w, r, i) := client_connect w ignoring a in Ran (w, (r, i, []))
  | Accept a =>
      match server_accept w a with
      | Ran (w, r, i) => Ran (w, (r, i, []))
      | Waits => Waits
      | Killed => Killed
      end
  | GiveUp i =>
      match give_up w i with
      | Ran w => Ran (w, (0, None, []))
      | Waits => Waits
      | Killed => Killed
      end
  | At i t =>
      match nth_error (conns w) i with
      | None => Waits
      | Some c =>
          if match caller t with
             | Some false => existsb (Nat.eqb i) (accepted w)
             | _ => true
             end
          then
            match tstep p c t with
            | Ran (c, r, bytes) =>
                Ran (Server (sv_status w) (upd (conns w) i c) (waiting w) (accepted w) (given_up w),
                     (r, Some i, bytes))
            | Waits => Waits
            | Killed => Killed
            end
          else Waits
      end
  end.

(** Of the model: a history, with what every call gave. *)
Fixpoint krun (p : platform) (w : server) (h : list kcall)
  : ran (server * list (kcall * (Z * option nat * list Z))) :=
  match h with
  | [] => Ran (w, [])
  | k :: h =>
      match kstep p w k with
      | Ran (w, x) =>
          match krun p w h with
          | Ran (w, trace) => Ran (w, (k, x) :: trace)
          | Waits => Waits
          | Killed => Killed
          end
      | Waits => Waits
      | Killed => Killed
      end
  end.
