(** Asynchronous socket events on Windows: registration with WSAAsyncSelect, the handling of
    window messages and what the user pops. EventCatcherBase and Registrar are the same as on
    other systems, so their part of EventModel is used: the queues, the notificator and the
    notifications; its other fields, which are about signals, are not used here. A call of a
    queue is one step (RegistrarModel has its threads). *)
From Coq Require Import List Arith ZArith Bool.
From Verif Require Import Base RegistrarModel EventModel.
Import ListNotations.

(** FD_READ, FD_WRITE, FD_ACCEPT, FD_CONNECT and FD_CLOSE, MessageDispatchThread.hpp 16-24. *)
Inductive sevent := Read | Write | Accept | Connect | Close.
(** Of the model: equality. *)
Definition sevent_eqb (a b : sevent) : bool :=
  match a, b with
  | Read, Read | Write, Write | Accept, Accept | Connect, Connect | Close, Close => true
  | _, _ => false
  end.

(** A socket: the class of the object it was made for, SO_TYPE is stream, SO_REUSEADDR,
    SO_ACCEPTCONN, the events of which the window is told, and whether it is non-blocking. Of the
    system. *)
Record wsock := WS {
  ws_kind : kind; ws_stream : bool; ws_reuse : bool; ws_listen : bool;
  ws_mask : list sevent; ws_nonblock : bool
}.

(** Descriptors are the positions in the table; they are not used again (on Windows the number of
    a closed socket may be). A message: descriptor, event, whether it reports an error. Of the
    model. *)
Record wworld := WW {
  ww_table : list (option wsock);
  ww_messages : list (nat * sevent * bool);
  ww_common : eworld;
  ww_window : bool                       (* window.handle is not null *)
}.
(** Of the model: nothing registered, empty queues. *)
Definition common_new : eworld := EW [] None queues_new None [] 0 DefaultAction false.
(** Of the model: no sockets. *)
Definition wworld_new (window : bool) : wworld := WW [] [] common_new window.

(** Of the model: the socket behind a descriptor. *)
Definition wsock_at (w : wworld) (fd : nat) : option wsock :=
  match nth_error (ww_table w) fd with Some (Some k) => Some k | _ => None end.
(** Of the model. *)
Definition set_wtable (w : wworld) (t : list (option wsock)) : wworld :=
  WW t (ww_messages w) (ww_common w) (ww_window w).
(** Of the model. *)
Definition set_messages (w : wworld) (m : list (nat * sevent * bool)) : wworld :=
  WW (ww_table w) m (ww_common w) (ww_window w).
(** Of the model. *)
Definition set_common (w : wworld) (c : eworld) : wworld :=
  WW (ww_table w) (ww_messages w) c (ww_window w).
(** Of the model: what WSAAsyncSelect changes of a socket. *)
Definition set_mask (k : wsock) (m : list sevent) (nonblock : bool) : wsock :=
  WS (ws_kind k) (ws_stream k) (ws_reuse k) (ws_listen k) m nonblock.

(** What the constructors make, SocketFunctions.cpp 103-188 and listen, TcpServer.cpp 19-25:
    as on other systems. *)
Definition wcreated (k : kind) (listen_ok : bool) : wsock :=
  let c := created k listen_ok in WS k (k_stream c) (k_reuse c) (k_listen c) [] false.

(** The events that EventCatcher::enable asks for, EventCatcher.cpp 41-62. "if
    (control.isServer)" tests the pointer to the function, which is not null. *)
Definition requested (k : wsock) : list sevent :=
  if ws_stream k then
    if ws_listen k then [Accept] else [Read; Write]
  else [Read; Write].

Section WinEvent.
  Variable capacity : kind -> nat.       (* SIZE of the queue of a class *)

  (** Registrar::add, Registrar.cpp 22-60, with EventCatcher::enable, EventCatcher.cpp 34-74;
      [error]: of WSAAsyncSelect, which makes the socket non-blocking. (For a closed socket the
      class is not known here: only the error is modelled, not that the queue is
      initialised.) *)
  Definition wadd (w : wworld) (fd : nat) (error : option Z) : outcome (wworld * Z) :=
    match wsock_at w fd with
    | None => Ok (w, match error with Some e => (- e)%Z | None => (-1)%Z end)
    | Some k =>
        let! q := ensure_queue capacity (e_queues (ww_common w)) (ws_kind k) in
        let w := set_common w (set_queues (ww_common w) q) in
        if negb (ww_window w) then Ok (w, (-1)%Z)
        else match error with
             | Some e => Ok (w, (- e)%Z)
             | None => Ok (set_wtable w (upd (ww_table w) fd (Some (set_mask k (requested k) true))), 0%Z)
             end
    end.
  (** Registrar::remove, Registrar.cpp 64-87, with EventCatcher::disable, EventCatcher.cpp
      76-85. The socket stays non-blocking and messages that wait stay. *)
  Definition wremove (w : wworld) (fd : nat) (error : option Z) : wworld * Z :=
    match wsock_at w fd with
    | None => (w, match error with Some e => (- e)%Z | None => (-1)%Z end)
    | Some k =>
        if negb (ww_window w) then (w, (-1)%Z)
        else match error with
             | Some e => (w, (- e)%Z)
             | None => (set_wtable w (upd (ww_table w) fd (Some (set_mask k [] (ws_nonblock k)))), 0%Z)
             end
    end.

  (** winsock posts a message for an event, if it was asked for; connections arrive only at
      sockets that listen. Of the system. *)
  Definition wmessage (w : wworld) (fd : nat) (e : sevent) (error : bool) : wworld :=
    match wsock_at w fd with
    | None => w
    | Some k =>
        if existsb (sevent_eqb e) (ws_mask k) && (ws_listen k || negb (sevent_eqb e Accept))
        then set_messages w (ww_messages w ++ [(fd, e, error)]) else w
    end.

  (** handleUdp, MessageDispatchThread.cpp 193-213. *)
  Definition whandle_udp (w : wworld) (fd : nat) (k : wsock) (e : sevent) : outcome wworld :=
    match e with
    | Read | Write =>
        let! c := push_descriptor capacity (ww_common w) (if ws_reuse k then UdpServer else UdpClient) fd in
        Ok (set_common w c)
    | _ => Ok w
    end.
  (** handleTcp, MessageDispatchThread.cpp 215-247. The accepted socket has the properties of the listening one; [ok]:
      whether there is a connection and accept succeeds. (accept on a blocking socket without a
      connection would wait; a socket of which events are reported is non-blocking.) *)
  Definition whandle_tcp (w : wworld) (fd : nat) (k : wsock) (e : sevent) (ok : bool) : outcome wworld :=
    match e with
    | Accept =>
        if ok then
          let client := length (ww_table w) in
          let w := set_wtable w (ww_table w ++
                     [Some (WS TcpAccepted true (ws_reuse k) false (ws_mask k) (ws_nonblock k))]) in
          let! c := push_accepted capacity (ww_common w) fd client in
          Ok (set_common w c)
        else Ok w
    | Read | Write =>
        let! c := push_descriptor capacity (ww_common w) (if ws_reuse k then TcpAccepted else TcpClient) fd in
        Ok (set_common w c)
    | _ => Ok w
    end.

  (** GetMessage and DispatchMessage with MessageDispatchThread::action, MessageDispatchThread.cpp 161-191: a message
      that reports an error is ignored; the type of a closed socket is unknown. *)
  Definition wdispatch (w : wworld) (accept_ok : bool) : outcome wworld :=
    match ww_messages w with
    | [] => Ok w
    | (fd, e, error) :: rest =>
        let w := set_messages w rest in
        if error then Ok w
        else
          let! w := match wsock_at w fd with
                    | None => Ok w
                    | Some k => if ws_stream k then whandle_tcp w fd k e accept_ok
                                else whandle_udp w fd k e
                    end in
          Ok (set_common w (notify (ww_common w)))
    end.

  (** The calls of the program and the events of the system. *)
  Inductive wcall :=
  | WCreate (k : kind) (listen_ok : bool)
  | WClose (fd : nat)
  | WAdd (fd : nat) (error : option Z)
  | WRemove (fd : nat) (error : option Z)
  | WMessage (fd : nat) (e : sevent) (error : bool)
  | WDispatch (accept_ok : bool)
  | WPop (k : kind)
  | WNotificator (n : option nat).

  (** One of them, by the functions above. *)
  Definition wstep (w : wworld) (c : wcall) : outcome wworld :=
    match c with
    | WCreate k ok => Ok (set_wtable w (ww_table w ++ [Some (wcreated k ok)]))
    | WClose fd => Ok (set_wtable w (upd (ww_table w) fd None))
    | WAdd fd e => let! r := wadd w fd e in Ok (fst r)
    | WRemove fd e => Ok (fst (wremove w fd e))
    | WMessage fd e error => Ok (wmessage w fd e error)
    | WDispatch ok => wdispatch w ok
    | WPop k => let! r := registrar_pop capacity (ww_common w) k in Ok (set_common w (fst r))
    | WNotificator n =>
        let c := ww_common w in
        Ok (set_common w (EW (e_table c) (e_pending c) (e_queues c) n (e_notes c) (e_status c)
                             (e_disposition c) (e_killed c)))
    end.
  (** Of the model: a history, one after the other. *)
  Fixpoint wrun (w : wworld) (h : list wcall) : outcome wworld :=
    match h with
    | [] => Ok w
    | c :: h => let! w := wstep w c in wrun w h
    end.
End WinEvent.

(** ** winsock: when it posts messages

    For every socket that it was asked to report about: whether there is something to read, and
    whether the next FD_READ will be posted. After FD_READ it posts no other one until recv is
    called; if there is still something to read then, it posts one at once. WSAAsyncSelect
    starts anew and posts FD_WRITE, as the socket can be written to (the sockets of this model
    always can). Events at listening sockets are not described here. *)
(** Of the system. *)
Record winsock := Winsock { unread : nat -> bool; armed : nat -> bool; asked : nat -> bool }.
(** Of the system: no sockets. *)
Definition winsock_new : winsock := Winsock (fun _ => false) (fun _ => false) (fun _ => false).
(** Of the model. *)
Definition put_flag (f : nat -> bool) (fd : nat) (b : bool) : nat -> bool :=
  fun x => if x =? fd then b else f x.

(** Post FD_READ if that is due. Of the system. *)
Definition due (s : winsock) (fd : nat) : winsock * list wcall :=
  if asked s fd && armed s fd && unread s fd
  then (Winsock (unread s) (put_flag (armed s) fd false) (asked s), [WMessage fd Read false])
  else (s, []).

(** What a program and its peers do, and what it makes of the library and winsock. Of the model.
    *)
Inductive ucall :=
| UCreate (k : kind)               (* not TcpListener *)
| UAdd (fd : nat) | URemove (fd : nat)
| UData (fd : nat)                 (* data arrives *)
| UReceive (fd : nat) (more : bool)(* the program receives; whether some is left *)
| UDispatch                        (* the dispatching thread handles a message *)
| UPop (k : kind).
(** Of the system: the calls and messages each of them leads to. *)
Definition ustep (s : winsock) (c : ucall) : winsock * list wcall :=
  match c with
  | UCreate k => (s, [WCreate k true])
  | UAdd fd =>
      let s := Winsock (unread s) (put_flag (armed s) fd true) (put_flag (asked s) fd true) in
      let (s, m) := due s fd in (s, WAdd fd None :: WMessage fd Write false :: m)
  | URemove fd => (Winsock (unread s) (armed s) (put_flag (asked s) fd false), [WRemove fd None])
  | UData fd => due (Winsock (put_flag (unread s) fd true) (armed s) (asked s)) fd
  | UReceive fd more =>
      due (Winsock (put_flag (unread s) fd (unread s fd && more)) (put_flag (armed s) fd true) (asked s)) fd
  | UDispatch => (s, [WDispatch true])
  | UPop k => (s, [WPop k])
  end.
(** Of the model: a history, one after the other. *)
Fixpoint uhistory (s : winsock) (h : list ucall) : winsock * list wcall :=
  match h with
  | [] => (s, [])
  | c :: h => let (s, l) := ustep s c in let (s, l') := uhistory s h in (s, l ++ l')
  end.
