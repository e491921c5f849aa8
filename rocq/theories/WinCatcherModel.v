(** The event catcher on Windows: the thread that dispatches window messages, its start and its
    end. Two threads take steps in any order: the one that makes and deletes the catcher and the
    one that dispatches. A section of code under the spin lock is one step (no section waits
    inside); the reading of a message and its dispatch is one step. *)
From Coq Require Import List Arith Bool.
Import ListNotations.

(** The messages that reach the window: an event of a socket, or FINISH,
    MessageDispatchThread.hpp 45-49. *)
Inductive message := SocketMessage | Finish.

(** Where the dispatching thread is, MessageDispatchThread::body, MessageDispatchThread.cpp
    33-62: not created, before init, in the loop, after the loop, ended. *)
Inductive dispatcher := NotCreated | Init | Loop | Destroy | Ended.

(** Where the other thread is: in EventCatcher's constructor before thread.run() and in
    thread.wait(), EventCatcher.cpp 17-21; the object is in use; in the destructor in
    thread.stop() and thread.join(), 23-30; in the destructor of the member [thread],
    ThreadBase::~ThreadBase, Thread.cpp 24-33; after that. *)
Inductive owner := Run | Wait | InUse | Stop | Join | Member | Deleted.

(** Of the model: the program counters of the two threads, the member started, the window and its
    messages. *)
Record catcher := Catcher {
  c_owner : owner; c_dispatcher : dispatcher;
  c_started : bool; c_window : bool;         (* started; window.handle is not null *)
  c_inbox : list message;                    (* posted to the window and not read *)
  c_dispatched : nat                         (* messages of sockets dispatched *)
}.
(** Of the model: before the constructor of EventCatcher. *)
Definition catcher_new : catcher := Catcher Run NotCreated false false [] 0.

(** What the system answers: whether CreateThread, RegisterClass and CreateWindow, and PostMessage
    of FINISH succeed. Of the system. *)
Record answers := Answers { thread_ok : bool; window_ok : bool; post_ok : bool }.

(** The owner's next step. *)
Definition owner_step (a : answers) (c : catcher) : catcher :=
  match c_owner c with
  | Run =>                                   (* ThreadBase::run, Thread.cpp 51-61 *)
      Catcher Wait (if thread_ok a then Init else NotCreated)
              (c_started c) (c_window c) (c_inbox c) (c_dispatched c)
  | Wait =>                                  (* wait, MessageDispatchThread.cpp 73-76 *)
      if c_started c
      then Catcher InUse (c_dispatcher c) (c_started c) (c_window c) (c_inbox c) (c_dispatched c)
      else c
  | InUse =>                                 (* ~EventCatcher begins, EventCatcher.cpp 25-26 *)
      Catcher (if c_window c then Stop else Member)
              (c_dispatcher c) (c_started c) (c_window c) (c_inbox c) (c_dispatched c)
  | Stop =>                                  (* stop, MessageDispatchThread.cpp 78-83 *)
      Catcher Join (c_dispatcher c) (c_started c) (c_window c)
              (match c_dispatcher c with
               | Loop => if post_ok a then c_inbox c ++ [Finish] else c_inbox c
               | _ => c_inbox c              (* no window with this handle any more *)
               end) (c_dispatched c)
  | Join =>                                  (* thread.join(), EventCatcher.cpp 29 *)
      match c_dispatcher c with
      | Ended => Catcher Member Ended (c_started c) (c_window c) (c_inbox c) (c_dispatched c)
      | _ => c
      end
  | Member =>                                (* ThreadBase::~ThreadBase waits *)
      match c_dispatcher c with
      | Ended | NotCreated =>
          Catcher Deleted (c_dispatcher c) (c_started c) (c_window c) (c_inbox c) (c_dispatched c)
      | _ => c
      end
  | Deleted => c
  end.

(** The dispatching thread's next step; [fails]: GetMessage fails. Without a window GetMessage
    waits for messages to the thread itself, which nobody sends. The message with WM_QUIT that
    PostQuitMessage posts is not read by anyone. *)
Definition dispatcher_step (a : answers) (fails : bool) (c : catcher) : catcher :=
  match c_dispatcher c with
  | NotCreated | Ended => c
  | Init =>                                  (* init, MessageDispatchThread.cpp 87-94, 110-151 *)
      Catcher (c_owner c) Loop true (window_ok a) (c_inbox c) (c_dispatched c)
  | Loop =>                                  (* 44-59 *)
      if fails
      then Catcher (c_owner c) Destroy (c_started c) (c_window c) (c_inbox c) (c_dispatched c)
      else
        match c_inbox c with
        | [] => c                            (* GetMessage waits *)
        | Finish :: rest =>
            Catcher (c_owner c) Destroy (c_started c) (c_window c) rest (c_dispatched c)
        | SocketMessage :: rest =>
            Catcher (c_owner c) Loop (c_started c) (c_window c) rest (S (c_dispatched c))
        end
  | Destroy =>                               (* destroy, 96-100, 153-159: the handle is kept *)
      Catcher (c_owner c) Ended (c_started c) (c_window c) [] (c_dispatched c)
  end.

(** winsock posts a message to the window, if there is one. *)
Definition arrive (c : catcher) : catcher :=
  match c_dispatcher c with
  | Loop =>
      if c_window c
      then Catcher (c_owner c) Loop (c_started c) (c_window c) (c_inbox c ++ [SocketMessage]) (c_dispatched c)
      else c
  | _ => c
  end.

(** Who acts next. Of the model; [GetMessageFails], [Arrive]: the system. *)
Inductive turn := Owner | Dispatcher | GetMessageFails | Arrive.
(** Of the model: one step of the thread whose turn it is. *)
Definition catcher_step (a : answers) (c : catcher) (t : turn) : catcher :=
  match t with
  | Owner => owner_step a c
  | Dispatcher => dispatcher_step a false c
  | GetMessageFails => dispatcher_step a true c
  | Arrive => arrive c
  end.
(** Of the model: the steps of a schedule one after the other. *)
Definition catcher_run (a : answers) (c : catcher) (l : list turn) : catcher :=
  fold_left (catcher_step a) l c.
