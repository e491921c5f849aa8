(** Model of the notificator of the catcher of network events.

    Source: /repo/src/Os/Async/Network/EventCatcherBase.cpp 14-30 with /repo/src/Os/Async/Network/
    EventCatcherBase.hpp 70, Registrar.cpp 180-188, Posix/Async/Network/EventCatcher.cpp 91-115,
    Windows/Async/Network/MessageDispatchThread.cpp 161-191, Common/ReferenceWrapper.hpp 83-104.

    notify() is called by the signal handler, which runs on whichever thread the signal is delivered to, and
    on Windows by the thread of the window. Simplification: the pointer inside the wrapper is read and
    written as one word (C++ calls it a data race and promises nothing). *)
From Coq Require Import List Arith Bool.
From Verif Require Import Base.
Import ListNotations.

(** Where a thread is in notify(), EventCatcherBase.cpp 26-30: not inside; after the condition; in the call of
    a notificator. *)
Inductive phase := Outside | Tested | Calling (id : nat).

(** notificationObject, EventCatcherBase.hpp 70; which notificators the application has now; the threads. *)
Record nstate := NState {
  n_object : option nat;
  n_alive : nat -> bool;
  n_threads : nat -> phase
}.

(** The constructor; no notificators exist, nobody notifies. EventCatcherBase.hpp 66-70. *)
Definition n_initial : nstate := NState None (fun _ => false) (fun _ => Outside).

(** Of the application: it makes a notificator, gives it to the Registrar, takes it back, destroys it. Of the
    system: thread [t] does its next step of notify(), entering it if it is not inside. *)
Inductive nmove := NCreate (id : nat) | NSet (id : nat) | NUnset | NDestroy (id : nat) | NStep (t : nat).

(** What happens: the calls of the application return; a notificator is called by notify() of a thread; a
    notify() returns without a call; the called notificator returns. Of the model. *)
Inductive nevent :=
| ECreated (id : nat) | ESet (id : nat) | EUnset | EDestroyed (id : nat)
| ECalled (t id : nat) | EPassed (t : nat) | EReturned (t id : nat).

(** Of the model: a function changed at one place. *)
Definition nset {X} (f : nat -> X) (k : nat) (x : X) : nat -> X := fun i => if i =? k then x else f i.

(** One step. setNotificator: EventCatcherBase.cpp 14-17, unsetNotificator: 19-22. notify, 26-30: operator bool
    (ReferenceWrapper.hpp 100-104), then get() (93-98), which reads the pointer again, and the call; the object
    is in use until the call returns. *)
Definition nstep (s : nstate) (mv : nmove) : outcome (nstate * list nevent) :=
  match mv with
  | NCreate id => Ok (NState (n_object s) (nset (n_alive s) id true) (n_threads s), [ECreated id])
  | NSet id => Ok (NState (Some id) (n_alive s) (n_threads s), [ESet id])
  | NUnset => Ok (NState None (n_alive s) (n_threads s), [EUnset])
  | NDestroy id => Ok (NState (n_object s) (nset (n_alive s) id false) (n_threads s), [EDestroyed id])
  | NStep t =>
      match n_threads s t with
      | Outside =>
          match n_object s with
          | None => Ok (s, [EPassed t])
          | Some _ => Ok (NState (n_object s) (n_alive s) (nset (n_threads s) t Tested), [])
          end
      | Tested =>
          match n_object s with
          | None => UB
          | Some id =>
              if n_alive s id
              then Ok (NState (n_object s) (n_alive s) (nset (n_threads s) t (Calling id)), [ECalled t id])
              else UB
          end
      | Calling id =>
          if n_alive s id
          then Ok (NState (n_object s) (n_alive s) (nset (n_threads s) t Outside), [EReturned t id])
          else UB
      end
  end.

(** Of the model: a schedule, and the events in their order. *)
Fixpoint nrun (s : nstate) (l : list nmove) : outcome (nstate * list nevent) :=
  match l with
  | [] => Ok (s, [])
  | mv :: l =>
      let! r := nstep s mv in
      let! r' := nrun (fst r) l in
      Ok (fst r', snd r ++ snd r')
  end.
