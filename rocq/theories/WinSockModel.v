(** Model of the start of the sockets library on Windows, for any number of threads that make
    network objects at the same time.

    Source: /repo/src/Os/Windows/Network/SocketFunctions.cpp 10-32, 281-327. Every function that
    makes a socket (103-196) first calls winsockInit. The member inited is a plain bool, read and
    written by all threads; each read and write is one step (the data race itself is not
    modelled: steps of different threads are interleaved). The destructor of the static object
    runs when the program ends. *)
From Coq Require Import List Arith Bool.
Import ListNotations.

(** What can be seen of the calls, in order. *)
Inductive wevent :=
| Begins (t : nat)                     (* thread t calls winsockInit, 322 *)
| Started (t : nat) (ok : bool)        (* thread t called WSAStartup, 297; whether it succeeded *)
| Answered (t : nat) (b : bool)        (* winsockInit of thread t returned b, 326 *)
| Cleaned.                             (* WSACleanup was called, 312 *)

(** Where a thread is in winsockInit, SocketFunctions.cpp 322-327 and init, 292-305. *)
Inductive wpc :=
| WIdle                                (* outside *)
| WTest                                (* before [if (inited)], 294 *)
| WStartup                             (* before WSAStartup, 297 *)
| WStore                               (* before [inited = true], 304 *)
| WAnswer.                             (* before [return winsock.operator bool()], 326, 287-290 *)

(** The static object of signeton, SocketFunctions.cpp 281-285 (its member inited, 27), the places
    of the threads, and what has been seen so far. *)
Record winsock := WinSock { inited : bool; at_ : nat -> wpc; seen : list wevent }.

(** [bool inited = false], SocketFunctions.cpp 27: before anyone has called. *)
Definition fresh : winsock := WinSock false (fun _ => WIdle) [].

(** Of the model: thread [t] goes to [p]. *)
Definition goes (f : nat -> wpc) (t : nat) (p : wpc) : nat -> wpc :=
  fun u => if u =? t then p else f u.

(** One step of thread [t], SocketFunctions.cpp 322-327, 292-305, 287-290; [ok] is what WSAStartup
    answers if this step calls it. *)
Definition wstep (w : winsock) (t : nat) (ok : bool) : winsock :=
  match at_ w t with
  | WIdle => WinSock (inited w) (goes (at_ w) t WTest) (seen w ++ [Begins t])
  | WTest =>
      if inited w then WinSock (inited w) (goes (at_ w) t WAnswer) (seen w)
      else WinSock (inited w) (goes (at_ w) t WStartup) (seen w)
  | WStartup =>
      if ok then WinSock (inited w) (goes (at_ w) t WStore) (seen w ++ [Started t true])
      else WinSock (inited w) (goes (at_ w) t WAnswer) (seen w ++ [Started t false])
  | WStore => WinSock true (goes (at_ w) t WAnswer) (seen w)
  | WAnswer => WinSock (inited w) (goes (at_ w) t WIdle) (seen w ++ [Answered t (inited w)])
  end.

(** Of the model: a schedule, from a given state. *)
Fixpoint wrun (w : winsock) (sched : list (nat * bool)) : winsock :=
  match sched with
  | [] => w
  | (t, ok) :: sched => wrun (wstep w t ok) sched
  end.

(** ~WinSockLibrary and destroy, SocketFunctions.cpp 307-318: the end of the program. *)
Definition wexit (w : winsock) : list wevent :=
  if inited w then seen w ++ [Cleaned] else seen w.
