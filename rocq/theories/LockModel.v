(** Threads that open and close scopes guarded by Locker.

    Source: /repo/src/Os/Threads/Utils.cpp, Spin.cpp, Mutex.cpp, Semaphore.cpp in the same
    directory, and /repo/src/Os/Posix/Threads/{Spin,Mutex,Semaphore}Functions.cpp. Any number
    of locks and threads; scopes are nested; a schedule is a list of moves. What the system
    calls do is taken from POSIX. Creating, moving and destroying the locks is not part of
    this model. *)
From Coq Require Import List Arith ZArith.
From Verif Require Import Base.
Import ListNotations.

(** The classes Locker is used with, Threads/Utils.cpp. *)
Inductive lock_kind := KSpin | KMutex | KSemaphore.

(** A Spin, Mutex or Semaphore: [l_count] is 1 for a free and 0 for a taken spin lock or
    mutex, and the value of a semaphore; [l_owner] is the thread that took a spin lock or
    mutex; [l_status] is the member status (Spin.hpp 37, Mutex.hpp 36, Semaphore.hpp 42). *)
Record lock := Lock { l_kind : lock_kind; l_count : nat; l_owner : option nat; l_status : Z }.

(** Locker, include/FlameIDE/Os/Threads/Utils.hpp 22-43: the unlock function it calls, named
    by the kind of lock it is for, and the lock. *)
Record locker := Locker { k_unlock : lock_kind; k_data : nat }.

(** What a thread is doing: [Running] its own code; in the constructor of a Locker, waiting in the
    system call, or after it returned [r] and before [r] is assigned to status; in the destructor
    of a Locker after the system call returned [r]. Of the model: the program counter in
    Locker::Locker and ~Locker, Utils.cpp. *)
Inductive task :=
| Running
| Waiting (l : nat)
| Taken (l : nat) (r : Z)
| Given (l : nat) (r : Z).

(** [t_scopes]: the Lockers of the open scopes, innermost first. Of the model. *)
Record thread := Thread { t_scopes : list locker; t_task : task }.

(** Of the model: the locks and the threads of a program. *)
Record locks := Locks { k_locks : nat -> lock; k_threads : nat -> thread }.

(** Of the model. *)
Definition set_at {X : Type} (f : nat -> X) (t : nat) (x : X) : nat -> X :=
  fun u => if u =? t then x else f u.

(** os::STATUS_SUCCESS and -EINTR. os::STATUS_SUCCESS. *)
Definition SUCCESS : Z := 0.
(** -EINTR, as returned by SemaphoreFunctions.cpp. *)
Definition INTERRUPTED : Z := -4.

(** The constructors of Locker, Utils.cpp 40-59: members; the lock is then waited for. *)
Definition locker_for (k : lock_kind) (l : nat) : locker :=
  match k with
  | KSemaphore => Locker KSemaphore l
  | KMutex => Locker KMutex l
  | KSpin => Locker KSpin l
  end.

(** semaphore.wait(), mutex.lock() or spin.lock(), Utils.cpp 44, 51, 58: sem_wait,
    pthread_mutex_lock (a default mutex, MutexFunctions.cpp 23-43), pthread_spin_lock. None:
    the call does not return yet. *)
Definition acquire (x : lock) (t : nat) : option lock :=
  match l_count x with
  | O => None
  | S n =>
      Some (Lock (l_kind x) n
                 (match l_kind x with KSemaphore => None | _ => Some t end) (l_status x))
  end.

(** unlockSemaphore, unlockMutex, unlockSpin, Utils.cpp 218-231: sem_post adds one;
    pthread_mutex_unlock and pthread_spin_unlock are undefined for a thread that does not own
    the lock. Calling the function for another kind of lock is undefined. *)
Definition release (u : lock_kind) (x : lock) (t : nat) : outcome lock :=
  match u, l_kind x with
  | KSemaphore, KSemaphore => Ok (Lock KSemaphore (S (l_count x)) None (l_status x))
  | KMutex, KMutex | KSpin, KSpin =>
      match l_owner x with
      | Some o => if o =? t then Ok (Lock (l_kind x) 1 None (l_status x)) else UB
      | None => UB
      end
  | _, _ => UB
  end.

(** [status = ...;], Spin.cpp 53-61, Mutex.cpp 52-60, Semaphore.cpp 57-65. *)
Definition set_status (x : lock) (r : Z) : lock := Lock (l_kind x) (l_count x) (l_owner x) r.

(** [Enter t l]: thread [t] begins to construct a Locker for the lock [l]. [Leave t]: it leaves
    its innermost scope. [Tick t]: its next step. [Interrupt t]: a signal handler runs while the
    thread waits; sem_wait then returns -1 with EINTR, the other calls go on waiting. Of the
    model. *)
Inductive lmove := Enter (t l : nat) | Leave (t : nat) | Tick_ (t : nat) | Interrupt (t : nat).

(** Moves that are not possible change nothing. *)
Definition lstep (c : locks) (mv : lmove) : outcome locks :=
  match mv with
  | Enter t l =>
      let th := k_threads c t in
      match t_task th with
      | Running => Ok (Locks (k_locks c) (set_at (k_threads c) t (Thread (t_scopes th) (Waiting l))))
      | _ => Ok c
      end
  | Leave t =>
      let th := k_threads c t in
      match t_task th, t_scopes th with
      | Running, k :: rest =>
          (* Locker::~Locker, Utils.cpp 61-64 *)
          let! x := release (k_unlock k) (k_locks c (k_data k)) t in
          Ok (Locks (set_at (k_locks c) (k_data k) x)
                    (set_at (k_threads c) t (Thread rest (Given (k_data k) SUCCESS))))
      | _, _ => Ok c
      end
  | Tick_ t =>
      let th := k_threads c t in
      match t_task th with
      | Running => Ok c
      | Waiting l =>
          match acquire (k_locks c l) t with
          | None => Ok c
          | Some x => Ok (Locks (set_at (k_locks c) l x)
                                (set_at (k_threads c) t (Thread (t_scopes th) (Taken l SUCCESS))))
          end
      | Taken l r =>
          Ok (Locks (set_at (k_locks c) l (set_status (k_locks c l) r))
                    (set_at (k_threads c) t
                       (Thread (locker_for (l_kind (k_locks c l)) l :: t_scopes th) Running)))
      | Given l r =>
          Ok (Locks (set_at (k_locks c) l (set_status (k_locks c l) r))
                    (set_at (k_threads c) t (Thread (t_scopes th) Running)))
      end
  | Interrupt t =>
      let th := k_threads c t in
      match t_task th with
      | Waiting l =>
          match l_kind (k_locks c l) with
          | KSemaphore =>
              Ok (Locks (k_locks c)
                        (set_at (k_threads c) t (Thread (t_scopes th) (Taken l INTERRUPTED))))
          | _ => Ok c
          end
      | _ => Ok c
      end
  end.

(** Of the model: the moves of a schedule, one after the other. *)
Fixpoint lrun (c : locks) (moves : list lmove) : outcome locks :=
  match moves with
  | [] => Ok c
  | mv :: moves => let! c := lstep c mv in lrun c moves
  end.

(** The constructors Spin(), Mutex(), Semaphore(n), Spin.cpp 13-16, Mutex.cpp 13-16,
    Semaphore.cpp 22-25, successful: all locks free, no scope open. *)
Definition lock_new (k : lock_kind) (n : nat) : lock :=
  Lock k (match k with KSemaphore => n | _ => 1 end) None SUCCESS.
(** Of the model: locks of the given kinds that nobody holds, semaphores with the given values; no
    thread in a scope. *)
Definition locks_new (kinds : nat -> lock_kind) (values : nat -> nat) : locks :=
  Locks (fun l => lock_new (kinds l) (values l)) (fun _ => Thread [] Running).
