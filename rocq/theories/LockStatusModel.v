(** Model of the statuses of Mutex, Spin and Semaphore objects on POSIX: what getStatus() and operator bool
    give after a history of calls, for every answer of the system.

    Source: /repo/src/Os/Threads/{Mutex,Spin,Semaphore}.cpp and
    /repo/src/Os/Posix/Threads/{Mutex,Spin,Semaphore}Functions.cpp. Only the statuses are modelled here; the
    objects of the system are in LockObjectModel, what the locks do is in LockModel. *)
From Coq Require Import List Arith ZArith.
From Verif Require Import Base LockObjectModel.
Import ListNotations.

(** Of the system: the outcome of one call, None or the number of the error, and the value the variable errno
    has afterwards if the function itself does not set it. *)
Record answer := Answer { an_error : option Z; an_errno : Z }.

(** Of the system: what a function returns, and errno afterwards. The functions whose names begin with
    pthread_ return the number of the error and leave errno alone; those whose names begin with sem_ return -1
    and set errno. *)
Definition sys_call (k : lkind) (a : answer) : Z * Z :=
  match k, an_error a with
  | _, None => (0, an_errno a)
  | KSem, Some e => (-1, e)
  | _, Some e => (e, an_errno a)
  end%Z.

(** RETURN_RESULT, MutexFunctions.cpp 6-13, SpinFunctions.cpp 6-13, SemaphoreFunctions.cpp 6-13. *)
Definition return_result (r : Z * Z) : Z := if (fst r =? 0)%Z then 0%Z else (- snd r)%Z.

(** mutex::init, MutexFunctions.cpp 21-43. [attr] and [obj] are the answers to pthread_mutexattr_init and
    pthread_mutex_init; to pass attributes that were not initialised is undefined. *)
Definition mutex_init (attr obj : answer) : outcome Z :=
  let status := return_result (sys_call KMutex attr) in
  if (status <? 0)%Z then Ok status
  else match an_error attr with
       | Some _ => UB
       | None => Ok (return_result (sys_call KMutex obj))
       end.

(** Mutex(), Mutex.cpp 13-16; Spin(), Spin.cpp 13-16, with spin::init, SpinFunctions.cpp 21-26;
    Semaphore(value), Semaphore.cpp 13-14, 22-25, with semaphore::init, SemaphoreFunctions.cpp 21-26. *)
Definition status_new (k : lkind) (attr obj : answer) : outcome Z :=
  match k with
  | KMutex => mutex_init attr obj
  | _ => Ok (return_result (sys_call k obj))
  end.

(** lock() and unlock(), Mutex.cpp 52-60 with MutexFunctions.cpp 60-65, 72-77; Spin.cpp 53-61 with
    SpinFunctions.cpp 35-40, 48-53; wait() and post(), Semaphore.cpp 57-65 with SemaphoreFunctions.cpp 35-47. *)
Definition status_call (k : lkind) (a : answer) : Z := return_result (sys_call k a).

(** tryLock() and tryWait(), by LockObjectModel. *)
Definition status_try (k : lkind) (status : Z) (a : answer) : bool * Z :=
  match k with
  | KSem => try_wait status (fst (sys_call k a)) (snd (sys_call k a))
  | _ => try_lock status (fst (sys_call k a))
  end.

(** Semaphore::getValue, Semaphore.cpp 89-92, with semaphore::value, SemaphoreFunctions.cpp 68-78; [x] is what
    sem_getvalue stores if it succeeds. *)
Definition sem_value (a : answer) (x : Z) : Z :=
  let status := return_result (sys_call KSem a) in
  if (status <? 0)%Z then status else x.

(** operator bool, Mutex.cpp 47-50, Spin.cpp 48-51, Semaphore.cpp 52-55. *)
Definition status_bool (status : Z) : bool := (status =? 0)%Z.

(** The calls of Mutex.cpp, Spin.cpp and Semaphore.cpp that set a status; each names the object. *)
Inductive scall :=
| SNew (v : nat) (attr obj : answer)
| SLock (v : nat) (a : answer)        (* lock() or wait() *)
| SUnlock (v : nat) (a : answer)      (* unlock() or post() *)
| STry (v : nat) (a : answer).        (* tryLock() or tryWait() *)

(** Of the model: the members status of the objects, None: there is no object. *)
Definition statuses := nat -> option Z.

(** One call, by the functions above; a call on an object that is not there is undefined. *)
Definition sstep (k : lkind) (w : statuses) (c : scall) : outcome statuses :=
  match c with
  | SNew v attr obj => let! s := status_new k attr obj in Ok (lset w v (Some s))
  | SLock v a | SUnlock v a =>
      match w v with Some _ => Ok (lset w v (Some (status_call k a))) | None => UB end
  | STry v a =>
      match w v with Some s => Ok (lset w v (Some (snd (status_try k s a)))) | None => UB end
  end.

(** Of the model: the calls of a history one after the other. *)
Fixpoint srun (k : lkind) (w : statuses) (h : list scall) : outcome statuses :=
  match h with
  | [] => Ok w
  | c :: h => let! w := sstep k w c in srun k w h
  end.

(** Of the model: no objects. *)
Definition s_start : statuses := fun _ => None.
