(** Model of the lifetime of Mutex, Spin and Semaphore objects on POSIX, and of the answers of
    tryLock() and tryWait().

    Source: /repo/src/Os/Threads/{Mutex,Spin,Semaphore}.cpp and
    /repo/src/Os/Posix/Threads/{Mutex,Spin,Semaphore}Functions.cpp. What POSIX leaves undefined
    (using or destroying an object that was not initialised at its address) is [UB]. Not
    modelled: the attributes of a mutex; what the locks do between init and destroy (LockModel).
    Where the bytes of an object of the system are compared with the initializer the answer is
    [same], which the system decides; with glibc it is true for a Mutex that is not locked and
    for a Semaphore with the value 0. *)
From Coq Require Import List Arith ZArith.
From Verif Require Import Base.
Import ListNotations.

(** The classes Mutex, Spin and Semaphore, Threads/{Mutex,Spin,Semaphore}.cpp. *)
Inductive lkind := KMutex | KSpin | KSem.

(** The bytes of the member context: not written; the initializer; those of an object of the
    system that was initialised at the address of the variable [a]. Of the model. *)
Inductive lbytes := BJunk | BInitializer | BSystem (a : nat).

(** [l_live a]: an object of the system was initialised at the address [a] and not destroyed. Of
    the model. *)
Record lworld := LWorld { l_vars : nat -> option lbytes; l_live : nat -> bool }.

(** Of the model. *)
Definition lset {A} (f : nat -> A) (v : nat) (x : A) : nat -> A := fun u => if u =? v then x else f u.
(** Of the model: a change of one variable. *)
Definition lput (w : lworld) (v : nat) (x : option lbytes) : lworld :=
  LWorld (lset (l_vars w) v x) (l_live w).
(** Of the model: access to a variable; one without an object: undefined. *)
Definition lget (w : lworld) (v : nat) : outcome lbytes :=
  match l_vars w v with Some b => Ok b | None => UB end.
(** Of the model: a variable is constructed when it has no object. *)
Definition lfree (w : lworld) (v : nat) : outcome unit :=
  match l_vars w v with None => Ok tt | Some _ => UB end.

(** The bytes are an object that lives at its address. Of the model. *)
Definition own (w : lworld) (v : nat) (b : lbytes) : bool :=
  match b with BSystem a => (a =? v) && l_live w v | _ => false end%bool.

(** context == INITIALIZER. As in MutexFunctions.cpp 45-58 and Mutex.cpp 31-45. *)
Definition is_initializer (b : lbytes) (same : bool) : outcome bool :=
  match b with
  | BJunk => UB
  | BInitializer => Ok true
  | BSystem _ => Ok same
  end.

(** mutex::destroy, MutexFunctions.cpp 45-58 (nothing is done for the initializer);
    spin::destroy, SpinFunctions.cpp 28-33; semaphore::destroy, SemaphoreFunctions.cpp 28-33. *)
Definition ldestroy (k : lkind) (w : lworld) (v : nat) (b : lbytes) (same : bool) : outcome lworld :=
  let do := if own w v b then Ok (LWorld (l_vars w) (lset (l_live w) v false)) else UB in
  match k with
  | KMutex => let! i := is_initializer b same in if i then Ok w else do
  | _ => do
  end.

(** The calls: constructors, destructors, assignments, locking: Mutex.cpp, Spin.cpp,
    Semaphore.cpp. *)
Inductive lcall :=
| LNew (v : nat) (ok told : bool)     (* [ok]: the system could initialise the object; [told]: if not, errno
                                         is not 0, so that mutex::init notices, MutexFunctions.cpp 24-41 *)
| LMove (v p : nat) (same : bool)
| LAssign (v p : nat) (same : bool)
| LUse (v : nat)                      (* lock, unlock, tryLock, wait, post, getValue, … *)
| LDelete (v : nat) (same : bool).

(** operator=: Mutex.cpp 31-45, Spin.cpp 32-46, Semaphore.cpp 36-50 (where the test is the other
    way round). *)
Definition lassign (k : lkind) (w : lworld) (v p : nat) (same : bool) : outcome lworld :=
  let! b := lget w v in
  let! i := is_initializer b same in
  let! w := (if match k with KSem => i | _ => negb i end then ldestroy k w v b same else Ok w) in
  let! s := lget w p in
  Ok (lput (lput w v (Some s)) p (Some BInitializer)).

(** The members of the three classes, each cited at its case. *)
Definition lstep (k : lkind) (w : lworld) (c : lcall) : outcome lworld :=
  match c with
  | LNew v ok told =>                  (* Mutex.cpp 13-16, Spin.cpp 13-16, Semaphore.cpp 22-25 *)
      let! _ := lfree w v in
      if ok then
        if l_live w v then UB
        else Ok (LWorld (lset (l_vars w) v (Some (BSystem v))) (lset (l_live w) v true))
      else Ok (lput w v (Some (match k with KMutex => if told then BInitializer else BJunk | _ => BJunk end)))
  | LMove v p same =>                  (* Mutex.cpp 18-21, Spin.cpp 18-21, Semaphore.cpp 16-20 *)
      let! _ := lfree w v in
      lassign k (lput w v (Some (match k with KSem => BInitializer | _ => BJunk end))) v p same
  | LAssign v p same => lassign k w v p same
  | LUse v =>
      let! b := lget w v in
      if own w v b then Ok w
      else match k, b with KMutex, BInitializer => Ok w | _, _ => UB end
  | LDelete v same =>                  (* Mutex.cpp 23-29, Spin.cpp 23-30, Semaphore.cpp 27-34 *)
      let! b := lget w v in
      let! i := is_initializer b same in
      let! w := (if i then Ok w else ldestroy k w v b same) in
      Ok (lput w v None)
  end.

(** Of the model: the calls of a history, one after the other. *)
Fixpoint lrun (k : lkind) (w : lworld) (h : list lcall) : outcome lworld :=
  match h with
  | [] => Ok w
  | c :: h => let! w := lstep k w c in lrun k w h
  end.

(** Of the model: no objects. *)
Definition l_start : lworld := LWorld (fun _ => None) (fun _ => false).

(** * tryLock and tryWait *)

(** TryLockStatus, /repo/src/Os/Threads/Common.hpp 11-21, with the numbers of Linux. *)
Definition EPERM : Z := 1.
(** Of the system. *)
Definition EINTR : Z := 4.
(** Of the system. *)
Definition EAGAIN : Z := 11.
(** Of the system. *)
Definition EBUSY : Z := 16.
(** Of the system. *)
Definition EINVAL : Z := 22.
(** Of the system. *)
Definition EDEADLK : Z := 35.

(** mutex::tryLock, MutexFunctions.cpp 67-70, and spin::tryLock, SpinFunctions.cpp 42-46: the
    function returns 0 or an error number; Mutex::tryLock, Mutex.cpp 62-74, and Spin::tryLock,
    Spin.cpp 63-76: the answer and the status afterwards. *)
Definition try_lock (status result : Z) : bool * Z :=
  let s := (- result)%Z in
  if (s =? 0)%Z then (true, status)
  else if (s =? - EBUSY)%Z then (false, status) else (false, s).

(** semaphore::tryWait, SemaphoreFunctions.cpp 49-66: sem_trywait returns 0, or -1 and sets errno;
    Semaphore::tryWait, Semaphore.cpp 67-82. *)
Definition try_wait (status result errno : Z) : bool * Z :=
  let s := if (result =? 0)%Z then result else (- errno)%Z in
  let t := if (s =? - EAGAIN)%Z then (- EBUSY)%Z
           else if (s =? - EDEADLK)%Z then (- EDEADLK)%Z
           else if (s =? - EINTR)%Z then (- EINTR)%Z
           else if (s =? - EINVAL)%Z then (- EINVAL)%Z
           else 0%Z in
  if (t =? 0)%Z then (true, status)
  else if (t =? - EBUSY)%Z then (false, status) else (false, t).
