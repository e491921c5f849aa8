(** Mutex on Windows; the life of Mutex and Semaphore objects on Windows; the mutexes the
    library offers to PKCS#11 modules.

    Source: /repo/src/Os/Threads/{Mutex,Semaphore}.cpp,
    /repo/src/Os/Windows/Threads/{Mutex,Semaphore}Functions.cpp,
    /repo/src/Crypto/Pkcs11/MutexReal/InitializeArgsCallbacks.cpp. What the system calls do is
    taken from the documentation of Windows: a handle -1 is the current process, waiting for it
    does not end. *)
From Coq Require Import List Arith ZArith Bool.
From Verif Require Import Base.
From Verif Require Import WinLockModel.
Import ListNotations.

(** Of Windows. *)
Definition ERROR_INVALID_HANDLE : Z := 6.
(** Of Windows. *)
Definition ERROR_TOO_MANY_POSTS : Z := 298.

(** * One Mutex and many threads *)

(** The semaphore of the system is open, its count; the member status; the Mutex object was
    deleted; a thread has touched the object after that. Mutex.hpp, its members, and the semaphore
    that MutexFunctions.cpp 15-30 makes. *)
Record wmutex := WM {
  wm_open : bool; wm_count : nat; wm_status : Z; wm_deleted : bool; wm_touched : bool
}.

(** The calls, Mutex.cpp 47-81; MDelete: the destructor, 23-29. *)
Inductive mop := MLock | MTryLock | MUnlock | MGetStatus | MDelete.
(** What they return, Mutex.cpp 47-81. *)
Inductive mres := MLocked | MTried (ok : bool) | MUnlocked | MStatusIs (s : Z) | MDeleted.

(** Of the model: the program counter in Mutex.cpp 23-81 and MutexFunctions.cpp 15-81. *)
Inductive mpc :=
| PWait | PWaited (s : Z)
| PTry | PTryFailed (s : Z)
| PRelease | PReleased (s : Z)
| PGet
| PClose | PClosed (s : Z).

(** The first step of each call, Mutex.cpp 23-81. *)
Definition mstart (o : mop) : mpc :=
  match o with
  | MLock => PWait
  | MTryLock => PTry
  | MUnlock => PRelease
  | MGetStatus => PGet
  | MDelete => PClose
  end.

(** Of the model. *)
Definition set_wm_count (m : wmutex) (n : nat) : wmutex :=
  WM (wm_open m) n (wm_status m) (wm_deleted m) (wm_touched m).
(** Of the model. *)
Definition set_wm_status (m : wmutex) (s : Z) : wmutex :=
  WM (wm_open m) (wm_count m) s (wm_deleted m) (wm_touched m).
(** Every step reads or writes a member. Of the model: an access after the Mutex was deleted is
    remembered. *)
Definition touch (m : wmutex) : wmutex :=
  WM (wm_open m) (wm_count m) (wm_status m) (wm_deleted m) (wm_touched m || wm_deleted m).

(** One step of an operation of Mutex, Mutex.cpp and MutexFunctions.cpp, as cited at the case. *)
Definition mpstep (p : mpc) (m0 : wmutex) : wmutex * (mpc + mres) :=
  let m := touch m0 in
  match p with
  (* Mutex::lock, Mutex.cpp 52-55: mutex::lock, MutexFunctions.cpp 42-51; then the status is
     written *)
  | PWait =>
      if wm_open m then
        match wm_count m with
        | O => (m, inl PWait)
        | S n => (set_wm_count m n, inl (PWaited 0))
        end
      else (m, inl (PWaited (- ERROR_INVALID_HANDLE)))
  | PWaited s => (set_wm_status m s, inr MLocked)
  (* Mutex::tryLock, 62-74: mutex::tryLock, 53-69 *)
  | PTry =>
      if wm_open m then
        match wm_count m with
        | O => (m, inr (MTried false))
        | S n => (set_wm_count m n, inr (MTried true))
        end
      else (m, inl (PTryFailed (- ERROR_INVALID_HANDLE)))
  | PTryFailed s => (set_wm_status m s, inr (MTried false))
  (* Mutex::unlock, 57-60: mutex::unlock, 71-79; then the status is written *)
  | PRelease =>
      if wm_open m then
        match wm_count m with
        | O => (set_wm_count m 1, inl (PReleased 0))
        | S _ => (m, inl (PReleased (- ERROR_TOO_MANY_POSTS)))
        end
      else (m, inl (PReleased (- ERROR_INVALID_HANDLE)))
  | PReleased s => (set_wm_status m s, inr MUnlocked)
  | PGet => (m, inr (MStatusIs (wm_status m)))                          (* 81-84 *)
  (* Mutex::~Mutex, 23-29: mutex::destroy, 32-40 *)
  | PClose =>
      (WM false (wm_count m) (wm_status m) (wm_deleted m) (wm_touched m),
       inl (PClosed (if wm_open m then 0 else (- ERROR_INVALID_HANDLE))%Z))
  | PClosed s => (WM (wm_open m) (wm_count m) s true (wm_touched m), inr MDeleted)
  end.

(** Mutex::Mutex, Mutex.cpp 13-16: mutex::init, 15-30; [made]: CreateSemaphoreA succeeded, or
    the error. *)
Definition mutex_new (made : option Z) : wmutex :=
  match made with
  | None => WM true 1 0 false false
  | Some e => WM false 0 (- e) false false
  end.

(** Of the model: a schedule of such threads. *)
Definition mrun : tconfig wmutex mpc -> list (tmove mop) -> tconfig wmutex mpc * list (tevent mop mres) :=
  trun mstart mpstep.

(** * The life of Mutex and Semaphore objects *)

(** Mutex.cpp and Semaphore.cpp, whose functions differ in few places. *)
Inductive wkind := KMutex | KSemaphore.

(** What a handle of the process is for: a semaphore with its count and maximum, or something this
    library did not make. Of the system. *)
Inductive kobj := Sem (count max : nat) | Foreign.
(** HANDLE, Os/Windows/Types.hpp: null, INVALID_HANDLE_VALUE, or another. *)
Inductive handle := Null | Invalid | Handle (n : nat).   (* Invalid: -1 *)
(** The members of Mutex and Semaphore: the context, which is a handle, and status. *)
Record xlock := XLock { xl_handle : handle; xl_status : Z }.
(** Of the model: the variables, and the handles of the process. *)
Record xstate := XState { xs_vars : nat -> option xlock; xs_kernel : nat -> option kobj }.
(** Of the model: no objects, no handles. *)
Definition xs_start : xstate := XState (fun _ => None) (fun _ => None).

(** Of the model. *)
Definition set {A} (f : nat -> A) (v : nat) (x : A) : nat -> A := fun u => if u =? v then x else f u.
(** Of the model. *)
Definition set_var (s : xstate) (v : nat) (x : option xlock) : xstate :=
  XState (set (xs_vars s) v x) (xs_kernel s).
(** Of the model. *)
Definition set_kernel (s : xstate) (n : nat) (x : option kobj) : xstate :=
  XState (xs_vars s) (set (xs_kernel s) n x).

(** CreateSemaphoreA: the system fails with an error ([offer] is None), or offers a handle; the
    offer of a handle that is in use counts as a failure, and the maximum must be positive. Of the
    system. *)
Definition create (s : xstate) (offer : option nat) (value : nat) : option nat :=
  match offer with
  | Some n => match xs_kernel s n with
              | None => if 0 <? value then Some n else None
              | Some _ => None
              end
  | None => None
  end.
(** CloseHandle; of null and -1 it does nothing. Of the system. *)
Definition close_handle (s : xstate) (h : handle) : xstate :=
  match h with Handle n => set_kernel s n None | _ => s end.

(** The calls, Mutex.cpp 13-86 and Semaphore.cpp 13-99; XForeignOpen, XForeignClose: other
    parts of the process. *)
Inductive xcall :=
| XNew (v : nat) (value : nat) (offer : option nat) (error : Z)
| XMove (v p : nat)
| XAssign (v p : nat)
| XAcquire (v : nat)     (* lock, wait *)
| XTry (v : nat)         (* tryLock, tryWait *)
| XRelease (v : nat)     (* unlock, post *)
| XGetStatus (v : nat)
| XDelete (v : nat)
| XForeignOpen (n : nat) | XForeignClose (n : nat).
(** Blocked: the call does not return (now). What they return. *)
Inductive xres := XDone | XTried (ok : bool) | XStatusIs (s : Z) | XBlocked.

(** The comparison with INVALID_HANDLE_VALUE in MutexFunctions.cpp and SemaphoreFunctions.cpp. *)
Definition is_invalid (h : handle) : bool := match h with Invalid => true | _ => false end.

(** Mutex::operator=, Mutex.cpp 31-45; Semaphore::operator=, Semaphore.cpp 36-50, where the test
    is the other way round. *)
Definition xassign (k : wkind) (s : xstate) (v p : nat) : outcome xstate :=
  match xs_vars s v, xs_vars s p with
  | Some o, Some _ =>
      let s := if match k with KMutex => negb (is_invalid (xl_handle o)) | KSemaphore => is_invalid (xl_handle o) end
               then close_handle s (xl_handle o) else s in
      match xs_vars s p with
      | Some q => Ok (set_var (set_var s v (Some q)) p (Some (XLock Invalid 0)))
      | None => UB
      end
  | _, _ => UB                                         (* no such object *)
  end.

(** Of the model: a change of the member status. *)
Definition xl_set (s : xstate) (v : nat) (o : xlock) (status : Z) : xstate :=
  set_var s v (Some (XLock (xl_handle o) status)).

(** The members of Mutex and Semaphore, each cited at its case. *)
Definition lstep (k : wkind) (s : xstate) (c : xcall) : outcome (xstate * xres) :=
  let get v (f : xlock -> outcome (xstate * xres)) := match xs_vars s v with Some o => f o | None => UB end in
  match c with
  | XNew v value offer error =>                        (* Mutex.cpp 13-16, Semaphore.cpp 22-25 *)
      match xs_vars s v with
      | Some _ => UB
      | None =>
          let value := match k with KMutex => 1 | KSemaphore => value end in
          match create s offer value with
          | Some n => Ok (set_var (set_kernel s n (Some (Sem value value))) v (Some (XLock (Handle n) 0)), XDone)
          | None => Ok (set_var s v (Some (XLock Null (- error))), XDone)
          end
      end
  | XMove v p =>
      (* Mutex.cpp 18-21: the member context is constructed with a null handle (Os/Windows/
         Types.hpp 91, 237); Semaphore.cpp 16-20: with -1. The status is assigned in operator=. *)
      match xs_vars s v with
      | Some _ => UB
      | None =>
          if v =? p then UB
          else
            let! s := xassign k (set_var s v (Some (XLock (match k with KMutex => Null | KSemaphore => Invalid end) 0))) v p in
            Ok (s, XDone)
      end
  | XAssign v p => let! s := xassign k s v p in Ok (s, XDone)
  | XAcquire v =>                                      (* WaitForSingleObject(INFINITE) *)
      get v (fun o =>
        match xl_handle o with
        | Null => Ok (xl_set s v o (- ERROR_INVALID_HANDLE), XDone)
        | Invalid => Ok (s, XBlocked)
        | Handle n =>
            match xs_kernel s n with
            | Some (Sem (S c) m) => Ok (xl_set (set_kernel s n (Some (Sem c m))) v o 0, XDone)
            | Some (Sem O m) => Ok (s, XBlocked)
            | Some Foreign => UB                       (* another object is waited for *)
            | None => Ok (xl_set s v o (- ERROR_INVALID_HANDLE), XDone)
            end
        end)
  | XTry v =>                                          (* WaitForSingleObject(0) *)
      get v (fun o =>
        match xl_handle o with
        | Null => Ok (xl_set s v o (- ERROR_INVALID_HANDLE), XTried false)
        | Invalid => Ok (s, XTried false)
        | Handle n =>
            match xs_kernel s n with
            | Some (Sem (S c) m) => Ok (set_kernel s n (Some (Sem c m)), XTried true)
            | Some (Sem O m) => Ok (s, XTried false)
            | Some Foreign => UB
            | None => Ok (xl_set s v o (- ERROR_INVALID_HANDLE), XTried false)
            end
        end)
  | XRelease v =>                                      (* ReleaseSemaphore *)
      get v (fun o =>
        match xl_handle o with
        | Null | Invalid => Ok (xl_set s v o (- ERROR_INVALID_HANDLE), XDone)
        | Handle n =>
            match xs_kernel s n with
            | Some (Sem c m) =>
                if c <? m then Ok (xl_set (set_kernel s n (Some (Sem (S c) m))) v o 0, XDone)
                else Ok (xl_set s v o (- ERROR_TOO_MANY_POSTS), XDone)
            | Some Foreign | None => Ok (xl_set s v o (- ERROR_INVALID_HANDLE), XDone)
            end
        end)
  | XGetStatus v => get v (fun o => Ok (s, XStatusIs (xl_status o)))
  | XDelete v =>                                       (* Mutex.cpp 23-29, Semaphore.cpp 27-34 *)
      get v (fun o =>
        Ok (set_var (if is_invalid (xl_handle o) then s else close_handle s (xl_handle o)) v None, XDone))
  (* other code opens and closes its own handles *)
  | XForeignOpen n => Ok (match xs_kernel s n with None => set_kernel s n (Some Foreign) | Some _ => s end, XDone)
  | XForeignClose n => Ok (match xs_kernel s n with Some Foreign => set_kernel s n None | _ => s end, XDone)
  end.

(** Of the model: the calls of a history, one after the other. *)
Fixpoint lrun (k : wkind) (s : xstate) (h : list xcall) : outcome (xstate * list xres) :=
  match h with
  | [] => Ok (s, [])
  | c :: h =>
      let! r := lstep k s c in
      let! r' := lrun k (fst r) h in
      Ok (fst r', snd r :: snd r')
  end.

(** * The mutexes offered to PKCS#11 modules *)

(** The heap: the Mutex at each address. *)
Definition mheap := nat -> option wmutex.

(** The four functions offered to modules, InitializeArgsCallbacks.cpp 62-106. *)
Inductive ccall :=
| CCreate (out : bool)           (* whether the pointer to the result is not null *)
    (memory : option nat)        (* what the allocator gives *)
    (made : option Z)            (* the error of the system, if any *)
| CDestroy (p : option nat)
| CLock (p : option nat)
| CUnlock (p : option nat).
(** enums::ReturnType. As in InitializeArgsCallbacks.cpp 62-106. *)
Inductive rv := OK | HOST_MEMORY | ARGUMENTS_BAD.
(** What the module sees: the value returned and the pointer stored; [None]: the call does not
    return now. InitializeArgsCallbacks.cpp 62-106. *)
Definition cres : Type := option (rv * option nat).

(** The member functions, run without interruption: steps of [mpstep] until it returns; [None] if
    it waits. Of the model. *)
Fixpoint alone (n : nat) (p : mpc) (m : wmutex) : option (wmutex * mres) :=
  match n with
  | O => None
  | S n => match mpstep p m with
           | (m, inr r) => Some (m, r)
           | (m, inl p) => alone n p m
           end
  end.

(** InitializeArgsCallbacks.cpp 62-73 with 21-34; 75-84 with 36-41; 86-95 with 43-47; 97-106 with
    49-53. ObjectAllocator::destroy, ObjectAllocator.hpp 117-124. One call,
    InitializeArgsCallbacks.cpp 62-106. *)
Definition cstep (h : mheap) (c : ccall) : outcome (mheap * cres) :=
  match c with
  | CCreate false _ _ => Ok (h, Some (ARGUMENTS_BAD, None))
  | CCreate true None _ => Ok (h, Some (HOST_MEMORY, None))
  | CCreate true (Some a) made =>
      match h a with
      | Some _ => Ok (h, Some (HOST_MEMORY, None))     (* memory in use is not given: a failure *)
      | None => Ok (set h a (Some (mutex_new made)), Some (OK, Some a))
      end
  | CDestroy None | CLock None | CUnlock None => Ok (h, Some (ARGUMENTS_BAD, None))
  | CDestroy (Some a) =>
      match h a with
      | None => UB
      | Some m => Ok (set h a None, Some (OK, None))
      end
  | CLock (Some a) =>
      match h a with
      | None => UB
      | Some m => Ok (match alone 2 (mstart MLock) m with
                      | Some (m, _) => (set h a (Some m), Some (OK, None))
                      | None => (h, None)
                      end)
      end
  | CUnlock (Some a) =>
      match h a with
      | None => UB
      | Some m => Ok (match alone 2 (mstart MUnlock) m with
                      | Some (m, _) => (set h a (Some m), Some (OK, None))
                      | None => (h, None)
                      end)
      end
  end.
(** Of the model: the calls of a history one after the other. *)
Fixpoint crun (h : mheap) (l : list ccall) : outcome (mheap * list cres) :=
  match l with
  | [] => Ok (h, [])
  | c :: l =>
      let! r := cstep h c in
      let! r' := crun (fst r) l in
      Ok (fst r', snd r :: snd r')
  end.
(** Of the model: no Mutex. *)
Definition c_start : mheap := fun _ => None.
