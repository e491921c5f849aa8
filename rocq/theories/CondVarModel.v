(** Model of ConditionVariable.

    Source: /repo/src/Os/Threads/ConditionVarable.cpp,
    /repo/include/FlameIDE/Os/Threads/ConditionVariable.hpp and the members of UniqueLocker it
    calls, /repo/src/Os/Threads/Utils.cpp 186-205. A schedule is a list of moves; any number of
    threads, any order; one move is one access to the shared memory, one operation on the lock
    or one call of the Counter, which takes effect at one instant (C83). Accesses are
    sequentially consistent. Not modelled: the members status of the locks and getStatus(),
    whose result is ignored here; signals (sem_wait does not fail). wait(functor) and the
    destructor are in CondWaitModel.v. *)
From Coq Require Import List Arith.
From Verif Require Import Base LockModel.
Import ListNotations.

Section CondVar.
  (** The number of values of uichar_t, ConditionVariable.hpp 64: 256 on every platform with
      bytes of eight bits. *)
  Variable MODULUS : nat.

  (** [v_lock]: the lock the UniqueLocker refers to. [v_locked]: its member locked, Utils.hpp
      114. [v_counter]: the value of the member counter. *)
  Record cvar := CVar { v_lock : lock; v_locked : bool; v_counter : nat }.

  (** Of the model. *)
  Definition set_lock (v : cvar) (x : lock) : cvar := CVar x (v_locked v) (v_counter v).
  (** Of the model. *)
  Definition set_locked (v : cvar) (b : bool) : cvar := CVar (v_lock v) b (v_counter v).
  (** Of the model. *)
  Definition set_counter (v : cvar) (n : nat) : cvar := CVar (v_lock v) (v_locked v) n.

  (** The calls, ConditionVariable.hpp. *)
  Inductive vop := Wait | TryWait | Unwait | IsWait | Notify.
  (** What they return, ConditionVariable.hpp. *)
  Inductive vres := RVoid | RTest (b : bool).

  (** What is left to do of a call. Of the model: the program counter in ConditionVarable.cpp and
      Utils.cpp 186-205. *)
  Inductive pc :=
  | WIncrement | WCurrent | WLock | WSetLocked | WUnlock | WClearLocked | WDecrement
  | TRead | TTry | TStore (b : bool) | TReturn | TUnlock | TClearLocked
  | UDecrement
  | ICurrent
  | NCurrent | NUnlock (counterValue : nat) | NClearLocked (counterValue : nat)
  | NSpin (counterValue : nat) | NRead | NTry | NStore (b : bool) | NReturn
  | Return (r : vres).

  (** The first step of each call. ConditionVarable.cpp. *)
  Definition start (o : vop) : pc :=
    match o with
    | Wait => WIncrement
    | TryWait => TRead
    | Unwait => UDecrement
    | IsWait => ICurrent
    | Notify => NCurrent
    end.

  (** callbackUnlock(data) of the UniqueLocker that was constructed with this lock, Utils.cpp
      78-136 and 218-231. *)
  Definition unlock_data (x : lock) (t : nat) : outcome lock := release (l_kind x) x t.

  (** callbackTryLock(data), Utils.cpp 250-265: takes the lock if it is free. *)
  Definition try_lock_data (x : lock) (t : nat) : lock * bool :=
    match acquire x t with
    | Some x' => (x', true)
    | None => (x, false)
    end.

  (** ++counter, --counter: CounterModel. Counter.hpp. *)
  Definition plus1 (n : nat) : nat := (n + 1) mod MODULUS.
  (** Counter.hpp. *)
  Definition minus1 (n : nat) : nat := (n + (MODULUS - 1)) mod MODULUS.

  (** The next step of thread [t]. A thread that waits stays where it is. *)
  Definition pstep (t : nat) (p : pc) (v : cvar) : outcome (cvar * pc) :=
    match p with
    (* wait, ConditionVarable.cpp 13-24 *)
    | WIncrement => Ok (set_counter v (plus1 (v_counter v)), WCurrent)
    | WCurrent => Ok (v, if v_counter v =? 0 then Return RVoid else WLock)
    (* UniqueLocker::lock, Utils.cpp 186-191 *)
    | WLock =>
        match acquire (v_lock v) t with
        | None => Ok (v, WLock)
        | Some x => Ok (set_lock v x, WSetLocked)
        end
    | WSetLocked => Ok (set_locked v true, WUnlock)
    (* UniqueLocker::unlock, Utils.cpp 200-205 *)
    | WUnlock => let! x := unlock_data (v_lock v) t in Ok (set_lock v x, WClearLocked)
    | WClearLocked => Ok (set_locked v false, WDecrement)
    | WDecrement => Ok (set_counter v (minus1 (v_counter v)), Return RVoid)
    (* tryWait, ConditionVarable.cpp 26-32; UniqueLocker::tryLock, Utils.cpp 193-198 *)
    | TRead => Ok (v, if v_locked v then TReturn else TTry)
    | TTry => let r := try_lock_data (v_lock v) t in Ok (set_lock v (fst r), TStore (snd r))
    | TStore b => Ok (set_locked v b, TReturn)
    | TReturn => Ok (v, if v_locked v then TUnlock else Return (RTest false))
    | TUnlock => let! x := unlock_data (v_lock v) t in Ok (set_lock v x, TClearLocked)
    | TClearLocked => Ok (set_locked v false, Return (RTest true))
    (* unwait, ConditionVarable.cpp 34-37 *)
    | UDecrement => Ok (set_counter v (minus1 (v_counter v)), Return RVoid)
    (* isWait, ConditionVarable.cpp 39-42 *)
    | ICurrent => Ok (v, Return (RTest (negb (v_counter v =? 0))))
    (* notify, ConditionVarable.cpp 44-53 *)
    | NCurrent => Ok (v, if v_counter v =? 0 then Return RVoid else NUnlock (v_counter v))
    | NUnlock n => let! x := unlock_data (v_lock v) t in Ok (set_lock v x, NClearLocked n)
    | NClearLocked n => Ok (set_locked v false, NSpin n)
    | NSpin n => Ok (v, if v_counter v =? n - 1 then NRead else NSpin n)
    | NRead => Ok (v, if v_locked v then NReturn else NTry)
    | NTry => let r := try_lock_data (v_lock v) t in Ok (set_lock v (fst r), NStore (snd r))
    | NStore b => Ok (set_locked v b, NReturn)
    | NReturn => Ok (v, if v_locked v then Return RVoid else NRead)
    | Return r => Ok (v, Return r)
    end.

  (** The condition variable and the call each thread is executing. *)
  Record cvconfig := CV { cv_mem : cvar; cv_threads : nat -> option pc }.

  (** Of the model: a thread makes a call, or its next step. *)
  Inductive vmove := VCall (t : nat) (o : vop) | VTick (t : nat).
  (** Of the model: what an observer sees. *)
  Inductive vevent := VInv (t : nat) (o : vop) | VRes (t : nat) (r : vres).

  (** Moves that are not possible change nothing. Of the model. *)
  Definition vstep (c : cvconfig) (mv : vmove) : outcome (cvconfig * list vevent) :=
    match mv with
    | VCall t o =>
        match cv_threads c t with
        | None => Ok (CV (cv_mem c) (set_at (cv_threads c) t (Some (start o))), [VInv t o])
        | Some _ => Ok (c, [])
        end
    | VTick t =>
        match cv_threads c t with
        | None => Ok (c, [])
        | Some (Return r) => Ok (CV (cv_mem c) (set_at (cv_threads c) t None), [VRes t r])
        | Some p =>
            let! r := pstep t p (cv_mem c) in
            Ok (CV (fst r) (set_at (cv_threads c) t (Some (snd r))), [])
        end
    end.

  (** Of the model: the moves of a schedule one after the other. *)
  Fixpoint vrun (c : cvconfig) (moves : list vmove) : outcome (cvconfig * list vevent) :=
    match moves with
    | [] => Ok (c, [])
    | mv :: rest =>
        let! r := vstep c mv in
        let! r' := vrun (fst r) rest in
        Ok (fst r', snd r ++ snd r')
    end.

  (** The constructor, ConditionVariable.hpp 76-79, run by thread [t] on a lock that is free:
      the lock is taken, locked is true, the counter is 0; no thread uses it yet. *)
  Definition condvar_new (k : lock_kind) (t : nat) : cvconfig :=
    CV (CVar (Lock k 0 (match k with KSemaphore => None | _ => Some t end) SUCCESS) true 0)
       (fun _ => None).

  (** The next step of the thread reads or writes the member locked. Of the model, for stating
      that there are data races. *)
  Definition touches_locked (c : cvconfig) (t : nat) : bool :=
    match cv_threads c t with
    | Some (WSetLocked | WClearLocked | TRead | TStore _ | TReturn | TClearLocked
           | NClearLocked _ | NRead | NStore _ | NReturn) => true
    | _ => false
    end.
  (** … writes it. Of the model. *)
  Definition writes_locked (c : cvconfig) (t : nat) : bool :=
    match cv_threads c t with
    | Some (WSetLocked | WClearLocked | TStore _ | TClearLocked | NClearLocked _ | NStore _) => true
    | _ => false
    end.
End CondVar.
