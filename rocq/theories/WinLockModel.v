(** Models of the Windows implementations of Spin and Semaphore.

    Source: /repo/src/Os/Windows/Threads/SpinFunctions.cpp and SemaphoreFunctions.cpp in the
    same directory, called by /repo/src/Os/Threads/Spin.cpp 53-76 and Semaphore.cpp 57-85. What
    the system calls do is taken from the documentation of Windows. The member status and
    creation failures other than those documented for the arguments are not modelled; LONG does
    not overflow. *)
From Coq Require Import List Arith ZArith.
From Verif Require Import Base.
Import ListNotations.
Local Open Scope bool_scope.

(** * Threads that call operations made of atomic steps *)
Section Threads.
  (** Shared memory, operations, results, what is left of a call. *)
  Variables M Op R P : Type.
  Variable start : Op -> P.
  (** One step: the new memory, and what is left or the result. A thread that waits stays where
      it is. *)
  Variable pstep : P -> M -> M * (P + R).

  (** Of the model: the memory, and where in its operation each thread is. *)
  Record tconfig := TC { tc_mem : M; tc_threads : nat -> option P }.
  (** A thread calls an operation, or executes its next step; of the model. *)
  Inductive tmove := TCall (t : nat) (o : Op) | TTick (t : nat).
  (** What an observer sees; of the model. *)
  Inductive tevent := TInv (t : nat) (o : Op) | TRes (t : nat) (r : R).

  (** Of the model. *)
  Definition tset (f : nat -> option P) (t : nat) (x : option P) : nat -> option P :=
    fun u => if u =? t then x else f u.

  (** One move; one that is not possible changes nothing. Of the model. *)
  Definition tstep (c : tconfig) (mv : tmove) : tconfig * list tevent :=
    match mv with
    | TCall t o =>
        match tc_threads c t with
        | None => (TC (tc_mem c) (tset (tc_threads c) t (Some (start o))), [TInv t o])
        | Some _ => (c, [])
        end
    | TTick t =>
        match tc_threads c t with
        | None => (c, [])
        | Some p =>
            match pstep p (tc_mem c) with
            | (m, inl p') => (TC m (tset (tc_threads c) t (Some p')), [])
            | (m, inr r) => (TC m (tset (tc_threads c) t None), [TRes t r])
            end
        end
    end.

  (** The moves of a schedule one after the other; of the model. *)
  Fixpoint trun (c : tconfig) (moves : list tmove) : tconfig * list tevent :=
    match moves with
    | [] => (c, [])
    | mv :: rest =>
        let r := tstep c mv in
        let r' := trun (fst r) rest in
        (fst r', snd r ++ snd r')
    end.

  (** No thread is in a call; of the model. *)
  Definition tquiet (m : M) : tconfig := TC m (fun _ => None).
End Threads.

Arguments TC {M P}. Arguments tc_mem {M P}. Arguments tc_threads {M P}.
Arguments TCall {Op}. Arguments TTick {Op}. Arguments TInv {Op R}. Arguments TRes {Op R}.
Arguments tset {P}. Arguments tstep {M Op R P}. Arguments trun {M Op R P}. Arguments tquiet {M P}.

(** * Spin *)

(** OS_SPINLOCK_VALUE_UNLOCKED, OS_SPINLOCK_VALUE_LOCKED,
    /repo/include/FlameIDE/Os/Windows/Constants.hpp 55-56. *)
Definition UNLOCKED : Z := 1.
(** OS_SPINLOCK_VALUE_LOCKED, Os/Windows/Constants.hpp 56. *)
Definition LOCKED : Z := 2.

(** The calls, Spin.cpp 53-76. *)
Inductive sop := SLock | STryLock | SUnlock.
(** What they return, Spin.cpp 53-76. *)
Inductive sres := SVoid | STried (ok : bool).

(** [SAnd looping]: before InterlockedAnd in tryLock; [SExchange looping]: before
    InterlockedExchange in tryLock; [looping]: called by the loop in lock. Of the model: the
    program counter in Windows/Threads/SpinFunctions.cpp 12-52. *)
Inductive spc := SAnd (looping : bool) | SExchange (looping : bool) | SRelease.

(** The first step of each call, Windows/Threads/SpinFunctions.cpp 12-52. *)
Definition sstart (o : sop) : spc :=
  match o with
  | SLock => SAnd true
  | STryLock => SAnd false
  | SUnlock => SRelease
  end.

(** lock, SpinFunctions.cpp 25-29; tryLock, 31-45; unlock, 47-52. The lock is its value.
    InterlockedAnd stores the conjunction and gives the old value. *)
Definition spstep (p : spc) (value : Z) : Z * (spc + sres) :=
  match p with
  | SAnd looping =>
      (Z.land value LOCKED,
       if (value =? LOCKED)%Z
       then (* TRY_LOCK_BUSY *) inr (if looping then SVoid else STried false)
       else inl (SExchange looping))
  | SExchange looping =>
      (* TRY_LOCK_OK *)
      (LOCKED, if looping then inl (SAnd true) else inr (STried true))
  | SRelease => (UNLOCKED, inr SVoid)
  end.

(** init, SpinFunctions.cpp 12-17. *)
Definition spin_new : tconfig Z spc := tquiet UNLOCKED.

(** Of the model: a schedule of such threads. *)
Definition srun : tconfig Z spc -> list (tmove sop) -> tconfig Z spc * list (tevent sop sres) :=
  trun sstart spstep.

(** * Semaphore *)

(** [ws_count], [ws_max]: the semaphore object of the system; [ws_object]: CreateSemaphoreA
    succeeded; [ws_value]: the member value of the context. Windows/Threads/SemaphoreFunctions.cpp 12-122. *)
Record wsem := WSem { ws_object : bool; ws_count : nat; ws_max : nat; ws_value : Z }.

(** init, SemaphoreFunctions.cpp 45-55: the initial value is also the maximum;
    CreateSemaphoreA fails when the maximum is not positive. *)
Definition wsem_new (value : nat) : wsem := WSem (0 <? value) value value (Z.of_nat value).

(** The calls, Semaphore.cpp 57-85. *)
Inductive wop := WWait | WTryWait | WPost | WGetValue.
(** The status that wait() and post() leave is shown as their result. Semaphore.cpp 57-85. *)
Inductive wres := WWaited (ok : bool) | WTried (ok : bool) | WPosted (ok : bool) | WValue (v : Z).

(** Of the model: the program counter in Windows/Threads/SemaphoreFunctions.cpp 12-122. *)
Inductive wpc :=
| WBlock | WDecrement (ok : bool)
| WTry | WTryDecrement
| WRelease | WIncrement
| WRead | WExchange (v : Z) | WLoad.

(** The first step of each call, Windows/Threads/SemaphoreFunctions.cpp 12-122. *)
Definition wstart (o : wop) : wpc :=
  match o with
  | WWait => WBlock
  | WTryWait => WTry
  | WPost => WRelease
  | WGetValue => WRead
  end.

(** Of the model. *)
Definition set_wvalue (s : wsem) (v : Z) : wsem := WSem (ws_object s) (ws_count s) (ws_max s) v.
(** Of the model. *)
Definition set_wcount (s : wsem) (n : nat) : wsem := WSem (ws_object s) n (ws_max s) (ws_value s).

(** One step of an operation of Semaphore, SemaphoreFunctions.cpp, as cited at the case. *)
Definition wpstep (p : wpc) (s : wsem) : wsem * (wpc + wres) :=
  match p with
  (* wait, 71-83: WaitForSingleObject without time limit; it fails at once on a null handle *)
  | WBlock =>
      if ws_object s then
        match ws_count s with
        | O => (s, inl WBlock)
        | S n => (set_wcount s n, inl (WDecrement true))
        end
      else (s, inl (WDecrement false))
  | WDecrement ok => (set_wvalue s (ws_value s - 1), inr (WWaited ok))
  (* tryWait, 85-102: WaitForSingleObject with time limit 0 *)
  | WTry =>
      if ws_object s then
        match ws_count s with
        | O => (s, inr (WTried false))
        | S n => (set_wcount s n, inl WTryDecrement)
        end
      else (s, inr (WTried false))
  | WTryDecrement => (set_wvalue s (ws_value s - 1), inr (WTried true))
  (* post, 104-116: ReleaseSemaphore fails when the count is the maximum *)
  | WRelease =>
      if ws_object s && (ws_count s <? ws_max s)
      then (set_wcount s (S (ws_count s)), inl WIncrement)
      else (s, inr (WPosted false))
  | WIncrement => (set_wvalue s (ws_value s + 1), inr (WPosted true))
  (* value, 29-34 and 118-122: the argument [value] of InterlockedCompareExchange is read
     first; the exchange stores it when the value is true (1); then the value is read again *)
  | WRead => (s, inl (WExchange (ws_value s)))
  | WExchange v => (set_wvalue s (if (ws_value s =? 1)%Z then v else ws_value s), inl WLoad)
  | WLoad => (s, inr (WValue (ws_value s)))
  end.

(** Of the model: a schedule of threads that use one Semaphore. *)
Definition wrun : tconfig wsem wpc -> list (tmove wop) -> tconfig wsem wpc * list (tevent wop wres) :=
  trun wstart wpstep.
