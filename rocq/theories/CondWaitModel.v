(** Model of ConditionVariable::wait(functor) and of its destructor.

    Source: /repo/include/FlameIDE/Os/Threads/ConditionVariable.hpp 81-92,
    /repo/src/Os/Threads/ConditionVarable.cpp 8-11, ~UniqueLocker,
    /repo/src/Os/Threads/Utils.cpp. Both are programs over the calls of CondVarModel.v, one
    access to the shared memory at a time. *)
From Coq Require Import List Arith.
From Verif Require Import Base LockModel CondVarModel.
Import ListNotations.

Section CondWait.
  (** The number of values of uichar_t, ConditionVariable.hpp 64. *)
  Variable MODULUS : nat.

  (** * wait(functor) *)

  (** [f_loop t]: thread [t] is inside wait(functor), ConditionVariable.hpp 81-92. Of the
      model. *)
  Record fconfig := FC { f_cv : cvconfig; f_loop : nat -> bool }.

  (** Of the model: a move of CondVarModel by a thread that is not inside wait(functor); a call
      of wait(functor); a step inside it. [b]: what the functor gives if it is called in this
      step. *)
  Inductive fmove := FOther (mv : vmove) | FCall (t : nat) | FTick (t : nat) (b : bool).
  (** Of the model: what an observer sees: an event of another call; the call of wait(functor);
      the functor was called by [t] and gave [b]; wait(functor) returned. *)
  Inductive fevent := FEv (e : vevent) | FInv (t : nat) | FTest (t : nat) (b : bool) | FRes (t : nat).

  (** Of the model: the thread that moves. *)
  Definition who (mv : vmove) : nat := match mv with VCall t _ | VTick t => t end.
  (** Of the model: a change of one thread. *)
  Definition set_loop (f : nat -> bool) (t : nat) (b : bool) : nat -> bool :=
    fun u => if u =? t then b else f u.

  (** wait(functor), ConditionVariable.hpp 81-92: [do wait(); while (!functor());]. The end of
      wait(), the call of the functor and the next call of wait() are one step: none of them
      reads or writes the condition variable. Moves that are not possible change nothing. *)
  Definition fstep (c : fconfig) (mv : fmove) : outcome (fconfig * list fevent) :=
    match mv with
    | FOther mv =>
        if f_loop c (who mv) then Ok (c, [])
        else
          let! r := vstep MODULUS (f_cv c) mv in
          Ok (FC (fst r) (f_loop c), map FEv (snd r))
    | FCall t =>
        if f_loop c t then Ok (c, [])
        else
          match cv_threads (f_cv c) t with
          | Some _ => Ok (c, [])
          | None =>
              let! r := vstep MODULUS (f_cv c) (VCall t Wait) in
              Ok (FC (fst r) (set_loop (f_loop c) t true), [FInv t])
          end
    | FTick t b =>
        if f_loop c t then
          match cv_threads (f_cv c) t with
          | Some (Return _) =>
              let! r := vstep MODULUS (f_cv c) (VTick t) in
              if b then Ok (FC (fst r) (set_loop (f_loop c) t false), [FTest t true; FRes t])
              else
                let! r := vstep MODULUS (fst r) (VCall t Wait) in
                Ok (FC (fst r) (f_loop c), [FTest t false])
          | _ =>
              let! r := vstep MODULUS (f_cv c) (VTick t) in
              Ok (FC (fst r) (f_loop c), [])
          end
        else Ok (c, [])
    end.

  (** Of the model: the moves of a schedule one after the other. *)
  Fixpoint frun (c : fconfig) (moves : list fmove) : outcome (fconfig * list fevent) :=
    match moves with
    | [] => Ok (c, [])
    | mv :: rest =>
        let! r := fstep c mv in
        let! r' := frun (fst r) rest in
        Ok (fst r', snd r ++ snd r')
    end.

  (** The constructor, ConditionVariable.hpp 76-79, run by thread [t]. *)
  Definition f_new (k : lock_kind) (t : nat) : fconfig := FC (condvar_new k t) (fun _ => false).

  (** * ~ConditionVariable *)

  (** Of the model: the destructor has not begun; thread [t] is in notify(),
      ConditionVarable.cpp 10; in the destructor of the member locker, Utils.cpp 156-160: it
      reads locked, unlocks; the object is gone. *)
  Inductive dphase :=
  | DNone | DNotify (t : nat) | DRead (t : nat) | DUnlock (t : nat) | DClear (t : nat) | DGone.
  (** Of the model. *)
  Record dconfig := DC { d_cv : cvconfig; d_phase : dphase }.

  (** Of the model: another thread's call or step; thread [t] begins the destructor; its next
      step. *)
  Inductive dmove := DMove (mv : vmove) | DBegin (t : nat) | DTick (t : nat).
  (** Of the model: what an observer sees. *)
  Inductive devent := DEv (e : vevent) | DInv (t : nat) | DRes (t : nat).

  (** Of the model: the thread that executes the destructor. *)
  Definition destroyer (p : dphase) : option nat :=
    match p with
    | DNotify t | DRead t | DUnlock t | DClear t => Some t
    | DNone | DGone => None
    end.
  (** Of the model: [t] executes the destructor. *)
  Definition is_destroyer (p : dphase) (t : nat) : bool :=
    match destroyer p with Some u => u =? t | None => false end.
  (** Of the model: the members locker and counter are destroyed in the opposite order of their
      declaration, ConditionVariable.hpp 64-65; from then on every access is undefined. A call
      that only has to return makes none. *)
  Definition touches (c : cvconfig) (mv : vmove) : bool :=
    match mv with
    | VCall _ _ => true
    | VTick t => match cv_threads c t with None | Some (Return _) => false | Some _ => true end
    end.

  (** ~ConditionVariable, ConditionVarable.cpp 8-11, and ~UniqueLocker, Utils.cpp 156-160. Moves
      that are not possible change nothing. *)
  Definition dstep (c : dconfig) (mv : dmove) : outcome (dconfig * list devent) :=
    match mv with
    | DMove mv =>
        if is_destroyer (d_phase c) (who mv) then Ok (c, [])
        else
          match d_phase c with
          | DGone => if touches (d_cv c) mv then UB
                     else
                       let! r := vstep MODULUS (d_cv c) mv in
                       Ok (DC (fst r) DGone, map DEv (snd r))
          | p =>
              let! r := vstep MODULUS (d_cv c) mv in
              Ok (DC (fst r) p, map DEv (snd r))
          end
    | DBegin t =>
        match d_phase c, cv_threads (d_cv c) t with
        | DNone, None =>
            let! r := vstep MODULUS (d_cv c) (VCall t Notify) in
            Ok (DC (fst r) (DNotify t), [DInv t])
        | _, _ => Ok (c, [])
        end
    | DTick t =>
        if is_destroyer (d_phase c) t then
          let m := cv_mem (d_cv c) in
          let th := cv_threads (d_cv c) in
          match d_phase c with
          | DNotify _ =>
              let! r := vstep MODULUS (d_cv c) (VTick t) in
              Ok (DC (fst r) (match cv_threads (fst r) t with None => DRead t | Some _ => DNotify t end), [])
          | DRead _ =>
              if v_locked m then Ok (DC (d_cv c) (DUnlock t), [])
              else Ok (DC (d_cv c) DGone, [DRes t])
          | DUnlock _ =>
              let! x := unlock_data (v_lock m) t in
              Ok (DC (CV (set_lock m x) th) (DClear t), [])
          | DClear _ => Ok (DC (CV (set_locked m false) th) DGone, [DRes t])
          | DNone | DGone => Ok (c, [])
          end
        else Ok (c, [])
    end.

  (** Of the model: the moves of a schedule one after the other. *)
  Fixpoint drun (c : dconfig) (moves : list dmove) : outcome (dconfig * list devent) :=
    match moves with
    | [] => Ok (c, [])
    | mv :: rest =>
        let! r := dstep c mv in
        let! r' := drun (fst r) rest in
        Ok (fst r', snd r ++ snd r')
    end.
End CondWait.
