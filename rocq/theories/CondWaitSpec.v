(** Vocabulary for the theorems about wait(functor) and the destructor of ConditionVariable. *)
From Coq Require Import List Arith.
From Verif Require Import Base LockModel CondVarModel CondVarSpec CondWaitModel.
Import ListNotations.

(** How many times thread [t] has called its functor; how many calls of wait(functor) by [t]
    returned. *)
Fixpoint tests (t : nat) (h : list fevent) : nat :=
  match h with
  | [] => 0
  | FTest u _ :: h => (if u =? t then 1 else 0) + tests t h
  | _ :: h => tests t h
  end.
Fixpoint freturned (t : nat) (h : list fevent) : nat :=
  match h with
  | [] => 0
  | FRes u :: h => (if u =? t then 1 else 0) + freturned t h
  | _ :: h => freturned t h
  end.
(** How many calls of notify() were made, in a history. *)
Fixpoint fnotified (h : list fevent) : nat :=
  match h with
  | [] => 0
  | FEv (VInv _ Notify) :: h => 1 + fnotified h
  | _ :: h => fnotified h
  end.

(** A schedule in which nobody calls notify(), tryWait() or unwait(). *)
Definition unnotified (moves : list fmove) : Prop :=
  Forall (fun mv => match mv with
                    | FOther (VCall _ o) => o = Wait \/ o = IsWait
                    | _ => True
                    end) moves.
(** How many calls of wait() and wait(functor) are in the schedule. *)
Fixpoint fwaits (moves : list fmove) : nat :=
  match moves with
  | [] => 0
  | FOther (VCall _ Wait) :: rest | FCall _ :: rest => 1 + fwaits rest
  | _ :: rest => fwaits rest
  end.

(** Thread [w] only calls wait(functor), with a functor that gives true; thread [n] only calls
    notify(). *)
Definition waiter_notifier (w n : nat) (moves : list fmove) : Prop :=
  Forall (fun mv => match mv with
                    | FCall t => t = w
                    | FTick t b => t = w /\ b = true
                    | FOther (VCall t o) => t = n /\ o = Notify
                    | FOther (VTick t) => t = n
                    end) moves.
(** [w] does not call wait(functor) while [n] is inside notify(). *)
Fixpoint fpolite (modulus w n : nat) (c : fconfig) (moves : list fmove) : Prop :=
  match moves with
  | [] => True
  | mv :: rest =>
      (mv = FCall w -> cv_threads (f_cv c) n = None) /\
      (forall c' e, fstep modulus c mv = Ok (c', e) -> fpolite modulus w n c' rest)
  end.
(** A part of a schedule in which no call is made and both threads make a step; the functor
    gives true. *)
Definition fround (w n : nat) (ticks : list fmove) : Prop :=
  (forall mv, In mv ticks -> mv = FTick w true \/ mv = FOther (VTick n)) /\
  In (FTick w true) ticks /\ In (FOther (VTick n)) ticks.

(** A part of a schedule in which no call is made and both the waiting thread and the one that
    executes the destructor make a step. *)
Definition dround (w n : nat) (ticks : list dmove) : Prop :=
  (forall mv, In mv ticks -> mv = DTick n \/ exists t, t <> n /\ mv = DMove (VTick t)) /\
  In (DMove (VTick w)) ticks /\ In (DTick n) ticks.

(** The lock can be taken by any thread. *)
Definition can_be_taken (x : lock) : Prop := forall t, acquire x t <> None.
