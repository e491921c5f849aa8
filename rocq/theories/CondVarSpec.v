(** Vocabulary for the theorems about ConditionVariable. *)
From Coq Require Import List Arith.
From Verif Require Import Base CondVarModel.
Import ListNotations.

(** How many calls of thread [t] returned. *)
Fixpoint returned (t : nat) (h : list vevent) : nat :=
  match h with
  | [] => 0
  | VRes u _ :: h => (if u =? t then 1 else 0) + returned t h
  | VInv _ _ :: h => returned t h
  end.

(** How many calls of notify were made. *)
Fixpoint notified (h : list vevent) : nat :=
  match h with
  | [] => 0
  | VInv _ Notify :: h => 1 + notified h
  | _ :: h => notified h
  end.

(** How many calls of wait are in the schedule. *)
Fixpoint waits (moves : list vmove) : nat :=
  match moves with
  | [] => 0
  | VCall _ Wait :: rest => 1 + waits rest
  | _ :: rest => waits rest
  end.

(** One thread waits, another one notifies, nothing else is called. *)
Definition two_threads (w n : nat) (moves : list vmove) : Prop :=
  Forall (fun mv => match mv with
                    | VCall t o => (t = w /\ o = Wait) \/ (t = n /\ o = Notify)
                    | VTick _ => True
                    end) moves.

(** The waiting thread does not call wait() while the notifying thread is inside notify(). *)
Fixpoint polite (modulus w n : nat) (c : cvconfig) (moves : list vmove) : Prop :=
  match moves with
  | [] => True
  | mv :: rest =>
      (mv = VCall w Wait -> cv_threads c n = None) /\
      (forall c' e, vstep modulus c mv = Ok (c', e) -> polite modulus w n c' rest)
  end.

(** A part of a schedule in which no call is made and both threads make a step. *)
Definition round (w n : nat) (ticks : list vmove) : Prop :=
  (forall mv, In mv ticks -> exists t, mv = VTick t) /\ In (VTick w) ticks /\ In (VTick n) ticks.

(** How many steps of thread [t] are in the schedule. *)
Fixpoint ticks_of (t : nat) (moves : list vmove) : nat :=
  match moves with
  | [] => 0
  | VTick u :: rest => (if u =? t then 1 else 0) + ticks_of t rest
  | VCall _ _ :: rest => ticks_of t rest
  end.

(** The thread has counted itself as waiting and not yet uncounted itself. *)
Definition in_wait (c : cvconfig) (t : nat) : bool :=
  match cv_threads c t with
  | Some (WCurrent | WLock | WSetLocked | WUnlock | WClearLocked | WDecrement) => true
  | _ => false
  end.
(** How many of these threads are. *)
Definition number_in_wait (c : cvconfig) (ts : list nat) : nat := length (filter (in_wait c) ts).
(** The threads that act. *)
Definition mover (mv : vmove) : nat := match mv with VCall t _ | VTick t => t end.

(** The call that a thread is in, from what the observer has seen; the kind of result of a call. *)
Definition event_of (t : nat) (e : vevent) : option (option vop) :=
  match e with
  | VInv u o => if u =? t then Some (Some o) else None
  | VRes u _ => if u =? t then Some None else None
  end.
Fixpoint calls (t : nat) (now : option vop) (h : list vevent) : option vop :=
  match h with
  | [] => now
  | e :: h => calls t (match event_of t e with Some x => x | None => now end) h
  end.
Definition result_of (o : vop) (r : vres) : Prop :=
  match o with
  | Wait | Unwait | Notify => r = RVoid
  | TryWait | IsWait => exists b, r = RTest b
  end.
