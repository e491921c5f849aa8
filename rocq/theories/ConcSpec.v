(** What it means that an object used by many threads behaves like a sequential one
    (linearizability), in the form of the canonical atomic object: every call takes effect
    at one instant between its invocation and its return. *)
From Coq Require Import List Arith.
Import ListNotations.

Section Atomic.
  (** State of the sequential object, operations, results, and the effect of a call. *)
  Variables S Op R : Type.
  Variable effect : S -> Op -> S * R.
  Variable initial : S.
  Variable E : Type.
  (** The observable events. *)
  Variable invocation : nat -> Op -> E.
  Variable return_ : nat -> R -> E.

  Inductive status : Type :=
  | Idle
  | Waiting (o : Op)
  | Finished (r : R).

  Definition set_status (f : nat -> status) (t : nat) (x : status) : nat -> status :=
    fun u => if u =? t then x else f u.

  (** [atomic s st h order]: the atomic object can produce the history [h]; the calls took
      effect, with these results, in the order [order]. *)
  Inductive atomic : S -> (nat -> status) -> list E -> list (nat * Op * R) -> Prop :=
  | at_start : atomic initial (fun _ => Idle) [] []
  | at_invocation s st h order t o :
      atomic s st h order -> st t = Idle ->
      atomic s (set_status st t (Waiting o)) (h ++ [invocation t o]) order
  | at_effect s st h order t o s' r :
      atomic s st h order -> st t = Waiting o -> effect s o = (s', r) ->
      atomic s' (set_status st t (Finished r)) h (order ++ [(t, o, r)])
  | at_return s st h order t r :
      atomic s st h order -> st t = Finished r ->
      atomic s (set_status st t Idle) (h ++ [return_ t r]) order.

  Definition linearizable (h : list E) : Prop :=
    exists s st order, atomic s st h order.
End Atomic.

Arguments Idle {Op R}. Arguments Waiting {Op R}. Arguments Finished {Op R}.
Arguments set_status {Op R}.
Arguments atomic {S Op R} effect initial {E}.
Arguments linearizable {S Op R} effect initial {E}.
