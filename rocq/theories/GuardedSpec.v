(** A sequence that many threads use, on mathematical lists. *)
From Coq Require Import List Arith Permutation.
From Verif Require Import GuardedModel.
Import ListNotations.

(** What a call does to the sequence, and what it returns. *)
Definition on_sequence {A} (l : list A) (o : gop A) : list A * gres A :=
  match o with
  | GPush x => (l ++ [x], GDone)
  | GTakeLast =>
      match rev l with [] => (l, GNone) | x :: rest => (rev rest, GElement x) end
  | GTakeFirst =>
      match l with [] => (l, GNone) | x :: rest => (rest, GElement x) end
  | GCount => (l, GSize (length l))
  | GRead i => (l, match nth_error l i with Some x => GElement x | None => GNone end)
  end.

(** The elements that were added by the calls of a history, and those that were taken. *)
Fixpoint added {A} (order : list (nat * gop A * gres A)) : list A :=
  match order with
  | [] => []
  | (_, GPush x, _) :: rest => x :: added rest
  | _ :: rest => added rest
  end.
Fixpoint removed {A} (order : list (nat * gop A * gres A)) : list A :=
  match order with
  | [] => []
  | (_, GTakeLast, GElement x) :: rest => x :: removed rest
  | (_, GTakeFirst, GElement x) :: rest => x :: removed rest
  | _ :: rest => removed rest
  end.
