(** Common vocabulary of the model: outcomes of C++ code, storage as a list of cells.

    Nothing in this file models a function of /repo; it is the small "machine" on which
    the modelled functions run. *)
From Coq Require Import List Arith Lia.
Import ListNotations.

(** Result of running a piece of C++ code.
    [UB] : undefined behaviour has happened (out of range access, access to storage
           without a live object, null or dangling pointer, double destruction, ...).
    [Diverge] : the code recurses or loops without end (fuel exhausted). *)
Inductive outcome (A : Type) : Type :=
| Ok (a : A)
| UB
| Diverge.
Arguments Ok {A} a.
Arguments UB {A}.
Arguments Diverge {A}.

(** Of the model: run [m], go on with its result. *)
Definition bind {A B : Type} (m : outcome A) (k : A -> outcome B) : outcome B :=
  match m with
  | Ok a => k a
  | UB => UB
  | Diverge => Diverge
  end.

Declare Scope outcome_scope.
Delimit Scope outcome_scope with outcome.
Notation "'let!' x ':=' m 'in' k" := (bind m (fun x => k))
  (at level 200, x pattern, m at level 100, k at level 200, right associativity)
  : outcome_scope.
Open Scope outcome_scope.

(** Overwrite position [i] of a list (no effect when out of range). *)
Fixpoint upd {A : Type} (l : list A) (i : nat) (x : A) : list A :=
  match l, i with
  | [], _ => []
  | _ :: t, O => x :: t
  | h :: t, S j => h :: upd t j x
  end.

(** Read / write one cell of a plain array: outside the array it is UB. *)
Definition read {A : Type} (l : list A) (i : nat) : outcome A :=
  match nth_error l i with
  | Some x => Ok x
  | None => UB
  end.

(** Of the model: write element [i] of an array; outside of it is UB. *)
Definition write {A : Type} (l : list A) (i : nat) (x : A) : outcome (list A) :=
  if i <? length l then Ok (upd l i x) else UB.

(** Storage for objects of type [A]: a list of cells, [None] = raw memory,
    [Some a] = a live object with value [a]. *)
Definition cells (A : Type) := list (option A).

(** Of the model: memory of [n] cells without objects. *)
Definition raw (A : Type) (n : nat) : cells A := repeat None n.

(** Construct an object in a cell (placement new): the cell must be raw. *)
Definition construct {A : Type} (c : cells A) (i : nat) (x : A) : outcome (cells A) :=
  match nth_error c i with
  | Some None => Ok (upd c i (Some x))
  | _ => UB
  end.

(** Read / assign / destroy the object in a cell: the cell must hold a live object. *)
Definition load {A : Type} (c : cells A) (i : nat) : outcome A :=
  match nth_error c i with
  | Some (Some x) => Ok x
  | _ => UB
  end.

(** Assign to the object in a cell: there must be one. C++ itself. *)
Definition assign {A : Type} (c : cells A) (i : nat) (x : A) : outcome (cells A) :=
  match nth_error c i with
  | Some (Some _) => Ok (upd c i (Some x))
  | _ => UB
  end.

(** End the life of the object in a cell: there must be one. C++ itself. *)
Definition destroy {A : Type} (c : cells A) (i : nat) : outcome (cells A) :=
  match nth_error c i with
  | Some (Some _) => Ok (upd c i None)
  | _ => UB
  end.
