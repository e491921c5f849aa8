(** What a user of ObjectViewer, AlignedObject, RaiiCaller and Substep may expect. *)
From Coq Require Import List Arith Bool ZArith.
From Verif Require Import HolderModel.
Import ListNotations.

(** The memory with the bytes of the object at p zero and the others unchanged. *)
Definition cleaned (before after : list Z) (p SIZE : nat) : Prop :=
  length after = length before
  /\ forall j, j < length before ->
       nth_error after j = if (p <=? j) && (j <? p + SIZE) then Some 0%Z else nth_error before j.

(** Calls of constructors and of destructors of the held type. *)
Definition constructed {T} (l : list (lifetime T)) : nat :=
  length (filter (fun c => match c with Constructed _ => true | _ => false end) l).
Definition destroyed {T} (l : list (lifetime T)) : nat :=
  length (filter (fun c => match c with Destroyed _ => true | _ => false end) l).
(** Constructions with arguments in a history. *)
Definition with_args {T} (h : list (dcall T)) : nat :=
  length (filter (fun c => match c with DWith _ => true | _ => false end) h).
(** What the AlignedObjects of a program should hold, in the order in which they are made; None:
    nothing. A copy holds what the original holds. [None] on the outside: it has ended. *)
Definition value_after {T} (l : list (option (option T))) (c : dcall T) : list (option (option T)) :=
  let value i := match nth_error l i with Some (Some v) => v | _ => None end in
  let set i v := firstn i l ++ [v] ++ skipn (S i) l in
  match c with
  | DDefault => l ++ [Some None]
  | DWith x => l ++ [Some (Some x)]
  | DCopy i => l ++ [Some (value i)]
  | DAssign i j => set i (Some (value j))
  | DEnd i => set i None
  end.
Definition values {T} (h : list (dcall T)) : list (option (option T)) := fold_left value_after h [].
(** Nothing is copied. *)
Definition uncopied {T} (h : list (dcall T)) : Prop :=
  Forall (fun c => match c with DCopy _ | DAssign _ _ => False | _ => True end) h.

(** How often a call occurs. *)
Definition entered (l : list paircall) (k : nat) : nat :=
  length (filter (fun c => match c with Enter i => i =? k | _ => false end) l).
Definition left (l : list paircall) (k : nat) : nat :=
  length (filter (fun c => match c with Leave i => i =? k | _ => false end) l).
(** Callers that are alive and belong to the pair k. *)
Definition alive (w : rworld) (k : nat) : nat :=
  length (filter (fun o => match o with Some i => i =? k | None => false end) (r_objects w)).
(** Pairs made, in order: whether there is a first functor. *)
Fixpoint made (h : list rcall) : list bool :=
  match h with
  | [] => []
  | RNew e :: h | RMake e _ :: h => e :: made h
  | _ :: h => made h
  end.
(** No caller is copied: not by the user, and not when makeRaiiCaller returns. *)
Definition no_copies (h : list rcall) : Prop :=
  Forall (fun c => match c with RCopy _ | RMake _ false => False | _ => True end) h.
