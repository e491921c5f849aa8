(** What copies, moves and assignments of HybridVectors are to do: each object is a sequence of its own. *)
From Coq Require Import List Arith.
From Verif Require Import Base HybridVectorModel HybridVectorSpec HybridCopyModel.
Import ListNotations.

(** An object of the program: where its elements are and what they are. [o_sound]: calls on it
    are allowed; not on what elements in dynamic memory have moved from, nor on a copy of fewer than two
    elements in dynamic memory. *)
Record object (A : Type) := Obj { o_place : place; o_items : list A; o_sound : bool }.
Arguments Obj {A}.
Arguments o_place {A}.
Arguments o_items {A}.
Arguments o_sound {A}.

Section Spec.
  Context {A : Type}.
  (** What is left of an element that was moved. *)
  Variable moved : A -> A.
  Variable cap : nat.

  (** A copy of an object. *)
  Definition copied (o : object A) : object A :=
    Obj (o_place o) (o_items o) (match o_place o with Dynamic => 2 <=? length (o_items o) | _ => true end).
  (** An object after its contents have moved away. *)
  Definition spent (o : object A) : object A :=
    match o_place o with
    | Nowhere => o
    | Fixed => Obj Fixed (map moved (o_items o)) true
    | Dynamic => Obj Dynamic [] false
    end.

  (** The effect of a call: a call on an object changes only that object, a copy and an assignment change
      only the target, a move the target and the source. *)
  Definition program_step (os : list (object A)) (c : hv_call A) : list (object A) :=
    match c with
    | CNew => os ++ [Obj Nowhere [] true]
    | CDo i op =>
        match nth_error os i with
        | Some o => upd os i (Obj (place_step cap (o_place o) (o_items o) op) (hseq_step (o_items o) op) true)
        | None => os
        end
    | CCopy i => match nth_error os i with Some o => os ++ [copied o] | None => os end
    | CMove i => match nth_error os i with Some o => upd os i (spent o) ++ [o] | None => os end
    | CAssign i j =>
        match nth_error os j with
        | Some o => if i =? j then os else upd os i (copied o)
        | None => os
        end
    | CMoveAssign i j =>
        match nth_error os j with
        | Some o => if i =? j then os else upd (upd os j (spent o)) i o
        | None => os
        end
    end.
  Definition program_run (cs : list (hv_call A)) : list (object A) := fold_left program_step cs [].

  (** The calls that work: on objects that exist and are sound, as for one object ([tracked]: the elements
      have destructors); an assignment from an object that holds nothing only to one that holds nothing. *)
  Definition call_works (tracked : bool) (os : list (object A)) (c : hv_call A) : Prop :=
    match c with
    | CNew => True
    | CDo i op => exists o, nth_error os i = Some o /\ o_sound o = true
        /\ hv_valid_op (o_items o) op /\ insertion_works cap (o_place o) (o_items o) op
        /\ (tracked = false \/ no_inner_range (o_items o) op)
    | CCopy i | CMove i => i < length os
    | CAssign i j | CMoveAssign i j => exists o p, nth_error os i = Some o /\ nth_error os j = Some p
        /\ (o_place p = Nowhere -> o_place o = Nowhere)
    end.
  Fixpoint program_works (tracked : bool) (os : list (object A)) (cs : list (hv_call A)) : Prop :=
    match cs with
    | [] => True
    | c :: cs => call_works tracked os c /\ program_works tracked (program_step os c) cs
    end.
End Spec.
