(** Specification for C239: which calls on a HybridVector leave a reference or an iterator to one of its
    elements valid. *)
From Coq Require Import List Arith Bool.
From Verif Require Import Base Store HybridVectorModel HybridVectorSpec.
Import ListNotations.

(** The calls on a HybridVector of the elements [l] that add behind the element at position [i] or remove
    something behind it. *)
Definition hkeeps {A} (l : list A) (i : nat) (op : hv_op A) : Prop :=
  match op with
  | HPush _ => True
  | HPop => S i < length l
  | HInsert p _ | HInsertRange p _ | HEmplace p _ | HErase p => i < p
  | HEraseRange b e => i < b \/ b = e
  | HClean => False
  end.

(** The calls that find room where the elements are, [room]: capacity(). A range must leave one of the
    [cap] places of the fixed part free; erase must not leave fewer than [cap] elements in dynamic
    memory. *)
Definition hstays {A} (cap room : nat) (k : place) (l : list A) (op : hv_op A) : Prop :=
  match op with
  | HPush _ | HInsert _ _ | HEmplace _ _ => length l < room
  | HInsertRange _ xs =>
      match k with Fixed => length l + length xs < room | _ => length l + length xs <= room end
  | HErase _ | HEraseRange _ _ =>
      match k with Dynamic => cap <= length (hseq_step l op) | _ => True end
  | HPop | HClean => True
  end.

(** A HybridVector with a fixed part of [cap] elements after the calls [ops], none of which went wrong. *)
Definition hv_reached {A} (m : Store.mode) (moved : A -> A) (dflt : A) (mem : VectorModel.memory)
    (cap : nat) (ops : list (hv_op A)) (h : hybrid A) : Prop :=
  mem <> VectorModel.NoMemory
  /\ hv_along (fun k l op => hv_valid_op l op /\ insertion_works cap k l op /\ no_inner_range l op)
       cap Nowhere [] ops
  /\ hv_run m moved dflt mem cap hv_new ops = Base.Ok h.
