(** What a history of a HybridVector really does: where the elements are and how it ends, for every
    history with valid positions. *)
From Coq Require Import List Arith Bool.
From Verif Require Import Store StaticVectorSpec VectorSpec VectorExactSpec HybridVectorModel
  HybridVectorSpec.
Import ListNotations.

(** Where the elements are: nowhere, in the object itself, or in dynamic memory for [c] elements. *)
Inductive home := NoHome | InObject | OnHeap (c : nat).

(** How a history ends. *)
Inductive hending (A : Type) :=
| HWorks (k : home) (l : list A) | HBreaks | HHangs | HBadPosition.
Arguments HWorks {A}.
Arguments HBreaks {A}.
Arguments HHangs {A}.
Arguments HBadPosition {A}.

(** What the vector in the container does is what a Vector does. *)
Definition on_heap {A} (e : vending A) : hending A :=
  match e with
  | VWorks c l => HWorks (OnHeap c) l
  | VBreaks => HBreaks
  | VHangs => HHangs
  | VBadPosition => HBadPosition
  end.

(** The container changes from its own memory, which is full, to dynamic memory for twice the elements
    (none, if it has no memory of its own). *)
Definition moves_out {A} (l l' : list A) : hending A := on_heap (one_more (length l * 2) l l').

(** After an erasure: an array that becomes empty is given up, a vector with fewer elements than fit
    in the object comes back. *)
Definition settles {A} (cap : nat) (k : home) (l : list A) : hending A :=
  match k with
  | NoHome => HWorks NoHome l
  | InObject => HWorks (if length l =? 0 then NoHome else InObject) l
  | OnHeap c => HWorks (if length l <? cap then InObject else OnHeap c) l
  end.

(** One call on a container that keeps [l] at [k], with room for [cap] elements in the object. *)
Definition hv_really {A} (m : mode) (cap : nat) (k : home) (l : list A) (op : hv_op A) : hending A :=
  match op with
  | HPush x =>
      match k with
      | NoHome => if cap =? 0 then moves_out l [x] else HWorks InObject [x]
      | InObject => if length l <? cap then HWorks InObject (l ++ [x]) else moves_out l (l ++ [x])
      | OnHeap c => on_heap (one_more c l (l ++ [x]))
      end
  | HPop => HWorks k (removelast l)
  | HInsert p x =>
      if p <=? length l then
        match k with
        | NoHome => if cap =? 0 then moves_out l [x] else HBreaks
        | InObject =>
            if length l <? cap then HWorks InObject (insert_at p [x] l)
            else if p =? 0 then moves_out l (x :: l) else HBreaks
        | OnHeap c => on_heap (one_more c l (insert_at p [x] l))
        end
      else HBadPosition
  | HEmplace p x =>
      if p <=? length l then
        match k with
        | NoHome => if cap =? 0 then moves_out l [x] else HBreaks
        | InObject =>
            if length l <? cap then HWorks InObject (insert_at p [x] l)
            else moves_out l (insert_at p [x] l)
        | OnHeap c => on_heap (one_more c l (insert_at p [x] l))
        end
      else HBadPosition
  | HInsertRange p xs =>
      if p <=? length l then
        match k with
        | NoHome => HWorks NoHome l                              (* nothing happens *)
        | InObject =>
            if length l + length xs <? cap then HWorks InObject (insert_at p xs l)
            else if p =? 0 then on_heap (some_more (length l * 2) l xs (xs ++ l)) else HBreaks
        | OnHeap c => on_heap (some_more c l xs (insert_at p xs l))
        end
      else HBadPosition
  | HErase p => if p <=? length l then settles cap k (erase_at p (S p) l) else HBadPosition
  | HEraseRange b e =>
      if (b <=? e) && (e <=? length l) then
        if inner_range m b e (length l) then HBreaks else settles cap k (erase_at b e l)
      else HBadPosition
  | HClean => HWorks InObject []
  end.

(** The calls one after the other. *)
Fixpoint hv_story {A} (m : mode) (cap : nat) (k : home) (l : list A) (ops : list (hv_op A))
  : hending A :=
  match ops with
  | [] => HWorks k l
  | op :: ops =>
      match hv_really m cap k l op with
      | HWorks k l => hv_story m cap k l ops
      | other => other
      end
  end.

(** What can be seen of the place of the elements. *)
Definition home_place (k : home) : place :=
  match k with
  | NoHome => Nowhere
  | InObject => Fixed
  | OnHeap _ => Dynamic
  end.
Definition home_capacity (cap : nat) (k : home) : nat :=
  match k with
  | NoHome => 0
  | InObject => cap
  | OnHeap c => c
  end.
