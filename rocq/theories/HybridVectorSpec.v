(** What HybridVector should do, on mathematical lists, and in which calls the code does it. *)
From Coq Require Import List Arith Bool.
From Verif Require Import StaticVectorSpec HybridVectorModel.
Import ListNotations.

(** The contents after an operation: an unbounded sequence. *)
Definition hseq_step {A} (l : list A) (op : hv_op A) : list A :=
  match op with
  | HPush x => l ++ [x]
  | HPop => removelast l
  | HInsert p x | HEmplace p x => insert_at p [x] l
  | HInsertRange p xs => insert_at p xs l
  | HErase p => erase_at p (S p) l
  | HEraseRange b e => erase_at b e l
  | HClean => []
  end.
Definition hseq_run {A} (ops : list (hv_op A)) : list A := fold_left hseq_step ops [].

(** Positions are in the sequence at the time of the call. *)
Definition hv_valid_op {A} (l : list A) (op : hv_op A) : Prop :=
  match op with
  | HInsert p _ | HInsertRange p _ | HEmplace p _ | HErase p => p <= length l
  | HEraseRange b e => b <= e /\ e <= length l
  | _ => True
  end.

(** Where the elements are: nowhere yet, in the fixed part of [cap] elements, or in dynamic
    memory. *)
Inductive place := Nowhere | Fixed | Dynamic.

Definition grow_place (cap n count : nat) (k : place) : place :=
  match k with
  | Nowhere => if cap =? 0 then Dynamic else Fixed
  | Fixed => if n + count <=? cap then Fixed else Dynamic
  | Dynamic => Dynamic
  end.
Definition shrink_place (cap n : nat) (k : place) : place :=
  match k with
  | Nowhere => Nowhere
  | Fixed => if n =? 0 then Nowhere else Fixed
  | Dynamic => if n <? cap then Fixed else Dynamic
  end.

Definition place_step {A} (cap : nat) (k : place) (l : list A) (op : hv_op A) : place :=
  match op with
  | HPush _ | HInsert _ _ | HEmplace _ _ => grow_place cap (length l) 1 k
  | HPop => k
  | HInsertRange _ xs =>
      match k with
      | Fixed => grow_place cap (length l) (S (length xs)) Fixed   (* an exact fit does not stay *)
      | k => k
      end
  | HErase _ | HEraseRange _ _ => shrink_place cap (length (hseq_step l op)) k
  | HClean => Fixed
  end.

(** The insertions that work: never into a container that holds nothing yet, and those that
    leave the fixed part only at position 0; and not a single-element range into an empty
    container with a fixed part of at most one element. *)
Definition insertion_works {A} (cap : nat) (k : place) (l : list A) (op : hv_op A) : Prop :=
  match op with
  | HInsert p _ => (k = Nowhere -> cap = 0) /\ (k = Fixed -> length l = cap -> p = 0)
  | HEmplace _ _ => k = Nowhere -> cap = 0
  | HInsertRange p xs =>
      k <> Nowhere /\ (k = Fixed -> cap <= length l + length xs -> p = 0)
      /\ ~ (cap <= 1 /\ length l = 0 /\ length xs = 1)
  | _ => True
  end.

(** Elements with destructors: no inner range is erased (C12, C57). *)
Definition no_inner_range {A} (l : list A) (op : hv_op A) : Prop :=
  match op with
  | HEraseRange b e => b = e \/ e = length l
  | _ => True
  end.

(** [P] holds of every call with the place and the contents at its time. *)
Fixpoint hv_along {A} (P : place -> list A -> hv_op A -> Prop) (cap : nat) (k : place)
  (l : list A) (ops : list (hv_op A)) : Prop :=
  match ops with
  | [] => True
  | op :: ops => P k l op /\ hv_along P cap (place_step cap k l op) (hseq_step l op) ops
  end.

Definition place_run {A} (cap : nat) (ops : list (hv_op A)) : place :=
  snd (fold_left (fun s op => (hseq_step (fst s) op, place_step cap (snd s) (fst s) op)) ops
         ([], Nowhere)).

Definition place_of {A} (h : hybrid A) : place :=
  match h with
  | HUnset => Nowhere
  | HArr _ => Fixed
  | HVec _ => Dynamic
  end.
