(** How many objects a history of calls leaves undestroyed, on mathematical lists. *)
From Coq Require Import List Arith.
From Verif Require Import StaticVectorModel StaticVectorSpec VectorModel VectorSpec HybridVectorModel
  HybridVectorSpec.
Import ListNotations.

(** One object for every element erased with another one after it. *)
Definition lost_inside {A} (l : list A) (p : nat) : nat := if S p <? length l then 1 else 0.

(** In an Array. *)
Definition sv_lost {A} (l : list A) (op : sv_op A) : nat :=
  match op with Erase p => lost_inside l p | _ => 0 end.
Fixpoint sv_losses {A} (cap : nat) (l : list A) (ops : list (sv_op A)) : nat :=
  match ops with
  | [] => 0
  | op :: ops => sv_lost l op + sv_losses cap (spec_step cap l op) ops
  end.

(** In a Vector; also one for every element emplaced before another. *)
Definition vec_lost {A} (l : list A) (op : vec_op A) : nat :=
  match op with
  | VErase p => lost_inside l p
  | VEmplace p _ => if p <? length l then 1 else 0
  | _ => 0
  end.
Fixpoint vec_losses {A} (dflt : A) (l : list A) (ops : list (vec_op A)) : nat :=
  match ops with
  | [] => 0
  | op :: ops => vec_lost l op + vec_losses dflt (seq_step dflt l op) ops
  end.

(** In a HybridVector: as where the elements are. *)
Definition hv_lost {A} (cap : nat) (k : place) (l : list A) (op : hv_op A) : nat :=
  match op with
  | HErase p => lost_inside l p
  | HEmplace p _ =>
      match place_step cap k l op with Dynamic => if p <? length l then 1 else 0 | _ => 0 end
  | _ => 0
  end.
Fixpoint hv_losses {A} (cap : nat) (k : place) (l : list A) (ops : list (hv_op A)) : nat :=
  match ops with
  | [] => 0
  | op :: ops => hv_lost cap k l op + hv_losses cap (place_step cap k l op) (hseq_step l op) ops
  end.
