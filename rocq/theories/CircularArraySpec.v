(** A bounded FIFO queue on mathematical lists. *)
From Coq Require Import List Arith.
From Verif Require Import CircularArrayModel.
Import ListNotations.

Section Spec.
  Context {A : Type}.
  Variable cap : nat.

  Definition q_step (q : list A) (op : ca_op A) : list A :=
    match op with
    | CPush x | CEmplace x => if length q <? cap then q ++ [x] else q
    | CPushRange xs => if length q + length xs <=? cap then q ++ xs else q
    | CPop => tl q
    | CClean => []
    end.

  Definition q_run (ops : list (ca_op A)) : list A := fold_left q_step ops [].

  (** Every [clean] in the history happens on an empty queue. *)
  Fixpoint cleans_empty (q : list A) (ops : list (ca_op A)) : Prop :=
    match ops with
    | [] => True
    | op :: ops => (op = CClean -> q = []) /\ cleans_empty (q_step q op) ops
    end.

  Definition is_pop (op : ca_op A) : bool :=
    match op with CPop => true | _ => false end.
End Spec.
