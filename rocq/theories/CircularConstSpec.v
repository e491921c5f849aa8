(** Const iteration of a CircularArray: what it shows, whatever has been pushed and popped. *)
From Coq Require Import List Arith.
From Verif Require Import CircularArrayModel CircularArraySpec.
Import ListNotations.

Section Spec.
  Context {A : Type}.
  Variable cap : nat.

  (** The elements the container has taken since it was created or last cleaned, also those that
      have been popped since; [q]: the queue before the call. *)
  Definition taken_step (taken q : list A) (op : ca_op A) : list A :=
    match op with
    | CClean => []
    | CPop => taken
    | _ => taken ++ skipn (length q) (q_step cap q op)
    end.
  Fixpoint taken_from (taken q : list A) (ops : list (ca_op A)) : list A :=
    match ops with
    | [] => taken
    | op :: ops => taken_from (taken_step taken q op) (q_step cap q op) ops
    end.
  Definition taken (ops : list (ca_op A)) : list A := taken_from [] [] ops.

  (** The place [j] of the memory holds the last of the taken elements whose number is [j], [j] and
      the size of the memory, [j] and twice that, and so on. *)
  Definition in_place (t : list A) (j : nat) (x : A) : Prop :=
    exists i, i mod S cap = j /\ nth_error t i = Some x /\ length t <= i + S cap.
End Spec.
