(** What a reference wrapper should refer to. *)
From Coq Require Import List ZArith.
From Verif Require Import Base ReferenceModel.

(** The object at [a] exists, and its content is of the type. *)
Definition object_at (m : memory) (t : rtype) (a : nat) : Prop :=
  match t with
  | NumberType _ => exists z, nth_error m a = Some (Some (Number z))
  | PointerType _ _ => exists v, nth_error m a = Some (Some (Location v))
  end.

(** The object that a call is given: the named one, if it is no pointer; else the one it points to. *)
Definition given (m : memory) (a : argument) (l : nat) : Prop :=
  match a with
  | Named (NumberType _) x => l = x
  | Named (PointerType _ _) x => nth_error m x = Some (Some (Location (Some l)))
  | PointerValue _ v => v = Some l
  end.

(** The wrapper refers to the object at [l], which exists: get() and -> give it, and operator bool is
    true. *)
Definition refers_to (m : memory) (w : wrapper) (l : nat) : Prop :=
  rw_get m w = Ok l /\ rw_arrow m w = Ok l /\ rw_bool w = true.
