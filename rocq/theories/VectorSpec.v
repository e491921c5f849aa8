(** An unbounded sequence with a capacity, on mathematical lists and numbers. *)
From Coq Require Import List Arith Bool.
From Verif Require Import StaticVectorSpec VectorModel.
Import ListNotations.

(** The contents after an operation. *)
Definition seq_step {A} (dflt : A) (l : list A) (op : vec_op A) : list A :=
  match op with
  | VPush x | VEmplaceBack x => l ++ [x]
  | VPop => removelast l
  | VInsert it x | VEmplace it x => insert_at it [x] l
  | VInsertRange it xs => insert_at it xs l
  | VErase it => erase_at it (S it) l
  | VEraseRange b e => erase_at b e l
  | VClean => []
  | VReserve _ => l
  | VResize n => l ++ repeat dflt (n - length l)     (* never shrinks *)
  end.

Definition seq_run {A} (dflt : A) (ops : list (vec_op A)) : list A :=
  fold_left (seq_step dflt) ops [].

(** The capacity grows 0, 8, 12, 18, 27, ... *)
Definition grow (c : nat) : nat := if c =? 0 then 8 else c * 3 / 2.
Fixpoint grow_until (fuel c n : nat) : nat :=
  match fuel with
  | O => c
  | S f => if c <? n then grow_until f (grow c) n else c
  end.

Definition cap_step {A} (c : nat) (l : list A) (op : vec_op A) : nat :=
  match op with
  | VPush _ | VEmplaceBack _ | VInsert _ _ | VEmplace _ _ =>
      if length l <? c then c else grow c
  | VInsertRange _ xs => if length xs + length l <=? c then c
                         else if length xs =? 0 then c else c + length xs
  | VReserve n => Nat.max c n
  | VResize n => if length l <? n then grow_until n c n else c
  | _ => c
  end.

(** Positions must be in the sequence at the time of the call. *)
Definition vec_valid_op {A} (l : list A) (op : vec_op A) : Prop :=
  match op with
  | VInsert it _ | VInsertRange it _ | VEmplace it _ | VErase it => it <= length l
  | VEraseRange b e => b <= e /\ e <= length l
  | _ => True
  end.

(** Calls that work for every element type and capacity: the vector does not have to grow
    from capacity 1, and [resize] does not ask for exactly the capacity it would get. *)
Definition grows {A} (c : nat) (l : list A) (op : vec_op A) : Prop :=
  match op with
  | VPush _ | VEmplaceBack _ | VInsert _ _ | VEmplace _ _ => length l < c \/ c <> 1
  | VResize n => length l < n -> (c <> 1 \/ n <= 1) /\ grow_until n c n <> n
  | _ => True
  end.

(** For elements with destructors: no inner range is erased. *)
Definition vec_tail_range {A} (l : list A) (op : vec_op A) : Prop :=
  match op with
  | VEraseRange b e => b = e \/ e = length l
  | _ => True
  end.

(** ... and nothing is erased from the inside or emplaced there. *)
Definition vec_no_leak {A} (l : list A) (op : vec_op A) : Prop :=
  match op with
  | VErase it => length l <= S it
  | VEraseRange b e => b = e \/ e = length l
  | VEmplace it _ => it = length l
  | _ => True
  end.

(** [P] holds of every operation, the contents and the capacity at its time. *)
Fixpoint vec_along {A} (dflt : A) (P : nat -> list A -> vec_op A -> Prop) (c : nat) (l : list A)
  (ops : list (vec_op A)) : Prop :=
  match ops with
  | [] => True
  | op :: ops => P c l op /\ vec_along dflt P (cap_step c l op) (seq_step dflt l op) ops
  end.

Definition vec_valid {A} (c : nat) (l : list A) (op : vec_op A) : Prop :=
  vec_valid_op l op /\ grows c l op.

(** Enough recursion depth for a history. *)
Definition depth {A} (ops : list (vec_op A)) : nat :=
  fold_right (fun op d => match op with VResize n => Nat.max (2 + n) d | _ => d end) 2 ops.
