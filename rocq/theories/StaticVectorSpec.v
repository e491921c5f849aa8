(** What a bounded sequence of capacity [cap] does, on mathematical lists. *)
From Coq Require Import List Arith Bool.
From Verif Require Import StaticVectorModel.
Import ListNotations.

Section Spec.
  Context {A : Type}.
  Variable cap : nat.

  Definition insert_at (it : nat) (xs l : list A) : list A :=
    firstn it l ++ xs ++ skipn it l.

  Definition erase_at (b e : nat) (l : list A) : list A := firstn b l ++ skipn e l.

  (** Keep the change only when it fits. *)
  Definition bounded (l l' : list A) : list A := if length l' <=? cap then l' else l.

  Definition spec_step (l : list A) (op : sv_op A) : list A :=
    match op with
    | PushBack x | PushBackMove x | EmplaceBack x => bounded l (l ++ [x])
    | PopBack => removelast l
    | Insert it x | InsertMove it x | Emplace it x => bounded l (insert_at it [x] l)
    | InsertRange it xs => bounded l (insert_at it xs l)
    | Erase it => erase_at it (S it) l
    | EraseRange b e => erase_at b e l
    | Clean | Reset => []
    | Assign xs => bounded l xs
    | Append xs => firstn cap (l ++ xs)   (* element by element, until full *)
    end.

  Definition spec_run (ops : list (sv_op A)) : list A := fold_left spec_step ops [].

  (** Positions must be in the sequence at the time of the call. *)
  Definition valid_op (l : list A) (op : sv_op A) : Prop :=
    match op with
    | Insert it _ | InsertMove it _ | InsertRange it _ | Emplace it _ | Erase it =>
        it <= length l
    | EraseRange b e => b <= e /\ e <= length l
    | _ => True
    end.

  Fixpoint valid (l : list A) (ops : list (sv_op A)) : Prop :=
    match ops with
    | [] => True
    | op :: ops => valid_op l op /\ valid (spec_step l op) ops
    end.
End Spec.

(** Range erasures whose effect is defined for element types with lifetimes: the erased
    range is empty or reaches the end. *)
Definition tail_range {A} (l : list A) (op : sv_op A) : Prop :=
  match op with
  | EraseRange b e => b = e \/ e = length l
  | _ => True
  end.

(** No element is erased from the inside. *)
Definition no_inner_erase {A} (l : list A) (op : sv_op A) : Prop :=
  match op with
  | Erase it => length l <= S it
  | EraseRange b e => b = e \/ e = length l
  | _ => True
  end.

(** Every operation of the history satisfies [P] at the time of the call. *)
Fixpoint along {A} (P : list A -> sv_op A -> Prop) (cap : nat) (l : list A) (ops : list (sv_op A)) :=
  match ops with
  | [] => True
  | op :: ops => P l op /\ along P cap (spec_step cap l op) ops
  end.
