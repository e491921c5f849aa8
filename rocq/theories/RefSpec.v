(** Specification for C218: what a reference (or an iterator) to an element refers to after further
    calls, in terms of positions in the sequence. *)
From Coq Require Import List Arith Bool.
From Verif Require Import Base ListModel ListSpec StaticVectorModel VectorModel CircularArrayModel.
Import ListNotations.

Section Follow.
  Context {A : Type}.

  (** Where the element at position [i] of [l] is after a call on a list; [None]: it was removed. *)
  Definition follow_step (l : list A) (o : list_op A) (i : nat) : option nat :=
    match o with
    | LPushBack _ => Some i
    | LPushFront _ => Some (S i)
    | LInsert p _ => Some (if i <? position l p then i else S i)
    | LInsertRange p xs => Some (if i <? position l p then i else i + length xs)
    | LPopBack => if S i =? length l then None else Some i
    | LPopFront => match i with O => None | S k => Some k end
    | LErase p =>
        if i =? position l p then None else Some (if i <? position l p then i else i - 1)
    | LEraseRange p q =>
        if (position l p <=? i) && (i <? position l q) then None
        else Some (if i <? position l p then i else i - (position l q - position l p))
    | LClean => None
    end.
  Fixpoint follow_run (l : list A) (os : list (list_op A)) (i : nat) : option nat :=
    match os with
    | [] => Some i
    | o :: os =>
        match follow_step l o i with
        | Some j => follow_run (list_seq_step l o) os j
        | None => None
        end
    end.
End Follow.

(** The calls on a vector of the elements [l] that leave the element at position [i] where it is: all that
    add behind it or remove something behind it (resize never removes). *)
Definition keeps {A} (l : list A) (i : nat) (op : vec_op A) : Prop :=
  match op with
  | VPush _ | VEmplaceBack _ | VReserve _ | VResize _ => True
  | VPop => S i < length l
  | VInsert it _ | VInsertRange it _ | VEmplace it _ | VErase it => i < it
  | VEraseRange b e => i < b \/ b = e
  | VClean => False
  end.

(** The same for StaticVector. *)
Definition sv_keeps {A} (l : list A) (i : nat) (op : sv_op A) : Prop :=
  match op with
  | PushBack _ | PushBackMove _ | EmplaceBack _ | Append _ => True
  | PopBack => S i < length l
  | Insert it _ | InsertMove it _ | InsertRange it _ | Emplace it _ | Erase it => i < it
  | EraseRange b e => i < b \/ b = e
  | Clean | Reset | Assign _ => False
  end.

(** The calls of which every single one satisfies [P] at the time of the call. *)
Fixpoint all_along {A O} (step : list A -> O -> list A) (P : list A -> O -> Prop) (l : list A)
    (os : list O) : Prop :=
  match os with
  | [] => True
  | o :: os => P l o /\ all_along step P (step l o) os
  end.

(** Of the calls on a queue, how many take an element out of it. *)
Fixpoint taken {A} (step : list A -> ca_op A -> list A) (q : list A) (os : list (ca_op A)) : nat :=
  match os with
  | [] => 0
  | o :: os =>
      (match o with CPop => min 1 (length q) | CClean => length q | _ => 0 end) + taken step (step q o) os
  end.
