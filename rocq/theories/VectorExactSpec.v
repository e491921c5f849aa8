(** What a history of a Vector really does: how it ends, for every history with valid positions. *)
From Coq Require Import List Arith Bool.
From Verif Require Import Store StaticVectorSpec VectorModel VectorSpec.
Import ListNotations.

(** How a history ends: with the contents [l] in memory for [c] elements, with undefined behaviour,
    with a call that never returns, or the caller gave a position that is not in the vector. *)
Inductive vending (A : Type) :=
| VWorks (c : nat) (l : list A) | VBreaks | VHangs | VBadPosition.
Arguments VWorks {A}.
Arguments VBreaks {A}.
Arguments VHangs {A}.
Arguments VBadPosition {A}.

(** One more element: a full vector grows, one with room for exactly one element tries for ever. *)
Definition one_more {A} (c : nat) (l l' : list A) : vending A :=
  if length l <? c then VWorks c l'
  else if c =? 1 then VHangs
  else VWorks (grow c) l'.

(** A range: a vector that has too little room gets exactly as much more as the range is long. *)
Definition some_more {A} (c : nat) (l xs l' : list A) : vending A :=
  VWorks (if length xs + length l <=? c then c else c + length xs) l'.

(** Only elements with destructors: a range in front of the end. *)
Definition inner_range (m : mode) (b e size : nat) : bool :=
  match m with
  | Tracked => (b <? e) && (e <? size)
  | Trivial => false
  end.

(** One call on a vector with the contents [l] and the capacity [c]. *)
Definition vec_really {A} (m : mode) (dflt : A) (c : nat) (l : list A) (op : vec_op A) : vending A :=
  match op with
  | VPush x | VEmplaceBack x => one_more c l (l ++ [x])
  | VPop => VWorks c (removelast l)
  | VInsert p x | VEmplace p x =>
      if p <=? length l then one_more c l (insert_at p [x] l) else VBadPosition
  | VInsertRange p xs =>
      if p <=? length l then some_more c l xs (insert_at p xs l) else VBadPosition
  | VErase p => if p <=? length l then VWorks c (erase_at p (S p) l) else VBadPosition
  | VEraseRange b e =>
      if (b <=? e) && (e <=? length l) then
        if inner_range m b e (length l) then VBreaks else VWorks c (erase_at b e l)
      else VBadPosition
  | VClean => VWorks c []
  | VReserve n => VWorks (Nat.max c n) l
  | VResize n =>
      if n <=? length l then VWorks c l                        (* never shrinks *)
      else if (c =? 1) && (1 <? n) then VHangs
      else if grow_until n c n =? n then VWorks n l            (* exactly the capacity: no effect *)
      else VWorks (grow_until n c n) (l ++ repeat dflt (n - length l))
  end.

(** The calls one after the other. *)
Fixpoint vec_story {A} (m : mode) (dflt : A) (c : nat) (l : list A) (ops : list (vec_op A))
  : vending A :=
  match ops with
  | [] => VWorks c l
  | op :: ops =>
      match vec_really m dflt c l op with
      | VWorks c l => vec_story m dflt c l ops
      | other => other
      end
  end.
