(** Model of the comparisons of the iterators of HybridVector, of their subscript, and of the loops an
    application writes with them.

    Source: /repo/include/FlameIDE/Templates/HybridVector.hpp 815-943, and the same text for ConstIterator,
    1155-1291, which can be made of an iterator of a Vector only. The wrapped Variant is a mutable
    member (Iterator/BaseIterator.hpp 66), so the operators, which are const members, read it as a
    non-const one and compile. *)
From Coq Require Import List ZArith Bool.
From Verif Require Import Base HybridVectorModel.
Import ListNotations.
Local Open Scope Z_scope.

(** The operators declared in HybridVector.hpp 118-128. *)
Inductive hcompare := HEqual | HNotEqual | HLess | HGreater | HLessEqual | HGreaterEqual.

(** The built-in operators for pointers, which the wrapped iterators end in: BaseIterator.hpp 102-129,
    Operators.hpp 179-201. [a] and [b] are addresses in units of elements. *)
Definition pointer_compare (op : hcompare) (a b : Z) : bool :=
  match op with
  | HEqual => a =? b
  | HNotEqual => negb (a =? b)
  | HLess => a <? b
  | HGreater => a >? b
  | HLessEqual => a <=? b
  | HGreaterEqual => a >=? b
  end.

(** operator<, HybridVector.hpp 827-851, operator> 853-877, operator<= 879-903, operator>= 905-929, of
    ConstIterator HybridVector.hpp 1167-1284. Two unset iterators have the same index, -1, and are then
    read as vector iterators: null pointers. *)
Definition hi_order (op : hcompare) (it jt : hiter) : outcome bool :=
  match it, jt with
  | IArr i, IArr j => Ok (pointer_compare op i j)
  | IVec i, IVec j => Ok (pointer_compare op i j)
  | INone, INone => UB
  | _, _ => Ok false
  end.

(** operator==, HybridVector.hpp 815-819, operator!= 821-825, of ConstIterator 1155-1165, and the four above. *)
Definition hi_compare (op : hcompare) (it jt : hiter) : outcome bool :=
  match op with
  | HEqual => Ok (hi_eq it jt)
  | HNotEqual => Ok (negb (hi_eq it jt))
  | _ => hi_order op it jt
  end.

Section Loops.
  Context {A : Type}.

  (** operator[] of an iterator, HybridVector.hpp 931-943, of ConstIterator 1285-1291: [operator->()[index]]; operator->
      is [&operator*()], 699-703, 721-726, 1092-1097. *)
  Definition hi_subscript (h : hybrid A) (it : hiter) (index : Z) : outcome A :=
    let! _ := hi_deref h it in
    let! it := hi_add it index in
    hi_deref h it.

  (** Of the application: [for (auto it = v.begin(); it < v.end(); ++it) visit( *it);] *)
  Fixpoint upwards (fuel : nat) (h : hybrid A) (it : hiter) : outcome (list A) :=
    match fuel with
    | O => Diverge
    | S fuel =>
        let! less := hi_compare HLess it (hv_end h) in
        if less then
          let! x := hi_deref h it in
          let! it := hi_add it 1 in
          let! xs := upwards fuel h it in
          Ok (x :: xs)
        else Ok []
    end.

  (** Of the application: [for (auto it = v.end(); it > v.begin();) visit( *--it);] *)
  Fixpoint downwards (fuel : nat) (h : hybrid A) (it : hiter) : outcome (list A) :=
    match fuel with
    | O => Diverge
    | S fuel =>
        let! greater := hi_compare HGreater it (hv_begin h) in
        if greater then
          let! it := hi_add it (-1) in
          let! x := hi_deref h it in
          let! xs := downwards fuel h it in
          Ok (x :: xs)
        else Ok []
    end.
End Loops.
