(** The functions that make ranges, and the loop over a range.

    Source: /repo/include/FlameIDE/Templates/Range.hpp, Common/Utils.hpp 422-468.

    The memory is a list of bytes; a pointer knows the array it points into, because adding to it is
    defined inside of that array only. Elements are blocks of bytes, so that one model covers the
    ranges of elements and those of bytes. *)
From Coq Require Import List Arith Bool.
From Verif Require Import Base.
Import ListNotations.

(** * Pointers *)

(** [count] objects of [esize] bytes from [at_] on; a single object is an array of one ([expr.add]);
    C++ itself. *)
Record array := Array { at_ : nat; esize : nat; count : nat }.
(** A pointer into an array, or just past its end; C++ itself. *)
Record pointer := Ptr { of_array : array; index : nat }.

(** The address of what the pointer points at; C++ itself. *)
Definition address (p : pointer) : nat := at_ (of_array p) + index p * esize (of_array p).
(** p + n; C++ itself. *)
Definition p_add (p : pointer) (n : nat) : outcome pointer :=
  if index p + n <=? count (of_array p) then Ok (Ptr (of_array p) (index p + n)) else UB.

Section Memory.
  Variable A : Type.

  (** *p as a value: its bytes; C++ itself. *)
  Definition load (m : list A) (p : pointer) : outcome (list A) :=
    if index p <? count (of_array p)
    then Ok (firstn (esize (of_array p)) (skipn (address p) m)) else UB.
  (** *p = x; C++ itself. *)
  Definition store (m : list A) (p : pointer) (x : list A) : outcome (list A) :=
    if index p <? count (of_array p)
    then Ok (firstn (address p) m ++ x ++ skipn (address p + esize (of_array p)) m) else UB.

  (** * Ranges *)

  (** Range, Range.hpp 10-35: [first] and [last]. *)
  Record range := Range { first : pointer; last : pointer }.
  (** Range(const Me &), Range.hpp 81-84. *)
  Definition range_copy (r : range) : range := Range (first r) (last r).
  (** Range(itBegin, itEnd), Range.hpp 86-89. *)
  Definition range_new (b e : pointer) : range := Range b e.
  (** begin(), Range.hpp 91-96, 105-110. *)
  Definition range_begin (r : range) : pointer := first r.
  (** end(), Range.hpp 98-103, 112-117. *)
  Definition range_end (r : range) : pointer := last r.

  (** makeRange(itBegin, itEnd), Range.hpp 130-137. *)
  Definition make_range_iterators (b e : pointer) : range := range_new b e.
  (** makeRange(T (&)[SIZE]), Range.hpp 139-144, and makeConstRange(const T (&)[SIZE]), 162-167. *)
  Definition make_range_array (a : array) : outcome range :=
    let! e := p_add (Ptr a 0) (count a) in
    Ok (range_new (Ptr a 0) e).
  (** makeRange(T *, size), Range.hpp 146-151, and makeConstRange(const T *, size), 169-174. *)
  Definition make_range_data (data : pointer) (size : nat) : outcome range :=
    let! e := p_add data size in
    Ok (range_new data e).
  (** makeRange(Container &), Range.hpp 121-128, and makeConstRange(const Container &), 153-160, by begin(), end(),
      cbegin() and cend() of Utils.hpp 422-432, 446-456. Simplified: of containers whose iterators are
      pointers to the elements; the container is the array of its elements. *)
  Definition make_range_container (elements : array) : range :=
    range_new (Ptr elements 0) (Ptr elements (count elements)).
  (** makeByteRange(value), Range.hpp 194-204, and makeConstByteRange(value), 206-216: the value is at [a] and
      has [size] = sizeof(value) bytes. So do makeByteRange() of Serializer.hpp 131-146 and Deserializer.hpp
      145-160. *)
  Definition make_byte_range (a size : nat) : outcome range :=
    let begin := Ptr (Array a 1 size) 0 in
    let! e := p_add begin size in
    Ok (make_range_iterators begin e).

  Variable S : Type.

  (** [for (auto &x : range) body], from [it] on; the body may change its own state and the element;
      C++ itself. *)
  Fixpoint for_from (fuel : nat) (body : S -> list A -> S * list A) (s : S) (m : list A)
    (it e : pointer) : outcome (S * list A) :=
    match fuel with
    | O => Diverge
    | Datatypes.S n =>
        if address it =? address e then Ok (s, m)
        else
          let! x := load m it in
          let (s', x') := body s x in
          let! m' := store m it x' in
          let! it' := p_add it 1 in
          for_from n body s' m' it' e
    end.
  (** The loop, C++ itself; begin() and end() are those of Range.hpp 91-117. *)
  Definition for_range (fuel : nat) (body : S -> list A -> S * list A) (s : S) (m : list A) (r : range)
    : outcome (S * list A) :=
    for_from fuel body s m (range_begin r) (range_end r).
End Memory.
Arguments load {A}.
Arguments store {A}.
Arguments for_from {A S}.
Arguments for_range {A S}.

(** * Which of the makers can be called *)

(** The types of the iterators of a container, as in Vector.hpp or List.hpp; [conv]: which implicit
    conversions there are; C++ itself. *)
Record iterators := Iterators {
  ty : Type;
  conv : ty -> ty -> Prop;
  iterator : ty;
  const_iterator : ty;
  reverse_iterator : ty;
  const_reverse_iterator : ty
}.

(** A Range<built> is made of two iterators of type [given] and returned as a Range<returned>: Range has no
    constructor that takes a range of other iterators, Range.hpp 17-20. *)
Definition returns (c : iterators) (given built returned : ty c) : Prop :=
  conv c given built /\ built = returned.

(** makeRange(Container &), Range.hpp 121-128, of a container that is not const; begin(), Utils.hpp 422-426, returns
    an Iterator. *)
Definition makes_range (c : iterators) : Prop :=
  returns c (iterator c) (iterator c) (iterator c).
(** The same of a const container: begin(), Utils.hpp 422-426, has to make an Iterator of the ConstIterator that
    begin() const gives. *)
Definition makes_range_of_const (c : iterators) : Prop :=
  conv c (const_iterator c) (iterator c) /\ returns c (iterator c) (iterator c) (iterator c).
(** makeConstRange(const Container &), Range.hpp 153-160. *)
Definition makes_const_range (c : iterators) : Prop :=
  returns c (const_iterator c) (const_iterator c) (const_iterator c).
(** makeReverseRange(Container &), Range.hpp 176-183. *)
Definition makes_reverse_range (c : iterators) : Prop :=
  returns c (reverse_iterator c) (const_iterator c) (reverse_iterator c).
(** makeConstReverseRange(const Container &), Range.hpp 185-192. *)
Definition makes_const_reverse_range (c : iterators) : Prop :=
  returns c (const_reverse_iterator c) (const_iterator c) (const_reverse_iterator c).
