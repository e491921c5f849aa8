(** Model of the free functions of /repo/include/FlameIDE/Common/Utils.hpp and
    /repo/include/FlameIDE/Templates/SimpleAlgorithms.hpp.

    Arrays and memory are lists; a pointer or iterator is a position. Loops have a bound
    [fuel]; [Diverge] = it is used up. *)
From Coq Require Import List Arith ZArith Bool.
From Verif Require Import Base.
Import ListNotations.

Section Equal.
  Context {A B : Type}.
  Variable differ : A -> B -> bool.

  (** isEqual of two ranges, Utils.hpp 378-400. The static_assert in it (382-388) lets it be
      used only for ranges of different element types; [differ] is their operator!=. *)
  Fixpoint is_equal_range (fuel : nat) (m1 : list A) (m2 : list B) (i1 end1 i2 end2 : nat)
    : outcome bool :=
    match fuel with
    | O => Diverge
    | S fuel' =>
        if negb (i1 =? end1) && negb (i2 =? end2) then
          if (i1 =? end1) || (i2 =? end2) then Ok false
          else
            let! a := read m1 i1 in
            let! b := read m2 i2 in
            if differ a b then Ok false
            else is_equal_range fuel' m1 m2 (S i1) end1 (S i2) end2
        else Ok true
    end.
End Equal.

(** isEqual of two objects, Utils.hpp 402-420: [v1] and [v2] are the bytes of the objects,
    [n] is sizeof(T). *)
Fixpoint is_equal_bytes_from (fuel : nat) (v1 v2 : list Z) (n i : nat) (result : bool)
  : outcome bool :=
  match fuel with
  | O => Diverge
  | S fuel' =>
      if (i <? n) && result then
        let! a := read v1 i in
        let! b := read v2 i in
        is_equal_bytes_from fuel' v1 v2 n (S i) (a =? b)%Z
      else Ok result
  end.
(** isEqual of two objects, Utils.hpp 402-420. *)
Definition is_equal_bytes (v1 v2 : list Z) (n : nat) : outcome bool :=
  is_equal_bytes_from (S n) v1 v2 n 0 true.

Section Copy.
  Context {A : Type}.

  (** copy(dst, src, size), Utils.hpp 539-549: [dst] and [src] are addresses in one memory. *)
  Fixpoint copy_bytes_from (fuel : nat) (m : list A) (dst src size i : nat)
    : outcome (list A) :=
    match fuel with
    | O => Diverge
    | S fuel' =>
        if i <? size then
          let! x := read m (src + i) in
          let! m := write m (dst + i) x in
          copy_bytes_from fuel' m dst src size (S i)
        else Ok m
    end.
  (** copy(dst, src, size), Utils.hpp 539-549. *)
  Definition copy_bytes (m : list A) (dst src size : nat) : outcome (list A) :=
    copy_bytes_from (S size) m dst src size 0.

  (** DoSomeByIndex<T, INDEX, SIZE>::copy, Common/Traits/Functional.hpp 325-343; the
      recursion is on what is left of INDEX..SIZE. *)
  Fixpoint copy_by_index (left index : nat) (dest src : list A) : outcome (list A) :=
    match left with
    | O => Ok dest
    | S left' =>
        let! x := read src index in
        let! dest := write dest index x in
        copy_by_index left' (S index) dest src
    end.
  (** copy(T (&)[SIZE], const T (&)[SIZE]), Utils.hpp 533-537. *)
  Definition copy_array (dest src : list A) (size : nat) : outcome (list A) :=
    copy_by_index size 0 dest src.

  (** copy(start, end, out), SimpleAlgorithms.hpp 66-85, with input and output in one
      memory: the memory afterwards and the number returned. *)
  Fixpoint copy_iter_from (fuel : nat) (m : list A) (it last out counter : nat)
    : outcome (list A * nat) :=
    match fuel with
    | O => Diverge
    | S fuel' =>
        if it =? last then Ok (m, counter)
        else
          let! x := read m it in
          let! m := write m out x in
          copy_iter_from fuel' m (S it) last (S out) (S counter)
    end.
  (** copy(start, end, out), SimpleAlgorithms.hpp 66-85. *)
  Definition copy_iter (fuel : nat) (m : list A) (first last out : nat) :=
    copy_iter_from fuel m first last out 0.

  (** countIterations, SimpleAlgorithms.hpp 99-106. *)
  Fixpoint count_iterations (fuel : nat) (it last count : nat) : outcome nat :=
    match fuel with
    | O => Diverge
    | S fuel' =>
        if it =? last then Ok count else count_iterations fuel' (S it) last (S count)
    end.

  (** foreach(start, end, func), SimpleAlgorithms.hpp 108-115: [func] changes the state
      [st] and the element. *)
  Fixpoint foreach {St : Type} (f : St -> A -> St * A) (fuel : nat) (m : list A)
    (it last : nat) (st : St) : outcome (list A * St) :=
    match fuel with
    | O => Diverge
    | S fuel' =>
        if it =? last then Ok (m, st)
        else
          let! x := read m it in
          let '(st, y) := f st x in
          let! m := write m it y in
          foreach f fuel' m (S it) last st
    end.

  (** length(array), Utils.hpp 551-560. *)
  Variable is_null : A -> bool.
  (** length(array), Utils.hpp 551-560: the loop. *)
  Fixpoint length_from (fuel : nat) (m : list A) (it n : nat) : outcome nat :=
    match fuel with
    | O => Diverge
    | S fuel' =>
        let! x := read m it in
        if is_null x then Ok n else length_from fuel' m (S it) (S n)
    end.
End Copy.

(** maximum, minimum, Utils.hpp 562-576, for any operator>. *)
Definition maximum {A} (gt : A -> A -> bool) (a b : A) : A := if gt a b then a else b.
(** minimum, Utils.hpp 570-576. *)
Definition minimum {A} (gt : A -> A -> bool) (a b : A) : A := if gt b a then a else b.

Local Open Scope Z_scope.

(** alignedPointer, Utils.hpp 500-525. The address [p] is a number in 0 .. 2^64 - 1; it is
    converted to intptr_t (506), the remainder is taken in size_t because alignof(T) has that
    type (507), and the sum is a sum of intptr_t (510). *)
Definition to_signed (p : Z) : Z := if p <? 2 ^ 63 then p else p - 2 ^ 64.
(** alignedPointer, Utils.hpp 500-525. *)
Definition aligned_pointer (align p : Z) : outcome Z :=
  if p =? 0 then Ok 0
  else
    let value := to_signed p in
    let rem := (value mod 2 ^ 64) mod align in
    let shift := if rem =? 0 then 0 else align - rem in
    if value + shift <? 2 ^ 63 then Ok ((value + shift) mod 2 ^ 64) else UB.
