(** byte_t and the iterators over integers.

    Source: /repo/include/FlameIDE/Common/Byte.hpp, /repo/include/FlameIDE/Templates/
    IntegerIterator.hpp with the macros in Iterator/Operators.hpp 257-433 and
    Iterator/BaseIterator.hpp, Range.hpp. Integer types, conversions and arithmetic are those of
    IntegralModel.v. *)
From Coq Require Import List ZArith Bool.
From Verif Require Import Base IntegralModel.
Import ListNotations.
Local Open Scope Z_scope.

(** Types::uichar_t, the type under the enumeration byte_t, Byte.hpp 10-11; unsigned char of C++
    itself. *)
Definition uichar : int_type := IT 8 false.
(** The type int; C++ itself. *)
Definition int32 : int_type := IT 32 true.

(** * byte_t *)

(** operator<<, Byte.hpp 54-62: the byte is promoted to int. In C++14 the result of the shift
    must be representable in unsigned int. *)
Definition byte_shl (b n : Z) : outcome Z :=
  if (n <? 0) || (32 <=? n) then UB
  else if 2 ^ 32 <=? b * 2 ^ n then UB
  else Ok (cast uichar (cast int32 (b * 2 ^ n))).
(** operator>>, Byte.hpp 70-78. *)
Definition byte_shr (b n : Z) : outcome Z :=
  if (n <? 0) || (32 <=? n) then UB
  else Ok (cast uichar (b / 2 ^ n)).
(** operator|, Byte.hpp 86-94; operator&, 102-110; operator^, 118-126, with a value of the type [t]: both
    are converted to the wider of int and [t]. *)
Definition byte_bitop (f : Z -> Z -> Z) (t : int_type) (b v : Z) : Z :=
  cast uichar (cast (promoted t) (f b v)).
(** operator|, Byte.hpp 86-94. *)
Definition byte_or := byte_bitop Z.lor.
(** operator&, Byte.hpp 102-110. *)
Definition byte_and := byte_bitop Z.land.
(** operator^, Byte.hpp 118-126. *)
Definition byte_xor := byte_bitop Z.lxor.
(** operator~, Byte.hpp 134-138. *)
Definition byte_not (b : Z) : Z := cast uichar (Z.lnot b).
(** toInteger, Byte.hpp 140-145; toByte, 147-152. *)
Definition to_integer (t : int_type) (b : Z) : Z := cast t b.
(** toByte, Byte.hpp 147-152. *)
Definition to_byte (t : int_type) (v : Z) : Z := cast uichar v.

(** The compound assignments, Byte.hpp 64-68, 80-84, 96-100, 112-116, 128-132, and [b = ~b]. *)
Inductive byte_op :=
| BShl (n : Z) | BShr (n : Z)
| BOr (t : int_type) (v : Z) | BAnd (t : int_type) (v : Z) | BXor (t : int_type) (v : Z)
| BNot.
(** One assignment, Byte.hpp 64-68, 80-84, 96-100, 112-116, 128-138. *)
Definition byte_step (b : Z) (o : byte_op) : outcome Z :=
  match o with
  | BShl n => byte_shl b n
  | BShr n => byte_shr b n
  | BOr t v => Ok (byte_or t b v)
  | BAnd t v => Ok (byte_and t b v)
  | BXor t v => Ok (byte_xor t b v)
  | BNot => Ok (byte_not b)
  end.
(** Of the model: the assignments of a history one after the other. *)
Fixpoint byte_run (b : Z) (os : list byte_op) : outcome Z :=
  match os with
  | [] => Ok b
  | o :: os => let! b := byte_step b o in byte_run b os
  end.

(** * Iterators over integers

    An iterator over the type [t] is its integer. *)

(** operator++, Operators.hpp 259-264. *)
Definition it_inc (t : int_type) (x : Z) : outcome Z :=
  let! y := arith (promoted t) (x + 1) in Ok (cast t y).
(** operator++(int), Operators.hpp 266-272: the value returned and the iterator. *)
Definition it_post_inc (t : int_type) (x : Z) : outcome (Z * Z) :=
  let! y := it_inc t x in Ok (x, y).
(** operator*, 289-293; operator!=, BaseIterator.hpp 116-129. *)
Definition it_deref (x : Z) : Z := x.
(** operator!=, BaseIterator.hpp 116-129. *)
Definition it_ne (x y : Z) : bool := negb (x =? y).

(** The usual arithmetic conversions. C++ itself; as in Operators.hpp 313-354. *)
Definition common (t u : int_type) : int_type :=
  let p := promoted t in
  let q := promoted u in
  if Bool.eqb (it_signed p) (it_signed q) then (if it_bits p <? it_bits q then q else p)
  else
    let s := if it_signed p then p else q in
    let n := if it_signed p then q else p in
    if it_bits s <=? it_bits n then n else s.
(** operator+= and -= with a value of the type [u], Operators.hpp 342-354; operator+ and -, 313-333. *)
Definition it_plus (t u : int_type) (x v : Z) : outcome Z :=
  let c := common t u in
  let! y := arith c (cast c x + cast c v) in Ok (cast t y).
(** operator-(IntType), Operators.hpp 328-333. *)
Definition it_minus (t u : int_type) (x v : Z) : outcome Z :=
  let c := common t u in
  let! y := arith c (cast c x - cast c v) in Ok (cast t y).
(** operator- of two iterators, Operators.hpp 335-340; SsizeType has 64 bits. *)
Definition it_difference (t : int_type) (x y : Z) : outcome Z :=
  let! d := arith (promoted t) (x - y) in Ok (cast (IT 64 true) d).
(** The orderings, Operators.hpp 397-419. *)
Definition it_gt (x y : Z) : bool := y <? x.
(** operator<, Operators.hpp 403-407. *)
Definition it_lt (x y : Z) : bool := x <? y.
(** operator>=, Operators.hpp 409-413. *)
Definition it_ge (x y : Z) : bool := y <=? x.
(** operator<=, Operators.hpp 415-419. *)
Definition it_le (x y : Z) : bool := x <=? y.

(** [for (auto i : makeRange(first, last))], Range.hpp 43-45, 91-117: what is seen, in order;
    Diverge: the loop has not ended after [fuel] rounds. *)
Fixpoint it_loop (fuel : nat) (t : int_type) (it last : Z) : outcome (list Z) :=
  if it_ne it last then
    match fuel with
    | O => Diverge
    | S fuel =>
        let i := it_deref it in
        let! it := it_inc t it in
        let! l := it_loop fuel t it last in
        Ok (i :: l)
    end
  else Ok [].
