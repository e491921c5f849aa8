(** Model of AsIntegralType<IntType, Meta>.

    Source: /repo/include/FlameIDE/Templates/AsIntegralType.hpp. An integer type is given by
    its width and signedness; bool is left out. int has 32 bits. The value of an object of
    such a type is a number in its range. *)
From Coq Require Import ZArith Bool.
From Verif Require Import Base.
Local Open Scope Z_scope.

(** The template parameter IntType, AsIntegralType.hpp 21-123; C++ itself. *)
Record int_type := IT { it_bits : Z; it_signed : bool }.

(** The least value of IntType (AsIntegralType.hpp 21-123 is a template over it); C++ itself. *)
Definition it_min (t : int_type) : Z := if it_signed t then - 2 ^ (it_bits t - 1) else 0.
(** The greatest value of IntType; C++ itself. *)
Definition it_max (t : int_type) : Z :=
  if it_signed t then 2 ^ (it_bits t - 1) - 1 else 2 ^ it_bits t - 1.
(** What can be the value of an object of the type IntType; C++ itself. *)
Definition in_type (t : int_type) (x : Z) : Prop := it_min t <= x <= it_max t.
(** The same as a test. *)
Definition in_typeb (t : int_type) (x : Z) : bool := (it_min t <=? x) && (x <=? it_max t).

(** static_cast and implicit conversion to [t]: modulo 2^bits. C++ itself; as in
    AsIntegralType.hpp 131-201. *)
Definition cast (t : int_type) (x : Z) : Z :=
  if it_signed t then (x + 2 ^ (it_bits t - 1)) mod 2 ^ it_bits t - 2 ^ (it_bits t - 1)
  else x mod 2 ^ it_bits t.

(** Integral promotion: types narrower than int are promoted to int. C++ itself; as in
    AsIntegralType.hpp 344-561. *)
Definition promoted (t : int_type) : int_type :=
  if it_bits t <? 32 then IT 32 true else t.

(** The value of an arithmetic expression of type [t] with the mathematical value [x]. C++ itself:
    signed overflow is undefined, unsigned arithmetic wraps; as in AsIntegralType.hpp 344-561. *)
Definition arith (t : int_type) (x : Z) : outcome Z :=
  if it_signed t then if in_typeb t x then Ok x else UB
  else Ok (x mod 2 ^ it_bits t).

(** AsIntegralType(IntType1), AsIntegralType.hpp 131-137; operator=(IntType1), 139-147. *)
Definition ai_from (t : int_type) (x : Z) : Z := cast t x.
(** The conversion operators, AsIntegralType.hpp 155-201. *)
Definition ai_to (u : int_type) (a : Z) : Z := cast u a.

(** Comparison with a value [b] of the type [u]: AsIntegralType.hpp 203-285, template versions. *)
Definition ai_eq (t u : int_type) (a b : Z) : bool := cast u a =? b.
(** operator!=, AsIntegralType.hpp 217-222. *)
Definition ai_ne (t u : int_type) (a b : Z) : bool := negb (a =? cast t b).
(** operator>, AsIntegralType.hpp 231-236. *)
Definition ai_gt (t u : int_type) (a b : Z) : bool := cast t b <? a.
(** operator<, AsIntegralType.hpp 245-250. *)
Definition ai_lt (t u : int_type) (a b : Z) : bool := a <? cast t b.
(** operator>=, AsIntegralType.hpp 259-264. *)
Definition ai_ge (t u : int_type) (a b : Z) : bool := cast t b <? a.
(** operator<=, AsIntegralType.hpp 273-278. *)
Definition ai_le (t u : int_type) (a b : Z) : bool := a <? cast t b.

(** Comparison with another AsIntegralType of the same type: AsIntegralType.hpp 211-285. *)
Definition am_eq (a b : Z) : bool := a =? b.
(** operator!=, AsIntegralType.hpp 225-229. *)
Definition am_ne (a b : Z) : bool := negb (a =? b).
(** operator>, AsIntegralType.hpp 239-243. *)
Definition am_gt (a b : Z) : bool := b <? a.
(** operator<, AsIntegralType.hpp 253-257. *)
Definition am_lt (a b : Z) : bool := a <? b.
(** operator>=, AsIntegralType.hpp 267-271. *)
Definition am_ge (a b : Z) : bool := b <? a.
(** operator<=, AsIntegralType.hpp 281-285. *)
Definition am_le (a b : Z) : bool := a <? b.

(** operator+=, -=, *=, AsIntegralType.hpp 344-396, and operator+, -, *, 479-540: the operands are promoted,
    the result is converted back. [b] has already the type [t] (it was cast, or it is the
    value of another AsIntegralType). *)
Definition ai_add (t : int_type) (a b : Z) : outcome Z :=
  let! x := arith (promoted t) (a + b) in Ok (cast t x).
(** operator-=, AsIntegralType.hpp 362-378, and operator-, 500-519. *)
Definition ai_sub (t : int_type) (a b : Z) : outcome Z :=
  let! x := arith (promoted t) (a - b) in Ok (cast t x).
(** operator*=, AsIntegralType.hpp 380-396, and operator*, 521-540. *)
Definition ai_mul (t : int_type) (a b : Z) : outcome Z :=
  let! x := arith (promoted t) (a * b) in Ok (cast t x).
(** operator/=, AsIntegralType.hpp 398-414, and operator/, 542-561. *)
Definition ai_div (t : int_type) (a b : Z) : outcome Z :=
  if b =? 0 then UB
  else let! x := arith (promoted t) (Z.quot a b) in Ok (cast t x).
(** operator|=, AsIntegralType.hpp 324-339, and operator|, 458-477. *)
Definition ai_or (t : int_type) (a b : Z) : outcome Z := Ok (cast t (Z.lor a b)).
(** operator<<=, AsIntegralType.hpp 305-321, and operator<<, 416-435: the left operand is promoted; in C++14 (the
    standard set in /repo/CMakeLists.txt 5) shifting a negative number is undefined, and so is
    a result not representable in the unsigned type of the same width. *)
Definition ai_shl (t : int_type) (a b : Z) : outcome Z :=
  let p := promoted t in
  if (b <? 0) || (it_bits p <=? b) then UB
  else if it_signed p then
    if (a <? 0) || (2 ^ it_bits p <=? a * 2 ^ b) then UB
    else Ok (cast t (cast p (a * 2 ^ b)))
  else Ok (cast t ((a * 2 ^ b) mod 2 ^ it_bits p)).
(** operator>>=, AsIntegralType.hpp 287-303, and operator>>, 437-456: arithmetic shift. *)
Definition ai_shr (t : int_type) (a b : Z) : outcome Z :=
  if (b <? 0) || (it_bits (promoted t) <=? b) then UB
  else Ok (cast t (a / 2 ^ b)).
