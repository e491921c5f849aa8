(** Model of toString for integers.

    Source: /repo/include/FlameIDE/Templates/StringConvertions.hpp. Integers are [Z]; a
    type is a signedness and a width in bits (8, 16, 32 or 64). Characters are the codes of
    a plain char, 0 .. 255. The string is the one of StringModel.v, with its buffer. *)
From Coq Require Import List Arith ZArith Bool.
From Verif Require Import Base Store StringModel.
Import ListNotations.
Open Scope Z_scope.

(** The template parameter of StringConvertions.hpp 148-217. *)
Record int_type := IntType { is_signed : bool; width : Z }.

(** The value of type [t] with the low bits of [v] (conversion to [t]). The conversions in
    StringConvertions.hpp 164-195. *)
Definition convert_to (t : int_type) (v : Z) : Z :=
  let m := v mod 2 ^ width t in
  if is_signed t && (2 ^ (width t - 1) <=? m) then m - 2 ^ width t else m.

(** [value *= -1]: types narrower than int are computed in int and converted back; for the others
    the result must be representable. StringConvertions.hpp 176. *)
Definition negate (t : int_type) (v : Z) : outcome Z :=
  if width t <? 32 then Ok (convert_to t (v * -1))
  else if is_signed t && (2 ^ (width t - 1) <=? v * -1) then UB
  else Ok (convert_to t (v * -1)).

(** NumberChecker::get, StringConvertions.hpp 95-126: [k] more instantiations before the specialised one. *)
Fixpoint checker (k : nat) (min max : Z) (size : nat) (value : Z) : nat :=
  match k with
  | O => if (min <=? value) && (value <=? max) then size else size + 1
  | S k' =>
      if (min <=? value) && (value <=? max) then size
      else checker k' max (max * 10 + 9) (size + 1) value
  end.

(** BufferSize::get, StringConvertions.hpp 128-148. The instantiation <0, 9, 1> is 18 steps before the
    specialised one, see [checker_specialised] in ToStringProofs.v. *)
Definition buffer_size (t : int_type) (v : Z) : outcome nat :=
  if is_signed t && (v <? 0) then
    let! v := negate t v in
    Ok (1 + checker 18 0 9 1 (convert_to (IntType false (width t)) v))%nat
  else Ok (checker 18 0 9 1 v).

(** The loop in StringConvertions.hpp 181-185: 10 to the power of buffer - 1, in size_t. *)
Fixpoint dec_loop (n : nat) (dec : Z) : Z :=
  match n with
  | O => dec
  | S n' => dec_loop n' (dec * 10 mod 2 ^ 64)
  end.

(** The loop in StringConvertions.hpp 187-193. [value / dec] and [value % dec] are computed in size_t. *)
Fixpoint digit_loop (fuel n : nat) (t : int_type) (s : str Z) (value dec : Z)
  : outcome (str Z) :=
  match n with
  | O => Ok s
  | S n' =>
      if dec =? 0 then UB
      else
        let result := (value mod 2 ^ 64) / dec in
        let! s := str_push_back_move 0 fuel s ((48 + result) mod 256) in
        digit_loop fuel n' t s (convert_to t ((value mod 2 ^ 64) mod dec)) (dec / 10)
  end.

(** NumberConverter::convert, StringConvertions.hpp 164-195; toString, 210-217. *)
Definition to_string (fuel : nat) (t : int_type) (v : Z) : outcome (str Z) :=
  let! buffer := buffer_size t v in
  let! s := str_reserve 0 str_new buffer in
  let! r :=
    if is_signed t && (v <? 0) then
      let! s := str_push_back_move 0 fuel s 45 in
      let! v := negate t v in
      Ok (s, v, buffer - 1)%nat
    else Ok (s, v, buffer) in
  let '(s, v, buffer) := r in
  digit_loop fuel buffer t s v (dec_loop (buffer - 1) 1).
