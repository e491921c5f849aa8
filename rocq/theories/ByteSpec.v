(** What byte_t and integer iterators are for: a byte is eight bits, an integer iterator walks
    along the integers. *)
From Coq Require Import List ZArith Bool.
From Verif Require Import IntegralModel IntegralProps ByteModel.
Import ListNotations.
Local Open Scope Z_scope.

(** Eight bits, the lowest first. *)
Definition bits := list bool.
Definition bits_of (v : Z) : bits := map (fun i => Z.testbit v (Z.of_nat i)) (seq 0 8).
Definition is_byte (b : Z) : Prop := 0 <= b <= 255.

Fixpoint bits_zip (f : bool -> bool -> bool) (a b : bits) : bits :=
  match a, b with
  | x :: a, y :: b => f x y :: bits_zip f a b
  | _, _ => []
  end.
Definition bits_step (l : bits) (o : byte_op) : bits :=
  match o with
  | BShl n => firstn 8 (repeat false (Z.to_nat n) ++ l)
  | BShr n => firstn 8 (skipn (Z.to_nat n) l ++ repeat false 8)
  | BOr _ v => bits_zip orb l (bits_of v)
  | BAnd _ v => bits_zip andb l (bits_of v)
  | BXor _ v => bits_zip xorb l (bits_of v)
  | BNot => map negb l
  end.
(** Shifts are by at most 24 positions; operands are values of a type of the library. *)
Definition op_allowed (o : byte_op) : Prop :=
  match o with
  | BShl n | BShr n => 0 <= n <= 24
  | BOr t v | BAnd t v | BXor t v => library_type t /\ in_type t v
  | BNot => True
  end.

(** The integers from [a] on, [n] of them. *)
Definition integers (a : Z) (n : nat) : list Z := map (fun i => a + Z.of_nat i) (seq 0 n).
