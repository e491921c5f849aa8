(** What number a wide integer is, independently of the library code. *)
From Coq Require Import ZArith List Bool.
From Verif Require Import ByteOrderModel ByteOrderSpec.
From Verif Require Import WideIntModel.
Import ListNotations.
Local Open Scope Z_scope.

(** [n] bytes. *)
Definition wide (n : nat) (d : list Z) : Prop :=
  length d = n /\ Forall (fun b => 0 <= b < 256) d.

(** The number written with these digits in base 256, the most significant digit first. *)
Definition number (d : list Z) : Z := fold_left (fun a b => a * 256 + b) d 0.

(** The number of a signed or unsigned wide integer (two's complement). *)
Definition wide_value (signed : bool) (d : list Z) : Z :=
  if signed && (256 ^ Z.of_nat (length d) <=? 2 * number d)
  then number d - 256 ^ Z.of_nat (length d)
  else number d.

(** The value of an integer type that is congruent to [x]. *)
Definition convert_to (t : ity) (x : Z) : Z :=
  if it_signed t then to_signed (bits (it_width t)) x else to_unsigned (bits (it_width t)) x.

(** What the binary operators mean. *)
Definition meaning (op : wop) (x y : Z) : Z :=
  match op with
  | WShl => x * 2 ^ y
  | WShr => x / 2 ^ y
  | WAnd => Z.land x y
  | WOr => Z.lor x y
  | WAdd => x + y
  | WSub => x - y
  | WMul => x * y
  | WDiv => x / y
  end.
