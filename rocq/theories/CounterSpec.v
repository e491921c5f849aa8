(** What a counter is: every ++ adds one, every -- takes one away, current() tells the sum,
    all modulo the number of values of its type. *)
From Coq Require Import List ZArith.
From Verif Require Import CounterModel.
Import ListNotations.
Local Open Scope Z_scope.

(** The mathematical counter never wraps; only what current() shows is reduced. *)
Definition counts (modulus : nat) (s : Z) (o : cop) : Z * cres :=
  match o with
  | Increment => (s + 1, RSelf)
  | Decrement => (s - 1, RSelf)
  | Current => (s, RValue (Z.to_nat (s mod Z.of_nat modulus)))
  end.

(** Increments minus decrements in the order in which the calls took effect. *)
Fixpoint balance (order : list (nat * cop * cres)) : Z :=
  match order with
  | [] => 0
  | (_, Increment, _) :: rest => 1 + balance rest
  | (_, Decrement, _) :: rest => balance rest - 1
  | (_, Current, _) :: rest => balance rest
  end.
