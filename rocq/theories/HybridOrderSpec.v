(** What comparisons of positions mean. *)
From Coq Require Import ZArith.
From Verif Require Import HybridOrderModel.
Local Open Scope Z_scope.

(** The relation an operator stands for. *)
Definition relation_of (op : hcompare) (i j : Z) : Prop :=
  match op with
  | HEqual => i = j
  | HNotEqual => i <> j
  | HLess => i < j
  | HGreater => j < i
  | HLessEqual => i <= j
  | HGreaterEqual => j <= i
  end.
