(** What comparisons of objects should answer. *)
From Coq Require Import ZArith.
From Verif Require Import Base CompareModel.
Local Open Scope Z_scope.

(** What [a op b] says of two positions. *)
Definition holds (op : comparison) (a b : Z) : Prop :=
  match op with
  | Equal => a = b
  | NotEqual => a <> b
  | Less => a < b
  | Greater => a > b
  | LessEqual => a <= b
  | GreaterEqual => a >= b
  end.

(** The expression [i op j] compiles, and it is true exactly when that holds of the positions of [i] and
    [j]. *)
Definition right (op : comparison) (i j : iterator) : Prop :=
  exists b, compare_iterators op i j = Some b /\ (b = true <-> holds op (it_at i) (it_at j)).

(** The iterators that go forward: over an Array, a Vector or a String, and over a List. *)
Definition linear (k : klass) : Prop := k = LinearIterator \/ k = LinearConstIterator.
Definition list_forward (k : klass) : Prop := k = ListIterator \/ k = ListConstIterator.
(** All iterators. *)
Definition an_iterator (k : klass) : Prop :=
  linear k \/ list_forward k \/ k = LinearReverse \/ k = LinearConstReverse \/ k = ListReverse
  \/ k = ListConstReverse.
