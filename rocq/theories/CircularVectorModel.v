(** Model of the part of CircularVector that is defined
    (/repo/include/FlameIDE/Templates/CircularVector.hpp 365-549): its constructors, destructor,
    assignments, operator[], size() and capacity(). The other members are declared (213-347) and
    have no definition. An allocation that fails is not modelled. *)
From Coq Require Import List Arith ZArith Bool.
From Verif Require Import Base.
Import ListNotations.

(** array, head - array, tail - array, vectorCapacity: CircularVector.hpp 354-357. The memory is
    none for a null pointer; SizeType has 64 bits. *)
Record cvec (A : Type) := CVec {
  cv_array : option (cells A); cv_head : nat; cv_tail : nat; cv_capacity : nat }.
Arguments CVec {A}.
Arguments cv_array {A}.
Arguments cv_head {A}.
Arguments cv_tail {A}.
Arguments cv_capacity {A}.

Section CircularVector.
  Context {A : Type}.

  (** CircularVector(), CircularVector.hpp 442-445. *)
  Definition cv_new : cvec A := CVec None 0 0 0.

  (** size(), CircularVector.hpp 526-532. *)
  Definition cv_size (v : cvec A) : nat := cv_tail v - cv_head v.

  (** capacity(), CircularVector.hpp 534-539, of realCapacity(), 544-549: an unsigned subtraction. *)
  Definition cv_get_capacity (v : cvec A) : Z := ((Z.of_nat (cv_capacity v) - 1) mod 2 ^ 64)%Z.

  (** CircularVector(const Me &), CircularVector.hpp 447-454. *)
  Definition cv_copy (v : cvec A) : cvec A :=
    let n := cv_size v + 1 in
    CVec (Some (raw A n)) 0 0 n.

  (** CircularVector(InputIterator, InputIterator), CircularVector.hpp 465-474: the values [xs] are
      counted (SimpleAlgorithms.hpp 99-108) and not read. *)
  Definition cv_of_range (xs : list A) : cvec A :=
    let n := length xs + 1 in
    CVec (Some (raw A n)) 0 0 n.

  (** CircularVector(Me &&), CircularVector.hpp 456-463: the new object, and what is left of the source. *)
  Definition cv_move (v : cvec A) : cvec A * cvec A := (v, CVec None 0 0 0).

  (** operator[], CircularVector.hpp 508-524. *)
  Definition cv_index (v : cvec A) (i : nat) : outcome A :=
    match cv_array v with
    | None => UB
    | Some c => load c (cv_head v + i)
    end.

  (** operator=(const Me &) and operator=(Me &&), CircularVector.hpp 488-506: nothing is done, and there is
      no return statement. *)
  Definition cv_assign (v w : cvec A) : outcome (cvec A) := UB.

  (** How many objects ~CircularVector(), CircularVector.hpp 476-486, destroys before it frees the memory. *)
  Definition cv_destroyed (v : cvec A) : nat := 0.

  (** Everything that can be done to get a CircularVector. CircularVector.hpp 442-474. *)
  Inductive cv_made : cvec A -> Prop :=
  | MadeNew : cv_made cv_new
  | MadeOf xs : cv_made (cv_of_range xs)
  | MadeCopy v : cv_made v -> cv_made (cv_copy v)
  | MadeMove v : cv_made v -> cv_made (fst (cv_move v))
  | MadeLeft v : cv_made v -> cv_made (snd (cv_move v)).
End CircularVector.
