(** What a loop over a range has to do, without pointers. *)
From Coq Require Import List Arith.
From Verif Require Import Base.
Import ListNotations.

Section Spec.
  Variables A S : Type.

  (** The bytes of [n] elements of [s] bytes each. Of the specification. *)
  Fixpoint cut (s n : nat) (bytes : list A) : list (list A) :=
    match n with
    | O => []
    | Datatypes.S m => firstn s bytes :: cut s m (skipn s bytes)
    end.

  (** The body is run on each element once, in order; what it leaves of the elements. Of the
      specification. *)
  Fixpoint visit (body : S -> list A -> S * list A) (s : S) (xs : list (list A))
    : S * list (list A) :=
    match xs with
    | [] => (s, [])
    | x :: more =>
        let (s', x') := body s x in
        let (s'', more') := visit body s' more in
        (s'', x' :: more')
    end.

  (** The body assigns elements of their own size. Of the specification. *)
  Definition keeps_size (n : nat) (body : S -> list A -> S * list A) : Prop :=
    forall s x, length x = n -> length (snd (body s x)) = n.
End Spec.
Arguments cut {A}.
Arguments visit {A S}.
Arguments keeps_size {A S}.
