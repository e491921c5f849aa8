(** Vector::emplace with an element of the vector itself as the argument. Simplifications: those of
    VectorModel; one argument, which is not moved from. *)
From Coq Require Import List Arith.
From Verif Require Import Base Store StaticVectorModel VectorModel.
Import ListNotations.

Section Vector.
  Context {A : Type}.
  Variable m : mode.
  Variable moved : A -> A.
  Variable dflt : A.
  Variable mem : memory.

  (** What the constructor reads (Vector.hpp 869) when the object is made at [it]: the object that was
      there is gone by then; bytes of a trivial type are still there. C++ itself. *)
  Definition read_while_at (v : vec A) (it : nat) (r : vref A) : outcome A :=
    match r, m with
    | VOwn j, Tracked => if j =? it then UB else vref_value v r
    | _, _ => vref_value v r
    end.

  (** emplace, Vector.hpp 849-878, as [vec_emplace] of VectorModel, with a reference for the
      argument; after a reallocation (875) a reference to an element is to memory that was given
      back. *)
  Fixpoint vec_emplace_ref (fuel : nat) (v : vec A) (it : nat) (r : vref A) : outcome (vec A) :=
    match fuel with
    | O => Diverge
    | S f =>
        if vec_size v <? vc_capacity v then
          if it =? vc_tail v then vec_pushBack_ref m mem (S f) v r
          else
            let! s := st_construct m (vc_store v) (vc_tail v) dflt in
            let! s := shift_right m moved (vc_tail v - it) it 1 s in
            let! x := read_while_at (Vec (SVec s (vc_tail v)) (vc_capacity v)) it r in
            let! s := st_construct m s it x in
            Ok (Vec (SVec s (S (vc_tail v))) (vc_capacity v))
        else
          let! v' := vec_reserve m mem v (next_capacity (vc_capacity v)) in
          vec_emplace_ref f v' it (survive v v' r)
    end.
End Vector.
