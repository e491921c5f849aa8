(** HybridVector::insert with an element of the container itself as the argument. Simplifications:
    those of HybridVectorModel. *)
From Coq Require Import List Arith ZArith.
From Verif Require Import Base Store StaticVectorModel VectorModel HybridVectorModel.
Import ListNotations.

Section Hybrid.
  Context {A : Type}.
  Variable m : mode.
  Variable moved : A -> A.
  Variable dflt : A.
  Variable mem : memory.
  (** ARRAY_CAPACITY. *)
  Variable cap : nat.

  (** insert(Iterator, const &), HybridVector.hpp 1773-1807, as [hv_insert_at] of HybridVectorModel,
      with a reference for the argument; after useVector() (1790) a reference to an element is to
      an array that was destroyed. *)
  Fixpoint hv_insert_ref (fuel : nat) (h : hybrid A) (it : hiter) (r : vref A) : outcome (hybrid A) :=
    match fuel with
    | O => Diverge
    | S f =>
        match h with
        | HUnset => let! h := hv_useArray m cap h in hv_insert_ref f h it r
        | HArr a =>
            if sv_size a <? sv_capacity a then
              let! p := hi_arr it in
              let! x := as_arg r in
              let! a := sv_insert_arg m moved dflt a p x in
              Ok (HArr a)
            else
              let diff := hi_minus (hv_begin h) it in
              let! h := hv_useVector m mem cap h in
              let! it := hi_add (hv_begin h) diff in
              hv_insert_ref f h it (lost r)
        | HVec v =>
            let! p := hi_vec it in
            let! v := vec_insert_ref m moved dflt mem vfuel v p r in
            Ok (HVec v)
        end
    end.

  (** insert(begin() + p, v[j]), HybridVector.hpp 1773-1807. *)
  Definition hv_insert_own (h : hybrid A) (p j : nat) : outcome (hybrid A) :=
    let! it := hv_at h p in hv_insert_ref 3 h it (VOwn j).
  (** pushBack(v[j]), HybridVector.hpp 1666-1694. *)
  Definition hv_push_own (h : hybrid A) (j : nat) : outcome (hybrid A) :=
    hv_pushBack_ref m mem cap 3 h (VOwn j).
End Hybrid.
