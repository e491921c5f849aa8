(** Model of clone() of the containers (/repo/include/FlameIDE/Templates: Vector.hpp, String.hpp,
    List.hpp, HybridVector.hpp; those of Array.hpp are in StaticArrayModel and
    StaticVectorModel), and of building a HybridVector from, and assigning it, an Array or a
    Vector. *)
From Coq Require Import List Arith Bool.
From Verif Require Import Base Store StaticVectorModel VectorModel StringModel HybridVectorModel.
From Verif Require ListModel.
Import ListNotations.

Section Clone.
  Context {A : Type}.
  Variable m : mode.
  Variable mem : memory.

  (** The closing brace of a function that should return a value: C++ itself. *)
  Definition no_return {B : Type} : outcome B := UB.

  (** Vector::clone(), Vector.hpp 617-624: there is no return statement. *)
  Definition vec_clone (fuel : nat) (v : vec A) : outcome (vec A) :=
    let! c := vec_reserve m mem vec_new (vec_size v) in
    let! xs := vec_elements v in
    let! _ := vec_push_all m mem fuel c xs in
    no_return.

  (** BasicString::clone(), String.hpp 443-448. *)
  Definition str_clone (nul : A) (s : str A) : outcome (str A) := str_copy nul s.

  (** List::clone(), List.hpp 535-540: a copy, the object with number [o]. *)
  Definition list_clone (dflt : A) (fuel : nat) (h : ListModel.heap A) (o : nat)
    (src : ListModel.dlist) : outcome (ListModel.heap A * ListModel.dlist) :=
    ListModel.list_copy dflt fuel h o src.

  (** HybridVector(const Array &), HybridVector.hpp 1329-1331, Variant.hpp 464-471: one copy of the
      elements. [cap] is ARRAY_CAPACITY. *)
  Definition hv_of_array (cap : nat) (a : svec A) : outcome (hybrid A) :=
    let! xs := sv_elements a in
    let! b := sv_copy m cap xs in
    Ok (HArr b).
  (** HybridVector(Array &&), HybridVector.hpp 1333-1335, Variant.hpp 473-480; Array(Array &&),
      Array.hpp 466-472, moves the elements one by one: what is left of the source is given by
      [moved]. *)
  Definition hv_of_moved_array (moved : A -> A) (cap : nat) (a : svec A)
    : outcome (hybrid A * svec A) :=
    let! xs := sv_elements a in
    let! b := sv_copy m cap xs in
    let! s := assign_list m (map moved xs) 0 (sv_store a) in
    Ok (HArr b, SVec s (sv_tail a)).
  (** HybridVector(const Vector &), HybridVector.hpp 1337-1339. *)
  Definition hv_of_vector (v : vec A) : outcome (hybrid A) :=
    let! xs := vec_elements v in
    let! w := vec_copy m xs in
    Ok (HVec w).
  (** HybridVector(Vector &&), HybridVector.hpp 1341-1343: the new object, and what is left of the source. *)
  Definition hv_of_moved_vector (v : vec A) : hybrid A * vec A :=
    (HVec (fst (vec_move v)), snd (vec_move v)).

  (** [copy = Me(...)] on an unset [copy], HybridVector.hpp 343-344, Variant.hpp 500-510: the array is moved,
      that is its elements are copied again. *)
  Definition hv_take (cap : nat) (h : hybrid A) : outcome (hybrid A) :=
    match h with
    | HUnset => Ok HUnset
    | HArr a => let! xs := sv_elements a in let! b := sv_copy m cap xs in Ok (HArr b)
    | HVec v => Ok (HVec (fst (vec_move v)))
    end.

  (** HybridVector::clone(), HybridVector.hpp 1470-1487. *)
  Definition hv_clone (cap : nat) (h : hybrid A) : outcome (hybrid A) :=
    match h with
    | HUnset => Ok HUnset
    | HArr a => let! t := hv_of_array cap a in hv_take cap t
    | HVec v => let! t := hv_of_vector v in hv_take cap t
    end.

  (** operator=(const Array &) and operator=(Array &&), HybridVector.hpp 1345-1355: the container is
      replaced and then there is no return statement. *)
  Definition hv_assign_array (cap : nat) (h : hybrid A) (a : svec A) : outcome (hybrid A) :=
    let! t := hv_of_array cap a in
    let! _ := hv_reset m h in
    let! _ := hv_take cap t in
    no_return.
  (** operator=(const Vector &) and operator=(Vector &&), HybridVector.hpp 1357-1367: the same. *)
  Definition hv_assign_vector (cap : nat) (h : hybrid A) (v : vec A) : outcome (hybrid A) :=
    let! t := hv_of_vector v in
    let! _ := hv_reset m h in
    let! _ := hv_take cap t in
    no_return.
End Clone.
