(** Copies, moves and assignments of HybridVectors, in programs with any number of them.

    Source: /repo/include/FlameIDE/Templates/HybridVector.hpp 313-315, 342-344 (all defaulted: they copy, move
    or assign the member variant), Variant.hpp 450-462, 488-510. *)
From Coq Require Import List Arith.
From Verif Require Import Base Store StaticVectorModel VectorModel HybridVectorModel CloneModel.
Import ListNotations.

Section HybridCopy.
  Context {A : Type}.
  Variable m : mode.
  Variable moved : A -> A.
  Variable dflt : A.
  Variable mem : memory.
  (** ARRAY_CAPACITY. *)
  Variable cap : nat.

  (** HybridVector(Me &&), HybridVector.hpp 315, Variant.hpp 457-462: the alternative is constructed from the
      source's by its move constructor (Array(Array &&), Array.hpp 466-472; Vector(Vector &&), Vector.hpp
      429-437); the index of the source is kept. The new object, and what is left of the source. *)
  Definition hv_move (h : hybrid A) : outcome (hybrid A * hybrid A) :=
    match h with
    | HUnset => Ok (HUnset, HUnset)
    | HArr a => let! p := hv_of_moved_array m moved cap a in Ok (fst p, HArr (snd p))
    | HVec v => Ok (fst (hv_of_moved_vector v), HVec (snd (hv_of_moved_vector v)))
    end.

  (** operator=(const Me &) with another object, HybridVector.hpp 343, Variant.hpp 488-498: nothing if the
      source is not set; else reset() and the copy constructor of the alternative. *)
  Definition hv_assign (h src : hybrid A) : outcome (hybrid A) :=
    match src with
    | HUnset => Ok h
    | _ => let! _ := hv_reset m h in hv_copy m cap src
    end.

  (** operator=(Me &&) with another object, HybridVector.hpp 344, Variant.hpp 500-510: the target, and what is
      left of the source. *)
  Definition hv_move_assign (h src : hybrid A) : outcome (hybrid A * hybrid A) :=
    match src with
    | HUnset => Ok (h, src)
    | _ => let! _ := hv_reset m h in hv_move src
    end.

  (** A call of a program with several objects; objects are numbered in the order they are made. Of the
      application. *)
  Inductive hv_call :=
  | CNew | CDo (i : nat) (op : hv_op A) | CCopy (i : nat) | CMove (i : nat)
  | CAssign (i j : nat) | CMoveAssign (i j : nat).

  (** The object with number [i]. Of the model. *)
  Definition object_at (os : list (hybrid A)) (i : nat) : outcome (hybrid A) :=
    match nth_error os i with Some h => Ok h | None => UB end.

  (** One call, HybridVector.hpp 313-344 and 1666-1979; an object assigned to itself is left as it is,
      Variant.hpp 491, 503. *)
  Definition multi_step (os : list (hybrid A)) (c : hv_call) : outcome (list (hybrid A)) :=
    match c with
    | CNew => Ok (os ++ [hv_new])
    | CDo i op =>
        let! h := object_at os i in
        let! h := hv_step m moved dflt mem cap h op in
        Ok (upd os i h)
    | CCopy i =>
        let! h := object_at os i in
        let! h := hv_copy m cap h in
        Ok (os ++ [h])
    | CMove i =>
        let! h := object_at os i in
        let! p := hv_move h in
        Ok (upd os i (snd p) ++ [fst p])
    | CAssign i j =>
        let! h := object_at os i in
        let! src := object_at os j in
        if i =? j then Ok os
        else let! h := hv_assign h src in Ok (upd os i h)
    | CMoveAssign i j =>
        let! h := object_at os i in
        let! src := object_at os j in
        if i =? j then Ok os
        else let! p := hv_move_assign h src in Ok (upd (upd os j (snd p)) i (fst p))
    end.
  (** The calls one after the other. Of the model. *)
  Fixpoint multi_run (os : list (hybrid A)) (cs : list hv_call) : outcome (list (hybrid A)) :=
    match cs with
    | [] => Ok os
    | c :: cs => let! os := multi_step os c in multi_run os cs
    end.
End HybridCopy.
Arguments hv_call : clear implicits.
