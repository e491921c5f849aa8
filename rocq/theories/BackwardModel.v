(** Model of visiting a contiguous container from rbegin() to rend(): StaticArray and
    StaticVector (/repo/include/FlameIDE/Templates/Array.hpp), Vector (Vector.hpp), String
    (String.hpp) and HybridVector (HybridVector.hpp), with ReverseIterator
    (Iterator/ReverseIterator.hpp) and the macros of Iterator/Operators.hpp.

    rend() is one step before the first element. C++ gives no such pointer: [strict] says
    whether forming it is undefined behaviour (as in the standard) or simply the address
    below (as on a machine with flat memory).

    Not modelled because they do not compile when used: rbegin() and rend() of a const
    String (String.hpp 478-483, 520-525: a ConstIterator<ReverseIterator> is asked for from
    a character pointer, two conversions away) and of a const HybridVector. *)
From Coq Require Import List Arith ZArith Bool.
From Verif Require Import Base Store StaticVectorModel VectorModel StringModel HybridVectorModel.
Import ListNotations.

(** The four containers whose iterators are pointers: the array of StaticArray, Array.hpp 1263;
    the members of StaticVector, Array.hpp 417-418; of Vector, Vector.hpp 378-380; of String,
    String.hpp 160-162. *)
Inductive buffer (A : Type) :=
| BArray (a : list (option A))
| BStatic (v : svec A)
| BVector (v : vec A)
| BString (s : str A).
Arguments BArray {A}.
Arguments BStatic {A}.
Arguments BVector {A}.
Arguments BString {A}.

Section Backward.
  Context {A St : Type}.
  (** Forming a pointer before the memory is undefined behaviour. *)
  Variable strict : bool.
  (** What the body of the loop does with the element the iterator is at: the new state of the
      caller and the new value of the element. Of the application. *)
  Variable body : St -> A -> St * A.

  (** The memory the container owns (null: none). Array.hpp 1263, 417-418, Vector.hpp 378,
      String.hpp 174. *)
  Definition memory_of (b : buffer A) : list (option A) :=
    match b with
    | BArray a => a
    | BStatic v => st_cells (sv_store v)
    | BVector v => st_cells (vc_store v)
    | BString s => match s_buf s with Some c => c | None => [] end
    end.

  (** end() - begin(): Array.hpp 1498-1508 (head() + capacity()), 706-716 (tail), Vector.hpp 662-672,
      String.hpp 492-504. *)
  Definition end_of (b : buffer A) : nat :=
    match b with
    | BArray a => length a
    | BStatic v => sv_tail v
    | BVector v => vc_tail v
    | BString s => s_tail s
    end.

  (** The container with other memory contents. Of the model. *)
  Definition with_memory (b : buffer A) (c : list (option A)) : buffer A :=
    match b with
    | BArray _ => BArray c
    | BStatic v => BStatic (SVec (Store.St c (st_leaks (sv_store v))) (sv_tail v))
    | BVector v =>
        BVector (Vec (SVec (Store.St c (st_leaks (vc_store v))) (vc_tail v)) (vc_capacity v))
    | BString s =>
        BString (Str (match s_buf s with Some _ => Some c | None => None end) (s_cap s) (s_tail s))
    end.

  (** [--it] on a pointer, Operators.hpp 18-23: position [p] of the memory. *)
  Definition before (p : Z) : outcome Z :=
    if strict && (p <=? 0)%Z then UB else Ok (p - 1)%Z.

  (** rbegin(), Array.hpp 1510-1522 and 718-730, Vector.hpp 644-654, String.hpp 471-483. *)
  Definition rbegin_of (b : buffer A) : outcome Z := before (Z.of_nat (end_of b)).
  (** rend(), Array.hpp 1524-1536 and 732-744, Vector.hpp 680-690, String.hpp 513-525. *)
  Definition rend_of (b : buffer A) : outcome Z := before 0.

  (** [*it] and an assignment to it, Operators.hpp 63-67: the object at the position. *)
  Definition visit_at (c : list (option A)) (p : Z) (s : St) : outcome (St * list (option A)) :=
    if (p <? 0)%Z then UB else
    let! x := load c (Z.to_nat p) in
    let (s', x') := body s x in
    let! c' := assign c (Z.to_nat p) x' in
    Ok (s', c').

  (** [for (it = rbegin(); it != rend(); ++it)]: != is BaseIterator.hpp 122-128, ++ Operators.hpp
      33-38. Result: the state of the caller, the memory. *)
  Fixpoint walk_back (fuel : nat) (c : list (option A)) (p e : Z) (s : St)
    : outcome (St * list (option A)) :=
    match fuel with
    | O => Diverge
    | S f =>
        if (p =? e)%Z then Ok (s, c)
        else
          let! (s', c') := visit_at c p s in
          let! q := before p in
          walk_back f c' q e s'
    end.
  (** The whole loop. As above. *)
  Definition visit_back (fuel : nat) (b : buffer A) (s : St) : outcome (St * buffer A) :=
    let! p := rbegin_of b in
    let! e := rend_of b in
    let! (s', c) := walk_back fuel (memory_of b) p e s in
    Ok (s', with_memory b c).

  (** [--it] on a reverse iterator, Operators.hpp 48-53. *)
  Definition after (p : Z) : Z := (p + 1)%Z.

  (** Visiting in the usual order with a reverse iterator: [for (it = rend(); it != rbegin();) {
      --it; ... }]. As above. *)
  Fixpoint walk_forth (fuel : nat) (c : list (option A)) (p e : Z) (s : St)
    : outcome (St * list (option A)) :=
    match fuel with
    | O => Diverge
    | S f =>
        if (p =? e)%Z then Ok (s, c)
        else
          let q := after p in
          let! (s', c') := visit_at c q s in
          walk_forth f c' q e s'
    end.
  (** The whole loop. As above. *)
  Definition visit_forth (fuel : nat) (b : buffer A) (s : St) : outcome (St * buffer A) :=
    let! p := rend_of b in
    let! e := rbegin_of b in
    let! (s', c) := walk_forth fuel (memory_of b) p e s in
    Ok (s', with_memory b c).
End Backward.

Section Hybrid.
  Context {A : Type}.

  (** rbegin(), HybridVector.hpp 1534-1551: [Iterator(--end())], or an unset iterator. Pointers are
      those of a flat memory (not [strict]). *)
  Definition hv_rbegin (h : hybrid A) : hiter :=
    match hv_end h with
    | INone => INone
    | IArr i => IArr (i - 1)
    | IVec i => IVec (i - 1)
    end.
  (** rend(), HybridVector.hpp 1622-1639. *)
  Definition hv_rend (h : hybrid A) : hiter :=
    match hv_begin h with
    | INone => INone
    | IArr i => IArr (i - 1)
    | IVec i => IVec (i - 1)
    end.
  (** operator-- of Iterator, HybridVector.hpp 660-673, which ++ of ReverseIterator calls
      (Operators.hpp 33-38): an unset iterator has no pointer to step. *)
  Definition hi_dec (it : hiter) : outcome hiter :=
    match it with
    | INone => UB
    | IArr i => Ok (IArr (i - 1))
    | IVec i => Ok (IVec (i - 1))
    end.
  (** [for (it = rbegin(); it != rend(); ++it)]: the values of the elements; != is HybridVector.hpp
      821-825 through BaseIterator.hpp 122-128. *)
  Fixpoint hv_walk_back (fuel : nat) (h : hybrid A) (it : hiter) : outcome (list A) :=
    match fuel with
    | O => Diverge
    | S f =>
        if negb (hi_eq it (hv_rend h)) then
          let! x := hi_deref h it in
          let! it := hi_dec it in
          let! xs := hv_walk_back f h it in
          Ok (x :: xs)
        else Ok []
    end.
  (** The whole loop. As above. *)
  Definition hv_backward (h : hybrid A) : outcome (list A) :=
    hv_walk_back (S (hv_size h)) h (hv_rbegin h).

  (** data()[i], HybridVector.hpp 1384-1401 (1404-1421 for const): the memory of the array
      (Array.hpp 653-663) or the vector (Vector.hpp 526-536), null when unset. *)
  Definition hv_data_at (h : hybrid A) (i : nat) : outcome A :=
    match h with
    | HUnset => UB
    | HArr a => st_load (sv_store a) i
    | HVec v => st_load (vc_store v) i
    end.
End Hybrid.
