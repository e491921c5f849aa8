(** Model of CircularArray
    (/repo/include/FlameIDE/Templates/CircularArray.hpp, 25-240 declaration, 255-524
    definitions).

    The object is its buffer [StaticVector<T, ARRAY_CAPACITY + 1>] (line 43: [N] =
    CAPACITY + 1 cells, plus the buffer's own [tail], which only the copying and moving
    constructors advance) and the iterators [head] and [tail] into it, modelled as
    indices. *)
From Coq Require Import List Arith Bool ZArith.
From Verif Require Import Base Store StaticVectorModel IteratorsModel.
Import ListNotations.

(** The members, CircularArray.hpp 43 (the type of the buffer) and 244-246. *)
Record circ (A : Type) := Circ
  { ca_buffer : svec A; ca_head : nat; ca_tail : nat }.
Arguments Circ {A}.
Arguments ca_buffer {A}.
Arguments ca_head {A}.
Arguments ca_tail {A}.

Section CircularArray.
  Context {A : Type}.
  Variable m : mode.

  (** The member buffer (line 47) without its own tail. *)
  Definition ca_store (c : circ A) : store A := sv_store (ca_buffer c).

  (** BufferType::CAPACITY. ARRAY_CAPACITY + 1, line 47. *)
  Definition ca_N (c : circ A) : nat := length (st_cells (ca_store c)).

  (** capacity(), CircularArray.hpp 107-110. *)
  Definition ca_capacity (c : circ A) : nat := ca_N c - 1.

  (** CircularArray(), CircularArray.hpp 263-266. *)
  Definition ca_new (cap : nat) : circ A := Circ (sv_new (S cap)) 0 0.

  (** size(), CircularArray.hpp 331-343. *)
  Definition ca_size (c : circ A) : nat :=
    if ca_tail c <? ca_head c
    then ca_capacity c - (ca_head c - ca_tail c - 1)
    else ca_tail c - ca_head c.

  (** Circular iterators over the whole buffer (getBufferRange, CircularArray.hpp 222-230) as indices. *)
  Definition ci_inc (n it : nat) : nat :=
    Z.to_nat (circ_inc 0 (Z.of_nat n) (Z.of_nat it)).
  (** CircularIterator::operator-- (Operators.hpp 487-497) over the buffer. *)
  Definition ci_dec (n it : nat) : nat :=
    Z.to_nat (circ_dec 0 (Z.of_nat n) (Z.of_nat it)).
  (** CircularIterator::operator+= (Operators.hpp 499-515) over the buffer. *)
  Definition ci_plus (n it k : nat) : nat :=
    Z.to_nat (circ_plus 0 (Z.of_nat n) (Z.of_nat it) (Z.of_nat k)).
  (** CircularIterator::operator-= (Operators.hpp 517-533) over the buffer. *)
  Definition ci_minus (n it k : nat) : nat :=
    Z.to_nat (circ_minus 0 (Z.of_nat n) (Z.of_nat it) (Z.of_nat k)).

  (** begin(), CircularArray.hpp 430-435, and end(), 472-477. *)
  Definition ca_begin (c : circ A) : nat := ca_head c.
  (** end(), CircularArray.hpp 472-477. *)
  Definition ca_end (c : circ A) : nat := ci_plus (ca_N c) (ca_begin c) (ca_size c).

  (** cbegin(), CircularArray.hpp 444-449 (and begin() const 437-442): the first cell of the buffer, not the
      head of the queue. cend(), 486-491. *)
  Definition ca_cbegin (c : circ A) : nat := 0.
  (** end() const, CircularArray.hpp 479-484, and cend(), 486-491. *)
  Definition ca_cend (c : circ A) : nat := ci_plus (ca_N c) (ca_cbegin c) (ca_size c).

  (** rbegin(), CircularArray.hpp 451-456, and rend(), 493-498. *)
  Definition ca_rbegin (c : circ A) : nat := ci_dec (ca_N c) (ca_end c).
  (** rend(), CircularArray.hpp 493-498. *)
  Definition ca_rend (c : circ A) : nat := ci_minus (ca_N c) (ca_rbegin c) (ca_size c).

  (** [for (it = first; it != last; ++it) visit( *it )]: the indices visited. The range-for over
      begin() and end(), CircularArray.hpp 430-512, of a user and of 349-350. *)
  Fixpoint visit (fuel : nat) (next : nat -> nat) (it last : nat) : outcome (list nat) :=
    if it =? last then Ok []
    else match fuel with
         | O => Diverge
         | S f => let! is_ := visit f next (next it) last in Ok (it :: is_)
         end.

  (** Of the model: the values at the visited cells. *)
  Fixpoint load_all (s : store A) (is_ : list nat) : outcome (list A) :=
    match is_ with
    | [] => Ok []
    | i :: is_ =>
        let! x := st_load s i in
        let! xs := load_all s is_ in
        Ok (x :: xs)
    end.

  (** Of the model: the destructors of the elements at these cells (Array.hpp 502-507 for the
      buffer). *)
  Fixpoint destroy_all (s : store A) (is_ : list nat) : outcome (store A) :=
    match is_ with
    | [] => Ok s
    | i :: is_ => let! s := st_destroy m s i in destroy_all s is_
    end.

  (** The elements seen by [for (auto &i : array)] (non-const), by const traversal, and by reverse
      traversal. The loop needs at most [N] steps; running out of fuel means that it never ends.
      begin() CircularArray.hpp 430-435, end() 472-477. *)
  Definition ca_indices (c : circ A) : outcome (list nat) :=
    visit (ca_N c) (ci_inc (ca_N c)) (ca_begin c) (ca_end c).
  (** begin() CircularArray.hpp 430-435, end() 472-477. *)
  Definition ca_elements (c : circ A) : outcome (list A) :=
    let! is_ := ca_indices c in load_all (ca_store c) is_.
  (** cbegin() CircularArray.hpp 444-449, cend() 486-491. *)
  Definition ca_celements (c : circ A) : outcome (list A) :=
    let! is_ := visit (ca_N c) (ci_inc (ca_N c)) (ca_cbegin c) (ca_cend c) in
    load_all (ca_store c) is_.
  (** rbegin() CircularArray.hpp 451-456, rend() 493-498. *)
  Definition ca_relements (c : circ A) : outcome (list A) :=
    let! is_ := visit (ca_N c) (ci_dec (ca_N c)) (ca_rbegin c) (ca_rend c) in
    load_all (ca_store c) is_.

  (** updateTerminal, CircularArray.hpp 516-524. *)
  Definition updateTerminal (n t : nat) : nat := if t =? n then 0 else t.

  (** Construct at [tail], advance and wrap: the common part of CircularArray.hpp 360-362, 372-374, 391-392,
      408-409. *)
  Definition ca_place (c : circ A) (x : A) : outcome (circ A) :=
    let! s := st_construct m (ca_store c) (ca_tail c) x in
    Ok (Circ (SVec s (sv_tail (ca_buffer c))) (ca_head c)
             (updateTerminal (ca_N c) (S (ca_tail c)))).

  (** pushBack(const &) and pushBack(&&), CircularArray.hpp 355-376. *)
  Definition ca_pushBack (c : circ A) (x : A) : outcome (circ A) :=
    if ca_size c =? ca_capacity c then Ok c else ca_place c x.

  (** pushBack(Range), CircularArray.hpp 378-412. The range is given by its values. *)
  Fixpoint ca_place_all (c : circ A) (xs : list A) : outcome (circ A) :=
    match xs with
    | [] => Ok c
    | x :: xs => let! c := ca_place c x in ca_place_all c xs
    end.
  (** pushBack(Range), CircularArray.hpp 378-412: all or nothing. *)
  Definition ca_pushBack_range (c : circ A) (xs : list A) : outcome (circ A) :=
    if length xs <=? ca_capacity c - ca_size c then ca_place_all c xs else Ok c.

  (** emplaceBack, CircularArray.hpp 414-418: pushBack of a temporary. *)
  Definition ca_emplaceBack (c : circ A) (x : A) : outcome (circ A) := ca_pushBack c x.

  (** popFront, CircularArray.hpp 420-428. *)
  Definition ca_popFront (c : circ A) : outcome (circ A) :=
    if ca_head c =? ca_tail c then Ok c
    else
      let! s := st_destroy m (ca_store c) (ca_head c) in
      Ok (Circ (SVec s (sv_tail (ca_buffer c)))
               (updateTerminal (ca_N c) (S (ca_head c))) (ca_tail c)).

  (** clean, CircularArray.hpp 345-353. The loop [for (auto i : *this) i.~T()] copies each element and
      destroys the copy, which is destroyed again at the end of the iteration: harmless
      for trivial types, UB for the others. The elements are not destroyed. *)
  Definition ca_clean (c : circ A) : outcome (circ A) :=
    let! xs := ca_elements c in
    match m, xs with
    | Tracked, _ :: _ => UB
    | _, _ => Ok (Circ (ca_buffer c) 0 0)
    end.

  (** CircularArray(const Me &), CircularArray.hpp 268-276: const traversal of the source. *)
  Definition ca_copy (c : circ A) : outcome (circ A) :=
    let! xs := ca_celements c in
    let! b := sv_push_all m (sv_new (ca_N c)) xs in
    Ok (Circ b 0 (ca_size c)).

  (** CircularArray(Me &&), CircularArray.hpp 278-286: non-const traversal of the source. Effect on the new
      object only. *)
  Definition ca_move (c : circ A) : outcome (circ A) :=
    let! xs := ca_elements c in
    let! b := sv_push_all m (sv_new (ca_N c)) xs in
    Ok (Circ b 0 (ca_size c)).

  (** operator=(const &) and operator=(&&), CircularArray.hpp 297-315: no return statement, so flowing off
      the end is UB whatever was copied. *)
  Definition ca_assign (c d : circ A) : outcome (circ A) :=
    let! c := ca_clean c in
    let! xs := ca_celements d in
    let! _ := ca_place_all c xs in
    UB.

  (** ~CircularArray(), CircularArray.hpp 288-295: destroys the elements; afterwards the destructor of the
      member [buffer] destroys the objects the buffer itself counts. *)
  Definition ca_destructor (c : circ A) : outcome (store A) :=
    let! is_ := ca_indices c in
    let! s := destroy_all (ca_store c) is_ in
    sv_destructor m (SVec s (sv_tail (ca_buffer c))).

  (** The member functions that change the queue: pushBack CircularArray.hpp 355-376, emplaceBack 414-418,
      pushBack(Range) 378-412, popFront 420-428, clean 345-353. *)
  Inductive ca_op :=
  | CPush (x : A) | CEmplace (x : A) | CPushRange (xs : list A) | CPop | CClean.

  (** The call of the member function, CircularArray.hpp 345-428. *)
  Definition ca_step (c : circ A) (op : ca_op) : outcome (circ A) :=
    match op with
    | CPush x => ca_pushBack c x
    | CEmplace x => ca_emplaceBack c x
    | CPushRange xs => ca_pushBack_range c xs
    | CPop => ca_popFront c
    | CClean => ca_clean c
    end.

  (** Calls in a row. *)
  Fixpoint ca_run (c : circ A) (ops : list ca_op) : outcome (circ A) :=
    match ops with
    | [] => Ok c
    | op :: ops => let! c := ca_step c op in ca_run c ops
    end.
End CircularArray.
Arguments ca_op : clear implicits.
