(** Model of StaticVector = Array<T, CAPACITY, false>
    (/repo/include/FlameIDE/Templates/Array.hpp, lines 39-426 declaration, 434-993
    definitions).

    The object is its storage of CAPACITY cells ([AlignObject<Type> objects[...]], line
    417) and the pointer [tail] (line 418), modelled as an index. [head()] (983-993) is
    index 0. Iterators are pointers (Iterator<Pointer, ...>), modelled as indices.

    Simplification: forming a pointer one before the array ([ReverseIterator(it - 1)] with
    [it == begin()], lines 821, 847, 885, 918) is not counted as UB; all accesses are. *)
From Coq Require Import List Arith Bool.
From Verif Require Import Base Store.
Import ListNotations.

(** The members objects and tail, Array.hpp 417-418. *)
Record svec (A : Type) := SVec { sv_store : store A; sv_tail : nat }.
Arguments SVec {A}.
Arguments sv_store {A}.
Arguments sv_tail {A}.

(** The argument of an insertion: an object outside the container, or a reference to an element of
    the same container. For the parameters of Array.hpp 770 and 809. *)
Inductive arg (A : Type) := Ext (x : A) | Own (i : nat).
Arguments Ext {A}.
Arguments Own {A}.

Section StaticVector.
  Context {A : Type}.
  Variable m : mode.
  Variable moved : A -> A.
  Variable dflt : A.
  Variable eqA : A -> A -> bool.

  (** capacity(), Array.hpp 671-675: the number of cells. *)
  Definition sv_capacity (v : svec A) : nat := length (st_cells (sv_store v)).

  (** size(), Array.hpp 665-669: [tail - head()]. *)
  Definition sv_size (v : svec A) : nat := sv_tail v.

  (** Array(), Array.hpp 434-438. *)
  Definition sv_new (cap : nat) : svec A := SVec (St (raw A cap) 0) 0.

  (** The value a `const Type &` parameter denotes when it is read (Array.hpp 774, 827). *)
  Definition arg_value (v : svec A) (a : arg A) : outcome A :=
    match a with
    | Ext x => Ok x
    | Own i => st_load (sv_store v) i
    end.

  (** pushBack(const &), Array.hpp 770-778. *)
  Definition sv_pushBack_arg (v : svec A) (a : arg A) : outcome (svec A) :=
    if sv_size v <? sv_capacity v then
      let! x := arg_value v a in
      let! s := st_construct m (sv_store v) (sv_tail v) x in
      Ok (SVec s (S (sv_tail v)))
    else Ok v.

  (** Array.hpp 770-778 with an argument outside the container. *)
  Definition sv_pushBack (v : svec A) (x : A) : outcome (svec A) := sv_pushBack_arg v (Ext x).

  (** pushBack(&&), Array.hpp 780-789: same effect on the container. *)
  Definition sv_pushBack_move (v : svec A) (x : A) : outcome (svec A) :=
    if sv_size v <? sv_capacity v then
      let! s := st_construct m (sv_store v) (sv_tail v) x in
      Ok (SVec s (S (sv_tail v)))
    else Ok v.

  (** emplaceBack, Array.hpp 791-797. [x] is the value built from the arguments. *)
  Definition sv_emplaceBack (v : svec A) (x : A) : outcome (svec A) :=
    if sv_size v <? sv_capacity v then
      let! s := st_construct m (sv_store v) (sv_tail v) x in
      Ok (SVec s (S (sv_tail v)))
    else Ok v.

  (** popBack, Array.hpp 799-807. *)
  Definition sv_popBack (v : svec A) : outcome (svec A) :=
    if sv_size v =? 0 then Ok v
    else
      let! s := st_destroy m (sv_store v) (sv_tail v - 1) in
      Ok (SVec s (sv_tail v - 1)).

  (** insert(Iterator, const &), Array.hpp 809-831. The loop (823-825) moves the cells
      [it .. tail-1] one up, highest first. The argument is read after the loop. *)
  Definition sv_insert_arg (v : svec A) (it : nat) (a : arg A) : outcome (svec A) :=
    if sv_size v <? sv_capacity v then
      if it =? sv_tail v then sv_pushBack_arg v a
      else
        let! s := st_construct m (sv_store v) (sv_tail v) dflt in
        let! s := shift_right m moved (sv_tail v - it) it 1 s in
        let! x := arg_value (SVec s (sv_tail v)) a in
        let! s := st_assign m s it x in
        Ok (SVec s (S (sv_tail v)))
    else Ok v.

  (** Array.hpp 809-831 with an argument outside the container. *)
  Definition sv_insert (v : svec A) (it : nat) (x : A) : outcome (svec A) :=
    sv_insert_arg v it (Ext x).

  (** insert(Iterator, &&), Array.hpp 833-857. *)
  Definition sv_insert_move (v : svec A) (it : nat) (x : A) : outcome (svec A) :=
    if sv_size v <? sv_capacity v then
      if it =? sv_tail v then sv_pushBack_move v x
      else
        let! s := st_construct m (sv_store v) (sv_tail v) dflt in
        let! s := shift_right m moved (sv_tail v - it) it 1 s in
        let! s := st_assign m s it x in
        Ok (SVec s (S (sv_tail v)))
    else Ok v.

  (** The loops [for (auto &i : range) pushBack(i)] (Array.hpp 445-446, 453-454, 462-463,
      470-471, 484-485, 516-517, 527-528, 540-541, 551-552, 619-620, 689-690, 874-877). *)
  Fixpoint sv_push_all (v : svec A) (xs : list A) : outcome (svec A) :=
    match xs with
    | [] => Ok v
    | x :: xs => let! v := sv_pushBack v x in sv_push_all v xs
    end.

  (** insert(Iterator, InputIterator, InputIterator), Array.hpp 859-904. The range is
      given by its values (it is outside the container). *)
  Definition sv_insert_range (v : svec A) (it : nat) (xs : list A) : outcome (svec A) :=
    let rangeSize := length xs in
    if rangeSize =? 0 then Ok v
    else if rangeSize + sv_size v <=? sv_capacity v then
      if it =? sv_tail v then sv_push_all v xs
      else
        let! s := construct_dflt m dflt rangeSize (sv_tail v) (sv_store v) in
        let! s := shift_right m moved (sv_tail v - it) it rangeSize s in
        let! s := assign_list m xs it s in
        Ok (SVec s (sv_tail v + rangeSize))
    else Ok v.

  (** emplace, Array.hpp 906-929. *)
  Definition sv_emplace (v : svec A) (it : nat) (x : A) : outcome (svec A) :=
    if sv_size v <? sv_capacity v then
      if it =? sv_tail v then sv_emplaceBack v x
      else
        let! s := st_construct m (sv_store v) (sv_tail v) dflt in
        let! s := shift_right m moved (sv_tail v - it) it 1 s in
        let! s := st_destroy m s it in
        let! s := st_construct m s it x in
        Ok (SVec s (S (sv_tail v)))
    else Ok v.

  (** erase(Iterator), Array.hpp 931-947. The last object is not destroyed when an inner
      element is erased. *)
  Definition sv_erase (v : svec A) (it : nat) : outcome (svec A) :=
    if it =? sv_tail v then Ok v
    else if S it =? sv_tail v then sv_popBack v
    else
      let! s := shift_left m moved (sv_tail v - S it) it 1 (sv_store v) in
      Ok (SVec s (sv_tail v - 1)).

  (** clean, Array.hpp 677-683. *)
  Definition sv_clean (v : svec A) : outcome (svec A) :=
    let! s := destroy_range m (sv_tail v) 0 (sv_store v) in
    Ok (SVec s 0).

  (** erase(Iterator, Iterator), Array.hpp 949-969. *)
  Definition sv_erase_range (v : svec A) (b e : nat) : outcome (svec A) :=
    if e =? b + sv_size v then sv_clean v
    else if (e - b <? sv_size v) && (b <? e) then
      let! s := destroy_range m (e - b) b (sv_store v) in
      let! s := shift_left m moved (sv_tail v - e) b (e - b) s in
      Ok (SVec s (sv_tail v - (e - b)))
    else Ok v.

  (** reset, Array.hpp 971-980: clean, then every cell's memory is overwritten with
      zeroes; objects still alive there are lost. *)
  Definition sv_reset (v : svec A) : outcome (svec A) :=
    let! v := sv_clean v in
    let s := sv_store v in
    Ok (SVec (St (raw A (length (st_cells s)))
                 (match m with
                  | Tracked => count_live (st_cells s) + st_leaks s
                  | Trivial => st_leaks s
                  end)) (sv_tail v)).

  (** operator=(const &) from another container, Array.hpp 509-531, and operator=(&&)
      533-555 (same effect on the target). The source is given by its contents. For equal
      capacities the size test is always false, so the two overloads agree. *)
  Definition sv_assign (v : svec A) (xs : list A) : outcome (svec A) :=
    if sv_capacity v <? length xs then Ok v
    else let! v := sv_clean v in sv_push_all v xs.

  (** Copying and moving constructors, Array.hpp 440-472: nothing is copied when the
      source does not fit. *)
  Definition sv_copy (cap : nat) (xs : list A) : outcome (svec A) :=
    if length xs <=? cap then sv_push_all (sv_new cap) xs else Ok (sv_new cap).

  (** Array(const U (&)[N]), Array.hpp 474-500 (N <= CAPACITY is a static_assert). *)
  Definition sv_of_array (cap : nat) (xs : list A) : outcome (svec A) :=
    sv_push_all (sv_new cap) xs.

  (** Visiting the elements from begin() to end(), Array.hpp 694-716. *)
  Definition sv_elements (v : svec A) : outcome (list A) :=
    load_range (sv_tail v) 0 (sv_store v).

  (** clone, Array.hpp 685-692. *)
  Definition sv_clone (v : svec A) : outcome (svec A) :=
    let! xs := sv_elements v in
    sv_push_all (sv_new (sv_capacity v)) xs.

  (** operator+=(Range), Array.hpp 615-622. *)
  Definition sv_append (v : svec A) (xs : list A) : outcome (svec A) := sv_push_all v xs.

  (** operator-=(Range<ReverseIterator>), Array.hpp 644-651. A reverse range is given by
      the indices its two iterators point to: [rb] = first visited, [re] = one before the
      last visited, shifted by one because it may be -1. [--] on a reverse iterator moves
      one up. *)
  Definition sv_erase_reverse (v : svec A) (rb re_plus_1 : nat) : outcome (svec A) :=
    sv_erase_range v re_plus_1 (S rb).

  (** operator==, Array.hpp 557-577: the iterator of the second container is never
      advanced (line 567-574). [same] tells whether both are the same object. *)
  Fixpoint all_equal_to (xs : list A) (y : outcome A) : outcome bool :=
    match xs with
    | [] => Ok true
    | x :: xs => let! y' := y in if eqA x y' then all_equal_to xs y else Ok false
    end.

  (** Array.hpp 557-577. *)
  Definition sv_eq (same : bool) (v w : svec A) : outcome bool :=
    if same then Ok true
    else if negb (sv_size v =? sv_size w) then Ok false
    else
      let! xs := sv_elements v in
      all_equal_to xs (st_load (sv_store w) 0).

  (** operator!=, Array.hpp 579-583. *)
  Definition sv_neq (same : bool) (v w : svec A) : outcome bool :=
    let! b := sv_eq same v w in Ok (negb b).

  (** operator[], Array.hpp 585-599. *)
  Definition sv_index (v : svec A) (i : nat) : outcome A := st_load (sv_store v) i.

  (** ~Array(), Array.hpp 502-507. The result is the storage after destruction. *)
  Definition sv_destructor (v : svec A) : outcome (store A) :=
    destroy_range m (sv_tail v) 0 (sv_store v).

  (** The operations of a history. A constructor for each member function of Array.hpp 434-980
      that changes the container. *)
  Inductive sv_op :=
  | PushBack (x : A) | PushBackMove (x : A) | EmplaceBack (x : A) | PopBack
  | Insert (it : nat) (x : A) | InsertMove (it : nat) (x : A)
  | InsertRange (it : nat) (xs : list A) | Emplace (it : nat) (x : A)
  | Erase (it : nat) | EraseRange (b e : nat)
  | Clean | Reset | Assign (xs : list A) | Append (xs : list A).

  (** The call of the member function. *)
  Definition sv_step (v : svec A) (op : sv_op) : outcome (svec A) :=
    match op with
    | PushBack x => sv_pushBack v x
    | PushBackMove x => sv_pushBack_move v x
    | EmplaceBack x => sv_emplaceBack v x
    | PopBack => sv_popBack v
    | Insert it x => sv_insert v it x
    | InsertMove it x => sv_insert_move v it x
    | InsertRange it xs => sv_insert_range v it xs
    | Emplace it x => sv_emplace v it x
    | Erase it => sv_erase v it
    | EraseRange b e => sv_erase_range v b e
    | Clean => sv_clean v
    | Reset => sv_reset v
    | Assign xs => sv_assign v xs
    | Append xs => sv_append v xs
    end.

  (** Calls in a row. *)
  Fixpoint sv_run (v : svec A) (ops : list sv_op) : outcome (svec A) :=
    match ops with
    | [] => Ok v
    | op :: ops => let! v := sv_step v op in sv_run v ops
    end.
End StaticVector.
Arguments sv_op : clear implicits.
