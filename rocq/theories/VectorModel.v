(** Model of Vector (/repo/include/FlameIDE/Templates/Vector.hpp, 49-381 declaration,
    389-932 definitions).

    The object is [head] (memory from the allocator, modelled as its cells), [tail] (an
    index) and [vectorCapacity] (lines 378-380). [vectorCapacity] is kept apart from the
    number of cells because the code can make them differ. A null [head] is an empty list
    of cells.

    The allocator (Allocator/ArrayAllocator.hpp 102-154, MallocAllocator.hpp 66-93) is a
    parameter: realloc succeeds, or it fails and malloc succeeds, or both fail.
    Simplifications: sizes are unbounded naturals (a vector whose capacity times 3
    exceeds 2^64 is not modelled); forming a pointer before the array is not UB. *)
From Coq Require Import List Arith Bool.
From Verif Require Import Base Store StaticVectorModel.
Import ListNotations.

(** What the allocator answers, ArrayAllocator.hpp 102-154: realloc succeeds; it fails and malloc
    succeeds; both fail. *)
Inductive memory := Realloc | Fresh | NoMemory.

(** The members head, tail, vectorCapacity, Vector.hpp 378-380. *)
Record vec (A : Type) := Vec { vc_arr : svec A; vc_capacity : nat }.
Arguments Vec {A}.
Arguments vc_arr {A}.
Arguments vc_capacity {A}.

(** The argument of an insertion: an outside object, a reference to an element of the same vector,
    or a reference to memory the vector has given back. For the parameters of Vector.hpp 698, 713,
    725, 745, 777, 849. *)
Inductive vref (A : Type) := VExt (x : A) | VOwn (i : nat) | VDangling.
Arguments VExt {A}.
Arguments VOwn {A}.
Arguments VDangling {A}.

Section Vector.
  Context {A : Type}.
  Variable m : mode.
  Variable moved : A -> A.
  Variable dflt : A.
  Variable mem : memory.

  (** The memory at head, Vector.hpp 378. *)
  Definition vc_store (v : vec A) : store A := sv_store (vc_arr v).
  (** The member tail, Vector.hpp 379. *)
  Definition vc_tail (v : vec A) : nat := sv_tail (vc_arr v).

  (** Vector(), Vector.hpp 390-394. *)
  Definition vec_new : vec A := Vec (SVec (St [] 0) 0) 0.

  (** size(), Vector.hpp 538-542. *)
  Definition vec_size (v : vec A) : nat := vc_tail v.

  (** nextCapacity, Vector.hpp 921-932 with the factors of lines 10-20. *)
  Definition next_capacity (c : nat) : nat := if c =? 0 then 8 else c * 3 / 2.

  (** reserve, Vector.hpp 568-604. With [Realloc] the bytes of all cells go along; with [Fresh] the
      elements are moved one by one into new memory and destroyed in the old one, which is
      then released with whatever is still in it. *)
  Definition vec_reserve (v : vec A) (n : nat) : outcome (vec A) :=
    if vc_capacity v <? n then
      match mem with
      | Realloc =>
          let c := st_cells (vc_store v) in
          Ok (Vec (SVec (St (c ++ raw A (n - length c)) (st_leaks (vc_store v))) (vc_tail v)) n)
      | Fresh =>
          let! xs := load_range (vc_tail v) 0 (vc_store v) in
          let! s := destroy_range m (vc_tail v) 0 (vc_store v) in
          Ok (Vec (SVec (St (map Some xs ++ raw A (n - length xs))
                            (match m with
                             | Tracked => count_live (st_cells s) + st_leaks s
                             | Trivial => st_leaks s
                             end)) (vc_tail v)) n)
      | NoMemory => Ok v
      end
    else Ok v.

  (** The value a reference parameter denotes when it is read (Vector.hpp 706, 718, 731). *)
  Definition vref_value (v : vec A) (r : vref A) : outcome A :=
    match r with
    | VExt x => Ok x
    | VOwn i => st_load (vc_store v) i
    | VDangling => UB
    end.

  (** What a reference means after the vector was replaced by [v']: reallocation invalidates
      references to elements. Of the model, for the calls of reserve (Vector.hpp 568-604) inside
      698-878. *)
  Definition survive (v v' : vec A) (r : vref A) : vref A :=
    match r with
    | VOwn i => if vc_capacity v =? vc_capacity v' then VOwn i else VDangling
    | _ => r
    end.

  (** pushBack(const &), Vector.hpp 698-711, pushBack(&&), 713-723, and emplaceBack, 725-736: the
      same but for the kind of argument. The recursion of the code is fuelled. *)
  Fixpoint vec_pushBack_ref (fuel : nat) (v : vec A) (r : vref A) : outcome (vec A) :=
    match fuel with
    | O => Diverge
    | S f =>
        if negb (vc_tail v =? vc_capacity v) then
          let! x := vref_value v r in
          let! s := st_construct m (vc_store v) (vc_tail v) x in
          Ok (Vec (SVec s (S (vc_tail v))) (vc_capacity v))
        else
          let! v' := vec_reserve v (next_capacity (vc_capacity v)) in
          vec_pushBack_ref f v' (survive v v' r)
    end.
  (** Vector.hpp 698-736 with an argument outside the vector. *)
  Definition vec_pushBack (fuel : nat) (v : vec A) (x : A) := vec_pushBack_ref fuel v (VExt x).

  (** Of the model: a function whose text is that of Array.hpp, applied to head and tail. *)
  Definition vec_lift (v : vec A) (r : outcome (svec A)) : outcome (vec A) :=
    let! a := r in Ok (Vec a (vc_capacity v)).

  (** popBack, 738-743 (the text of Array.hpp 799-807). *)
  Definition vec_popBack (v : vec A) : outcome (vec A) := vec_lift v (sv_popBack m (vc_arr v)).

  (** insert(Iterator, const &), Vector.hpp 745-775, and insert(Iterator, &&), 777-807, as it is meant: as
      written it does not compile when it is called (785, C215_no_compile_refuted). The && version falls
      back to the const & version when it has to grow (805). *)
  Fixpoint vec_insert_ref (fuel : nat) (v : vec A) (it : nat) (r : vref A) : outcome (vec A) :=
    match fuel with
    | O => Diverge
    | S f =>
        if vec_size v <? vc_capacity v then
          if it =? vc_tail v then vec_pushBack_ref (S f) v r
          else
            let! s := st_construct m (vc_store v) (vc_tail v) dflt in
            let! s := shift_right m moved (vc_tail v - it) it 1 s in
            let! x := vref_value (Vec (SVec s (vc_tail v)) (vc_capacity v)) r in
            let! s := st_assign m s it x in
            Ok (Vec (SVec s (S (vc_tail v))) (vc_capacity v))
        else
          let! v' := vec_reserve v (next_capacity (vc_capacity v)) in
          vec_insert_ref f v' it (survive v v' r)
    end.
  (** Vector.hpp 745-807 with an argument outside the vector. *)
  Definition vec_insert (fuel : nat) (v : vec A) (it : nat) (x : A) :=
    vec_insert_ref fuel v it (VExt x).

  (** [for (auto &i : range) pushBack(i)], Vector.hpp 821-823. *)
  Fixpoint vec_push_all (fuel : nat) (v : vec A) (xs : list A) : outcome (vec A) :=
    match xs with
    | [] => Ok v
    | x :: xs => let! v := vec_pushBack fuel v x in vec_push_all fuel v xs
    end.

  (** insert(Iterator, InputIterator, InputIterator), Vector.hpp 809-847; the range is outside the
      vector and given by its values. *)
  Fixpoint vec_insert_range (fuel : nat) (v : vec A) (it : nat) (xs : list A)
    : outcome (vec A) :=
    match fuel with
    | O => Diverge
    | S f =>
        let rangeSize := length xs in
        if rangeSize =? 0 then Ok v
        else if rangeSize + vec_size v <=? vc_capacity v then
          if it =? vc_tail v then vec_push_all (S f) v xs
          else
            let! s := construct_dflt m dflt rangeSize (vc_tail v) (vc_store v) in
            let! s := shift_right m moved (vc_tail v - it) it rangeSize s in
            let! s := assign_list m xs it s in
            Ok (Vec (SVec s (vc_tail v + rangeSize)) (vc_capacity v))
        else
          let! v := vec_reserve v (vc_capacity v + rangeSize) in
          vec_insert_range f v it xs
    end.

  (** emplace, Vector.hpp 849-878: placement new over the moved-from element at [it]. *)
  Fixpoint vec_emplace (fuel : nat) (v : vec A) (it : nat) (x : A) : outcome (vec A) :=
    match fuel with
    | O => Diverge
    | S f =>
        if vec_size v <? vc_capacity v then
          if it =? vc_tail v then vec_pushBack (S f) v x
          else
            let! s := st_construct m (vc_store v) (vc_tail v) dflt in
            let! s := shift_right m moved (vc_tail v - it) it 1 s in
            let! s := st_construct m s it x in
            Ok (Vec (SVec s (S (vc_tail v))) (vc_capacity v))
        else
          let! v := vec_reserve v (next_capacity (vc_capacity v)) in
          vec_emplace f v it x
    end.

  (** erase(Iterator), 880-896, and erase(Iterator, Iterator), 898-919: the text of
      Array.hpp 931-969. clean, 606-615: the text of Array.hpp 677-683. *)
  Definition vec_erase (v : vec A) (it : nat) : outcome (vec A) :=
    vec_lift v (sv_erase m moved (vc_arr v) it).
  (** erase(Iterator, Iterator), Vector.hpp 898-919. *)
  Definition vec_erase_range (v : vec A) (b e : nat) : outcome (vec A) :=
    vec_lift v (sv_erase_range m moved (vc_arr v) b e).
  (** clean, Vector.hpp 606-615 (the text of Array.hpp 677-683). *)
  Definition vec_clean (v : vec A) : outcome (vec A) := vec_lift v (sv_clean m (vc_arr v)).

  (** resize, Vector.hpp 550-566. *)
  Fixpoint vec_resize (fuel : nat) (v : vec A) (n : nat) : outcome (vec A) :=
    match fuel with
    | O => Diverge
    | S f =>
        if vec_size v <? n then
          if n <? vc_capacity v then
            let! s := construct_dflt m dflt (n - vc_tail v) (vc_tail v) (vc_store v) in
            Ok (Vec (SVec s n) (vc_capacity v))
          else if vc_capacity v <? n then
            let! v := vec_reserve v (next_capacity (vc_capacity v)) in
            vec_resize f v n
          else Ok v
        else Ok v
    end.

  (** Vector(const Vector &), Vector.hpp 407-416, Vector(InitializerList), 446-459, and the copy from
      another traits/allocator, 396-405: exactly as much memory as elements. *)
  Definition vec_copy (xs : list A) : outcome (vec A) :=
    let n := length xs in
    let! s := construct_list m xs 0 (St (raw A n) 0) in
    Ok (Vec (SVec s n) n).

  (** Vector(Vector &&), Vector.hpp 429-437: the new vector, and what is left of the source. *)
  Definition vec_move (v : vec A) : vec A * vec A :=
    (v, Vec (SVec (St [] 0) 0) (vc_capacity v)).

  (** Vector(SizeType), Vector.hpp 439-444. *)
  Definition vec_of_size (size : nat) : outcome (vec A) :=
    let n := size * 3 / 2 in
    let! s := construct_dflt m dflt n 0 (St (raw A n) 0) in
    Ok (Vec (SVec s n) n).

  (** operator=(const Vector<T, Traits1, Allocator1> &), Vector.hpp 468-487 (the other assignment
      operators for the same type are declared, 132 and 147, but not defined). The source is given by its
      contents. *)
  Fixpoint vec_assign (fuel : nat) (v : vec A) (xs : list A) : outcome (vec A) :=
    match fuel with
    | O => Diverge
    | S f =>
        if vc_capacity v <? length xs then
          let! v := vec_reserve v (length xs - vc_capacity v) in
          vec_assign f v xs
        else
          let! v := vec_clean v in
          let! s := assign_list m xs 0 (vc_store v) in
          Ok (Vec (SVec s (vc_tail v)) (vc_capacity v))
    end.

  (** begin() .. end(), Vector.hpp 626-642, 662-678. *)
  Definition vec_elements (v : vec A) : outcome (list A) :=
    load_range (vc_tail v) 0 (vc_store v).

  (** operator[], Vector.hpp 510-524. *)
  Definition vec_index (v : vec A) (i : nat) : outcome A := st_load (vc_store v) i.

  (** ~Vector(), Vector.hpp 461-466: clean and free; the result is the number of objects that were
      overwritten or freed without being destroyed. *)
  Definition vec_destructor (v : vec A) : outcome nat :=
    let! v := vec_clean v in
    Ok (count_live (st_cells (vc_store v)) + st_leaks (vc_store v)).

  (** The member functions that change the vector, Vector.hpp 550-919. *)
  Inductive vec_op :=
  | VPush (x : A) | VEmplaceBack (x : A) | VPop
  | VInsert (it : nat) (x : A) | VInsertRange (it : nat) (xs : list A)
  | VEmplace (it : nat) (x : A)
  | VErase (it : nat) | VEraseRange (b e : nat)
  | VClean | VReserve (n : nat) | VResize (n : nat).

  (** The call of the member function. *)
  Definition vec_step (fuel : nat) (v : vec A) (op : vec_op) : outcome (vec A) :=
    match op with
    | VPush x | VEmplaceBack x => vec_pushBack fuel v x
    | VPop => vec_popBack v
    | VInsert it x => vec_insert fuel v it x
    | VInsertRange it xs => vec_insert_range fuel v it xs
    | VEmplace it x => vec_emplace fuel v it x
    | VErase it => vec_erase v it
    | VEraseRange b e => vec_erase_range v b e
    | VClean => vec_clean v
    | VReserve n => vec_reserve v n
    | VResize n => vec_resize fuel v n
    end.

  (** Calls in a row. *)
  Fixpoint vec_run (fuel : nat) (v : vec A) (ops : list vec_op) : outcome (vec A) :=
    match ops with
    | [] => Ok v
    | op :: ops => let! v := vec_step fuel v op in vec_run fuel v ops
    end.
End Vector.
Arguments vec_op : clear implicits.
