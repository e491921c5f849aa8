(** Model of HybridVector (/repo/include/FlameIDE/Templates/HybridVector.hpp).

    The object is a Variant<Array, Vector> (284, 593): unset, a StaticVector of
    ARRAY_CAPACITY cells, or a Vector. Its iterator is a Variant of the two iterators
    (27-157): unset, or an index into the array or the vector.

    Simplifications: element values are built before the call (emplace, emplaceBack); the
    storage of the variant itself is not modelled (VariantModel), but its effect is: storing
    an array in it copies the elements twice, into the temporary variant and from there. *)
From Coq Require Import List Arith ZArith Bool.
From Verif Require Import Base Store StaticVectorModel VectorModel.
Import ListNotations.

(** The member variant, HybridVector.hpp 284, 593. *)
Inductive hybrid (A : Type) :=
| HUnset
| HArr (a : svec A)
| HVec (v : vec A).
Arguments HUnset {A}.
Arguments HArr {A}.
Arguments HVec {A}.

(** The iterator, HybridVector.hpp 27-157: unset, into the array, into the vector. *)
Inductive hiter := INone | IArr (i : Z) | IVec (i : Z).

Section Hybrid.
  Context {A : Type}.
  Variable m : mode.
  Variable moved : A -> A.
  Variable dflt : A.
  Variable mem : memory.
  (** ARRAY_CAPACITY. *)
  Variable cap : nat.

  (** Recursion depth allowed to the functions of Vector: they need 2. Of the model. *)
  Definition vfuel : nat := 2.

  (** HybridVector(), 313. *)
  Definition hv_new : hybrid A := HUnset.

  (** size(), HybridVector.hpp 1423-1441. *)
  Definition hv_size (h : hybrid A) : nat :=
    match h with
    | HUnset => 0
    | HArr a => sv_size a
    | HVec v => vec_size v
    end.

  (** capacity(), HybridVector.hpp 1443-1461. *)
  Definition hv_capacity (h : hybrid A) : nat :=
    match h with
    | HUnset => 0
    | HArr a => sv_capacity a
    | HVec v => vc_capacity v
    end.

  (** begin(), 1490-1507; Array.hpp 694-698; Vector.hpp 626-630. *)
  Definition hv_begin (h : hybrid A) : hiter :=
    match h with
    | HUnset => INone
    | HArr _ => IArr 0
    | HVec _ => IVec 0
    end.
  (** end(), HybridVector.hpp 1578-1595. *)
  Definition hv_end (h : hybrid A) : hiter :=
    match h with
    | HUnset => INone
    | HArr a => IArr (Z.of_nat (sv_tail a))
    | HVec v => IVec (Z.of_nat (vc_tail v))
    end.

  (** operator+= and operator+, HybridVector.hpp 728-737, 777-794, operator++ 636-658, operator-- 660-682,
      operator-= and operator- 739-748, 796-813 (with a negative [d]): an unset iterator has no wrapped
      pointer to add to. ConstIterator has the same text, 1016-1069, 1099-1153; it can be made of an iterator
      of a Vector only (1011-1013), since 1008 does not compile. *)
  Definition hi_add (it : hiter) (d : Z) : outcome hiter :=
    match it with
    | INone => UB
    | IArr i => Ok (IArr (i + d))
    | IVec i => Ok (IVec (i + d))
    end.

  (** operator-(const Me &), HybridVector.hpp 750-775. *)
  Definition hi_minus (it jt : hiter) : Z :=
    match it, jt with
    | IArr i, IArr j => (i - j)%Z
    | IVec i, IVec j => (i - j)%Z
    | _, _ => 0%Z
    end.

  (** operator==, 815-819, of ConstIterator HybridVector.hpp 1155-1159, Variant.hpp 512-520: unset variants are
      equal to nothing. *)
  Definition hi_eq (it jt : hiter) : bool :=
    match it, jt with
    | IArr i, IArr j => (i =? j)%Z
    | IVec i, IVec j => (i =? j)%Z
    | _, _ => false
    end.

  (** operator ArrayIterator, HybridVector.hpp 945-954, and operator VectorIterator, 956-965: a null pointer
      when the iterator is of another kind. The position it stands for in its container. *)
  Definition hi_arr (it : hiter) : outcome nat :=
    match it with
    | IArr i => if (0 <=? i)%Z then Ok (Z.to_nat i) else UB
    | _ => UB
    end.
  (** operator VectorIterator, HybridVector.hpp 956-965. *)
  Definition hi_vec (it : hiter) : outcome nat :=
    match it with
    | IVec i => if (0 <=? i)%Z then Ok (Z.to_nat i) else UB
    | _ => UB
    end.

  (** operator*, HybridVector.hpp 684-697, 705-719 (const), operator-> 699-703, 721-726, of ConstIterator 1072-1097: an
      unset iterator is read as a vector iterator (null). *)
  Definition hi_deref (h : hybrid A) (it : hiter) : outcome A :=
    match it, h with
    | IArr _, HArr a => let! i := hi_arr it in sv_index a i
    | IVec _, HVec v => let! i := hi_vec it in vec_index v i
    | _, _ => UB
    end.

  (** operator[], HybridVector.hpp 1369-1382 with 931-943: [&*begin()] and then an index. *)
  Definition hv_index (h : hybrid A) (i : nat) : outcome A :=
    let! _ := hi_deref h (hv_begin h) in
    let! it := hi_add (hv_begin h) (Z.of_nat i) in
    hi_deref h it.

  (** [for (auto &x : hybrid)]: [it != end()] (HybridVector.hpp 821-825), [*it], [++it]. *)
  Fixpoint hv_visit (fuel : nat) (h : hybrid A) (it : hiter) : outcome (list A) :=
    match fuel with
    | O => Diverge
    | S f =>
        if negb (hi_eq it (hv_end h)) then
          let! x := hi_deref h it in
          let! it := hi_add it 1 in
          let! xs := hv_visit f h it in
          Ok (x :: xs)
        else Ok []
    end.
  (** [for (auto &x : hybrid)] from begin() to end(), HybridVector.hpp 1490-1595. *)
  Definition hv_elements (h : hybrid A) : outcome (list A) :=
    hv_visit (S (hv_size h)) h (hv_begin h).

  (** reset(), 1981-1985, Variant.hpp 540-548: the object in the variant is destroyed. *)
  Definition hv_reset (h : hybrid A) : outcome (hybrid A) :=
    match h with
    | HUnset => Ok HUnset
    | HArr a => let! _ := sv_destructor m a in Ok HUnset
    | HVec v => let! _ := vec_destructor m v in Ok HUnset
    end.

  (** [container = move(array)] on an unset container, HybridVector.hpp 2014 and 2019, Variant.hpp 473-480 and
      500-510: Array(Array &&) twice. *)
  Definition store_array (a : svec A) : outcome (hybrid A) :=
    let! xs := sv_elements a in
    let! b := sv_copy m cap xs in
    let! ys := sv_elements b in
    let! c := sv_copy m cap ys in
    Ok (HArr c).

  (** [container = move(vector)] on an unset container, HybridVector.hpp 2046: Vector(Vector &&) twice. *)
  Definition store_vector (v : vec A) : outcome (hybrid A) :=
    Ok (HVec (fst (vec_move (fst (vec_move v))))).

  (** useArray(), HybridVector.hpp 1989-2021. *)
  Definition hv_useArray (h : hybrid A) : outcome (hybrid A) :=
    match h with
    | HUnset => store_array (sv_new cap)
    | HArr _ => Ok h
    | HVec v =>
        let! xs := load_range (if cap <? vec_size v then cap else vec_size v) 0 (vc_store v) in
        let! a := sv_push_all m (sv_new cap) xs in
        let! _ := hv_reset h in
        store_array a
    end.

  (** useVector(), HybridVector.hpp 2023-2053. *)
  Definition hv_useVector (h : hybrid A) : outcome (hybrid A) :=
    match h with
    | HUnset =>
        let! v := vec_reserve m mem vec_new (cap * 2) in
        store_vector v
    | HArr a =>
        let! v := vec_reserve m mem vec_new (sv_size a * 2) in
        let! xs := sv_elements a in
        let! v := vec_push_all m mem vfuel v xs in
        let! _ := hv_reset h in
        store_vector v
    | HVec _ => Ok h
    end.

  (** clean(), HybridVector.hpp 1463-1468. *)
  Definition hv_clean (h : hybrid A) : outcome (hybrid A) :=
    let! _ := hv_reset h in
    store_array (sv_new cap).

  (** A reference to an element of the container, when the container is replaced. As in
      HybridVector.hpp 1989-2053. *)
  Definition lost (r : vref A) : vref A :=
    match r with
    | VOwn _ => VDangling
    | _ => r
    end.

  (** Of the model: an argument for the members of StaticVector, from one for the members of
      Vector. *)
  Definition as_arg (r : vref A) : outcome (arg A) :=
    match r with
    | VExt x => Ok (Ext x)
    | VOwn i => Ok (Own i)
    | VDangling => UB
    end.

  (** pushBack(const &), HybridVector.hpp 1666-1694, pushBack(&&), 1696-1724, emplaceBack, 1726-1755. The code
      recurses at most twice. *)
  Fixpoint hv_pushBack_ref (fuel : nat) (h : hybrid A) (r : vref A) : outcome (hybrid A) :=
    match fuel with
    | O => Diverge
    | S f =>
        match h with
        | HUnset => let! h := hv_useArray h in hv_pushBack_ref f h r
        | HArr a =>
            if sv_size a <? sv_capacity a then
              let! x := as_arg r in
              let! a := sv_pushBack_arg m a x in
              Ok (HArr a)
            else
              let! h := hv_useVector h in hv_pushBack_ref f h (lost r)
        | HVec v =>
            let! v := vec_pushBack_ref m mem vfuel v r in
            Ok (HVec v)
        end
    end.
  (** pushBack of an object outside the container, HybridVector.hpp 1666-1724. *)
  Definition hv_pushBack (h : hybrid A) (x : A) : outcome (hybrid A) :=
    hv_pushBack_ref 3 h (VExt x).

  (** popBack(), HybridVector.hpp 1757-1771. *)
  Definition hv_popBack (h : hybrid A) : outcome (hybrid A) :=
    match h with
    | HUnset => Ok h
    | HArr a => let! a := sv_popBack m a in Ok (HArr a)
    | HVec v => let! v := vec_popBack m v in Ok (HVec v)
    end.

  (** insert(Iterator, const &), HybridVector.hpp 1773-1807, and insert(Iterator, &&), 1809-1843 (which,
      like that of Vector, does not compile when it is called, C215_no_compile_refuted). When the array is full the position is computed as [begin() - it] (1788, 1824). *)
  Fixpoint hv_insert_at (fuel : nat) (h : hybrid A) (it : hiter) (x : A)
    : outcome (hybrid A) :=
    match fuel with
    | O => Diverge
    | S f =>
        match h with
        | HUnset => let! h := hv_useArray h in hv_insert_at f h it x
        | HArr a =>
            if sv_size a <? sv_capacity a then
              let! p := hi_arr it in
              let! a := sv_insert m moved dflt a p x in
              Ok (HArr a)
            else
              let diff := hi_minus (hv_begin h) it in
              let! h := hv_useVector h in
              let! it := hi_add (hv_begin h) diff in
              hv_insert_at f h it x
        | HVec v =>
            let! p := hi_vec it in
            let! v := vec_insert m moved dflt mem vfuel v p x in
            Ok (HVec v)
        end
    end.

  (** insert(Iterator, InputIterator, InputIterator), HybridVector.hpp 1845-1892; the range is outside the
      container and given by its values. The last branch (1878-1891) is reached only if an
      iterator is equal to the unset iterator. *)
  Fixpoint hv_insert_range_at (fuel : nat) (h : hybrid A) (it : hiter) (xs : list A)
    : outcome (hybrid A) :=
    match fuel with
    | O => Diverge
    | S f =>
        match h with
        | HArr a =>
            if length xs <? sv_capacity a - sv_size a then
              let! p := hi_arr it in
              let! a := sv_insert_range m moved dflt a p xs in
              Ok (HArr a)
            else
              let diff := hi_minus (hv_begin h) it in
              let! h := hv_useVector h in
              let! it := hi_add (hv_begin h) diff in
              hv_insert_range_at f h it xs
        | HVec v =>
            let! p := hi_vec it in
            let! v := vec_insert_range m moved dflt mem vfuel v p xs in
            Ok (HVec v)
        | HUnset =>
            if hi_eq it INone then
              if cap <? length xs then
                let! h := hv_useVector h in
                hv_insert_range_at f h (hv_end h) xs
              else
                let! h := hv_useArray h in
                hv_insert_range_at f h (hv_end h) xs
            else Ok h
        end
    end.

  (** emplace, HybridVector.hpp 1894-1927: here the position is [it - begin()] (1905). *)
  Fixpoint hv_emplace_at (fuel : nat) (h : hybrid A) (it : hiter) (x : A)
    : outcome (hybrid A) :=
    match fuel with
    | O => Diverge
    | S f =>
        match h with
        | HUnset => let! h := hv_useArray h in hv_emplace_at f h it x
        | HArr a =>
            if sv_capacity a =? sv_size a then
              let diff := hi_minus it (hv_begin h) in
              let! h := hv_useVector h in
              let! it := hi_add (hv_begin h) diff in
              hv_emplace_at f h it x
            else
              let! p := hi_arr it in
              let! a := sv_emplace m moved dflt a p x in
              Ok (HArr a)
        | HVec v =>
            let! p := hi_vec it in
            let! v := vec_emplace m moved dflt mem vfuel v p x in
            Ok (HVec v)
        end
    end.

  (** The part of erase after the element is gone, HybridVector.hpp 1939-1942 and 1948-1951. *)
  Definition shrink_array (a : svec A) : outcome (hybrid A) :=
    if sv_size a =? 0 then hv_reset (HArr a) else Ok (HArr a).
  (** What erase and popBack do after the element is gone, HybridVector.hpp 1939-1951. *)
  Definition shrink_vector (v : vec A) : outcome (hybrid A) :=
    if vec_size v <? cap then hv_useArray (HVec v) else Ok (HVec v).

  (** erase(Iterator), HybridVector.hpp 1929-1953. *)
  Definition hv_erase_at (h : hybrid A) (it : hiter) : outcome (hybrid A) :=
    match h with
    | HUnset => Ok h
    | HArr a =>
        let! p := hi_arr it in
        let! a := sv_erase m moved a p in
        shrink_array a
    | HVec v =>
        let! p := hi_vec it in
        let! v := vec_erase m moved v p in
        shrink_vector v
    end.

  (** erase(Iterator, Iterator), HybridVector.hpp 1955-1979. *)
  Definition hv_erase_range_at (h : hybrid A) (it jt : hiter) : outcome (hybrid A) :=
    match h with
    | HUnset => Ok h
    | HArr a =>
        let! p := hi_arr it in
        let! q := hi_arr jt in
        let! a := sv_erase_range m moved a p q in
        shrink_array a
    | HVec v =>
        let! p := hi_vec it in
        let! q := hi_vec jt in
        let! v := vec_erase_range m moved v p q in
        shrink_vector v
    end.

  (** HybridVector(const Me &), 314, Variant.hpp 450-455 and 299-311. *)
  Definition hv_copy (h : hybrid A) : outcome (hybrid A) :=
    match h with
    | HUnset => Ok HUnset
    | HArr a => let! xs := sv_elements a in let! b := sv_copy m cap xs in Ok (HArr b)
    | HVec v => let! xs := vec_elements v in let! w := vec_copy m xs in Ok (HVec w)
    end.

  (** The iterator a caller has for the position [p]: [begin()], advanced [p] times.
      HybridVector.hpp 728-737, 1490-1507. *)
  Definition hv_at (h : hybrid A) (p : nat) : outcome hiter :=
    match p with
    | O => Ok (hv_begin h)
    | S _ => hi_add (hv_begin h) (Z.of_nat p)
    end.

  (** The calls that change the container, HybridVector.hpp 1666-1979. *)
  Inductive hv_op :=
  | HPush (x : A) | HPop
  | HInsert (p : nat) (x : A) | HInsertRange (p : nat) (xs : list A) | HEmplace (p : nat) (x : A)
  | HErase (p : nat) | HEraseRange (b e : nat) | HClean.

  (** One call, HybridVector.hpp 1666-1979, by the functions above. *)
  Definition hv_step (h : hybrid A) (op : hv_op) : outcome (hybrid A) :=
    match op with
    | HPush x => hv_pushBack h x
    | HPop => hv_popBack h
    | HInsert p x => let! it := hv_at h p in hv_insert_at 3 h it x
    | HInsertRange p xs => let! it := hv_at h p in hv_insert_range_at 3 h it xs
    | HEmplace p x => let! it := hv_at h p in hv_emplace_at 3 h it x
    | HErase p => let! it := hv_at h p in hv_erase_at h it
    | HEraseRange b e =>
        let! it := hv_at h b in
        let! jt := hv_at h e in
        hv_erase_range_at h it jt
    | HClean => hv_clean h
    end.

  (** Of the model: the calls of a history one after the other. *)
  Fixpoint hv_run (h : hybrid A) (ops : list hv_op) : outcome (hybrid A) :=
    match ops with
    | [] => Ok h
    | op :: ops => let! h := hv_step h op in hv_run h ops
    end.
End Hybrid.
Arguments hv_op : clear implicits.
