(** The life of the elements of a HybridVector whose type has constructors and destructors: the functions of
    HybridVectorModel with every temporary container and every destructor, and with the number of objects
    that are never destroyed. An object is lost when another is constructed over it, or when the memory it
    lives in goes away.

    Source: /repo/include/FlameIDE/Templates/HybridVector.hpp 1463-1468, 1666-2053; Variant.hpp 466-510, 540-548. *)
From Coq Require Import List Arith ZArith.
From Verif Require Import Base Store StaticVectorModel VectorModel HybridVectorModel CloneModel.
Import ListNotations.

Section Life.
  Context {A : Type}.
  Variable moved : A -> A.
  Variable dflt : A.
  Variable mem : memory.
  (** ARRAY_CAPACITY. *)
  Variable cap : nat.

  (** ~Array(), Array.hpp 502-507, and the end of its memory: the number of objects lost in it. *)
  Definition arr_destructor (a : svec A) : outcome nat :=
    let! s := sv_destructor Tracked a in
    Ok (count_live (st_cells s) + st_leaks s).

  (** reset(), HybridVector.hpp 1981-1985, Variant.hpp 540-548, and ~HybridVector(), 341, Variant.hpp 482-486. *)
  Definition life_reset (h : hybrid A) : outcome nat :=
    match h with
    | HUnset => Ok 0
    | HArr a => arr_destructor a
    | HVec v => vec_destructor Tracked v
    end.

  (** [container = move(array)] on an unset container, HybridVector.hpp 2014, 2019, 1467, Variant.hpp 473-480
      and 500-510: the elements are moved to the array of a temporary variant and from there to the
      container; then the temporary (by ~Variant()) and the local array are destroyed. *)
  Definition life_store_array (a : svec A) : outcome (hybrid A * nat) :=
    let! p := hv_of_moved_array Tracked moved cap a in
    match fst p with
    | HArr b =>
        let! q := hv_of_moved_array Tracked moved cap b in
        let! n := arr_destructor (snd q) in
        let! k := arr_destructor (snd p) in
        Ok (fst q, n + k)
    | _ => UB
    end.
  (** [container = move(vector)] on an unset container, HybridVector.hpp 2046, 2051, likewise. *)
  Definition life_store_vector (v : vec A) : outcome (hybrid A * nat) :=
    let p := vec_move v in
    let q := vec_move (fst p) in
    let! n := vec_destructor Tracked (snd q) in
    let! k := vec_destructor Tracked (snd p) in
    Ok (HVec (fst q), n + k).

  (** useArray(), HybridVector.hpp 1989-2021: [array.pushBack(move(i))] for the elements that fit, which leaves
      the elements of the vector moved from until reset() destroys them. *)
  Definition life_useArray (h : hybrid A) : outcome (hybrid A * nat) :=
    match h with
    | HUnset => life_store_array (sv_new cap)
    | HArr _ => Ok (h, 0)
    | HVec v =>
        let! xs := load_range (if cap <? vec_size v then cap else vec_size v) 0 (vc_store v) in
        let! a := sv_push_all Tracked (sv_new cap) xs in
        let! s := assign_list Tracked (map moved xs) 0 (vc_store v) in
        let! n := life_reset (HVec (Vec (SVec s (vc_tail v)) (vc_capacity v))) in
        let! p := life_store_array a in
        Ok (fst p, n + snd p)
    end.

  (** useVector(), HybridVector.hpp 2023-2053: likewise. *)
  Definition life_useVector (h : hybrid A) : outcome (hybrid A * nat) :=
    match h with
    | HUnset =>
        let! v := vec_reserve Tracked mem vec_new (cap * 2) in
        life_store_vector v
    | HArr a =>
        let! v := vec_reserve Tracked mem vec_new (sv_size a * 2) in
        let! xs := sv_elements a in
        let! v := vec_push_all Tracked mem vfuel v xs in
        let! s := assign_list Tracked (map moved xs) 0 (sv_store a) in
        let! n := life_reset (HArr (SVec s (sv_tail a))) in
        let! p := life_store_vector v in
        Ok (fst p, n + snd p)
    | HVec _ => Ok (h, 0)
    end.

  (** clean(), HybridVector.hpp 1463-1468. *)
  Definition life_clean (h : hybrid A) : outcome (hybrid A * nat) :=
    let! n := life_reset h in
    let! p := life_store_array (sv_new cap) in
    Ok (fst p, n + snd p).

  (** pushBack and emplaceBack, HybridVector.hpp 1666-1755, of an object outside the container. *)
  Fixpoint life_pushBack (fuel : nat) (h : hybrid A) (x : A) : outcome (hybrid A * nat) :=
    match fuel with
    | O => Diverge
    | S f =>
        match h with
        | HUnset =>
            let! p := life_useArray h in
            let! q := life_pushBack f (fst p) x in
            Ok (fst q, snd p + snd q)
        | HArr a =>
            if sv_size a <? sv_capacity a then
              let! a := sv_pushBack Tracked a x in
              Ok (HArr a, 0)
            else
              let! p := life_useVector h in
              let! q := life_pushBack f (fst p) x in
              Ok (fst q, snd p + snd q)
        | HVec v =>
            let! v := vec_pushBack Tracked mem vfuel v x in
            Ok (HVec v, 0)
        end
    end.

  (** popBack(), HybridVector.hpp 1757-1771. *)
  Definition life_popBack (h : hybrid A) : outcome (hybrid A * nat) :=
    let! h := hv_popBack Tracked h in Ok (h, 0).

  (** insert(Iterator, object), HybridVector.hpp 1773-1843. *)
  Fixpoint life_insert_at (fuel : nat) (h : hybrid A) (it : hiter) (x : A) : outcome (hybrid A * nat) :=
    match fuel with
    | O => Diverge
    | S f =>
        match h with
        | HUnset =>
            let! p := life_useArray h in
            let! q := life_insert_at f (fst p) it x in
            Ok (fst q, snd p + snd q)
        | HArr a =>
            if sv_size a <? sv_capacity a then
              let! i := hi_arr it in
              let! a := sv_insert Tracked moved dflt a i x in
              Ok (HArr a, 0)
            else
              let diff := hi_minus (hv_begin h) it in
              let! p := life_useVector h in
              let! it := hi_add (hv_begin (fst p)) diff in
              let! q := life_insert_at f (fst p) it x in
              Ok (fst q, snd p + snd q)
        | HVec v =>
            let! i := hi_vec it in
            let! v := vec_insert Tracked moved dflt mem vfuel v i x in
            Ok (HVec v, 0)
        end
    end.

  (** insert(Iterator, InputIterator, InputIterator), HybridVector.hpp 1845-1892. *)
  Fixpoint life_insert_range_at (fuel : nat) (h : hybrid A) (it : hiter) (xs : list A)
    : outcome (hybrid A * nat) :=
    match fuel with
    | O => Diverge
    | S f =>
        match h with
        | HArr a =>
            if length xs <? sv_capacity a - sv_size a then
              let! i := hi_arr it in
              let! a := sv_insert_range Tracked moved dflt a i xs in
              Ok (HArr a, 0)
            else
              let diff := hi_minus (hv_begin h) it in
              let! p := life_useVector h in
              let! it := hi_add (hv_begin (fst p)) diff in
              let! q := life_insert_range_at f (fst p) it xs in
              Ok (fst q, snd p + snd q)
        | HVec v =>
            let! i := hi_vec it in
            let! v := vec_insert_range Tracked moved dflt mem vfuel v i xs in
            Ok (HVec v, 0)
        | HUnset =>
            if hi_eq it INone then
              let! p := (if cap <? length xs then life_useVector h else life_useArray h) in
              let! q := life_insert_range_at f (fst p) (hv_end (fst p)) xs in
              Ok (fst q, snd p + snd q)
            else Ok (h, 0)
        end
    end.

  (** emplace, HybridVector.hpp 1894-1927. *)
  Fixpoint life_emplace_at (fuel : nat) (h : hybrid A) (it : hiter) (x : A) : outcome (hybrid A * nat) :=
    match fuel with
    | O => Diverge
    | S f =>
        match h with
        | HUnset =>
            let! p := life_useArray h in
            let! q := life_emplace_at f (fst p) it x in
            Ok (fst q, snd p + snd q)
        | HArr a =>
            if sv_capacity a =? sv_size a then
              let diff := hi_minus it (hv_begin h) in
              let! p := life_useVector h in
              let! it := hi_add (hv_begin (fst p)) diff in
              let! q := life_emplace_at f (fst p) it x in
              Ok (fst q, snd p + snd q)
            else
              let! i := hi_arr it in
              let! a := sv_emplace Tracked moved dflt a i x in
              Ok (HArr a, 0)
        | HVec v =>
            let! i := hi_vec it in
            let! v := vec_emplace Tracked moved dflt mem vfuel v i x in
            Ok (HVec v, 0)
        end
    end.

  (** The end of both erase functions, HybridVector.hpp 1939-1942 and 1965-1968: an empty array is destroyed. *)
  Definition life_shrink_array (a : svec A) : outcome (hybrid A * nat) :=
    if sv_size a =? 0 then let! n := life_reset (HArr a) in Ok (HUnset, n) else Ok (HArr a, 0).
  (** The end of both erase functions, HybridVector.hpp 1948-1951 and 1974-1977. *)
  Definition life_shrink_vector (v : vec A) : outcome (hybrid A * nat) :=
    if vec_size v <? cap then life_useArray (HVec v) else Ok (HVec v, 0).

  (** erase(Iterator), HybridVector.hpp 1929-1953. *)
  Definition life_erase_at (h : hybrid A) (it : hiter) : outcome (hybrid A * nat) :=
    match h with
    | HUnset => Ok (h, 0)
    | HArr a =>
        let! i := hi_arr it in
        let! a := sv_erase Tracked moved a i in
        life_shrink_array a
    | HVec v =>
        let! i := hi_vec it in
        let! v := vec_erase Tracked moved v i in
        life_shrink_vector v
    end.

  (** erase(Iterator, Iterator), HybridVector.hpp 1955-1979. *)
  Definition life_erase_range_at (h : hybrid A) (it jt : hiter) : outcome (hybrid A * nat) :=
    match h with
    | HUnset => Ok (h, 0)
    | HArr a =>
        let! i := hi_arr it in
        let! j := hi_arr jt in
        let! a := sv_erase_range Tracked moved a i j in
        life_shrink_array a
    | HVec v =>
        let! i := hi_vec it in
        let! j := hi_vec jt in
        let! v := vec_erase_range Tracked moved v i j in
        life_shrink_vector v
    end.

  (** One call, HybridVector.hpp 1463-1468, 1666-1979: the container and the number of objects lost. *)
  Definition life_step (h : hybrid A) (op : hv_op A) : outcome (hybrid A * nat) :=
    match op with
    | HPush x => life_pushBack 3 h x
    | HPop => life_popBack h
    | HInsert p x => let! it := hv_at h p in life_insert_at 3 h it x
    | HInsertRange p xs => let! it := hv_at h p in life_insert_range_at 3 h it xs
    | HEmplace p x => let! it := hv_at h p in life_emplace_at 3 h it x
    | HErase p => let! it := hv_at h p in life_erase_at h it
    | HEraseRange b e =>
        let! it := hv_at h b in
        let! jt := hv_at h e in
        life_erase_range_at h it jt
    | HClean => life_clean h
    end.
  (** The calls of a history one after the other, and the destructor, HybridVector.hpp 341: the number of
      objects lost in all. *)
  Fixpoint life_run (h : hybrid A) (ops : list (hv_op A)) : outcome nat :=
    match ops with
    | [] => life_reset h
    | op :: ops =>
        let! p := life_step h op in
        let! n := life_run (fst p) ops in
        Ok (snd p + n)
    end.
End Life.
