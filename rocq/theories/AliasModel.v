(** Calls that add to a container an element, or a range of elements, of that same container.
    The arguments are references and iterators, so they are read when the body gets to them,
    after whatever the body did to the cells before. The calls with arguments from outside are
    in StaticVectorModel, VectorModel, StringModel, ListModel and CircularArrayModel; there also
    [sv_pushBack_arg], [sv_insert_arg], [vec_pushBack_ref] and [vec_insert_ref], which take one
    element of the container itself.

    Simplifications: those of the models named above. A range of the container is a range of
    cells or nodes that holds still until it is read. *)
From Coq Require Import List Arith Bool.
From Verif Require Import Base Store StaticVectorModel VectorModel ListModel StringModel
  CircularArrayModel.
Import ListNotations.

Section Vectors.
  Context {A : Type}.
  Variable m : mode.
  Variable moved : A -> A.
  Variable dflt : A.
  Variable mem : memory.

  (** for (auto &itInsert : range) { *it = itInsert; ++it; }, Array.hpp 896-900, Vector.hpp 833-837,
      String.hpp 724-728: [n] cells from [src] to [dst] of the same storage. *)
  Fixpoint assign_own (n src dst : nat) (s : store A) : outcome (store A) :=
    match n with
    | 0 => Ok s
    | S k =>
        let! x := st_load s src in
        let! s := st_assign m s dst x in
        assign_own k (S src) (S dst) s
    end.

  (** for (auto &i : range) pushBack(i), Array.hpp 874-877 and 619-620: the [n] elements from [src] of
      the vector itself. *)
  Fixpoint sv_push_own (n src : nat) (v : svec A) : outcome (svec A) :=
    match n with
    | 0 => Ok v
    | S k => let! v := sv_pushBack_arg m v (Own src) in sv_push_own k (S src) v
    end.

  (** operator+=(Range), Array.hpp 615-622, with begin() + b .. begin() + e of the vector itself. *)
  Definition sv_append_own (v : svec A) (b e : nat) : outcome (svec A) := sv_push_own (e - b) b v.

  (** insert(it, itBegin, itEnd), Array.hpp 859-904, with begin() + b .. begin() + e of the vector
      itself. *)
  Definition sv_insert_own (v : svec A) (it b e : nat) : outcome (svec A) :=
    let rangeSize := e - b in
    if rangeSize =? 0 then Ok v
    else if rangeSize + sv_size v <=? sv_capacity v then
      if it =? sv_tail v then sv_push_own rangeSize b v
      else
        let! s := construct_dflt m dflt rangeSize (sv_tail v) (sv_store v) in
        let! s := shift_right m moved (sv_tail v - it) it rangeSize s in
        let! s := assign_own rangeSize b it s in
        Ok (SVec s (sv_tail v + rangeSize))
    else Ok v.

  (** emplace(it, v[j]), Array.hpp 906-929: the object at [it] is destroyed before the argument is
      read. emplaceBack(v[j]), 791-797, is [sv_pushBack_arg]. *)
  Definition sv_emplace_own (v : svec A) (it j : nat) : outcome (svec A) :=
    if sv_size v <? sv_capacity v then
      if it =? sv_tail v then sv_pushBack_arg m v (Own j)
      else
        let! s := st_construct m (sv_store v) (sv_tail v) dflt in
        let! s := shift_right m moved (sv_tail v - it) it 1 s in
        let! s := st_destroy m s it in
        let! x := st_load s j in
        let! s := st_construct m s it x in
        Ok (SVec s (S (sv_tail v)))
    else Ok v.

  (** insert(it, itBegin, itEnd), Vector.hpp 809-847, with begin() + b .. begin() + e of the vector
      itself. When it has to grow, the recursive call (845) reads the range in the memory that was
      given back; when there is no memory it recurses for ever. *)
  Fixpoint vec_insert_own (fuel : nat) (v : vec A) (it b e : nat) : outcome (vec A) :=
    match fuel with
    | 0 => Diverge
    | S f =>
        if (e - b =? 0) || (e - b + vec_size v <=? vc_capacity v) then
          vec_lift v (sv_insert_own (vc_arr v) it b e)
        else
          let! v' := vec_reserve m mem v (vc_capacity v + (e - b)) in
          if vc_capacity v =? vc_capacity v' then vec_insert_own f v' it b e else UB
    end.
End Vectors.

Section String.
  Context {A : Type}.
  Variable nul : A.
  Variable is_nul : A -> bool.

  (** What can be read through data() + k: the characters up to the first cell that was never
      written. For the parameters of String.hpp 288, 596. *)
  Fixpoint readable (c : list (option A)) : list A :=
    match c with
    | Some x :: c' => x :: readable c'
    | _ => []
    end.
  (** data() + k as an argument, String.hpp 288, 596. *)
  Definition own_raw (s : str A) (k : nat) : cstring A :=
    match s_buf s with
    | Some b => Some (readable (skipn k b))
    | None => None
    end.

  (** pushBack(const T &), String.hpp 564-578, with s[j]. After a reallocation (575) the reference
      is to memory that was given back. *)
  Fixpoint str_push_own (fuel : nat) (s : str A) (j : nat) : outcome (str A) :=
    match fuel with
    | 0 => Diverge
    | S f =>
        if s_tail s <? s_cap s then
          let! x := str_at s j in
          let! s := put_char s (s_tail s) x in
          let s := set_tail s (s_tail s + 1) in
          put_char s (s_tail s) nul
        else
          let! s' := str_resize nul s (StringModel.next_capacity s) in
          if s_cap s =? s_cap s' then str_push_own f s' j else UB
    end.

  (** pushBack(const T * ) and operator+=(const T * ), String.hpp 596-621 and 348-353, with data() + k.
      The loop (604-607) reads and writes in turn. *)
  Fixpoint str_push_raw_own (fuel : nat) (s : str A) (k : nat) : outcome (str A) :=
    match fuel with
    | 0 => Diverge
    | S f =>
        let! n := raw_length is_nul (own_raw s k) in
        if s_tail s + n + 2 <? s_cap s then
          let! s := with_buf s (assign_own Trivial n k (s_tail s)) in
          let s := set_tail s (s_tail s + n) in
          put_char s (s_tail s) nul
        else
          let c := StringModel.next_capacity s in
          let! s' := str_resize nul s (if s_tail s + n + 2 <? c then c else s_tail s + n + 2) in
          if s_cap s =? s_cap s' then str_push_raw_own f s' k else UB
    end.

  (** operator=(const T * ), String.hpp 288-313, with data() + k: clean() (291) comes before the
      argument is looked at. *)
  Fixpoint str_assign_raw_own (fuel : nat) (s : str A) (k : nat) : outcome (str A) :=
    match fuel with
    | 0 => Diverge
    | S f =>
        let! s := str_clean nul s in
        let! n := raw_length is_nul (own_raw s k) in
        if n + 1 <=? s_cap s then
          let! s := with_buf s (assign_own Trivial (n + 1) k 0) in
          put_char (set_tail s n) n nul
        else
          let! s' := str_reserve nul s (n + 1 - s_tail s) in
          if s_cap s =? s_cap s' then str_assign_raw_own f s' k else UB
    end.

  (** insert(it, const T &), String.hpp 633-661, with s[j]. *)
  Fixpoint str_insert_own (fuel : nat) (s : str A) (i j : nat) : outcome (str A) :=
    match fuel with
    | 0 => Diverge
    | S f =>
        if s_tail s + 1 <? s_cap s then
          if i =? s_tail s then str_push_own f s j
          else
            let! s := put_char s (s_tail s) nul in
            let! s := with_buf s (shift_right Trivial (fun c => c) (s_tail s - i) i 1) in
            let! x := str_at s j in
            let! s := put_char s i x in
            let s := set_tail s (s_tail s + 1) in
            put_char s (s_tail s) nul
        else
          let! s' := str_reserve nul s (StringModel.next_capacity s) in
          if s_cap s =? s_cap s' then str_insert_own f s' i j else UB
    end.
End String.

Section List.
  Context {A : Type}.

  (** pushBack( *p ), pushFront( *p ), insert(it, *p ), List.hpp 614-648, 668-702, 722-780: every body
      copies the object into the new node (617, 635, 671, 689, 728, 741, 758, 771) before it changes a
      link, and size() before it only reads. *)
  Definition list_insert_element (fuel : nat) (h : heap A) (l : dlist) (it p : ptr)
    : outcome (heap A * dlist) :=
    let! n := get h p in list_insert fuel h l it (n_obj n).
  (** pushBack( *p ), List.hpp 614-648. *)
  Definition list_push_back_element (h : heap A) (l : dlist) (p : ptr) : outcome (heap A * dlist) :=
    let! n := get h p in list_push_back h l (n_obj n).
  (** pushFront( *p ), List.hpp 668-702. *)
  Definition list_push_front_element (h : heap A) (l : dlist) (p : ptr) : outcome (heap A * dlist) :=
    let! n := get h p in list_push_front h l (n_obj n).

  (** countIterations(itBegin, itEnd), List.hpp 786. *)
  Fixpoint count_to (fuel : nat) (h : heap A) (p q : ptr) : outcome nat :=
    match fuel with
    | 0 => Diverge
    | S f =>
        if ptr_eqb p q then Ok 0
        else
          let! n := get h p in
          let! k := count_to f h (n_next n) q in
          Ok (S k)
    end.

  (** The loop of insert(it, itBegin, itEnd), List.hpp 793-809, after its first element: a new node for
      every node from [p] up to [q]. *)
  Fixpoint chain_of (fuel : nat) (h : heap A) (last p q : ptr) : outcome (heap A * ptr) :=
    match fuel with
    | 0 => Diverge
    | S f =>
        if ptr_eqb p q then Ok (h, last)
        else
          let! n := get h p in
          let (h, new) := new_node h (n_obj n) in
          let! h := set_next h last new in
          let! h := set_prev h new last in
          let! n := get h p in
          chain_of f h new (n_next n) q
    end.

  (** insert(it, itBegin, itEnd), List.hpp 782-842, with the nodes from [p] up to [q] of the list
      itself; operator+=(Range), 475-480, is insert at end(). *)
  Definition list_insert_own (fuel : nat) (h : heap A) (l : dlist) (it p q : ptr)
    : outcome (heap A * dlist) :=
    let! count := count_to fuel h p q in
    if count =? 0 then Ok (h, l)
    else
      let! n := get h p in
      let (h, first) := new_node h (n_obj n) in
      let! n := get h p in
      let! c := chain_of fuel h first (n_next n) q in
      let (h, last) := c in
      let! s := list_size fuel h l in
      if s =? 0 then
        let l := DL (dl_id l) first last in
        let! h := update_links h l in
        Ok (h, l)
      else if ptr_eqb it (list_begin l) then
        let! h := set_next h last (dl_head l) in
        let! h := set_prev h (dl_head l) last in
        let l := DL (dl_id l) first (dl_tail l) in
        let! h := update_head_links h l in
        Ok (h, l)
      else if ptr_eqb it (list_end l) then
        let! h := set_prev h first (dl_tail l) in
        let! h := set_next h (dl_tail l) first in
        let l := DL (dl_id l) (dl_head l) last in
        let! h := update_tail_links h l in
        Ok (h, l)
      else
        let! n := get h it in
        let p0 := n_prev n in
        let! h := set_next h p0 first in
        let! h := set_prev h first p0 in
        let! h := set_prev h it last in
        let! h := set_next h last it in
        Ok (h, l).
End List.

Section Circular.
  Context {A : Type}.
  Variable m : mode.
  Variable moved : A -> A.

  (** pushBack(c[j]), CircularArray.hpp 355-364, with the element [j] places behind the first one
      (begin() + j). *)
  Definition ca_push_own (c : circ A) (j : nat) : outcome (circ A) :=
    if ca_size c =? ca_capacity c then Ok c
    else
      let! x := st_load (ca_store c) (ci_plus (ca_N c) (ca_begin c) j) in
      ca_place m c x.

  (** The loops of pushBack(const Range &), CircularArray.hpp 388-392, and pushBack(Range &&), 406-410:
      [n] elements of the same buffer from the cell [it] on. [mv]: the second, which moves. *)
  Fixpoint ca_place_own (mv : bool) (n : nat) (c : circ A) (it : nat) : outcome (circ A) :=
    match n with
    | 0 => Ok c
    | S k =>
        let! x := st_load (ca_store c) it in
        let! c := ca_place m c x in
        let! s := (if mv then st_assign m (ca_store c) it (moved x) else Ok (ca_store c)) in
        ca_place_own mv k (Circ (SVec s (sv_tail (ca_buffer c))) (ca_head c) (ca_tail c))
          (ci_inc (ca_N c) it)
    end.
  (** pushBack(Range), CircularArray.hpp 378-412, with begin() + b .. begin() + e of the array itself. *)
  Definition ca_push_range_own (mv : bool) (c : circ A) (b e : nat) : outcome (circ A) :=
    if e - b <=? ca_capacity c - ca_size c
    then ca_place_own mv (e - b) c (ci_plus (ca_N c) (ca_begin c) b)
    else Ok c.

  (** pushBack(Range), CircularArray.hpp 378-412, with the elements of another container: the array and
      that container after the call. A temporary range, such as makeRange(other), takes 397-412,
      which moves; a range with a name takes 378-394, which copies. *)
  Definition ca_push_range_from (mv : bool) (c : circ A) (xs : list A) : outcome (circ A * list A) :=
    let! c' := ca_pushBack_range m c xs in
    Ok (c', if mv && (length xs <=? ca_capacity c - ca_size c) then map moved xs else xs).
End Circular.
