(** Vector, String, List and the pointers when the system has no memory, at every moment it is asked.

    Source: /repo/include/FlameIDE/Templates/{Vector,String,List,Pointers}.hpp,
    Allocator/{ArrayAllocator,ObjectAllocator,MallocAllocator}.hpp. *)
From Coq Require Import List Arith Bool.
From Verif Require Import Base Store StaticVectorModel VectorModel ListModel PointersModel.
From Verif Require StringModel.
Import ListNotations.
Local Open Scope outcome_scope.

(** * Vector *)

Section Vector.
  Context {A : Type}.
  Variable m : mode.
  Variable moved : A -> A.
  Variable dflt : A.
  (** What the system answers when the vector asks for memory for the k-th time; [mem] of
      VectorModel is one answer for all times. MallocAllocator.hpp 60-79. *)
  Variable answers : nat -> memory.

  (** The condition under which a call asks for more memory before it does anything: pushBack and
      emplaceBack, Vector.hpp 698-736, insert, 745-847, emplace, 849-878, resize, 550-566. *)
  Definition asks (v : vec A) (op : vec_op A) : bool :=
    match op with
    | VPush _ | VEmplaceBack _ => vc_tail v =? vc_capacity v
    | VInsert _ _ | VEmplace _ _ => negb (vec_size v <? vc_capacity v)
    | VInsertRange _ xs =>
        negb (length xs =? 0) && negb (length xs + vec_size v <=? vc_capacity v)
    | VResize n => (vec_size v <? n) && (vc_capacity v <? n)
    | _ => false
    end.

  (** The capacity it asks for: nextCapacity(), Vector.hpp 921-932, or that of 845. *)
  Definition asked (v : vec A) (op : vec_op A) : nat :=
    match op with
    | VInsertRange _ xs => vc_capacity v + length xs
    | _ => next_capacity (vc_capacity v)
    end.

  (** reserve, Vector.hpp 568-604; [k]: how many times memory was asked for so far. *)
  Definition reserve_then (k : nat) (v : vec A) (n : nat) : outcome (vec A * nat) :=
    let! v' := vec_reserve m (answers k) v n in
    Ok (v', if vc_capacity v <? n then S k else k).

  (** A call, Vector.hpp 550-919: when it has to ask for memory it calls itself again afterwards,
      whatever the answer was; else it is that of VectorModel, where nothing is asked for. *)
  Fixpoint step_then (fuel k : nat) (v : vec A) (op : vec_op A) : outcome (vec A * nat) :=
    match fuel with
    | O => Diverge
    | S f =>
        if asks v op then
          let! (v, k) := reserve_then k v (asked v op) in step_then f k v op
        else
          match op with
          | VReserve n => reserve_then k v n
          | _ => let! v := vec_step m moved dflt NoMemory 1 v op in Ok (v, k)
          end
    end.

  (** Calls in a row. Of the model. *)
  Fixpoint run_then (fuel k : nat) (v : vec A) (ops : list (vec_op A)) : outcome (vec A * nat) :=
    match ops with
    | [] => Ok (v, k)
    | op :: ops => let! (v, k) := step_then fuel k v op in run_then fuel k v ops
    end.

  (** Vector(const Vector &), Vector.hpp 407-416, Vector(InitializerList), 446-459, and the copy from
      another traits/allocator, 396-405, when createArray gives the null pointer: the elements are
      constructed there. *)
  Definition copy_no_memory (xs : list A) : outcome (vec A) :=
    let! s := construct_list m xs 0 (St [] 0) in
    Ok (Vec (SVec s (length xs)) (length xs)).

  (** Vector(SizeType), Vector.hpp 439-444: construct (ArrayAllocator.hpp 100-116) gives the null
      pointer and constructs nothing; tail is set all the same. *)
  Definition of_size_no_memory (size : nat) : vec A :=
    Vec (SVec (St [] 0) (size * 3 / 2)) (size * 3 / 2).
End Vector.

(** * String *)

Section String.
  Import StringModel.
  Context {A : Type}.
  Variable nul : A.
  Variable is_nul : A -> bool.

  (** resize(), String.hpp 535-556, when realloc, or malloc for a string without memory, gives the
      null pointer: it differs from head, so head becomes null and tail as far from it as before. *)
  Definition resize_no_memory (s : str A) (n : nat) : outcome (str A) :=
    match s_buf s with
    | Some b => if s_cap s <? n then Ok (Str None n (s_tail s)) else Ok s
    | None => put_char (Str None (s_cap s) 0) 0 nul
    end.

  (** BasicString(const T * ), String.hpp 223-237, when createArray gives the null pointer. *)
  Definition from_raw_no_memory (r : cstring A) : outcome (str A) :=
    let! n := raw_length is_nul r in
    let! xs := raw_read r n in
    let s := Str None (n + 1) n in
    let! s := match xs with [] => Ok s | _ => with_buf s (assign_list Trivial xs 0) end in
    put_char s n nul.

  (** BasicString(const Me &), String.hpp 196-209, likewise. *)
  Definition copy_string_no_memory (src : str A) : outcome (str A) :=
    let s := Str None (s_tail src + 1) (s_tail src) in
    let! xs := str_chars src in
    let! s := match xs with [] => Ok s | _ => with_buf s (assign_list Trivial xs 0) end in
    put_char s (s_tail src) nul.

  (** ~BasicString(), String.hpp 239-244: clean() and freeArray. *)
  Definition str_destroy (s : str A) : outcome unit := let! _ := str_clean nul s in Ok tt.
End String.

(** * List *)

Section List.
  Context {A : Type}.

  (** pushBack, emplaceBack, List.hpp 614-666, when construct (ObjectAllocator.hpp 78-115) gives the
      null pointer. *)
  Definition push_back_no_memory (h : heap A) (l : dlist) : outcome (heap A * dlist) :=
    if ptr_eqb (dl_head l) Null then
      let l := DL (dl_id l) Null Null in
      let! h := update_links h l in
      Ok (h, l)
    else
      let! h := set_prev h Null (dl_tail l) in
      let! h := set_next h (dl_tail l) Null in
      let! t := get h (dl_tail l) in
      let l := DL (dl_id l) (dl_head l) (n_next t) in
      let! h := update_tail_links h l in
      Ok (h, l).

  (** pushFront, emplaceFront, List.hpp 668-720, likewise. *)
  Definition push_front_no_memory (h : heap A) (l : dlist) : outcome (heap A * dlist) :=
    if ptr_eqb (dl_head l) Null then
      let l := DL (dl_id l) Null Null in
      let! h := update_links h l in
      Ok (h, l)
    else
      let! h := set_prev h (dl_head l) Null in
      let! h := set_next h Null (dl_head l) in
      let! hd := get h (dl_head l) in
      let l := DL (dl_id l) (n_prev hd) (dl_tail l) in
      let! h := update_head_links h l in
      Ok (h, l).

  (** insert(it, object), emplace(it, args), List.hpp 722-780 and 844-871, between two nodes,
      likewise. *)
  Definition insert_no_memory (h : heap A) (l : dlist) (it : ptr) : outcome (heap A * dlist) :=
    let! n := get h it in
    let before := n_prev n in
    let! h := set_next h before Null in
    let! h := set_prev h Null before in
    let! h := set_prev h it Null in
    let! h := set_next h Null it in
    Ok (h, l).
End List.

(** * Pointers *)

Section Pointers.
  Context {A : Type}.

  (** UniquePointer(Args &&...), Pointers.hpp 463-468, 478-488, when construct gives the null
      pointer. *)
  Definition unique_no_memory (w : uworld A) (p : nat) : outcome (uworld A) :=
    let! _ := u_fresh w p in
    Ok (u_set w p (Present None)).

  (** SharedPointer(Args &&...), Pointers.hpp 358-363, likewise. *)
  Definition shared_no_memory (w : sworld A) (p : nat) : outcome (sworld A) :=
    let! _ := s_fresh w p in
    Ok (s_set w p (SPresent Nil)).
End Pointers.
