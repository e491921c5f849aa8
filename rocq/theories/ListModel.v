(** Model of List (/repo/include/FlameIDE/Templates/List.hpp, 38-253 nodes and iterators,
    255-331 declaration, 335-1012 definitions).

    A list object has two sentinel nodes, [postFirst] and [postLast], inside itself and two
    pointers [head] and [tail] (324-328). Nodes of elements come from the allocator
    (Allocator/ObjectAllocator.hpp 78-124).

    Simplifications: the allocator always has memory (the code uses its result without a
    test) and never gives an address out twice (an access through a pointer to a freed
    node is UB anyway). Copying and moving an element give the same value: [Node]'s
    constructor from an rvalue, List.hpp 349-352, copies. *)
From Coq Require Import List Arith Bool.
From Verif Require Import Base.
Import ListNotations.

(** A pointer to a node: null, a sentinel of the list object number [o], or the [n]-th node
    ever allocated. *)
Inductive ptr := Null | PostFirst (o : nat) | PostLast (o : nat) | Heap (n : nat).

(** == of two pointers to nodes (List.hpp 515, 524, 931-932, 943, 951, 965). *)
Definition ptr_eqb (p q : ptr) : bool :=
  match p, q with
  | Null, Null => true
  | PostFirst a, PostFirst b => a =? b
  | PostLast a, PostLast b => a =? b
  | Heap a, Heap b => a =? b
  | _, _ => false
  end.

(** Node, List.hpp 38-58. *)
Record node (A : Type) := Node { n_prev : ptr; n_next : ptr; n_obj : A }.
Arguments Node {A}.
Arguments n_prev {A}.
Arguments n_next {A}.
Arguments n_obj {A}.

(** Memory: which nodes exist now, and the number of the next allocation. The memory behind
    ObjectAllocator.hpp 78-124. *)
Record heap (A : Type) := Hp { hp_cell : ptr -> option (node A); hp_fresh : nat }.
Arguments Hp {A}.
Arguments hp_cell {A}.
Arguments hp_fresh {A}.

(** The list object: its number, [head] and [tail] (List.hpp 324-328). *)
Record dlist := DL { dl_id : nat; dl_head : ptr; dl_tail : ptr }.

Section List.
  Context {A : Type}.
  Variable dflt : A.

  (** *ptr: UB unless the node exists. *)
  (** The reads through previous and next in List.hpp 98-1005. *)
  Definition get (h : heap A) (p : ptr) : outcome (node A) :=
    match hp_cell h p with Some n => Ok n | None => UB end.

  (** Of the model: the memory after a write to a node. *)
  Definition put (h : heap A) (p : ptr) (n : option (node A)) : heap A :=
    Hp (fun q => if ptr_eqb p q then n else hp_cell h q) (hp_fresh h).

  (** p->next = q; p->previous = q. The assignments to next in List.hpp 614-1005. *)
  Definition set_next (h : heap A) (p q : ptr) : outcome (heap A) :=
    let! n := get h p in Ok (put h p (Some (Node (n_prev n) q (n_obj n)))).
  (** The assignments to previous in List.hpp 614-1005. *)
  Definition set_prev (h : heap A) (p q : ptr) : outcome (heap A) :=
    let! n := get h p in Ok (put h p (Some (Node q (n_next n) (n_obj n)))).

  (** allocator.construct(object), ObjectAllocator.hpp 78-115, with Node's constructors,
      List.hpp 344-352. *)
  Definition new_node (h : heap A) (x : A) : heap A * ptr :=
    (Hp (fun q => if ptr_eqb (Heap (hp_fresh h)) q then Some (Node Null Null x)
                  else hp_cell h q) (S (hp_fresh h)),
     Heap (hp_fresh h)).

  (** allocator.destroy(pointer), ObjectAllocator.hpp 117-124. Giving back a sentinel is UB:
      it was not allocated. *)
  Definition delete (h : heap A) (p : ptr) : outcome (heap A) :=
    match p with
    | Heap _ => let! _ := get h p in Ok (put h p None)
    | _ => UB
    end.

  (** updateHeadLinks, updateTailLinks, updateLinks, cleanLinks, List.hpp 977-1005. *)
  Definition update_head_links (h : heap A) (l : dlist) : outcome (heap A) :=
    let! h := set_next h (PostFirst (dl_id l)) (dl_head l) in
    set_prev h (dl_head l) (PostFirst (dl_id l)).
  (** updateTailLinks, List.hpp 984-988. *)
  Definition update_tail_links (h : heap A) (l : dlist) : outcome (heap A) :=
    let! h := set_prev h (PostLast (dl_id l)) (dl_tail l) in
    set_next h (dl_tail l) (PostLast (dl_id l)).
  (** updateLinks, List.hpp 991-995. *)
  Definition update_links (h : heap A) (l : dlist) : outcome (heap A) :=
    let! h := update_head_links h l in update_tail_links h l.
  (** cleanLinks, List.hpp 998-1004. *)
  Definition clean_links (h : heap A) (l : dlist) : outcome (heap A) :=
    let! h := set_prev h (PostFirst (dl_id l)) Null in
    let! h := set_next h (PostFirst (dl_id l)) Null in
    let! h := set_prev h (PostLast (dl_id l)) Null in
    set_next h (PostLast (dl_id l)) Null.

  (** The memory of a new list object: its sentinels, zero-initialised. The members postFirst and
      postLast, List.hpp 324-328. *)
  Definition with_sentinels (h : heap A) (o : nat) : heap A :=
    put (put h (PostFirst o) (Some (Node Null Null dflt)))
        (PostLast o) (Some (Node Null Null dflt)).

  (** List(), List.hpp 360-364. *)
  Definition list_new (h : heap A) (o : nat) : heap A * dlist :=
    (with_sentinels h o, DL o Null Null).

  (** size(), List.hpp 511-518: from [head] to [postLast]. *)
  Fixpoint count_from (fuel : nat) (h : heap A) (o : nat) (p : ptr) : outcome nat :=
    match fuel with
    | 0 => Diverge
    | S f =>
        if ptr_eqb p (PostLast o) then Ok 0
        else
          let! n := get h p in
          let! k := count_from f h o (n_next n) in
          Ok (S k)
    end.
  (** size(), List.hpp 511-518. *)
  Definition list_size (fuel : nat) (h : heap A) (l : dlist) : outcome nat :=
    count_from fuel h (dl_id l) (dl_head l).

  (** begin(), end(), List.hpp 543-612. *)
  Definition list_begin (l : dlist) : ptr := dl_head l.
  (** end(), List.hpp 579-594. *)
  Definition list_end (l : dlist) : ptr := PostLast (dl_id l).

  (** for (auto i : list): begin(), end(), operator++ (List.hpp 98-107) and operator* (136-139). *)
  Fixpoint walk_from (fuel : nat) (h : heap A) (stop p : ptr) : outcome (list A) :=
    match fuel with
    | 0 => Diverge
    | S f =>
        if ptr_eqb p stop then Ok []
        else
          let! n := get h p in
          let! r := walk_from f h stop (n_next n) in
          Ok (n_obj n :: r)
    end.
  (** begin() List.hpp 543-558 to end() 579-594. *)
  Definition list_forward (fuel : nat) (h : heap A) (l : dlist) : outcome (list A) :=
    walk_from fuel h (list_end l) (list_begin l).

  (** rbegin() .. rend(), List.hpp 561-612, going by operator-- (115-124). *)
  Fixpoint walk_back (fuel : nat) (h : heap A) (stop p : ptr) : outcome (list A) :=
    match fuel with
    | 0 => Diverge
    | S f =>
        if ptr_eqb p stop then Ok []
        else
          let! n := get h p in
          let! r := walk_back f h stop (n_prev n) in
          Ok (n_obj n :: r)
    end.
  (** rbegin() List.hpp 561-576 to rend() 597-612. *)
  Definition list_backward (fuel : nat) (h : heap A) (l : dlist) : outcome (list A) :=
    walk_back fuel h (PostFirst (dl_id l)) (dl_tail l).

  (** clean(), List.hpp 520-533. *)
  Fixpoint clean_from (fuel : nat) (h : heap A) (o : nat) (p : ptr) : outcome (heap A) :=
    match fuel with
    | 0 => Diverge
    | S f =>
        if ptr_eqb p Null || ptr_eqb p (PostLast o) then Ok h
        else
          let! n := get h p in
          let! h := delete h p in
          clean_from f h o (n_next n)
    end.
  (** clean(), List.hpp 520-533. *)
  Definition list_clean (fuel : nat) (h : heap A) (l : dlist) : outcome (heap A * dlist) :=
    let! h := clean_from fuel h (dl_id l) (dl_head l) in
    let l := DL (dl_id l) Null Null in
    let! h := clean_links h l in
    Ok (h, l).

  (** pushBack, emplaceBack, List.hpp 614-666: the three bodies are the same. *)
  Definition list_push_back (h : heap A) (l : dlist) (x : A) : outcome (heap A * dlist) :=
    let (h, p) := new_node h x in
    if ptr_eqb (dl_head l) Null then
      let l := DL (dl_id l) p p in
      let! h := update_links h l in
      Ok (h, l)
    else
      let! h := set_prev h p (dl_tail l) in
      let! h := set_next h (dl_tail l) p in
      let! t := get h (dl_tail l) in
      let l := DL (dl_id l) (dl_head l) (n_next t) in
      let! h := update_tail_links h l in
      Ok (h, l).

  (** pushFront, emplaceFront, List.hpp 668-720: the three bodies are the same. *)
  Definition list_push_front (h : heap A) (l : dlist) (x : A) : outcome (heap A * dlist) :=
    let (h, p) := new_node h x in
    if ptr_eqb (dl_head l) Null then
      let l := DL (dl_id l) p p in
      let! h := update_links h l in
      Ok (h, l)
    else
      let! h := set_prev h (dl_head l) p in
      let! h := set_next h p (dl_head l) in
      let! hd := get h (dl_head l) in
      let l := DL (dl_id l) (n_prev hd) (dl_tail l) in
      let! h := update_head_links h l in
      Ok (h, l).

  (** insert(it, object), emplace(it, args), List.hpp 722-780 and 844-871: the three bodies are the
      same. *)
  Definition list_insert (fuel : nat) (h : heap A) (l : dlist) (it : ptr) (x : A)
    : outcome (heap A * dlist) :=
    let! s := list_size fuel h l in
    if s =? 0 then
      let (h, p) := new_node h x in Ok (h, DL (dl_id l) p p)
    else if ptr_eqb it (list_begin l) then list_push_front h l x
    else if ptr_eqb it (list_end l) then list_push_back h l x
    else
      let (h, p) := new_node h x in
      let! n := get h it in
      let p0 := n_prev n in
      let! h := set_next h p0 p in
      let! h := set_prev h p p0 in
      let! h := set_prev h it p in
      let! h := set_next h p it in
      Ok (h, l).

  (** insert(it, itBegin, itEnd), List.hpp 782-842: first a chain of nodes (786-809) ... *)
  Fixpoint make_chain (h : heap A) (last : ptr) (xs : list A) : outcome (heap A * ptr) :=
    match xs with
    | [] => Ok (h, last)
    | x :: xs' =>
        let (h, p) := new_node h x in
        let! h := set_next h last p in
        let! h := set_prev h p last in
        make_chain h p xs'
    end.
  (** ... then the links (List.hpp 811-840). *)
  Definition list_insert_range (fuel : nat) (h : heap A) (l : dlist) (it : ptr) (xs : list A)
    : outcome (heap A * dlist) :=
    match xs with
    | [] => Ok (h, l)
    | x :: xs' =>
        let (h, first) := new_node h x in
        let! c := make_chain h first xs' in
        let (h, last) := c in
        let! s := list_size fuel h l in
        if s =? 0 then
          let l := DL (dl_id l) first last in
          let! h := update_links h l in
          Ok (h, l)
        else if ptr_eqb it (list_begin l) then
          let! h := set_next h last (dl_head l) in
          let! h := set_prev h (dl_head l) last in
          let l := DL (dl_id l) first (dl_tail l) in
          let! h := update_head_links h l in
          Ok (h, l)
        else if ptr_eqb it (list_end l) then
          let! h := set_prev h first (dl_tail l) in
          let! h := set_next h (dl_tail l) first in
          let l := DL (dl_id l) (dl_head l) last in
          let! h := update_tail_links h l in
          Ok (h, l)
        else
          let! n := get h it in
          let p0 := n_prev n in
          let! h := set_next h p0 first in
          let! h := set_prev h first p0 in
          let! h := set_prev h it last in
          let! h := set_next h last it in
          Ok (h, l)
    end.

  (** popBack(), List.hpp 873-886. *)
  Definition list_pop_back (h : heap A) (l : dlist) : outcome (heap A * dlist) :=
    let! t := get h (dl_tail l) in
    if ptr_eqb (n_prev t) Null then Ok (h, l)
    else
      let p := dl_tail l in
      let l := DL (dl_id l) (dl_head l) (n_prev t) in
      let! h := set_next h (dl_tail l) Null in
      let! h := delete h p in
      let! h := update_tail_links h l in
      Ok (h, l).

  (** popFront(), List.hpp 888-901. *)
  Definition list_pop_front (h : heap A) (l : dlist) : outcome (heap A * dlist) :=
    let! t := get h (dl_head l) in
    if ptr_eqb (n_next t) Null then Ok (h, l)
    else
      let p := dl_head l in
      let l := DL (dl_id l) (n_next t) (dl_tail l) in
      let! h := set_prev h (dl_head l) Null in
      let! h := delete h p in
      let! h := update_head_links h l in
      Ok (h, l).

  (** erase(it), List.hpp 903-925. *)
  Definition list_erase (h : heap A) (l : dlist) (it : ptr) : outcome (heap A * dlist) :=
    if ptr_eqb it (list_begin l) then list_pop_front h l
    else if ptr_eqb it (list_end l) then list_pop_back h l
    else
      let! n := get h it in
      let! h := set_next h (n_prev n) (n_next n) in
      let! h := set_prev h (n_next n) (n_prev n) in
      let! h := delete h it in
      Ok (h, l).

  (** The loops of erase(itBegin, itEnd), List.hpp 943-946, 951-954 and 964-970. *)
  Fixpoint pop_front_until (fuel : nat) (h : heap A) (l : dlist) (stop : ptr)
    : outcome (heap A * dlist) :=
    match fuel with
    | 0 => Diverge
    | S f =>
        if ptr_eqb (dl_head l) stop then Ok (h, l)
        else let! r := list_pop_front h l in pop_front_until f (fst r) (snd r) stop
    end.
  (** List.hpp 949-957 (without the last popBack). *)
  Fixpoint pop_back_until (fuel : nat) (h : heap A) (l : dlist) (stop : ptr)
    : outcome (heap A * dlist) :=
    match fuel with
    | 0 => Diverge
    | S f =>
        if ptr_eqb (dl_tail l) stop then Ok (h, l)
        else let! r := list_pop_back h l in pop_back_until f (fst r) (snd r) stop
    end.
  (** List.hpp 964-970. *)
  Fixpoint delete_until (fuel : nat) (h : heap A) (p stop : ptr) : outcome (heap A) :=
    match fuel with
    | 0 => Diverge
    | S f =>
        if ptr_eqb p stop then Ok h
        else
          let! n := get h p in
          let! h := delete h p in
          delete_until f h (n_next n) stop
    end.

  (** erase(itBegin, itEnd), List.hpp 927-974. *)
  Definition list_erase_range (fuel : nat) (h : heap A) (l : dlist) (a b : ptr)
    : outcome (heap A * dlist) :=
    match ptr_eqb a (list_begin l), ptr_eqb b (list_end l) with
    | true, true => list_clean fuel h l
    | true, false => pop_front_until fuel h l b
    | false, true =>
        let! r := pop_back_until fuel h l a in
        list_pop_back (fst r) (snd r)
    | false, false =>
        let! n := get h a in
        let! h := set_next h (n_prev n) b in
        let! h := set_prev h b (n_prev n) in
        let! h := delete_until fuel h a b in
        Ok (h, l)
    end.

  (** List(const List &), List.hpp 366-377, for the source [src]; the new object has number [o]. *)
  Fixpoint push_all (h : heap A) (l : dlist) (xs : list A) : outcome (heap A * dlist) :=
    match xs with
    | [] => Ok (h, l)
    | x :: xs' => let! r := list_push_back h l x in push_all (fst r) (snd r) xs'
    end.
  (** List(const List &), List.hpp 366-377. *)
  Definition list_copy (fuel : nat) (h : heap A) (o : nat) (src : dlist)
    : outcome (heap A * dlist) :=
    let (h, l) := list_new h o in
    let! s := list_size fuel h src in
    if s =? 0 then Ok (h, l)
    else
      let! xs := list_forward fuel h src in
      let! r := push_all h l xs in
      let! h := update_head_links (fst r) (snd r) in
      Ok (h, snd r).

  (** List(InitializerList), List.hpp 392-400. *)
  Definition list_of (h : heap A) (o : nat) (xs : list A) : outcome (heap A * dlist) :=
    let (h, l) := list_new h o in
    let! r := push_all h l xs in
    let! h := update_head_links (fst r) (snd r) in
    Ok (h, snd r).

  (** List(List &&), List.hpp 379-390: the new list and the emptied source. *)
  Definition list_move (h : heap A) (o : nat) (src : dlist) : outcome (heap A * dlist * dlist) :=
    let h := with_sentinels h o in
    let l := DL o (dl_head src) (dl_tail src) in
    let src := DL (dl_id src) Null Null in
    let! h := clean_links h src in
    let! h := update_links h l in
    Ok (h, l, src).

  (** operator=(List &&), List.hpp 446-459, on two different lists. *)
  Definition list_move_assign (fuel : nat) (h : heap A) (l src : dlist)
    : outcome (heap A * dlist * dlist) :=
    let! r := list_clean fuel h l in
    let h := fst r in
    let l := DL (dl_id l) (dl_head src) (dl_tail src) in
    let! h := update_links h l in
    let src := DL (dl_id src) Null Null in
    let! h := clean_links h src in
    Ok (h, l, src).

  (** operator=(List &&), List.hpp 446-459, of a list to itself: after clean() the head is null. *)
  Definition list_move_assign_self (fuel : nat) (h : heap A) (l : dlist)
    : outcome (heap A * dlist) :=
    let! r := list_clean fuel h l in
    let l := snd r in
    let! h := update_links (fst r) l in
    let l := DL (dl_id l) Null Null in
    let! h := clean_links h l in
    Ok (h, l).

  (** An iterator that went [i] times forward from begin(): operator++, List.hpp 98-102. *)
  Fixpoint advance (h : heap A) (p : ptr) (i : nat) : outcome ptr :=
    match i with
    | 0 => Ok p
    | S j => let! n := get h p in advance h (n_next n) j
    end.

  (** Calls of the interface. An iterator argument is given as "begin() moved forward [i] times";
      [None] is end(). The member functions of List.hpp 520-974 that change the list. *)
  Inductive list_op :=
  | LPushBack (x : A)
  | LPushFront (x : A)
  | LInsert (i : option nat) (x : A)
  | LInsertRange (i : option nat) (xs : list A)
  | LPopBack
  | LPopFront
  | LErase (i : option nat)
  | LEraseRange (i j : option nat)
  | LClean.

  (** Of the model: begin(), ++ (List.hpp 543-558, 98-102) or end() (579-594). *)
  Definition iterator_at (h : heap A) (l : dlist) (i : option nat) : outcome ptr :=
    match i with
    | Some n => advance h (list_begin l) n
    | None => Ok (list_end l)
    end.

  (** The call of the member function, List.hpp 520-974. *)
  Definition list_step (fuel : nat) (h : heap A) (l : dlist) (o : list_op)
    : outcome (heap A * dlist) :=
    match o with
    | LPushBack x => list_push_back h l x
    | LPushFront x => list_push_front h l x
    | LInsert i x => let! p := iterator_at h l i in list_insert fuel h l p x
    | LInsertRange i xs => let! p := iterator_at h l i in list_insert_range fuel h l p xs
    | LPopBack => list_pop_back h l
    | LPopFront => list_pop_front h l
    | LErase i => let! p := iterator_at h l i in list_erase h l p
    | LEraseRange i j =>
        let! p := iterator_at h l i in
        let! q := iterator_at h l j in
        list_erase_range fuel h l p q
    | LClean => list_clean fuel h l
    end.

  (** Calls in a row. *)
  Fixpoint list_run (fuel : nat) (h : heap A) (l : dlist) (os : list list_op)
    : outcome (heap A * dlist) :=
    match os with
    | [] => Ok (h, l)
    | o :: os' => let! r := list_step fuel h l o in list_run fuel (fst r) (snd r) os'
    end.

  (** Calls on two lists in any order: [true] is the first list. List.hpp 520-974. *)
  Fixpoint list_run2 (fuel : nat) (h : heap A) (l1 l2 : dlist) (os : list (bool * list_op))
    : outcome (heap A * dlist * dlist) :=
    match os with
    | [] => Ok (h, l1, l2)
    | (true, o) :: os' =>
        let! r := list_step fuel h l1 o in list_run2 fuel (fst r) (snd r) l2 os'
    | (false, o) :: os' =>
        let! r := list_step fuel h l2 o in list_run2 fuel (fst r) l1 (snd r) os'
    end.

  (** A memory in which nothing was allocated yet. Of the model. *)
  Definition empty_heap : heap A := Hp (fun _ => None) 0.

  (** A history of calls on one new list. List(), 360-364, then calls of List.hpp 520-974. *)
  Definition list_history (fuel : nat) (os : list list_op) : outcome (heap A * dlist) :=
    list_run fuel (fst (list_new empty_heap 0)) (snd (list_new empty_heap 0)) os.
End List.
Arguments list_op : clear implicits.
