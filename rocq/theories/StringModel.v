(** Model of BasicString (String, U8String, U16String, U32String).

    Source: /repo/include/FlameIDE/Templates/String.hpp.

    Simplifications:
    - characters are plain values: destroying one does nothing, moving one copies it;
    - a buffer is a list of cells, one for each character that fits, [None] = never written;
      the pointers head and tail are [None]/[Some] of the buffer and an index into it;
    - allocation never fails; realloc keeps the contents;
    - arguments never point into the string itself (those that do: AliasModel);
    - sizes do not wrap, except in the subtraction of insert(it, begin, end), line 736 (the
      other subtractions have a first argument that is not the smaller one). *)
From Coq Require Import List Arith ZArith Bool.
From Verif Require Import Base Store.
Import ListNotations.

(** A C string argument (PointerToConst): null, or the characters readable from there on. *)
Definition cstring (A : Type) := option (list A).

(** stringCapacity, head, tail: String.hpp 160-162. [s_tail] is tail - head (0 for null pointers). *)
Record str (A : Type) := Str { s_buf : option (list (option A)); s_cap : nat; s_tail : nat }.
Arguments Str {A}.
Arguments s_buf {A}.
Arguments s_cap {A}.
Arguments s_tail {A}.

Section String.
  Context {A : Type}.
  Variable nul : A.             (* NULL_SYMBOL, 160 *)
  Variable is_nul : A -> bool.  (* c == NULL_SYMBOL *)

  (** Subtraction and addition of SizeType (64 bit). *)
  Definition size_sub (a b : nat) : nat :=
    Z.to_nat ((Z.of_nat a - Z.of_nat b) mod 2 ^ 64).
  (** SizeType arithmetic in String.hpp 535-562, 694-739. *)
  Definition size_add (a b : nat) : nat :=
    Z.to_nat ((Z.of_nat a + Z.of_nat b) mod 2 ^ 64).

  (** createArray, Allocator/ArrayAllocator.hpp 119-123. *)
  Definition create (n : nat) : list (option A) := repeat None n.

  (** reallocateArray, Allocator/ArrayAllocator.hpp 126-136. *)
  Definition realloc (b : list (option A)) (n : nat) : list (option A) :=
    firstn n b ++ repeat None (n - length b).

  (** Run storage operations on the buffer; a null head is UB. The writes through head in
      String.hpp 223-790. *)
  Definition with_buf (s : str A) (f : store A -> outcome (store A)) : outcome (str A) :=
    match s_buf s with
    | None => UB
    | Some b => let! st := f (St b 0) in Ok (Str (Some (st_cells st)) (s_cap s) (s_tail s))
    end.
  (** An assignment of a character, String.hpp 564-790. *)
  Definition put_char (s : str A) (i : nat) (x : A) : outcome (str A) :=
    with_buf s (fun st => st_assign Trivial st i x).
  (** An assignment to tail (String.hpp 175). *)
  Definition set_tail (s : str A) (t : nat) : str A := Str (s_buf s) (s_cap s) t.

  (** length(), String.hpp 414-417, capacity(), 420-423. *)
  Definition str_length (s : str A) : nat := s_tail s.
  (** capacity(), String.hpp 420-423. *)
  Definition str_capacity (s : str A) : nat := s_cap s.

  (** The characters begin() .. end(). begin() String.hpp 451-469, end() 493-511. *)
  Definition str_chars (s : str A) : outcome (list A) :=
    match s_buf s with
    | None => match s_tail s with 0 => Ok [] | _ => UB end
    | Some b => load_range (s_tail s) 0 (St b 0)
    end.

  (** operator[], String.hpp 315-331, data()[i]. *)
  Definition str_at (s : str A) (i : nat) : outcome A :=
    match s_buf s with
    | None => UB
    | Some b => st_load (St b 0) i
    end.

  (** rawStringLength, String.hpp 798-808: the loop stops at the terminator. *)
  Fixpoint scan (l : list A) : outcome nat :=
    match l with
    | [] => UB
    | c :: l' => if is_nul c then Ok 0 else let! n := scan l' in Ok (S n)
    end.
  (** rawStringLength, String.hpp 798-808. *)
  Definition raw_length (r : cstring A) : outcome nat :=
    match r with
    | None => Ok 0
    | Some l => scan l
    end.
  (** [n] characters read from the pointer [r]. The reads of the loops in String.hpp 223-237,
      288-313, 596-621. *)
  Definition raw_read (r : cstring A) (n : nat) : outcome (list A) :=
    match r, n with
    | _, 0 => Ok []
    | None, _ => UB
    | Some l, _ => if n <=? length l then Ok (firstn n l) else UB
    end.

  (** nextCapacity(), String.hpp 793-796. *)
  Definition next_capacity (s : str A) : nat := s_cap s * 3 / 2.

  (** clean(), String.hpp 432-441. *)
  Definition str_clean (s : str A) : outcome (str A) :=
    if s_cap s =? 0 then Ok s
    else put_char (set_tail s 0) 0 nul.

  (** resize(), String.hpp 535-556. *)
  Definition str_resize (s : str A) (n : nat) : outcome (str A) :=
    match s_buf s with
    | Some b =>
        if s_cap s <? n then Ok (Str (Some (realloc b n)) n (s_tail s)) else Ok s
    | None =>
        let! s := put_char (Str (Some (create n)) (s_cap s) 0) 0 nul in
        Ok (Str (s_buf s) n 0)
    end.

  (** reserve(), String.hpp 559-562. *)
  Definition str_reserve (s : str A) (n : nat) : outcome (str A) :=
    str_resize s (s_cap s + n).

  (** BasicString(), String.hpp 188-193. *)
  Definition str_new : str A := Str None 0 0.

  (** BasicString(const T * ), String.hpp 223-237. *)
  Definition str_from_raw (r : cstring A) : outcome (str A) :=
    let! n := raw_length r in
    let! xs := raw_read r n in
    let s := Str (Some (create (n + 1))) (n + 1) n in
    let! s := with_buf s (assign_list Trivial xs 0) in
    put_char s n nul.

  (** BasicString(const Me &), String.hpp 196-209. *)
  Definition str_copy (src : str A) : outcome (str A) :=
    let n := s_tail src in
    let s := Str (Some (create (n + 1))) (n + 1) n in
    let! xs := str_chars src in
    let! s := with_buf s (assign_list Trivial xs 0) in
    put_char s n nul.

  (** BasicString(Me &&), String.hpp 211-221: the new string and what is left of the source. *)
  Definition str_move (src : str A) : str A * str A := (src, Str None 0 0).

  (** operator=(const Me &), String.hpp 246-266; [self] = both are the same object, in which case the
      characters are read after clean(). *)
  Fixpoint str_assign (fuel : nat) (self : bool) (s src : str A) : outcome (str A) :=
    match fuel with
    | 0 => Diverge
    | S f =>
        let src := if self then s else src in
        if s_tail src <=? s_cap s then
          let! s := str_clean s in
          let! xs := str_chars (if self then s else src) in
          let! s := with_buf s (assign_list Trivial xs 0) in
          put_char s (length xs) nul
        else
          let! s := str_reserve s (s_tail src - s_tail s) in
          str_assign f self s src
    end.

  (** operator=(Me &&), String.hpp 268-286: the target and what is left of the source. *)
  Definition str_move_assign (s src : str A) : outcome (str A * str A) :=
    let! _ := str_clean s in
    Ok (src, Str None 0 0).

  (** operator=(const T * ), String.hpp 288-313. *)
  Fixpoint str_assign_raw (fuel : nat) (s : str A) (r : cstring A) : outcome (str A) :=
    match fuel with
    | 0 => Diverge
    | S f =>
        let! s := str_clean s in
        let! n := raw_length r in
        if n + 1 <=? s_cap s then
          let! xs := raw_read r (n + 1) in
          let! s := with_buf s (assign_list Trivial xs 0) in
          put_char (set_tail s n) n nul
        else
          let! s := str_reserve s (n + 1 - s_tail s) in
          str_assign_raw f s r
    end.

  (** pushBack(const T &), String.hpp 564-578; operator+=(const T &) and operator+=(T &&), 333-346,
      call it. *)
  Fixpoint str_push_back (fuel : nat) (s : str A) (x : A) : outcome (str A) :=
    match fuel with
    | 0 => Diverge
    | S f =>
        if s_tail s <? s_cap s then
          let! s := put_char s (s_tail s) x in
          let s := set_tail s (s_tail s + 1) in
          put_char s (s_tail s) nul
        else
          let! s := str_resize s (next_capacity s) in
          str_push_back f s x
    end.

  (** pushBack(T &&), String.hpp 580-594: the recursive call has an lvalue argument, so it is
      pushBack(const T &). *)
  Definition str_push_back_move (fuel : nat) (s : str A) (x : A) : outcome (str A) :=
    if s_tail s + 1 <? s_cap s then
      let! s := put_char s (s_tail s) x in
      let s := set_tail s (s_tail s + 1) in
      put_char s (s_tail s) nul
    else
      let! s := str_resize s (next_capacity s) in
      str_push_back fuel s x.

  (** pushBack(const T * ), String.hpp 596-621; operator+=(const T * ), 348-353. *)
  Fixpoint str_push_raw (fuel : nat) (s : str A) (r : cstring A) : outcome (str A) :=
    match fuel with
    | 0 => Diverge
    | S f =>
        let! n := raw_length r in
        if s_tail s + n + 2 <? s_cap s then
          let! xs := raw_read r n in
          let! s := with_buf s (assign_list Trivial xs (s_tail s)) in
          let s := set_tail s (s_tail s + n) in
          put_char s (s_tail s) nul
        else
          let c := next_capacity s in
          let! s := str_resize s (if s_tail s + n + 2 <? c then c else s_tail s + n + 2) in
          str_push_raw f s r
    end.

  (** popBack(), String.hpp 623-631. *)
  Definition str_pop_back (s : str A) : outcome (str A) :=
    if s_tail s =? 0 then Ok s
    else put_char (set_tail s (s_tail s - 1)) (s_tail s - 1) nul.

  (** insert(it, const T &), String.hpp 633-661; [i] = it - begin(). *)
  Fixpoint str_insert (fuel : nat) (s : str A) (i : nat) (x : A) : outcome (str A) :=
    match fuel with
    | 0 => Diverge
    | S f =>
        if s_tail s + 1 <? s_cap s then
          if i =? s_tail s then str_push_back f s x
          else
            let! s := put_char s (s_tail s) nul in
            let! s := with_buf s (shift_right Trivial (fun c => c) (s_tail s - i) i 1) in
            let! s := put_char s i x in
            let s := set_tail s (s_tail s + 1) in
            put_char s (s_tail s) nul
        else
          let! s := str_reserve s (next_capacity s) in
          str_insert f s i x
    end.

  (** insert(it, T &&), String.hpp 663-692: the recursive call has an lvalue argument. *)
  Definition str_insert_move (fuel : nat) (s : str A) (i : nat) (x : A) : outcome (str A) :=
    if s_tail s + 1 <? s_cap s then
      if i =? s_tail s then str_push_back_move fuel s x
      else
        let! s := put_char s (s_tail s) nul in
        let! s := with_buf s (shift_right Trivial (fun c => c) (s_tail s - i) i 1) in
        let! s := put_char s i x in
        let s := set_tail s (s_tail s + 1) in
        put_char s (s_tail s) nul
    else
      let! s := str_reserve s (next_capacity s) in
      str_insert fuel s i x.

  (** The loop of pushBack calls, String.hpp 705-710. *)
  Fixpoint push_each (fuel : nat) (s : str A) (xs : list A) : outcome (str A) :=
    match xs with
    | [] => Ok s
    | x :: xs' => let! s := str_push_back fuel s x in push_each fuel s xs'
    end.

  (** insert(it, itBegin, itEnd), String.hpp 694-739. *)
  Fixpoint str_insert_range (fuel : nat) (s : str A) (i : nat) (xs : list A)
    : outcome (str A) :=
    match fuel with
    | 0 => Diverge
    | S f =>
        if length xs =? 0 then Ok s
        else if length xs + s_tail s <? s_cap s then
          if i =? s_tail s then push_each f s xs
          else
            let! s := with_buf s (construct_dflt Trivial nul (length xs) (s_tail s)) in
            let! s := with_buf s
              (shift_right Trivial (fun c => c) (s_tail s - i) i (length xs)) in
            let! s := with_buf s (assign_list Trivial xs i) in
            let s := set_tail s (s_tail s + length xs) in
            put_char s (s_tail s) nul
        else
          let! s := str_resize s (size_add (s_cap s) (size_sub (length xs) (s_cap s))) in
          str_insert_range f s i xs
    end.

  (** insert(it, const T * ), String.hpp 741-747. *)
  Definition str_insert_raw (fuel : nat) (s : str A) (i : nat) (r : cstring A)
    : outcome (str A) :=
    let! n := raw_length r in
    let! xs := raw_read r n in
    str_insert_range fuel s i xs.

  (** erase(it), String.hpp 749-766. *)
  Definition str_erase (s : str A) (i : nat) : outcome (str A) :=
    if i =? s_tail s then Ok s
    else if i + 1 =? s_tail s then str_pop_back s
    else
      let! s := with_buf s (shift_left Trivial (fun c => c) (s_tail s - (i + 1)) i 1) in
      let s := set_tail s (s_tail s - 1) in
      put_char s (s_tail s) nul.

  (** erase(itBegin, itEnd), String.hpp 768-790; itBegin - begin() = [i], itEnd - begin() = [j],
      [i <= j]. *)
  Definition str_erase_range (s : str A) (i j : nat) : outcome (str A) :=
    if j - i =? s_tail s then str_clean s
    else if (j - i <? s_tail s) && (0 <? j - i) then
      let! s := with_buf s (shift_left Trivial (fun c => c) (s_tail s - j) i (j - i)) in
      let s := set_tail s (s_tail s - (j - i)) in
      put_char s (s_tail s) nul
    else Ok s.

  (** operator+(string, string), String.hpp 846-851: += is the unfinished operator+=(const Me &) of
      365-370, which does nothing. *)
  Definition str_plus (a b : str A) : outcome (str A) := str_copy a.

  (** operator+(string, const T * ), String.hpp 854-861. *)
  Definition str_plus_raw (fuel : nat) (a : str A) (r : cstring A) : outcome (str A) :=
    let! s := str_copy a in
    str_push_raw fuel s r.

  (** operator+(const T *, string), String.hpp 863-870, with the same unfinished operator+=. *)
  Definition str_raw_plus (r : cstring A) (b : str A) : outcome (str A) := str_from_raw r.

  (** The calls of a history. Positions are distances from begin(). The member functions of
      String.hpp 288-790 that change the string. *)
  Inductive str_op :=
  | SPush (x : A)                      (* pushBack(const T &), += *)
  | SPushMove (x : A)                  (* pushBack(T &&) *)
  | SPushRaw (r : cstring A)           (* pushBack(const T * ), += *)
  | SPop
  | SInsert (i : nat) (x : A)
  | SInsertMove (i : nat) (x : A)
  | SInsertRange (i : nat) (xs : list A)
  | SInsertRaw (i : nat) (r : cstring A)
  | SErase (i : nat)
  | SEraseRange (i j : nat)
  | SClean
  | SResize (n : nat)
  | SReserve (n : nat)
  | SAssignRaw (r : cstring A).

  (** The call of the member function. *)
  Definition str_step (fuel : nat) (s : str A) (o : str_op) : outcome (str A) :=
    match o with
    | SPush x => str_push_back fuel s x
    | SPushMove x => str_push_back_move fuel s x
    | SPushRaw r => str_push_raw fuel s r
    | SPop => str_pop_back s
    | SInsert i x => str_insert fuel s i x
    | SInsertMove i x => str_insert_move fuel s i x
    | SInsertRange i xs => str_insert_range fuel s i xs
    | SInsertRaw i r => str_insert_raw fuel s i r
    | SErase i => str_erase s i
    | SEraseRange i j => str_erase_range s i j
    | SClean => str_clean s
    | SResize n => str_resize s n
    | SReserve n => str_reserve s n
    | SAssignRaw r => str_assign_raw fuel s r
    end.

  (** Calls in a row. *)
  Fixpoint str_run (fuel : nat) (s : str A) (os : list str_op) : outcome (str A) :=
    match os with
    | [] => Ok s
    | o :: os' => let! s := str_step fuel s o in str_run fuel s os'
    end.

  (** How the string of a history is made. BasicString(), String.hpp 188-193, or BasicString(const T * ),
      223-237. *)
  Inductive str_ctor := CDefault | CRaw (r : cstring A).
  (** The constructor chosen. *)
  Definition str_build (c : str_ctor) : outcome (str A) :=
    match c with
    | CDefault => Ok str_new
    | CRaw r => str_from_raw r
    end.
  (** A constructor, String.hpp 189-237, then calls. *)
  Definition str_history (fuel : nat) (c : str_ctor) (os : list str_op) : outcome (str A) :=
    let! s := str_build c in str_run fuel s os.
End String.
Arguments str_op : clear implicits.
Arguments str_ctor : clear implicits.
