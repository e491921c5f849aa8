(** Model of ArrayAllocator and ObjectAllocator over malloc and free.

    Source: /repo/include/FlameIDE/Templates/Allocator/ArrayAllocator.hpp, ObjectAllocator.hpp,
    MallocAllocator.hpp, Interface.hpp. *)
From Coq Require Import List Arith Bool ZArith.
From Verif Require Import Base.
Import ListNotations.

(** An argument of a constructor: a named object, or an object that may be moved from. *)
Inductive argument (A : Type) := Lvalue (a : A) | Rvalue (a : A).
Arguments Lvalue {A}.
Arguments Rvalue {A}.

Section Allocator.
  Context {A : Type}.
  (** What is left of an object that was moved from. *)
  Variable moved : A -> A.
  (** sizeof(Type). *)
  Variable type_size : nat.
  (** The number of values of SizeType. SizeTraits::SizeType is size_t. *)
  Definition size_modulus : Z := 2 ^ 64.

  (** The heap: blocks of cells for objects; None: freed. [h_vars]: the pointers of the user.
      [h_lost]: objects whose memory was freed while they were alive. Of the model. *)
  Record aworld := AW {
    h_blocks : list (option (cells A)); h_vars : list (option nat); h_lost : nat
  }.
  (** Of the model: an empty heap, no variables. *)
  Definition a_start : aworld := AW [] [] 0.

  (** Of the model: the objects in a block. *)
  Fixpoint count_live (c : cells A) : nat :=
    match c with
    | [] => 0
    | Some _ :: c => S (count_live c)
    | None :: c => count_live c
    end.

  (** malloc, MallocAllocator.hpp 60-64 (through Interface.hpp 46-49): [ok] tells whether the
      system has memory. A block of b bytes has room for b / sizeof(Type) objects. *)
  Definition a_malloc (w : aworld) (bytes : Z) (ok : bool) : aworld * option nat :=
    if ok then
      (AW (h_blocks w ++ [Some (raw A (Z.to_nat (bytes / Z.of_nat type_size)))]) (h_vars w)
          (h_lost w),
       Some (length (h_blocks w)))
    else (w, None).

  (** free, MallocAllocator.hpp 74-79: of the null pointer it does nothing. *)
  Definition a_free (w : aworld) (p : option nat) : outcome aworld :=
    match p with
    | None => Ok w
    | Some b =>
        match nth_error (h_blocks w) b with
        | Some (Some c) =>
            Ok (AW (upd (h_blocks w) b None) (h_vars w) (count_live c + h_lost w))
        | _ => UB
        end
    end.

  (** SizeType(sizeof(Type) * count). As in ArrayAllocator.hpp. *)
  Definition byte_count (count : nat) : Z := ((Z.of_nat type_size * Z.of_nat count) mod size_modulus)%Z.

  (** The loop, ArrayAllocator.hpp 111-113: forward gives the same argument to every
      constructor. *)
  Fixpoint fill_cells (c : cells A) (i n : nat) (a : argument A) : outcome (cells A) :=
    match n with
    | 0 => Ok c
    | S n =>
        match a with
        | Lvalue x => let! c := construct c i x in fill_cells c (S i) n (Lvalue x)
        | Rvalue x => let! c := construct c i x in fill_cells c (S i) n (Rvalue (moved x))
        end
    end.

  (** Of the model: access to a block; one that was freed: undefined. *)
  Definition block_of (w : aworld) (b : nat) : outcome (cells A) :=
    match nth_error (h_blocks w) b with
    | Some (Some c) => Ok c
    | _ => UB
    end.

  (** ArrayAllocator::construct, ArrayAllocator.hpp 99-116. *)
  Definition array_construct (w : aworld) (count : nat) (a : argument A) (ok : bool)
    : outcome (aworld * option nat) :=
    match a_malloc w (byte_count count) ok with
    | (w, None) => Ok (w, None)
    | (w, Some b) =>
        let! c := block_of w b in
        let! c := fill_cells c 0 count a in
        Ok (AW (upd (h_blocks w) b (Some c)) (h_vars w) (h_lost w), Some b)
    end.

  (** The loop of destroy, ArrayAllocator.hpp 143-144. *)
  Fixpoint clear_cells (c : cells A) (i n : nat) : outcome (cells A) :=
    match n with
    | 0 => Ok c
    | S n => let! c := destroy c i in clear_cells c (S i) n
    end.

  (** ArrayAllocator::destroy, ArrayAllocator.hpp 138-147: the world and the pointer afterwards. *)
  Definition array_destroy (w : aworld) (p : option nat) (count : nat) : outcome aworld :=
    match p with
    | None => match count with 0 => a_free w None | S _ => UB end
    | Some b =>
        let! c := block_of w b in
        let! c := clear_cells c 0 count in
        a_free (AW (upd (h_blocks w) b (Some c)) (h_vars w) (h_lost w)) (Some b)
    end.

  (** ObjectAllocator::construct, ObjectAllocator.hpp 78-115. The overload for rvalues, 91-102,
      passes the name of its parameter, an lvalue: the object is copied. *)
  Definition object_construct (w : aworld) (a : argument A) (ok : bool)
    : outcome (aworld * option nat) :=
    match a_malloc w (Z.of_nat type_size) ok with
    | (w, None) => Ok (w, None)
    | (w, Some b) =>
        let! c := block_of w b in
        let! c := construct c 0 match a with Lvalue x | Rvalue x => x end in
        Ok (AW (upd (h_blocks w) b (Some c)) (h_vars w) (h_lost w), Some b)
    end.

  (** ObjectAllocator::destroy, ObjectAllocator.hpp 117-124. *)
  Definition object_destroy (w : aworld) (p : option nat) : outcome aworld :=
    match p with
    | None => UB
    | Some b =>
        let! c := block_of w b in
        let! c := destroy c 0 in
        a_free (AW (upd (h_blocks w) b (Some c)) (h_vars w) (h_lost w)) (Some b)
    end.

  (** A user: each construction makes a new variable; destroy takes a reference to one and makes
      it null. ArrayAllocator.hpp, ObjectAllocator.hpp. *)
  Inductive acall :=
  | AArray (count : nat) (a : argument A) (ok : bool)
  | AArrayDestroy (v count : nat)
  | AObject (a : argument A) (ok : bool)
  | AObjectDestroy (v : nat).

  (** One call, by the functions above. *)
  Definition astep (w : aworld) (c : acall) : outcome aworld :=
    match c with
    | AArray n a ok =>
        let! (w, p) := array_construct w n a ok in Ok (AW (h_blocks w) (h_vars w ++ [p]) (h_lost w))
    | AArrayDestroy v n =>
        let! p := read (h_vars w) v in
        let! w := array_destroy w p n in Ok (AW (h_blocks w) (upd (h_vars w) v None) (h_lost w))
    | AObject a ok =>
        let! (w, p) := object_construct w a ok in Ok (AW (h_blocks w) (h_vars w ++ [p]) (h_lost w))
    | AObjectDestroy v =>
        let! p := read (h_vars w) v in
        let! w := object_destroy w p in Ok (AW (h_blocks w) (upd (h_vars w) v None) (h_lost w))
    end.

  (** Of the model: the calls of a history one after the other. *)
  Fixpoint arun (w : aworld) (h : list acall) : outcome aworld :=
    match h with
    | [] => Ok w
    | c :: h => let! w := astep w c in arun w h
    end.
End Allocator.
Arguments aworld : clear implicits.
Arguments acall : clear implicits.
