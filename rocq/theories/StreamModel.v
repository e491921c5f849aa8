(** Byte ranges handed to streams, and the memory stream.

    Source: /repo/include/FlameIDE/Streams/{StreamUtils,RamStream}.hpp,
    /repo/src/Streams/{StreamUtils,RamStream}.cpp.

    Bytes are numbers of type [Z]; nothing depends on their size. A range points into a
    piece of the caller's memory, given as the list of its bytes; positions are indexes.
    The ring of a circular iterator (CircularIterator.hpp, its first and last) is the whole
    of that piece of memory. *)
From Coq Require Import List Arith ZArith Bool.
From Verif Require Import Base Store StaticVectorModel VectorModel IteratorsModel
  CircularArrayModel.
Import ListNotations.

(** OutputByteRange / InputByteRange and OutputCircularByteRange / InputCircularByteRange,
    StreamUtils.hpp 32-58 and 83-109: a pair of iterators. *)
Inductive brange := Linear (b e : nat) | Circular (b e : nat).

(** range.begin(), Templates/Range.hpp. *)
Definition br_begin (r : brange) : nat := match r with Linear b _ | Circular b _ => b end.
(** range.end(), Templates/Range.hpp. *)
Definition br_end (r : brange) : nat := match r with Linear _ e | Circular _ e => e end.
(** operator++ of the iterator: Iterator.hpp for pointers; CircularIterator.hpp (modelled in
    IteratorsModel, [circ_inc]). [n]: size of the memory. *)
Definition br_next (n : nat) (r : brange) : nat -> nat :=
  match r with Linear _ _ => S | Circular _ _ => ci_inc n end.

(** * Splitting a circular range *)

(** The loop of getContiniousRanges, StreamUtils.cpp 18-24: [prev] and [next] advance while
    the address of [prev] is below that of [next]. *)
Fixpoint split_loop (fuel n prev next : nat) : outcome (nat * nat) :=
  if prev <? next then
    match fuel with
    | O => Diverge
    | S f => split_loop f n (ci_inc n prev) (ci_inc n next)
    end
  else Ok (prev, next).

(** getContiniousRanges, StreamUtils.cpp 12-40: two linear ranges, given by first and last. *)
Definition getContiniousRanges (n b e : nat) : outcome ((nat * nat) * (nat * nat)) :=
  let! p := split_loop n n b (ci_plus n b 1) in
  let '(prev, next) := p in
  Ok ((b, S prev), (next, e)).

(** * RamStream *)

Section RamStream.
  (** Allocation, as in VectorModel. *)
  Variable mem : memory.

  (** The object is [templates::Vector<Byte> buffer], RamStream.hpp; byte_t is trivial. *)
  Definition ram := vec Z.
  (** RamStream(), RamStream.cpp 7: an empty Vector, RamStream.hpp 31. *)
  Definition ram_new : ram := vec_new.
  (** A byte that was moved from keeps its value; C++ itself. *)
  Definition byte_moved (x : Z) : Z := x.

  (** The loop of read(OutputByteRange), RamStream.cpp 13-24, and of
      read(OutputCircularByteRange), 32-43. *)
  Fixpoint ram_read_loop (fuel : nat) (next : nat -> nat) (it last : nat) (s : ram)
    (out : list Z) : outcome (ram * list Z) :=
    if it =? last then Ok (s, out)
    else match fuel with
    | O => Diverge
    | S f =>
        if negb (vec_size s =? 0) then
          let! x := vec_index s 0 in
          let! out := write out it x in
          let! s := vec_erase Trivial byte_moved s 0 in
          ram_read_loop f next (next it) last s out
        else Ok (s, out)
    end.

  (** read, RamStream.cpp 10-27 and 29-46. The result is the stream, the memory the range
      points into, and the number of bytes. *)
  Definition ram_read (s : ram) (out : list Z) (r : brange) : outcome (ram * list Z * nat) :=
    let currentSize := vec_size s in
    let! p := ram_read_loop (length out) (br_next (length out) r) (br_begin r) (br_end r) s out in
    let '(s, out) := p in
    Ok (s, out, currentSize - vec_size s).

  (** The loop of write(InputByteRange), RamStream.cpp 51-54, and of
      write(InputCircularByteRange), 62-65. Two: a push grows the vector at most once. *)
  Fixpoint ram_write_loop (fuel : nat) (next : nat -> nat) (it last : nat) (s : ram)
    (src : list Z) : outcome ram :=
    if it =? last then Ok s
    else match fuel with
    | O => Diverge
    | S f =>
        let! x := read src it in
        let! s := vec_pushBack Trivial mem 2 s x in
        ram_write_loop f next (next it) last s src
    end.

  (** write, RamStream.cpp 48-57 and 59-68. *)
  Definition ram_write (s : ram) (src : list Z) (r : brange) : outcome (ram * nat) :=
    let currentSize := vec_size s in
    let! s := ram_write_loop (length src) (br_next (length src) r) (br_begin r) (br_end r) s src in
    Ok (s, vec_size s - currentSize).

  (** Calls of a user, and what they see: the memory after the call and the number. The calls
      write, read and flush, RamStream.cpp 8-70. *)
  Inductive ram_call := RWrite (src : list Z) (r : brange) | RRead (out : list Z) (r : brange) | RFlush.

  (** flush, RamStream.cpp 70-71. *)
  Definition ram_step (s : ram) (c : ram_call) : outcome (ram * (list Z * nat)) :=
    match c with
    | RWrite src r => let! p := ram_write s src r in Ok (fst p, (src, snd p))
    | RRead out r =>
        let! p := ram_read s out r in
        let '(s, out, k) := p in Ok (s, (out, k))
    | RFlush => Ok (s, ([], 0))
    end.

  (** Of the model: the calls of a history one after the other. *)
  Fixpoint ram_run (s : ram) (h : list ram_call) : outcome (ram * list (list Z * nat)) :=
    match h with
    | [] => Ok (s, [])
    | c :: h =>
        let! p := ram_step s c in
        let! q := ram_run (fst p) h in
        Ok (fst q, snd p :: snd q)
    end.
End RamStream.
