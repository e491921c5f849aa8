(** Reading and writing through a file descriptor.

    Source: /repo/src/Streams/Posix/{FileStreamReader,FileStreamWriter,PipeStream}.cpp. The
    named pipe classes only forward to these (NamedPipeReader.cpp 30-38,
    NamedPipeWriter.cpp 46-54, NamedPipeStream.cpp 44-62).

    The file behind the descriptor is the bytes that can still be read, the bytes written so
    far, and the answers the system is going to give. *)
From Coq Require Import List Arith ZArith Bool.
From Verif Require Import Base StreamModel.
Import ListNotations.

(** ::read or ::write fails, or transfers at most that many bytes. *)
Inductive answer := Fails | AtMost (k : nat).
(** Of the system. *)
Record file := File { f_input : list Z; f_output : list Z; f_answers : list answer }.

(** StreamUtils.hpp 25. *)
Definition INVALID_COUNT_BYTES : Z := -1.   (* StreamUtils.hpp 25 *)

(** The next answer; a system without further answers transfers all it can. *)
Definition next_answer (f : file) (n : nat) : answer * list answer :=
  match f_answers f with
  | [] => (AtMost n, [])
  | a :: l => (a, l)
  end.

(** Of the system: what ::read does to the buffer. *)
Fixpoint store_bytes (m : list Z) (p : nat) (xs : list Z) : outcome (list Z) :=
  match xs with
  | [] => Ok m
  | x :: xs => let! m := write m p x in store_bytes m (S p) xs
  end.
(** Of the system: what ::write reads of the buffer. *)
Fixpoint load_bytes (m : list Z) (p n : nat) : outcome (list Z) :=
  match n with
  | O => Ok []
  | S n => let! x := read m p in let! xs := load_bytes m (S p) n in Ok (x :: xs)
  end.

(** ::read(fd, p, n) and ::write(fd, p, n). Of the system. *)
Definition sys_read (f : file) (m : list Z) (p n : nat) : outcome (file * list Z * Z) :=
  let (a, l) := next_answer f n in
  match a with
  | Fails => Ok (File (f_input f) (f_output f) l, m, (-1)%Z)
  | AtMost k =>
      let xs := firstn (Nat.min k n) (f_input f) in
      let! m := store_bytes m p xs in
      Ok (File (skipn (length xs) (f_input f)) (f_output f) l, m, Z.of_nat (length xs))
  end.
(** Of the system. *)
Definition sys_write (f : file) (m : list Z) (p n : nat) : outcome (file * Z) :=
  let (a, l) := next_answer f n in
  match a with
  | Fails => Ok (File (f_input f) (f_output f) l, (-1)%Z)
  | AtMost k =>
      let! xs := load_bytes m p (Nat.min k n) in
      Ok (File (f_input f) (f_output f ++ xs) l, Z.of_nat (length xs))
  end.

(** FileStreamReader::read(OutputByteRange), FileStreamReader.cpp 46-59. *)
Definition fr_linear (f : file) (m : list Z) (b e : nat) : outcome (file * list Z * Z) :=
  let rangeSize := (Z.of_nat e - Z.of_nat b)%Z in
  if (rangeSize >? 0)%Z then sys_read f m b (Z.to_nat rangeSize)
  else Ok (f, m, INVALID_COUNT_BYTES).

(** FileStreamReader::read(OutputCircularByteRange), FileStreamReader.cpp 61-76. *)
Definition fr_circular (f : file) (m : list Z) (b e : nat) : outcome (file * list Z * Z) :=
  let! ranges := getContiniousRanges (length m) b e in
  let '((b0, e0), (b1, e1)) := ranges in
  let! r := fr_linear f m b0 e0 in
  let '(f, m, countBytes0) := r in
  if negb (countBytes0 =? INVALID_COUNT_BYTES)%Z then
    let! r := fr_linear f m b1 e1 in
    let '(f, m, countBytes1) := r in
    if (countBytes1 <? 0)%Z then Ok (f, m, countBytes1)
    else Ok (f, m, (countBytes0 + countBytes1)%Z)
  else Ok (f, m, (countBytes0 + INVALID_COUNT_BYTES)%Z).

(** FileStreamReader::read, FileStreamReader.cpp 46-76. *)
Definition file_read (f : file) (m : list Z) (r : brange) : outcome (file * list Z * Z) :=
  match r with Linear b e => fr_linear f m b e | Circular b e => fr_circular f m b e end.

(** FileStreamWriter::write(InputByteRange), FileStreamWriter.cpp 35-48. *)
Definition fw_linear (f : file) (m : list Z) (b e : nat) : outcome (file * Z) :=
  let rangeSize := (Z.of_nat e - Z.of_nat b)%Z in
  if (rangeSize >? 0)%Z then sys_write f m b (Z.to_nat rangeSize)
  else Ok (f, INVALID_COUNT_BYTES).

(** FileStreamWriter::write(InputCircularByteRange), FileStreamWriter.cpp 50-66. *)
Definition fw_circular (f : file) (m : list Z) (b e : nat) : outcome (file * Z) :=
  let! ranges := getContiniousRanges (length m) b e in
  let '((b0, e0), (b1, e1)) := ranges in
  let! r := fw_linear f m b0 e0 in
  let '(f, countBytes0) := r in
  if (negb (countBytes0 =? INVALID_COUNT_BYTES)%Z && (Z.of_nat e1 - Z.of_nat b1 >? 0)%Z)%bool then
    let! r := fw_linear f m b1 e1 in
    let '(f, countBytes1) := r in
    if (countBytes1 <? 0)%Z then Ok (f, countBytes1)
    else Ok (f, (countBytes0 + countBytes1)%Z)
  else Ok (f, (countBytes0 + INVALID_COUNT_BYTES)%Z).

(** FileStreamWriter::write, FileStreamWriter.cpp 35-66. *)
Definition file_write (f : file) (m : list Z) (r : brange) : outcome (file * Z) :=
  match r with Linear b e => fw_linear f m b e | Circular b e => fw_circular f m b e end.

(** PipeStream::read, PipeStream.cpp 58-76, and write, 78-96: the status afterwards, given
    the status before. *)
Definition pipe_status (status result : Z) : Z :=
  if (result =? INVALID_COUNT_BYTES)%Z then result else status.
(** PipeStream::read, PipeStream.cpp 58-76. *)
Definition pipe_read (status : Z) (f : file) (m : list Z) (r : brange)
  : outcome (Z * (file * list Z * Z)) :=
  let! p := file_read f m r in Ok (pipe_status status (snd p), p).
(** PipeStream::write, PipeStream.cpp 78-96. *)
Definition pipe_write (status : Z) (f : file) (m : list Z) (r : brange)
  : outcome (Z * (file * Z)) :=
  let! p := file_write f m r in Ok (pipe_status status (snd p), p).
