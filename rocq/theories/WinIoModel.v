(** Reading and writing through a handle on Windows.

    Source: /repo/src/Streams/Windows/{FileStreamReader,FileStreamWriter}.cpp; PipeStream and the named
    pipe classes forward to these (PipeStream.cpp 79-117, NamedPipeReader.cpp 36-46,
    NamedPipeWriter.cpp 45-55). The file behind the handle is that of FileIoModel.

    The number of bytes is converted to DWORD, which has [DWORD] values (2 to the 32). *)
From Coq Require Import List Arith ZArith Bool.
From Verif Require Import Base StreamModel FileIoModel.
Import ListNotations.

Section WinIo.
  Variable DWORD : nat.
  (** The handle is the reading end of a pipe without writers (true) or something else. *)
  Variable orphan : bool.

  (** ReadFile; of the system. At the end of a pipe without writers it fails (ERROR_BROKEN_PIPE), at
      the end of a file it succeeds with 0 bytes. The result is [None] for FALSE. *)
  Definition ReadFile (f : file) (m : list Z) (p n : nat) : outcome (file * list Z * option Z) :=
    if orphan && match f_input f with [] => true | _ => false end then Ok (f, m, None)
    else
      let! r := sys_read f m p n in
      let '(f, m, count) := r in
      Ok (f, m, if (count <? 0)%Z then None else Some count).
  (** WriteFile; of the system. *)
  Definition WriteFile (f : file) (m : list Z) (p n : nat) : outcome (file * option Z) :=
    let! r := sys_write f m p n in
    let '(f, count) := r in
    Ok (f, if (count <? 0)%Z then None else Some count).

  (** FileStreamReader::read(OutputByteRange), Windows/FileStreamReader.cpp 45-65. *)
  Definition wr_linear (f : file) (m : list Z) (b e : nat) : outcome (file * list Z * Z) :=
    let rangeSize := (Z.of_nat e - Z.of_nat b)%Z in
    if (rangeSize >? 0)%Z then
      let! r := ReadFile f m b (Z.to_nat rangeSize mod DWORD) in
      let '(f, m, status) := r in
      Ok (f, m, match status with Some countBytes1 => countBytes1 | None => INVALID_COUNT_BYTES end)
    else Ok (f, m, INVALID_COUNT_BYTES).

  (** FileStreamReader::read(OutputCircularByteRange), Windows/FileStreamReader.cpp 67-82. *)
  Definition wr_circular (f : file) (m : list Z) (b e : nat) : outcome (file * list Z * Z) :=
    let! ranges := getContiniousRanges (length m) b e in
    let '((b0, e0), (b1, e1)) := ranges in
    let! r := wr_linear f m b0 e0 in
    let '(f, m, countBytes0) := r in
    if negb (countBytes0 =? INVALID_COUNT_BYTES)%Z then
      let! r := wr_linear f m b1 e1 in
      let '(f, m, countBytes1) := r in
      if (countBytes1 <? 0)%Z then Ok (f, m, countBytes1)
      else Ok (f, m, (countBytes0 + countBytes1)%Z)
    else Ok (f, m, (countBytes0 + INVALID_COUNT_BYTES)%Z).

  (** FileStreamReader::read, Windows/FileStreamReader.cpp 45-82. *)
  Definition win_read (f : file) (m : list Z) (r : brange) : outcome (file * list Z * Z) :=
    match r with Linear b e => wr_linear f m b e | Circular b e => wr_circular f m b e end.

  (** FileStreamWriter::write(InputByteRange), Windows/FileStreamWriter.cpp 34-54. *)
  Definition ww_linear (f : file) (m : list Z) (b e : nat) : outcome (file * Z) :=
    let rangeSize := (Z.of_nat e - Z.of_nat b)%Z in
    if (rangeSize >? 0)%Z then
      let! r := WriteFile f m b (Z.to_nat rangeSize mod DWORD) in
      let '(f, status) := r in
      Ok (f, match status with Some countBytes1 => countBytes1 | None => INVALID_COUNT_BYTES end)
    else Ok (f, INVALID_COUNT_BYTES).

  (** FileStreamWriter::write(InputCircularByteRange), Windows/FileStreamWriter.cpp 56-72. *)
  Definition ww_circular (f : file) (m : list Z) (b e : nat) : outcome (file * Z) :=
    let! ranges := getContiniousRanges (length m) b e in
    let '((b0, e0), (b1, e1)) := ranges in
    let! r := ww_linear f m b0 e0 in
    let '(f, countBytes0) := r in
    if (negb (countBytes0 =? INVALID_COUNT_BYTES)%Z && (Z.of_nat e1 - Z.of_nat b1 >? 0)%Z)%bool then
      let! r := ww_linear f m b1 e1 in
      let '(f, countBytes1) := r in
      if (countBytes1 <? 0)%Z then Ok (f, countBytes1)
      else Ok (f, (countBytes0 + countBytes1)%Z)
    else Ok (f, (countBytes0 + INVALID_COUNT_BYTES)%Z).

  (** FileStreamWriter::write, Windows/FileStreamWriter.cpp 34-72. *)
  Definition win_write (f : file) (m : list Z) (r : brange) : outcome (file * Z) :=
    match r with Linear b e => ww_linear f m b e | Circular b e => ww_circular f m b e end.

  (** Of the application: [while (b < e) b += stream.write(makeRange(b, e));] until all bytes of the
      memory from [b] to [e] are written. *)
  Fixpoint write_everything (fuel : nat) (f : file) (m : list Z) (b e : nat) : outcome file :=
    match fuel with
    | O => Diverge
    | S fuel =>
        if e <=? b then Ok f
        else
          let! r := ww_linear f m b e in
          let '(f, count) := r in
          if (count <? 0)%Z then Ok f else write_everything fuel f m (b + Z.to_nat count) e
    end.
End WinIo.
