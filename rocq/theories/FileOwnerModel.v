(** Descriptors and files owned by stream objects.

    Source: /repo/src/Streams/Posix/{FileStreamReader,FileStreamWriter,NamedPipeReader,
    NamedPipeWriter,NamedPipeStream}.cpp. FileStreamReader and FileStreamWriter have the same
    text for everything below. Variables are numbered; [None] is a variable without an
    object. Descriptors are integers; the process has a set of open ones; ::close of a
    descriptor that is not open does nothing (its result is ignored by the code). *)
From Coq Require Import List Arith ZArith Bool.
From Verif Require Import Base.
Import ListNotations.
Local Open Scope Z_scope.

(** Os/Posix/Constants.hpp 13. *)
Definition INVALID_DESCRIPTOR : Z := -1.    (* Os/Posix/Constants.hpp 13 *)

(** Of the model: change of one variable. *)
Definition setv {A} (f : nat -> A) (v : nat) (x : A) : nat -> A :=
  fun u => if Nat.eqb u v then x else f u.
(** Of the model. *)
Definition setz {A} (f : Z -> A) (z : Z) (x : A) : Z -> A := fun u => if u =? z then x else f u.

(** Members fd and own: FileStreamReader.hpp, FileStreamWriter.hpp. *)
Record fobj := FObj { f_fd : Z; f_own : bool }.
(** Of the model: the variables and the open descriptors of the process. *)
Record fworld := FWorld { w_vars : nat -> option fobj; w_open : Z -> bool }.

(** ::close; of the system. *)
Definition fclose (w : fworld) (fd : Z) : fworld := FWorld (w_vars w) (setz (w_open w) fd false).
(** Of the model: a change of one variable. *)
Definition fput (w : fworld) (v : nat) (o : option fobj) : fworld :=
  FWorld (setv (w_vars w) v o) (w_open w).
(** Of the model: access to a variable; one without an object: undefined. *)
Definition fget (w : fworld) (v : nat) : outcome fobj :=
  match w_vars w v with Some o => Ok o | None => UB end.
(** Of the model: a variable is constructed when it has no object. *)
Definition fplace (w : fworld) (v : nat) : outcome unit :=
  match w_vars w v with None => Ok tt | Some _ => UB end.

(** The destructor, FileStreamReader.cpp 27-33, FileStreamWriter.cpp 27-33, and the first half
    of setFileDescriptor, FileStreamReader.cpp 81-84 and FileStreamWriter.cpp 87-90. *)
Definition release (w : fworld) (o : fobj) : fworld :=
  if f_own o && negb (f_fd o =? INVALID_DESCRIPTOR) then fclose w (f_fd o) else w.

(** The calls, FileStreamReader.hpp and FileStreamWriter.hpp. *)
Inductive fcall :=
| FDefault (v : nat)                             (* FileStreamReader() *)
| FFrom (v : nat) (fd : Z) (owner : bool)        (* FileStreamReader(fd, owner) *)
| FMove (v p : nat)                              (* FileStreamReader(move(p)) *)
| FMoveAssign (v p : nat)                        (* v = move(p) *)
| FSet (v : nat) (fd : Z) (owner : bool)         (* v.setFileDescriptor(fd, owner) *)
| FGet (v : nat) (continueOwning : bool)         (* v.getFileDescriptor(continueOwning) *)
| FDestroy (v : nat)
| UOpen (fd : Z)                                 (* other parts of the process *)
| UClose (fd : Z).

(** The world after a call and its result (0 for the calls without a result). *)
Definition fstep (w : fworld) (c : fcall) : outcome (fworld * Z) :=
  match c with
  | FDefault v =>                                (* Reader 12, Writer 12 *)
      let! _ := fplace w v in Ok (fput w v (Some (FObj INVALID_DESCRIPTOR false)), 0)
  | FFrom v fd owner =>                          (* Reader 22-25, Writer 22-25 *)
      let! _ := fplace w v in Ok (fput w v (Some (FObj fd owner)), 0)
  | FMove v p =>                                 (* Reader 15-20, Writer 15-20 *)
      let! _ := fplace w v in
      let! s := fget w p in
      Ok (fput (fput w v (Some s)) p (Some (FObj INVALID_DESCRIPTOR false)), 0)
  | FMoveAssign v p =>                           (* Reader 35-44, Writer 73-82 *)
      let! _ := fget w v in
      let! s := fget w p in
      Ok (fput (fput w v (Some s)) p (Some (FObj INVALID_DESCRIPTOR false)), 0)
  | FSet v fd owner =>                           (* Reader 78-87, Writer 84-93 *)
      let! o := fget w v in
      Ok (fput (release w o) v (Some (FObj fd owner)), 0)
  | FGet v continueOwning =>                     (* Reader 89-94, Writer 95-100 *)
      let! o := fget w v in
      Ok (fput w v (Some (FObj (f_fd o) continueOwning)), f_fd o)
  | FDestroy v =>                                (* Reader 27-33, Writer 27-33 *)
      let! o := fget w v in
      Ok (fput (release w o) v None, 0)
  | UOpen fd => Ok (FWorld (w_vars w) (setz (w_open w) fd true), 0)
  | UClose fd => Ok (fclose w fd, 0)
  end.

(** Of the model: the calls of a history, one after the other. *)
Fixpoint frun (w : fworld) (h : list fcall) : outcome (fworld * list Z) :=
  match h with
  | [] => Ok (w, [])
  | c :: h =>
      let! r := fstep w c in
      let! s := frun (fst r) h in
      Ok (fst s, snd r :: snd s)
  end.

(** Of the model: no objects, no open descriptors. *)
Definition f_start : fworld := FWorld (fun _ => None) (fun _ => false).

(** * Named pipes *)

(** A NamedPipeWriter: the FileStreamWriter, fname and delPipe (NamedPipeWriter.hpp); [None]
    for a bool that was never given a value: reading it is UB. *)
Record npw := NPW { p_file : fobj; p_name : list Z; p_del : option bool }.
(** Of the model: reading a member; one without a value: undefined. *)
Definition rd (b : option bool) : outcome bool := match b with Some b => Ok b | None => UB end.

(** The writers, the open descriptors, and the files that exist. Names are lists of characters. Of
    the model. *)
Record pworld := PWorld
  { p_vars : nat -> option npw; p_open : Z -> bool; p_files : list Z -> bool }.

(** Of the model: equality of names. *)
Definition name_eqb (a b : list Z) : bool := if list_eq_dec Z.eq_dec a b then true else false.
(** Of the model. *)
Definition setf (f : list Z -> bool) (n : list Z) (x : bool) : list Z -> bool :=
  fun m => if name_eqb m n then x else f m.

(** Of the model: access to a variable; one without an object: undefined. *)
Definition pget (w : pworld) (v : nat) : outcome npw :=
  match p_vars w v with Some o => Ok o | None => UB end.
(** Of the model: a variable is constructed when it has no object. *)
Definition pplace (w : pworld) (v : nat) : outcome unit :=
  match p_vars w v with None => Ok tt | Some _ => UB end.
(** Of the model: a change of one variable. *)
Definition pput (w : pworld) (v : nat) (o : option npw) : pworld :=
  PWorld (setv (p_vars w) v o) (p_open w) (p_files w).
(** The destructor of the base class, FileStreamWriter.cpp 27-33. *)
Definition prelease (w : pworld) (o : fobj) : pworld :=
  if f_own o && negb (f_fd o =? INVALID_DESCRIPTOR)
  then PWorld (p_vars w) (setz (p_open w) (f_fd o) false) (p_files w) else w.

(** makeNamedWriter, CommonFunctionsImpl.cpp 82-86 and makeFifo 18-55: the file is made (or
    exists), then opened; [fd] is the descriptor ::open gives, or -1. (A failure of mknod
    itself is not modelled.) *)
Definition makeNamedWriter (w : pworld) (name : list Z) (fd : Z) : pworld :=
  PWorld (p_vars w) (if fd =? -1 then p_open w else setz (p_open w) fd true)
    (setf (p_files w) name true).

(** os::PIPE_NAME_PREFIX, "/tmp/" (Os/Posix/Constants.hpp 43). *)
Definition PIPE_NAME_PREFIX : list Z := [47; 116; 109; 112; 47].
(** operator+ of two strings, Templates/String.hpp 846-852 and 365-370: += of a string does
    nothing (StringModel, C59). *)
Definition plus_string (a b : list Z) : list Z := a.

(** The calls, NamedPipeWriter.hpp 20-57. *)
Inductive pcall :=
| PDefault (v : nat)
| PNamed (v : nat) (name : list Z) (del : bool) (fd : Z)
| PMove (v p : nat)
| PMoveAssign (v p : nat)
| POpen (v : nat) (name : list Z) (del : bool) (fd : Z)
| PSetName (v : nat) (name : list Z) (del : bool)
| PDestroy (v : nat).

(** FileStreamWriter(), FileStreamWriter.cpp 12. *)
Definition no_file : fobj := FObj INVALID_DESCRIPTOR false.

(** operator=(NamedPipeWriter &&), NamedPipeWriter.cpp 36-44: the file stream is assigned,
    delPipe is assigned and cleared in the source; fname is not. *)
Definition npw_assign (o s : npw) : outcome (npw * npw) :=
  let! d := rd (p_del s) in
  Ok (NPW (p_file s) (p_name o) (Some d), NPW no_file (p_name s) (Some false)).

(** ~NamedPipeWriter, NamedPipeWriter.cpp 27-34. ::remove of the name. *)
Definition npw_destroy (w : pworld) (o : npw) : outcome pworld :=
  let w := prelease w (p_file o) in
  let! d := rd (p_del o) in
  Ok (if d then PWorld (p_vars w) (p_open w) (setf (p_files w) (p_name o) false) else w).

(** The members of NamedPipeWriter, each cited at its case. *)
Definition pstep (w : pworld) (c : pcall) : outcome pworld :=
  match c with
  | PDefault v =>                                (* 12-13: delPipe is not initialised *)
      let! _ := pplace w v in Ok (pput w v (Some (NPW no_file [] None)))
  | PNamed v name del fd =>                      (* 21-25 *)
      let! _ := pplace w v in
      Ok (pput (makeNamedWriter w name fd) v (Some (NPW (FObj fd true) name (Some del))))
  | PMove v p =>                                 (* 15-19 *)
      let! _ := pplace w v in
      let! s := pget w p in
      let! r := npw_assign (NPW no_file [] None) s in
      Ok (pput (pput w v (Some (fst r))) p (Some (snd r)))
  | PMoveAssign v p =>
      let! o := pget w v in
      let! s := pget w p in
      let! r := npw_assign o s in
      Ok (pput (pput w v (Some (fst r))) p (Some (snd r)))
  | POpen v name del fd =>                       (* 56-69 *)
      let! o := pget w v in
      let w := makeNamedWriter (prelease w (p_file o)) name fd in
      if fd <? 0 then Ok (pput w v (Some (NPW no_file (p_name o) (p_del o))))
      else Ok (pput w v (Some (NPW (FObj fd true) (p_name o) (Some del))))
  | PSetName v name del =>                       (* 76-80 *)
      let! o := pget w v in
      Ok (pput w v (Some (NPW (p_file o) (plus_string PIPE_NAME_PREFIX name) (Some del))))
  | PDestroy v =>
      let! o := pget w v in
      let! w := npw_destroy w o in Ok (pput w v None)
  end.

(** Of the model: the calls of a history, one after the other. *)
Fixpoint prun (w : pworld) (h : list pcall) : outcome pworld :=
  match h with
  | [] => Ok w
  | c :: h => let! w := pstep w c in prun w h
  end.

(** Of the model: no writers, no open descriptors, the given files. *)
Definition p_start (files : list Z -> bool) : pworld := PWorld (fun _ => None) (fun _ => false) files.

(** A NamedPipeStream: members writer and reader (NamedPipeStream.hpp). The name of a
    NamedPipeReader plays no role here. *)
Record npstream := NPS { s_writer : npw; s_reader : fobj }.

(** NamedPipeStream(), NamedPipeStream.cpp 12. *)
Definition nps_default : npstream := NPS (NPW no_file [] None) no_file.

(** NamedPipeStream(name, deletePipe), NamedPipeStream.cpp 19-27, with makeNamedPipe
    (CommonFunctions.cpp 78-114): the two descriptors come from opening both ends. *)
Definition nps_open (name : list Z) (del : bool) (wfd rfd : Z) : npstream :=
  NPS (NPW (FObj wfd true) (plus_string PIPE_NAME_PREFIX name) (Some del)) (FObj rfd true).

(** deinit, NamedPipeStream.cpp 100-104: assignment of a default-constructed reader (the
    descriptor of the old one is overwritten, FileStreamReader.cpp 35-44) and of a
    default-constructed writer. [g] is the delPipe of that writer, which has no value
    ([None]); [Some b] is what a compiler that reads memory there may find. *)
Definition nps_deinit (g : option bool) (s : npstream) : outcome npstream :=
  let reader := no_file in
  let! r := npw_assign (s_writer s) (NPW no_file [] g) in
  Ok (NPS (fst r) reader).

(** ~NamedPipeStream, NamedPipeStream.cpp 29-32: deinit, then the destructors of the members. *)
Definition nps_destroy (g : option bool) (w : pworld) (s : npstream) : outcome pworld :=
  let! s := nps_deinit g s in
  let w := prelease w (s_reader s) in
  npw_destroy w (s_writer s).
