(** File streams, pipes and named pipes on Windows, and PipeStream on both systems: who closes
    which handle.

    Source: /repo/src/Streams/Windows/{FileStreamReader,FileStreamWriter,PipeStream,
    NamedPipeReader,NamedPipeWriter,NamedPipeStream,CommonFunctionsImpl}.cpp and
    /repo/src/Streams/Posix/PipeStream.cpp. Handles are integers;
    os::INVALID_DESCRIPTOR is -1 on both systems (Os/Windows/Constants.hpp 14). The calls of
    file streams are those of [FileOwnerModel]. *)
From Coq Require Import List Arith ZArith Bool.
From Verif Require Import Base FileOwnerModel.
Import ListNotations.
Local Open Scope Z_scope.

(** The two systems, Streams/Posix and Streams/Windows. *)
Inductive system := Posix | Windows.

(** * File streams *)

(** The member own may have no value. The members fd and own of FileStreamReader.hpp,
    FileStreamWriter.hpp. *)
Record xobj := XObj { x_fd : Z; x_own : option bool }.
(** Of the model: the variables and the open handles of the process. *)
Record xworld := XWorld { x_vars : nat -> option xobj; x_open : Z -> bool }.

(** CloseHandle; of the system. *)
Definition xclose (w : xworld) (fd : Z) : xworld := XWorld (x_vars w) (setz (x_open w) fd false).
(** Of the model: a change of one variable. *)
Definition xput (w : xworld) (v : nat) (o : option xobj) : xworld := XWorld (setv (x_vars w) v o) (x_open w).
(** Of the model: access to a variable; one without an object: undefined. *)
Definition xget (w : xworld) (v : nat) : outcome xobj := match x_vars w v with Some o => Ok o | None => UB end.
(** Of the model: a variable is constructed when it has no object. *)
Definition xplace (w : xworld) (v : nat) : outcome unit := match x_vars w v with None => Ok tt | Some _ => UB end.

(** The default constructor: Posix/FileStreamReader.cpp 12 sets own to false;
    Windows/FileStreamReader.cpp 11, FileStreamWriter.cpp 11 leave it without a value. *)
Definition default_own (s : system) : option bool := match s with Posix => Some false | Windows => None end.

Section Streams.
  Variable sys : system.
  (** What reading a bool without a value gives: undefined behaviour ([None]), or some value a
      program finds there. *)
  Variable g : option bool.

  (** Of the model. *)
  Definition rdg (b : option bool) : outcome bool :=
    match b with
    | Some b => Ok b
    | None => match g with Some b => Ok b | None => UB end
    end.

  (** The destructor, FileStreamReader.cpp 26-32, FileStreamWriter.cpp 26-32, and the first half
      of setFileDescriptor, FileStreamReader.cpp 87-90, FileStreamWriter.cpp 93-96. *)
  Definition xrelease (w : xworld) (o : xobj) : outcome xworld :=
    let! own := rdg (x_own o) in
    Ok (if own && negb (x_fd o =? INVALID_DESCRIPTOR) then xclose w (x_fd o) else w).

  (** The members of FileStreamReader and FileStreamWriter, by the functions above and as cited at
      the case. *)
  Definition xstep (w : xworld) (c : fcall) : outcome (xworld * Z) :=
    match c with
    | FDefault v =>
        let! _ := xplace w v in Ok (xput w v (Some (XObj INVALID_DESCRIPTOR (default_own sys))), 0)
    | FFrom v fd owner =>                          (* Reader 21-24, Writer 21-24 *)
        let! _ := xplace w v in Ok (xput w v (Some (XObj fd (Some owner))), 0)
    | FMove v p =>                                 (* Reader 14-19, Writer 14-19 *)
        let! _ := xplace w v in
        let! s := xget w p in
        let! own := rdg (x_own s) in
        Ok (xput (xput w v (Some (XObj (x_fd s) (Some own)))) p (Some (XObj INVALID_DESCRIPTOR (Some false))), 0)
    | FMoveAssign v p =>                           (* Reader 34-43, Writer 79-88 *)
        let! _ := xget w v in
        let! s := xget w p in
        let! own := rdg (x_own s) in
        Ok (xput (xput w v (Some (XObj (x_fd s) (Some own)))) p (Some (XObj INVALID_DESCRIPTOR (Some false))), 0)
    | FSet v fd owner =>                           (* Reader 84-93, Writer 90-99 *)
        let! o := xget w v in
        let! w := xrelease w o in
        Ok (xput w v (Some (XObj fd (Some owner))), 0)
    | FGet v continueOwning =>                     (* Reader 95-100, Writer 101-106 *)
        let! o := xget w v in
        Ok (xput w v (Some (XObj (x_fd o) (Some continueOwning))), x_fd o)
    | FDestroy v =>
        let! o := xget w v in
        let! w := xrelease w o in
        Ok (xput w v None, 0)
    | UOpen fd => Ok (XWorld (x_vars w) (setz (x_open w) fd true), 0)
    | UClose fd => Ok (xclose w fd, 0)
    end.

  (** Of the model: the calls of a history, one after the other. *)
  Fixpoint xrun (w : xworld) (h : list fcall) : outcome (xworld * list Z) :=
    match h with
    | [] => Ok (w, [])
    | c :: h =>
        let! r := xstep w c in
        let! s := xrun (fst r) h in
        Ok (fst s, snd r :: snd s)
    end.

  (** * PipeStream *)

  (** Members status (without a value: [None]), reader and writer (PipeStream.hpp 85-87). The
      reader of the pipe [v] is the file stream [2 v], its writer [2 v + 1]. *)
  Record qworld := QWorld { q_files : xworld; q_status : nat -> option (option Z) }.
  (** Of the model: the number of the member reader of the PipeStream [v]. *)
  Definition reader_of (v : nat) : nat := (2 * v)%nat.
  (** Of the model: the number of its member writer. *)
  Definition writer_of (v : nat) : nat := (2 * v + 1)%nat.

  (** The calls, PipeStream.hpp. *)
  Inductive qcall :=
  | QDefault (v : nat) (made : option (Z * Z))     (* PipeStream(); what the system made *)
  | QFrom (v : nat) (r : Z) (rown : bool) (wr : Z) (wown : bool)
  | QMove (v p : nat)
  | QAssign (v p : nat)
  | QSetReader (v : nat) (fd : Z) (owner : bool)
  | QSetWriter (v : nat) (fd : Z) (owner : bool)
  | QGetReader (v : nat) (continueOwning : bool)
  | QGetWriter (v : nat) (continueOwning : bool)
  | QStatus (v : nat)
  | QDestroy (v : nat)
  | QUserOpen (fd : Z)
  | QUserClose (fd : Z).

  (** What pipe() and CreatePipe() return: Posix/PipeStream.cpp 24-25, Windows/PipeStream.cpp
      21-26. *)
  Definition pipe_result (made : option (Z * Z)) : Z :=
    match sys, made with
    | Posix, Some _ => 0
    | Posix, None => -1
    | Windows, Some _ => 1
    | Windows, None => 0
    end.
  (** The test after it: Posix 26, Windows 27. *)
  Definition pipe_test (status : Z) : bool :=
    match sys with Posix => negb (status =? -1) | Windows => negb (status =? 0) end.

  (** The calls on the two members. *)
  Definition member_calls (c : qcall) : list fcall :=
    match c with
    | QDefault v made =>                           (* Posix 22-31, Windows 19-32 *)
        [FDefault (reader_of v); FDefault (writer_of v)]
        ++ match made with Some (a, b) => [UOpen a; UOpen b] | None => [] end
        ++ (if pipe_test (pipe_result made) then
              match made with
              | Some (a, b) => [FSet (reader_of v) a true; FSet (writer_of v) b true]
              | None => []
              end
            else [])
    | QFrom v r rown wr wown => [FFrom (reader_of v) r rown; FFrom (writer_of v) wr wown]   (* Posix 38-43, Windows 39-44 *)
    | QMove v p => [FMove (reader_of v) (reader_of p); FMove (writer_of v) (writer_of p)]   (* 33-36, 34-37 *)
    | QAssign v p => [FMoveAssign (reader_of v) (reader_of p); FMoveAssign (writer_of v) (writer_of p)] (* 45-51, 46-52 *)
    | QSetReader v fd owner => [FSet (reader_of v) fd owner]                                (* Windows 54-57 *)
    | QSetWriter v fd owner => [FSet (writer_of v) fd owner]                                (* Windows 59-62 *)
    | QGetReader v co => [FGet (reader_of v) co]                                            (* Windows 64-67 *)
    | QGetWriter v co => [FGet (writer_of v) co]                                            (* Windows 69-72 *)
    | QStatus v => []
    | QDestroy v => [FDestroy (writer_of v); FDestroy (reader_of v)]
    | QUserOpen fd => [UOpen fd]
    | QUserClose fd => [UClose fd]
    end.

  (** The member status afterwards. The move constructor gives it no value. *)
  Definition new_status (st : nat -> option (option Z)) (c : qcall) : nat -> option (option Z) :=
    match c with
    | QDefault v made => setv st v (Some (Some (pipe_result made)))
    | QFrom v _ _ _ _ => setv st v (Some (Some 0))
    | QMove v p => setv st v (Some None)
    | QAssign v p => setv st v (Some (Some 0))
    | QDestroy v => setv st v None
    | _ => st
    end.

  (** The result is that of getStatus() or of the last call on a member, 0 if there is none. *)
  Definition qstep (w : qworld) (c : qcall) : outcome (qworld * Z) :=
    let! r := xrun (q_files w) (member_calls c) in
    match c with
    | QStatus v =>                                 (* Posix 53-56, Windows 74-77 *)
        match q_status w v with
        | Some (Some s) => Ok (w, s)
        | _ => UB
        end
    | _ => Ok (QWorld (fst r) (new_status (q_status w) c), last (snd r) 0)
    end.

  (** Of the model: the calls of a history, one after the other. *)
  Fixpoint qrun (w : qworld) (h : list qcall) : outcome (qworld * list Z) :=
    match h with
    | [] => Ok (w, [])
    | c :: h =>
        let! r := qstep w c in
        let! s := qrun (fst r) h in
        Ok (fst s, snd r :: snd s)
    end.
End Streams.

(** Of the model: no objects, no open handles. *)
Definition x_start : xworld := XWorld (fun _ => None) (fun _ => false).
(** Of the model: no objects, no open handles. *)
Definition q_start : qworld := QWorld x_start (fun _ => None).

(** * Named pipes on Windows *)

(** The serving end of a named pipe, or any other handle. Of the system. *)
Inductive hkind := Server | Other.
(** Of the system: the open handles and what they are. *)
Definition handles := Z -> option hkind.
(** CloseHandle; of a handle that is not open (or the pseudo handle -1) it does nothing. Of the
    system. *)
Definition CloseHandle (h : handles) (fd : Z) : handles := setz h fd None.
(** destroyNamedReader, CommonFunctionsImpl.cpp 85-98: DisconnectNamedPipe fails unless the
    handle is a serving end; then nothing is closed. *)
Definition destroyNamedReader (h : handles) (fd : Z) : handles :=
  match h fd with Some Server => CloseHandle h fd | _ => h end.
(** destroyNamedWriter, CommonFunctionsImpl.cpp 100-108. *)
Definition destroyNamedWriter (h : handles) (fd : Z) : handles := CloseHandle h fd.

(** NamedPipeReader.hpp, NamedPipeWriter.hpp. *)
Inductive nkind := NReader | NWriter.
(** A NamedPipeReader or a NamedPipeWriter; delPipe (only of a writer) may have no value. fname
    plays no role here. NamedPipeReader.hpp, NamedPipeWriter.hpp 15-62. *)
Record nobj := NObj { n_kind : nkind; n_file : xobj; n_del : option bool }.
(** Of the model: the variables and the open handles. *)
Record nworld := NWorld { n_vars : nat -> option nobj; n_open : handles }.

(** Of the model: a change of one variable. *)
Definition nput (w : nworld) (v : nat) (o : option nobj) : nworld := NWorld (setv (n_vars w) v o) (n_open w).
(** Of the model: access to a variable; one without an object: undefined. *)
Definition nget (w : nworld) (v : nat) : outcome nobj := match n_vars w v with Some o => Ok o | None => UB end.
(** Of the model: a variable is constructed when it has no object. *)
Definition nplace (w : nworld) (v : nat) : outcome unit := match n_vars w v with None => Ok tt | Some _ => UB end.
(** Of the model: equality. *)
Definition nkind_eqb (a b : nkind) : bool :=
  match a, b with NReader, NReader | NWriter, NWriter => true | _, _ => false end.

(** The calls, NamedPipeReader.hpp and NamedPipeWriter.hpp 20-57. *)
Inductive ncall :=
| NDefault (v : nat) (k : nkind)
| NNamed (v : nat) (k : nkind) (del : bool) (fd : Z)     (* fd: what the system gives, or -1 *)
| NMove (v p : nat)
| NAssign (v p : nat)
| NOpen (v : nat) (del : bool) (fd error : Z)               (* error: GetLastError() if fd is -1 *)
| NSet (v : nat) (fd : Z) (owner : bool)
| NGet (v : nat) (continueOwning : bool)
| NDestroy (v : nat)
| NUserOpen (fd : Z) (k : hkind)
| NUserClose (fd : Z).

Section Named.
  Variable g : option bool.

  (** The destructor of the base class, Windows/FileStreamReader.cpp and FileStreamWriter.cpp. *)
  Definition nrelease (h : handles) (o : xobj) : outcome handles :=
    let! own := rdg g (x_own o) in
    Ok (if own && negb (x_fd o =? INVALID_DESCRIPTOR) then CloseHandle h (x_fd o) else h).

  (** makeNamedReader and makeNamedWriter, CommonFunctionsImpl.cpp 21-83, as far as the result
      goes. *)
  Definition nmake (h : handles) (k : nkind) (fd : Z) : handles :=
    if fd =? INVALID_DESCRIPTOR then h
    else setz h fd (Some (match k with NReader => Server | NWriter => Other end)).

  (** ~NamedPipeReader, NamedPipeReader.cpp 23-28; ~NamedPipeWriter, NamedPipeWriter.cpp 25-33,
      and the destructor of the base. *)
  Definition ndestroy (h : handles) (o : nobj) : outcome handles :=
    match n_kind o with
    | NReader => Ok (destroyNamedReader h (x_fd (n_file o)))
    | NWriter =>
        let! del := rdg g (n_del o) in
        if del then Ok (destroyNamedWriter h (x_fd (n_file o)))
        else nrelease h (n_file o)
    end.

  (** The members of NamedPipeReader, NamedPipeWriter and NamedPipeStream, each cited at its case.
      *)
  Definition nstep (w : nworld) (c : ncall) : outcome (nworld * Z) :=
    match c with
    | NDefault v k =>                              (* Reader 12-13, Writer 12-13 *)
        let! _ := nplace w v in
        Ok (nput w v (Some (NObj k (XObj INVALID_DESCRIPTOR None) None)), 0)
    | NNamed v k del fd =>                         (* Reader 19-21, Writer 21-23 *)
        let! _ := nplace w v in
        Ok (nput (NWorld (n_vars w) (nmake (n_open w) k fd)) v (Some (NObj k (XObj fd (Some true)) (Some del))), 0)
    | NMove v p =>                                 (* Reader 15-17, Writer 15-19 *)
        let! _ := nplace w v in
        let! s := nget w p in
        let! own := rdg g (x_own (n_file s)) in
        let! del := match n_kind s with NWriter => rdg g (n_del s) | NReader => Ok false end in
        Ok (nput (nput w v (Some (NObj (n_kind s) (XObj (x_fd (n_file s)) (Some own)) (Some del))))
              p (Some (NObj (n_kind s) (XObj INVALID_DESCRIPTOR (Some false)) (Some false))), 0)
    | NAssign v p =>                               (* Reader 30-34, Writer 35-43 *)
        let! o := nget w v in
        let! s := nget w p in
        if nkind_eqb (n_kind o) (n_kind s) then
          let! own := rdg g (x_own (n_file s)) in
          let! del := match n_kind s with NWriter => rdg g (n_del s) | NReader => Ok false end in
          Ok (nput (nput w v (Some (NObj (n_kind s) (XObj (x_fd (n_file s)) (Some own)) (Some del))))
                p (Some (NObj (n_kind s) (XObj INVALID_DESCRIPTOR (Some false)) (Some false))), 0)
        else UB                                    (* does not compile *)
    | NOpen v del fd error =>                      (* Reader 49-60, Writer 57-70 *)
        let! o := nget w v in
        let! h := nrelease (n_open w) (n_file o) in
        let h := nmake h (n_kind o) fd in
        if fd <? 0 then
          Ok (nput (NWorld (n_vars w) h) v (Some (NObj (n_kind o) (XObj INVALID_DESCRIPTOR (Some false)) (n_del o))), error)
        else
          Ok (nput (NWorld (n_vars w) h) v (Some (NObj (n_kind o) (XObj fd (Some true)) (Some del))), 0)
    | NSet v fd owner =>                           (* the function of the base *)
        let! o := nget w v in
        let! h := nrelease (n_open w) (n_file o) in
        Ok (nput (NWorld (n_vars w) h) v (Some (NObj (n_kind o) (XObj fd (Some owner)) (n_del o))), 0)
    | NGet v continueOwning =>
        let! o := nget w v in
        Ok (nput w v (Some (NObj (n_kind o) (XObj (x_fd (n_file o)) (Some continueOwning)) (n_del o))), x_fd (n_file o))
    | NDestroy v =>
        let! o := nget w v in
        let! h := ndestroy (n_open w) o in
        Ok (nput (NWorld (n_vars w) h) v None, 0)
    | NUserOpen fd k => Ok (NWorld (n_vars w) (setz (n_open w) fd (Some k)), 0)
    | NUserClose fd => Ok (NWorld (n_vars w) (CloseHandle (n_open w) fd), 0)
    end.

  (** Of the model: the calls of a history, one after the other. *)
  Fixpoint nrun (w : nworld) (h : list ncall) : outcome (nworld * list Z) :=
    match h with
    | [] => Ok (w, [])
    | c :: h =>
        let! r := nstep w c in
        let! s := nrun (fst r) h in
        Ok (fst s, snd r :: snd s)
    end.

  (** NamedPipeStream::deinit, NamedPipeStream.cpp 103-115: the condition is always true. *)
  Definition deinit (h : handles) (reader writer : nobj) : handles :=
    CloseHandle (CloseHandle h (x_fd (n_file reader))) (x_fd (n_file writer)).
  (** NamedPipeStream::open on a stream that was constructed by default, NamedPipeStream.cpp 83-96, for a success:
      the members afterwards. *)
  Definition opened_reader (fd : Z) : nobj := NObj NReader (XObj fd (Some true)) None.
  (** Windows/NamedPipeStream.cpp 83-96: what open assigns to the writer. *)
  Definition opened_writer (fd : Z) : nobj := NObj NWriter (XObj fd (Some true)) None.
  (** ~NamedPipeStream, NamedPipeStream.cpp 26-29, and the destructors of the members; [between] is what other
      threads do to the handles meanwhile. *)
  Definition stream_destroy (between : handles -> handles) (h : handles) (reader writer : nobj) : outcome handles :=
    let h := between (deinit h reader writer) in
    let release_own o := NObj (n_kind o) (XObj (x_fd (n_file o)) (Some false)) (n_del o) in
    let! h := ndestroy h (release_own reader) in
    ndestroy h (release_own writer).
End Named.

(** Of the model: no objects, no open handles. *)
Definition n_start : nworld := NWorld (fun _ => None) (fun _ => None).
