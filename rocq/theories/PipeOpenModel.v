(** Opening both ends of a named pipe.

    Source: /repo/src/Streams/CommonFunctions.cpp (makeNamedBidirectional 80-91),
    /repo/src/Streams/Posix/CommonFunctionsImpl.cpp (makeFifo 18-54),
    /repo/src/Streams/Windows/CommonFunctionsImpl.cpp (makeNamedPipeClient 21-40,
    makeNamedPipeServer 42-69), the functions open of Posix/NamedPipeStream.cpp (81-93) and
    Windows/NamedPipeStream.cpp (83-96), and the constructor of the latter.

    The main thread opens the reading end, the thread it started opens the writing end, then
    the main thread joins the other. One call of the system is one step; a schedule says who
    takes the next step. Not modelled: that the thread itself could not be started, and what
    other processes do beyond the steps [Unlink] and [OpenReader]. *)
From Coq Require Import List Arith ZArith Bool.
Import ListNotations.

(** * POSIX *)

(** What is in the directory under the name. A fifo has an identity: after it was removed,
    another one may have the name. *)
Inductive node := Absent | Fifo (id : nat) | Regular.
(** What a descriptor was opened for. Of the model. *)
Inductive opened := OnFifo (id : nat) | OnRegular.
(** The result of makeFifo: the descriptor or the error. Posix/CommonFunctionsImpl.cpp 18-54. *)
Inductive result := Opened (o : opened) | Failed (error : Z).

(** Of the model: the program counter of the main thread in makeFifo and makeNamedBidirectional,
    CommonFunctions.cpp 80-91. *)
Inductive mpc := MMknod | MOpen | MJoin | MDone.
(** Of the model: the program counter of the other thread in makeFifo,
    Posix/CommonFunctionsImpl.cpp 18-54. *)
Inductive tpc := TMknod | TOpen | TWait (id : nat) | TDone.
(** Of the model: the file system and the two threads. *)
Record pstate := PState {
  p_node : node;
  p_readers : nat -> nat;        (* open reading ends of each fifo *)
  p_next : nat;                  (* the next identity *)
  p_main : mpc; p_thread : tpc;
  p_reader : option result; p_writer : option result
}.

(** The four calls that may fail, with an error other than EEXIST. Posix/CommonFunctionsImpl.cpp
    18-54. *)
Inductive syscall := MainMknod | MainOpen | ThreadMknod | ThreadOpen.
(** Of the model: who takes the next step; the last two are other programs. *)
Inductive tick := Main | Thread | Unlink | OpenReader.

(** Of the model: counts one more. *)
Definition more (f : nat -> nat) (id : nat) : nat -> nat := fun i => if i =? id then S (f i) else f i.

Section Posix.
  Variable fails : syscall -> option Z.

  (** mknod, CommonFunctionsImpl.cpp 21-28: an existing file is no error. *)
  Definition mknod (s : pstate) : pstate :=
    match p_node s with
    | Absent => PState (Fifo (p_next s)) (p_readers s) (S (p_next s)) (p_main s) (p_thread s) (p_reader s) (p_writer s)
    | _ => s
    end.
  (** Of the model. *)
  Definition set_main (s : pstate) (m : mpc) (r : option result) : pstate :=
    PState (p_node s) (p_readers s) (p_next s) m (p_thread s) r (p_writer s).
  (** Of the model. *)
  Definition set_thread (s : pstate) (t : tpc) (r : option result) : pstate :=
    PState (p_node s) (p_readers s) (p_next s) (p_main s) t (p_reader s) r.
  (** Of the model. *)
  Definition set_node (s : pstate) (n : node) (f : nat -> nat) : pstate :=
    PState n f (p_next s) (p_main s) (p_thread s) (p_reader s) (p_writer s).

  (** One step of a thread, or of another process; the lines are cited at [mpc] and [tpc] and in
      the cases. *)
  Definition pstep (s : pstate) (k : tick) : pstate :=
    match k with
    | Main =>
        match p_main s with
        | MMknod =>
            match fails MainMknod with
            | Some e => set_main s MJoin (Some (Failed e))
            | None => set_main (mknod s) MOpen (p_reader s)
            end
        | MOpen =>                    (* 30-34, 45: O_CREAT | O_RDONLY | O_NONBLOCK *)
            match fails MainOpen with
            | Some e => set_main s MJoin (Some (Failed e))
            | None =>
                match p_node s with
                | Absent => set_main (set_node s Regular (p_readers s)) MJoin (Some (Opened OnRegular))
                | Regular => set_main s MJoin (Some (Opened OnRegular))
                | Fifo id => set_main (set_node s (Fifo id) (more (p_readers s) id)) MJoin (Some (Opened (OnFifo id)))
                end
            end
        | MJoin => match p_thread s with TDone => set_main s MDone (p_reader s) | _ => s end
        | MDone => s
        end
    | Thread =>
        match p_thread s with
        | TMknod =>
            match fails ThreadMknod with
            | Some e => set_thread s TDone (Some (Failed e))
            | None => set_thread (mknod s) TOpen (p_writer s)
            end
        | TOpen =>                    (* 35-38, 45: O_CREAT | O_WRONLY waits for a reader *)
            match fails ThreadOpen with
            | Some e => set_thread s TDone (Some (Failed e))
            | None =>
                match p_node s with
                | Absent => set_thread (set_node s Regular (p_readers s)) TDone (Some (Opened OnRegular))
                | Regular => set_thread s TDone (Some (Opened OnRegular))
                | Fifo id =>
                    if p_readers s id =? 0 then set_thread s (TWait id) (p_writer s)
                    else set_thread s TDone (Some (Opened (OnFifo id)))
                end
            end
        | TWait id =>
            if p_readers s id =? 0 then s else set_thread s TDone (Some (Opened (OnFifo id)))
        | TDone => s
        end
    | Unlink => set_node s Absent (p_readers s)
    | OpenReader =>
        match p_node s with
        | Fifo id => set_node s (Fifo id) (more (p_readers s) id)
        | _ => s
        end
    end.
  (** Of the model: the steps of a schedule, one after the other. *)
  Definition prun (s : pstate) (l : list tick) : pstate := fold_left pstep l s.
  (** The call is made when the name is [n], and fifo 0 has [r] readers. Of the model. *)
  Definition pstart (n : node) (r : nat) : pstate :=
    PState n (fun i => if i =? 0 then r else 0) 1 MMknod TMknod None None.
End Posix.

(** NamedPipeStream::open on POSIX, NamedPipeStream.cpp 81-93: the descriptors and the status it
    returns once makeNamedPipe has returned. *)
Definition posix_open (s : pstate) : option (result * result * Z) :=
  match p_main s, p_reader s, p_writer s with
  | MDone, Some r, Some w => Some (r, w, 0%Z)
  | _, _, _ => None
  end.

(** * Windows *)

(** The only instance of the pipe: not made, made, the server waits in ConnectNamedPipe, a client
    is connected. Of the system. *)
Inductive instance := NoInstance | Made | Waiting | Connected.
(** Of the model: the program counter of the main thread in makeNamedPipeServer,
    Windows/CommonFunctionsImpl.cpp 42-69, and makeNamedBidirectional. *)
Inductive wmpc := WCreate | WConnect | WWait | WJoin | WDone.
(** Of the model: the pipe and the two threads. *)
Record wstate := WState {
  w_pipe : instance; w_main : wmpc; w_thread : bool (* ended *);
  w_reader : option bool; w_writer : option bool    (* the result: whether a handle was made *)
}.
(** Of the model: who takes the next step. *)
Inductive wtick := WMain | WThread.

(** CreateFileA of the client, Streams/Windows/CommonFunctionsImpl.cpp 21-40. *)
Definition create_file (p : instance) : instance * bool :=
  match p with Made | Waiting => (Connected, true) | _ => (p, false) end.

(** One step of a thread on Windows; the lines are cited at the types of the states and in the
    cases. *)
Definition wstep (s : wstate) (k : wtick) : wstate :=
  match k with
  | WMain =>
      match w_main s with
      | WCreate => WState Made WConnect (w_thread s) (w_reader s) (w_writer s)                (* 45-53 *)
      | WConnect =>                                                                            (* 62-66 *)
          match w_pipe s with
          | Connected =>   (* ERROR_PIPE_CONNECTED: the handle is closed *)
              WState NoInstance WJoin (w_thread s) (Some false) (w_writer s)
          | _ => WState Waiting WWait (w_thread s) (w_reader s) (w_writer s)
          end
      | WWait =>
          match w_pipe s with
          | Connected => WState Connected WJoin (w_thread s) (Some true) (w_writer s)
          | _ => s
          end
      | WJoin => if w_thread s then WState (w_pipe s) WDone (w_thread s) (w_reader s) (w_writer s) else s
      | WDone => s
      end
  | WThread =>
      if w_thread s then s
      else let (p, ok) := create_file (w_pipe s) in WState p (w_main s) true (w_reader s) (Some ok)
  end.
(** Of the model: the steps of a schedule, one after the other. *)
Definition wrun (s : wstate) (l : list wtick) : wstate := fold_left wstep l s.
(** Of the model: the call begins. *)
Definition wstart : wstate := WState NoInstance WCreate false None None.

(** NamedPipeStream::open on Windows, NamedPipeStream.cpp 83-96: what the stream has afterwards
    (reader, writer), whether success is returned, and whether a handle of a writer is left that
    nobody has. *)
Definition windows_open (s : wstate) : option (bool * bool * bool * bool) :=
  match w_main s, w_reader s, w_writer s with
  | WDone, Some r, Some w => if r && w then Some (true, true, true, false) else Some (false, false, false, w)
  | _, _, _ => None
  end.

(** The constructor NamedPipeStream(name, deletePipe) on Windows, NamedPipeStream.cpp 22-24: the
    writer is made first, then the reader, by the same thread. *)
Definition wctor (n : nat) : wstate :=
  wrun (wstep wstart WThread) (repeat WMain n).
