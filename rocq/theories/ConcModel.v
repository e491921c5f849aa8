(** Threads that call operations of one shared object guarded by one lock.

    Used for /repo/src/Os/Async/Network/QueuedArray.hpp and
    /repo/include/FlameIDE/Os/Threads/Counter.hpp, whose operations all begin with
    [Locker locker{ lock };].

    A schedule is a list of moves; any number of threads, any order. One move is one access
    to the shared memory or one operation on the lock. Accesses are sequentially consistent
    (the operations are shown to be free of races, which is when C++ promises this). *)
From Coq Require Import List Arith.
From Verif Require Import Base.
Import ListNotations.

Section Machine.
  (** Memory of the object, its operations, their results. *)
  Variables M Op R : Type.

  (** What is left to do of a call.
      [Acquire]: Locker::Locker(Spin &), /repo/src/Os/Threads/Utils.cpp 54-59, that is
      Spin::lock, /repo/src/Os/Threads/Spin.cpp 53-56, that is pthread_spin_lock,
      /repo/src/Os/Posix/Threads/SpinFunctions.cpp 35-40.
      [Release]: Locker::~Locker, Utils.cpp 61-64 and 228-231; Spin::unlock, Spin.cpp 58-61;
      pthread_spin_unlock, SpinFunctions.cpp 48-53.
      The member [status] of Spin is not part of this machine (see LocksModel). *)
  Inductive prog : Type :=
  | Done (r : R)
  | Acquire (k : prog)
  | Release (k : prog)
  | Get (A : Type) (g : M -> outcome A) (k : A -> prog)
  | Set_ (f : M -> outcome M) (k : prog).

  Variable code : Op -> prog.

  (** [c_lock]: the value of the spin lock ([true] = taken; it has no owner). [c_threads]: the
      call each thread is executing. Of the model: the memory of a program with one object
      guarded as in QueuedArray.hpp 44-105. *)
  Record config : Type := Cfg { c_mem : M; c_lock : bool; c_threads : nat -> option prog }.

  (** Of the model. *)
  Definition fupd {X : Type} (f : nat -> X) (t : nat) (x : X) : nat -> X :=
    fun u => if u =? t then x else f u.

  (** Of the model. *)
  Definition set_thread (c : config) (t : nat) (p : option prog) : config :=
    Cfg (c_mem c) (c_lock c) (fupd (c_threads c) t p).

  (** A thread calls an operation, or executes its next step. Of the model. *)
  Inductive move : Type :=
  | Call (t : nat) (o : Op)
  | Tick (t : nat).

  (** What an observer sees: invocations and returns. Of the model. *)
  Inductive event : Type :=
  | Inv (t : nat) (o : Op)
  | Res (t : nat) (r : R).

  (** A move that is not possible (call by a thread that is busy, step of a thread that is idle or
      waits for the lock) changes nothing. Locker takes the lock in its constructor and gives it
      back in its destructor, Utils.cpp (src/Os/Threads); the spin lock is that of
      SpinFunctions.cpp. *)
  Definition step (c : config) (mv : move) : outcome (config * list event) :=
    match mv with
    | Call t o =>
        match c_threads c t with
        | None => Ok (set_thread c t (Some (code o)), [Inv t o])
        | Some _ => Ok (c, [])
        end
    | Tick t =>
        match c_threads c t with
        | None => Ok (c, [])
        | Some (Done r) => Ok (set_thread c t None, [Res t r])
        | Some (Acquire k) =>
            if c_lock c then Ok (c, [])
            else Ok (Cfg (c_mem c) true (fupd (c_threads c) t (Some k)), [])
        | Some (Release k) => Ok (Cfg (c_mem c) false (fupd (c_threads c) t (Some k)), [])
        | Some (Get A g k) =>
            let! a := g (c_mem c) in Ok (set_thread c t (Some (k a)), [])
        | Some (Set_ f k) =>
            let! m := f (c_mem c) in Ok (Cfg m (c_lock c) (fupd (c_threads c) t (Some k)), [])
        end
    end.

  (** Of the model: the moves of a schedule one after the other. *)
  Fixpoint run (c : config) (h : list event) (moves : list move)
    : outcome (config * list event) :=
    match moves with
    | [] => Ok (c, h)
    | mv :: rest => let! ce := step c mv in run (fst ce) (h ++ snd ce) rest
    end.

  (** The object is in memory state [m], no thread uses it. Of the model. *)
  Definition quiet (m : M) : config := Cfg m false (fun _ => None).

  (** The next step of the thread touches the memory of the object. Of the model, for stating
      exclusion. *)
  Definition accessing (c : config) (t : nat) : Prop :=
    match c_threads c t with
    | Some (Get _ _ _) | Some (Set_ _ _) => True
    | _ => False
    end.

  (** The thread is between the constructor and the destructor of its Locker. Of the model, for
      stating exclusion. *)
  Definition inside (c : config) (t : nat) : Prop :=
    match c_threads c t with
    | Some (Get _ _ _) | Some (Set_ _ _) | Some (Release _) => True
    | _ => False
    end.

  (** One call by one thread while no other thread uses the object. Of the model, for stating
      linearizability. *)
  Fixpoint alone (fuel : nat) (p : prog) (m : M) : outcome (M * R) :=
    match fuel with
    | O => Diverge
    | S fuel' =>
        match p with
        | Done r => Ok (m, r)
        | Acquire k | Release k => alone fuel' k m
        | Get A g k => let! a := g m in alone fuel' (k a) m
        | Set_ f k => let! m := f m in alone fuel' k m
        end
    end.

  (** * Signals

      A handler that runs on top of a thread: [over t = Some b] means that the last signal
      delivered to thread [t] is handled under the name [b]; [t] is suspended until the
      handler has returned. *)
  (** Of the model. *)
  Record iconfig : Type := ICfg { i_base : config; i_over : nat -> option nat }.

  (** A thread whose handler has not returned; of the model. *)
  Definition suspended (c : iconfig) (t : nat) : bool :=
    match i_over c t with
    | None => false
    | Some b => match c_threads (i_base c) b with None => false | Some _ => true end
    end.

  (** A call, a step, a signal delivered to the thread [t] whose handler, under the name [b],
      calls an operation; of the model. *)
  Inductive imove : Type :=
  | ICall (t : nat) (o : Op)
  | ITick (t : nat)
  | ISignal (t b : nat) (o : Op).

  (** One move; of the model. As [step], but a suspended thread cannot move. *)
  Definition istep (c : iconfig) (mv : imove) : outcome (iconfig * list event) :=
    match mv with
    | ICall t o =>
        if suspended c t then Ok (c, [])
        else let! ce := step (i_base c) (Call t o) in
             Ok (ICfg (fst ce) (i_over c), snd ce)
    | ITick t =>
        if suspended c t then Ok (c, [])
        else let! ce := step (i_base c) (Tick t) in
             Ok (ICfg (fst ce) (i_over c), snd ce)
    | ISignal t b o =>
        if suspended c t then Ok (c, [])
        else match c_threads (i_base c) b with
             | Some _ => Ok (c, [])
             | None =>
                 if t =? b then Ok (c, [])
                 else let! ce := step (i_base c) (Call b o) in
                      Ok (ICfg (fst ce) (fupd (fupd (i_over c) b None) t (Some b)), snd ce)
             end
    end.

  (** Of the model: the moves of a schedule one after the other. *)
  Fixpoint irun (c : iconfig) (h : list event) (moves : list imove)
    : outcome (iconfig * list event) :=
    match moves with
    | [] => Ok (c, h)
    | mv :: rest => let! ce := istep c mv in irun (fst ce) (h ++ snd ce) rest
    end.

  (** Of the model: no thread uses the object, no handler runs. *)
  Definition iquiet (m : M) : iconfig := ICfg (quiet m) (fun _ => None).
End Machine.

Arguments Done {M R}. Arguments Acquire {M R}. Arguments Release {M R}.
Arguments Get {M R A}. Arguments Set_ {M R}.
Arguments Cfg {M R}. Arguments c_mem {M R}. Arguments c_lock {M R}. Arguments c_threads {M R}.
Arguments Call {Op}. Arguments Tick {Op}. Arguments Inv {Op R}. Arguments Res {Op R}.
Arguments quiet {M R}. Arguments accessing {M R}. Arguments inside {M R}.
Arguments step {M Op R}. Arguments run {M Op R}. Arguments alone {M R}. Arguments set_thread {M R}.
Arguments ICfg {M R}. Arguments i_base {M R}. Arguments i_over {M R}.
Arguments ICall {Op}. Arguments ITick {Op}. Arguments ISignal {Op}.
Arguments suspended {M R}. Arguments istep {M Op R}. Arguments irun {M Op R}.
Arguments iquiet {M R}.
