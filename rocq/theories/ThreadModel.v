(** Model of os::threads::ThreadBase (and ThreadCrtp) on POSIX.

    Source: /repo/src/Os/Threads/Thread.cpp, /repo/include/FlameIDE/Os/Threads/Thread.hpp,
    /repo/src/Os/Posix/Threads/ThreadFunctions.cpp. What POSIX leaves undefined is [UB]. A
    history is a list of calls of the program and of events of the threads it started. Every
    body ends at some time and uses its object until then. Not modelled: a thread that joins
    itself, native() (declared, not defined), cancellation, what the bodies do. *)
From Coq Require Import List Arith ZArith.
From Verif Require Import Base.
Import ListNotations.

Section Thread.
  (** The bytes that pthread_attr_init leaves are all zero (a choice of the system; not so with
      glibc). *)
  Variable attr_zero : bool.
  (** pthread_attr_destroy of attributes that are not initialised succeeds (POSIX leaves it
      undefined; it does with glibc). *)
  Variable lenient : bool.

  (** A thread of the system: the object its body works on, whether the body has begun and
      ended, and whether the thread was joined or detached. *)
  Inductive phase := NotBegun | Working | Ended.
  (** Of the system. *)
  Record kthread := KThread { k_object : nat; k_phase : phase; k_released : bool }.

  (** pthread_t: all bytes zero; what pthread_create stored; what is left of a pthread_create that
      failed. Of the system. *)
  Inductive tid := IdZero | Id (n : nat) | IdJunk.
  (** pthread_attr_t: all bytes zero, or initialised. Of the system. *)
  Inductive attr := AZero | AInit.

  (** OsThreadContext, Os/Posix/Types.hpp 106-110. *)
  Record tcontext := TContext { c_id : tid; c_attr : attr }.
  (** ThreadBase, Thread.hpp 61 and 71; [None]: the context is not initialised. *)
  Record tobj := TObj { o_context : option tcontext; o_status : Z }.

  (** [w_errno]: the variable errno, which the pthread functions do not change. Of the model: the
      ThreadBase variables, the threads of the process. *)
  Record tworld := TWorld { w_vars : nat -> option tobj; w_threads : list kthread; w_errno : Z }.

  (** Of the model. *)
  Definition setv (f : nat -> option tobj) (v : nat) (x : option tobj) : nat -> option tobj :=
    fun u => if u =? v then x else f u.
  (** Of the model: a change of one variable. *)
  Definition put (w : tworld) (v : nat) (x : option tobj) : tworld :=
    TWorld (setv (w_vars w) v x) (w_threads w) (w_errno w).
  (** Of the model: access to a variable; one without an object: undefined. *)
  Definition get (w : tworld) (v : nat) : outcome tobj :=
    match w_vars w v with Some o => Ok o | None => UB end.
  (** Of the model: a variable is constructed when it has no object. *)
  Definition free (w : tworld) (v : nat) : outcome unit :=
    match w_vars w v with None => Ok tt | Some _ => UB end.
  (** Of the model: a change of one thread. *)
  Definition set_thread (w : tworld) (n : nat) (k : kthread) : tworld :=
    TWorld (w_vars w) (upd (w_threads w) n k) (w_errno w).
  (** Of the model: access to a thread. *)
  Definition thread_of (w : tworld) (n : nat) : outcome kthread :=
    match nth_error (w_threads w) n with Some k => Ok k | None => UB end.
  (** Of the model: reading a member; one without a value: undefined. *)
  Definition rd {A} (x : option A) : outcome A := match x with Some a => Ok a | None => UB end.

  (** os::THREAD_CONTEXT_INITIALIZER, Os/Posix/Constants.hpp 29. *)
  Definition initializer : tcontext := TContext IdZero AZero.

  (** Of the model, for the comparison of bytes in Thread.cpp. *)
  Definition attr_bytes_zero (a : attr) : bool :=
    match a with AZero => true | AInit => attr_zero end.
  (** isEqual(context, THREAD_CONTEXT_INITIALIZER), Common/Utils.hpp 402-420: byte by byte. A
      thread's identification is not zero; nothing is known about what a failed pthread_create
      leaves. *)
  Definition is_initial (c : tcontext) : outcome bool :=
    match c_id c with
    | IdZero => Ok (attr_bytes_zero (c_attr c))
    | Id _ => Ok false
    | IdJunk => UB
    end.

  (** RETURN_RESULT, ThreadFunctions.cpp 6-13: a result that is not 0 becomes -errno. *)
  Definition return_result (w : tworld) (result : Z) : Z :=
    if (result =? 0)%Z then 0%Z else (- w_errno w)%Z.

  (** pthread_attr_destroy. Of the system. *)
  Definition attr_destroy (a : attr) : outcome unit :=
    match a with
    | AInit => Ok tt
    | AZero => if lenient then Ok tt else UB
    end.

  (** join, ThreadFunctions.cpp 62-68: pthread_join waits for the end of the body; a thread that
      was joined or detached must not be joined. *)
  Definition do_join (w : tworld) (c : tcontext) : outcome tworld :=
    match c_id c with
    | Id n =>
        let! k := thread_of w n in
        if k_released k then UB
        else
          let! _ := match k_phase k with Ended => Ok tt | _ => let! _ := get w (k_object k) in Ok tt end in
          Ok (set_thread w n (KThread (k_object k) Ended true))
    | _ => UB
    end.

  (** pthread_detach, ThreadFunctions.cpp 49. *)
  Definition do_detach (w : tworld) (c : tcontext) : outcome tworld :=
    match c_id c with
    | Id n =>
        let! k := thread_of w n in
        if k_released k then UB
        else Ok (set_thread w n (KThread (k_object k) (k_phase k) true))
    | _ => UB
    end.

  (** The calls, Thread.hpp 15-69; the events of the threads. *)
  Inductive tcall :=
  | TNew (v : nat)
  | TMove (v p : nat)
  | TMoveAssign (v p : nat)
  | TRun (v : nat) (init_result create_result : Z)   (* what the system answers *)
  | TJoin (v : nat)
  | TDetach (v : nat)
  | TIsWorking (v : nat) (ended_result : Z)          (* the answer for a body that has ended *)
  | TGetStatus (v : nat)
  | TDelete (v : nat)
  | KBegin (n : nat)
  | KEnd (n : nat).

  (** operator=(ThreadBase &&), Thread.cpp 35-49. *)
  Definition move_assign (w : tworld) (v p : nat) : outcome tworld :=
    let! o := get w v in
    let! c := rd (o_context o) in
    let! i := is_initial c in
    let! _ := (if i then Ok tt else attr_destroy (c_attr c)) in
    let! s := get w p in
    let! _ := rd (o_context s) in
    Ok (put (put w v (Some s)) p (Some (TObj (Some initializer) 0))).

  (** run, Thread.cpp 51-61; create, ThreadFunctions.cpp 35-44. *)
  Definition do_run (w : tworld) (v : nat) (o : tobj) (init_result create_result : Z) : outcome tworld :=
    let! c := rd (o_context o) in
    let! i := is_initial c in
    let o1 := if i
              then TObj (Some (TContext (c_id c) (if (init_result =? 0)%Z then AInit else c_attr c)))
                        (return_result w init_result)
              else o in
    if (o_status o1 =? 0)%Z then
      let! c1 := rd (o_context o1) in
      match c_attr c1 with
      | AZero => UB                              (* attributes that are not initialised *)
      | AInit =>
          if (create_result =? 0)%Z
          then Ok (TWorld (setv (w_vars w) v
                             (Some (TObj (Some (TContext (Id (length (w_threads w))) AInit)) 0)))
                     (w_threads w ++ [KThread v NotBegun false]) (w_errno w))
          else Ok (put w v (Some (TObj (Some (TContext IdJunk AInit)) (return_result w create_result))))
      end
    else Ok (put w v (Some o1)).

  (** detach, Thread.cpp 69-84, and thread::detach, ThreadFunctions.cpp 46-60. *)
  Definition do_detach_object (w : tworld) (v : nat) (o : tobj) : outcome tworld :=
    let! c := rd (o_context o) in
    let! w := do_detach w c in
    let! c := (if attr_bytes_zero (c_attr c) then Ok c
               else let! _ := attr_destroy (c_attr c) in Ok initializer) in
    let! _ := attr_destroy (c_attr c) in         (* Thread.cpp 77 *)
    Ok (put w v (Some (TObj (Some initializer) 0))).

  (** Some body that works on this object has not ended. *)
  Definition in_use (w : tworld) (v : nat) : bool :=
    existsb (fun k => (k_object k =? v) && match k_phase k with Ended => false | _ => true end)%bool
      (w_threads w).

  (** The members of ThreadBase, each cited at its case. *)
  Definition tstep (w : tworld) (c : tcall) : outcome (tworld * option Z) :=
    match c with
    | TNew v =>                                   (* Thread.cpp 13-16 *)
        let! _ := free w v in Ok (put w v (Some (TObj (Some initializer) 0)), None)
    | TMove v p =>                                (* 18-22 *)
        let! _ := free w v in
        let! w := move_assign (put w v (Some (TObj None 0))) v p in Ok (w, None)
    | TMoveAssign v p => let! w := move_assign w v p in Ok (w, None)
    | TRun v r1 r2 => let! o := get w v in let! w := do_run w v o r1 r2 in Ok (w, None)
    | TJoin v =>                                  (* 63-67 *)
        let! o := get w v in
        let! c := rd (o_context o) in
        let! w := do_join w c in
        Ok (put w v (Some (TObj (Some c) 0)), None)
    | TDetach v => let! o := get w v in let! w := do_detach_object w v o in Ok (w, None)
    | TIsWorking v r =>                           (* 86-92; ThreadFunctions.cpp 71-75 *)
        let! o := get w v in
        let! c := rd (o_context o) in
        match c_id c with
        | Id n =>
            let! k := thread_of w n in
            match k_phase k with
            | Ended => if k_released k then UB else Ok (w, Some (if (r =? 0)%Z then 1%Z else 0%Z))
            | _ => Ok (w, Some 1%Z)
            end
        | _ => UB
        end
    | TGetStatus v => let! o := get w v in Ok (w, Some (o_status o))   (* 94-97 *)
    | TDelete v =>
        (* The destructors of the derived classes come first: a body that has not ended works on
           what they destroyed, one that has not begun calls a pure virtual function. Then
           24-33. *)
        let! o := get w v in
        if in_use w v then UB
        else
          let! c := rd (o_context o) in
          let! i := is_initial c in
          if i then Ok (put w v None, None)
          else
            let! w := do_join w c in
            let! _ := attr_destroy (c_attr c) in
            Ok (put w v None, None)
    (* events that are not possible change nothing *)
    | KBegin n =>                                 (* task, 99-103 *)
        match nth_error (w_threads w) n with
        | Some (KThread v NotBegun r) =>
            let! _ := get w v in Ok (set_thread w n (KThread v Working r), None)
        | _ => Ok (w, None)
        end
    | KEnd n =>
        match nth_error (w_threads w) n with
        | Some (KThread v Working r) => Ok (set_thread w n (KThread v Ended r), None)
        | _ => Ok (w, None)
        end
    end.

  (** Of the model: the calls of a history, one after the other. *)
  Fixpoint truns (w : tworld) (h : list tcall) : outcome (tworld * list (option Z)) :=
    match h with
    | [] => Ok (w, [])
    | c :: h =>
        let! r := tstep w c in
        let! r' := truns (fst r) h in
        Ok (fst r', snd r :: snd r')
    end.

  (** Of the model: no objects, no threads. *)
  Definition t_start (errno : Z) : tworld := TWorld (fun _ => None) [] errno.
End Thread.
