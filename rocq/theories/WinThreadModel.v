(** Model of os::threads::ThreadBase (and ThreadCrtp) on Windows.

    Source: /repo/src/Os/Threads/Thread.cpp, /repo/include/FlameIDE/Os/Threads/Thread.hpp,
    /repo/src/Os/Windows/Threads/ThreadFunctions.cpp. A history is a list of calls of the program
    and of events of the threads it started. Every body ends at some time and uses its object
    until then. Not modelled: a thread that joins itself, native() (declared, not defined), what
    the bodies do. *)
From Coq Require Import List Arith ZArith Bool.
From Verif Require Import Base.
Import ListNotations.

(** A thread of the system: the object its body works on, whether the body has begun and ended,
    and whether the handle that CreateThread gave is open. Handles are the numbers of threads
    (the system may use the number of a closed handle again, so using one is [UB]). *)
Inductive phase := NotBegun | Working | Ended.
(** Of the system. *)
Record kthread := KThread { k_object : nat; k_phase : phase; k_open : bool }.

(** The member id: THREAD_CONTEXT_INITIALIZER.id, OS_THREAD_ID_DETACHED, what CreateThread stored
    (which is neither). Os/Windows/Constants.hpp. *)
Inductive tid := IdZero | IdDetached | Id (n : nat).
(** OsThreadContext, Os/Windows/Types.hpp 211-225; [None]: the handle is null. *)
Record tcontext := TContext { c_handle : option nat; c_id : tid }.
(** ThreadBase, Thread.hpp 61 and 71. *)
Record tobj := TObj { o_context : tcontext; o_status : Z }.
(** Of the model: the ThreadBase variables, the threads of the process. *)
Record tworld := TWorld { w_vars : nat -> option tobj; w_threads : list kthread }.

(** Of the model. *)
Definition setv (f : nat -> option tobj) (v : nat) (x : option tobj) : nat -> option tobj :=
  fun u => if u =? v then x else f u.
(** Of the model: a change of one variable. *)
Definition put (w : tworld) (v : nat) (x : option tobj) : tworld := TWorld (setv (w_vars w) v x) (w_threads w).
(** Of the model: access to a variable; one without an object: undefined. *)
Definition get (w : tworld) (v : nat) : outcome tobj :=
  match w_vars w v with Some o => Ok o | None => UB end.
(** Of the model: a variable is constructed when it has no object. *)
Definition free (w : tworld) (v : nat) : outcome unit :=
  match w_vars w v with None => Ok tt | Some _ => UB end.
(** Of the model: a change of one thread. *)
Definition set_thread (w : tworld) (n : nat) (k : kthread) : tworld :=
  TWorld (w_vars w) (upd (w_threads w) n k).

(** An open handle. Of the model. *)
Definition handle_of (w : tworld) (n : nat) : outcome kthread :=
  match nth_error (w_threads w) n with
  | Some k => if k_open k then Ok k else UB
  | None => UB
  end.

(** os::THREAD_CONTEXT_INITIALIZER, Os/Windows/Constants.hpp 37-39; ERROR_INVALID_HANDLE. *)
Definition initializer : tcontext := TContext None IdZero.
(** -ERROR_INVALID_HANDLE, of Windows. *)
Definition INVALID_HANDLE : Z := (-6)%Z.
(** OsThreadContext::operator== with it. Os/Windows/Types.hpp. *)
Definition same_as_initializer (c : tcontext) : bool :=
  match c_handle c, c_id c with None, IdZero => true | _, _ => false end.
(** isEqual(context, THREAD_CONTEXT_INITIALIZER), Common/Utils.hpp 402-420, compares all bytes,
    also those behind the id where the structure has some; the copies of a context do not copy
    them. [pad]: they differ. *)
Definition is_initial (c : tcontext) (pad : bool) : bool := same_as_initializer c && negb pad.

(** destroy, ThreadFunctions.cpp 23-40. *)
Definition do_destroy (w : tworld) (c : tcontext) : outcome (tworld * Z) :=
  match c_id c with
  | IdDetached => Ok (w, 0%Z)
  | _ =>
      if same_as_initializer c then Ok (w, (-1)%Z)
      else match c_handle c with
           | None => Ok (w, INVALID_HANDLE)                  (* CloseHandle of null *)
           | Some n =>
               let! k := handle_of w n in
               Ok (set_thread w n (KThread (k_object k) (k_phase k) false), 0%Z)
           end
  end.

(** join, ThreadFunctions.cpp 66-96: WaitForSingleObject waits for the end of the body; the
    handle stays open. *)
Definition do_join (w : tworld) (c : tcontext) : outcome (tworld * Z) :=
  match c_handle c with
  | None => Ok (w, INVALID_HANDLE)
  | Some n =>
      let! k := handle_of w n in
      let! _ := match k_phase k with Ended => Ok tt | _ => let! _ := get w (k_object k) in Ok tt end in
      Ok (set_thread w n (KThread (k_object k) Ended true), 0%Z)
  end.

(** The calls, Thread.hpp 15-69; the events of the threads. *)
Inductive tcall :=
| TNew (v : nat)
| TMove (v p : nat)
| TMoveAssign (v p : nat) (pad : bool)
| TRun (v : nat) (pad : bool) (error : option Z)   (* what CreateThread answers; an error is positive *)
| TJoin (v : nat)
| TDetach (v : nat)
| TIsWorking (v : nat)
| TGetStatus (v : nat)
| TDelete (v : nat) (pad : bool)
| KBegin (n : nat)
| KEnd (n : nat).

(** operator=(ThreadBase &&), Thread.cpp 35-49. *)
Definition move_assign (w : tworld) (v p : nat) (pad : bool) : outcome tworld :=
  let! o := get w v in
  let! w := (if is_initial (o_context o) pad then Ok w
             else let! r := do_destroy w (o_context o) in Ok (fst r)) in
  let! s := get w p in
  Ok (put (put w v (Some s)) p (Some (TObj initializer 0))).

(** run, Thread.cpp 51-61; init and create, ThreadFunctions.cpp 15-21 and 42-54. *)
Definition do_run (w : tworld) (v : nat) (o : tobj) (pad : bool) (error : option Z) : tworld :=
  let o := if is_initial (o_context o) pad then TObj (TContext None IdDetached) 0 else o in
  if (o_status o =? 0)%Z then
    match error with
    | None =>
        let n := length (w_threads w) in
        TWorld (setv (w_vars w) v (Some (TObj (TContext (Some n) (Id n)) 0)))
               (w_threads w ++ [KThread v NotBegun true])
    | Some e => put w v (Some (TObj (TContext None (c_id (o_context o))) (- e)))
    end
  else put w v (Some o).

(** detach, Thread.cpp 69-84, and thread::detach, ThreadFunctions.cpp 56-64. *)
Definition do_detach (w : tworld) (v : nat) (o : tobj) : outcome tworld :=
  let! r := do_destroy w (o_context o) in
  let (w, status) := r in
  if negb (status =? 0)%Z then Ok (put w v (Some (TObj (o_context o) status)))
  else
    let c := TContext (c_handle (o_context o)) IdDetached in
    let! r := do_destroy w c in
    let (w, status) := r in
    if negb (status =? 0)%Z then Ok (put w v (Some (TObj c status)))
    else Ok (put w v (Some (TObj initializer 0))).

(** Some body that works on this object has not ended. Of the model. *)
Definition in_use (w : tworld) (v : nat) : bool :=
  existsb (fun k => (k_object k =? v) && match k_phase k with Ended => false | _ => true end) (w_threads w).

(** The members of ThreadBase, each cited at its case. *)
Definition tstep (w : tworld) (c : tcall) : outcome (tworld * option Z) :=
  match c with
  | TNew v =>                                   (* Thread.cpp 13-16 *)
      let! _ := free w v in Ok (put w v (Some (TObj initializer 0)), None)
  | TMove v p => UB                             (* 18-22: the id that is compared has no value *)
  | TMoveAssign v p pad => let! w := move_assign w v p pad in Ok (w, None)
  | TRun v pad e => let! o := get w v in Ok (do_run w v o pad e, None)
  | TJoin v =>                                  (* 63-67 *)
      let! o := get w v in
      let! r := do_join w (o_context o) in
      Ok (put (fst r) v (Some (TObj (o_context o) (snd r))), None)
  | TDetach v => let! o := get w v in let! w := do_detach w v o in Ok (w, None)
  | TIsWorking v =>                             (* 86-92; ThreadFunctions.cpp 98-114 *)
      let! o := get w v in
      match c_handle (o_context o) with
      | None => Ok (w, Some 0%Z)
      | Some n =>
          let! k := handle_of w n in
          Ok (w, Some (match k_phase k with Ended => 0%Z | _ => 1%Z end))
      end
  | TGetStatus v => let! o := get w v in Ok (w, Some (o_status o))   (* 94-97 *)
  | TDelete v pad =>
      (* The destructors of the derived classes come first: a body that has not ended works on
         what they destroyed, one that has not begun calls a pure virtual function. Then
         24-33. *)
      let! o := get w v in
      if in_use w v then UB
      else if is_initial (o_context o) pad then Ok (put w v None, None)
      else
        let! r := do_join w (o_context o) in
        let! r := do_destroy (fst r) (o_context o) in
        Ok (put (fst r) v None, None)
  (* events that are not possible change nothing *)
  | KBegin n =>                                 (* task, 99-103 *)
      match nth_error (w_threads w) n with
      | Some (KThread v NotBegun r) =>
          let! _ := get w v in Ok (set_thread w n (KThread v Working r), None)
      | _ => Ok (w, None)
      end
  | KEnd n =>
      match nth_error (w_threads w) n with
      | Some (KThread v Working r) => Ok (set_thread w n (KThread v Ended r), None)
      | _ => Ok (w, None)
      end
  end.

(** Of the model: the calls of a history, one after the other. *)
Fixpoint truns (w : tworld) (h : list tcall) : outcome (tworld * list (option Z)) :=
  match h with
  | [] => Ok (w, [])
  | c :: h =>
      let! r := tstep w c in
      let! r' := truns (fst r) h in
      Ok (fst r', snd r :: snd r')
  end.
(** Of the model: no objects, no threads. *)
Definition t_start : tworld := TWorld (fun _ => None) [].
