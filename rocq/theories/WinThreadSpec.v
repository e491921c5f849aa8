(** How thread objects are used on Windows. *)
From Coq Require Import List Arith ZArith Bool.
From Verif Require Import Base WinThreadModel.
Import ListNotations.

Definition exists_ (w : tworld) (v : nat) : Prop := w_vars w v <> None.
(** The body of a thread that was started by this object still works, or will. *)
Definition busy (w : tworld) (v : nat) : Prop :=
  exists n k, nth_error (w_threads w) n = Some k /\ k_object k = v /\ k_phase k <> Ended.

(** The calls are about objects that exist, objects are not deleted while a body works on them,
    and are not made from others. *)
Definition proper (w : tworld) (c : tcall) : Prop :=
  match c with
  | TNew v => ~ exists_ w v
  | TMove _ _ => False
  | TMoveAssign v p _ => exists_ w v /\ exists_ w p
  | TRun v _ e => exists_ w v /\ (forall x, e = Some x -> (0 < x)%Z)
  | TJoin v | TDetach v | TIsWorking v | TGetStatus v => exists_ w v
  | TDelete v _ => exists_ w v /\ ~ busy w v
  | KBegin _ | KEnd _ => True
  end.
Fixpoint proper_history (w : tworld) (h : list tcall) : Prop :=
  match h with
  | [] => True
  | c :: h => proper w c /\ forall w' r, tstep w c = Ok (w', r) -> proper_history w' h
  end.

(** The thread an object is responsible for. *)
Definition responsible (w : tworld) (v n : nat) : Prop :=
  exists o, w_vars w v = Some o /\ c_handle (o_context o) = Some n.
Definition open_handle (w : tworld) (n : nat) : Prop :=
  exists k, nth_error (w_threads w) n = Some k /\ k_open k = true.
Definition working (w : tworld) (n : nat) : Prop :=
  exists k, nth_error (w_threads w) n = Some k /\ k_phase k <> Ended.
(** A handle that is open and for which no object is responsible: it will not be closed. *)
Definition orphan (w : tworld) (n : nat) : Prop := open_handle w n /\ forall v, ~ responsible w v n.

(** run() is called only for objects that are responsible for no thread. *)
Definition no_rerun (w : tworld) (c : tcall) : Prop :=
  match c with TRun v _ _ => forall n, ~ responsible w v n | _ => True end.
Fixpoint no_rerun_history (w : tworld) (h : list tcall) : Prop :=
  match h with
  | [] => True
  | c :: h => no_rerun w c /\ forall w' r, tstep w c = Ok (w', r) -> no_rerun_history w' h
  end.

(** * An object that was never started *)

(** The call is about the object, or about a thread of it. *)
Definition about (v : nat) (c : tcall) : bool :=
  match c with
  | TNew u | TRun u _ _ | TJoin u | TDetach u | TIsWorking u | TGetStatus u | TDelete u _ => u =? v
  | TMove u p | TMoveAssign u p _ => (u =? v) || (p =? v)
  | KBegin _ | KEnd _ => false
  end.
(** What the calls of join, detach, isWorking and getStatus of an object answer that was never
    started: join leaves the status -6 (ERROR_INVALID_HANDLE), detach -1, and nothing works. *)
Fixpoint idle_answers (v : nat) (status : Z) (h : list tcall) (rs : list (option Z)) : Prop :=
  match h, rs with
  | [], [] => True
  | c :: h, r :: rs =>
      if about v c then
        match c with
        | TJoin _ => r = None /\ idle_answers v (-6) h rs
        | TDetach _ => r = None /\ idle_answers v (-1) h rs
        | TIsWorking _ => r = Some 0%Z /\ idle_answers v status h rs
        | TGetStatus _ => r = Some status /\ idle_answers v status h rs
        | _ => False
        end
      else idle_answers v status h rs
  | _, _ => False
  end.
(** Only those calls are made of it. *)
Definition only_asked (v : nat) (h : list tcall) : Prop :=
  forall c, In c h -> about v c = true ->
  c = TJoin v \/ c = TDetach v \/ c = TIsWorking v \/ c = TGetStatus v.
