(** What a notificator may rely on. *)
From Coq Require Import List Arith Bool.
From Verif Require Import Base NotifyModel.
Import ListNotations.

(** The events seen from outside: [set] is the notificator the application gave last, [exist] tells which
    notificators it has. A notificator is called, and runs, only while it exists; the called one is the one
    that is set; nothing is called only if none is set. *)
Fixpoint faithful (set : option nat) (exist : nat -> bool) (l : list nevent) : Prop :=
  match l with
  | [] => True
  | ECreated id :: l => faithful set (nset exist id true) l
  | EDestroyed id :: l => faithful set (nset exist id false) l
  | ESet id :: l => faithful (Some id) exist l
  | EUnset :: l => faithful None exist l
  | ECalled t id :: l => set = Some id /\ exist id = true /\ faithful set exist l
  | EReturned t id :: l => exist id = true /\ faithful set exist l
  | EPassed t :: l => set = None /\ faithful set exist l
  end.

(** The application sets notificators that it has, and destroys only one that is not set. *)
Definition sensible (s : nstate) (mv : nmove) : Prop :=
  match mv with
  | NSet id => n_alive s id = true
  | NDestroy id => n_object s <> Some id
  | _ => True
  end.

(** No thread is inside notify(). *)
Definition quiet (s : nstate) : Prop := forall t, n_threads s t = Outside.

(** What has to be added for it to work: it takes the notificator back, and destroys one, only while no
    thread is inside notify(). *)
Definition patient (s : nstate) (mv : nmove) : Prop :=
  match mv with
  | NUnset | NDestroy _ => quiet s
  | _ => True
  end.

(** [P] holds of every move in the state it is made in. *)
Fixpoint throughout (P : nstate -> nmove -> Prop) (s : nstate) (l : list nmove) : Prop :=
  match l with
  | [] => True
  | mv :: l => P s mv /\ forall r, nstep s mv = Ok r -> throughout P (fst r) l
  end.

(** How many steps thread [t] makes; how often its notify() calls nothing; how often it calls a
    notificator. *)
Definition steps (t : nat) (l : list nmove) : nat :=
  length (filter (fun mv => match mv with NStep u => u =? t | _ => false end) l).
Definition passed (t : nat) (l : list nevent) : nat :=
  length (filter (fun e => match e with EPassed u => u =? t | _ => false end) l).
Definition called (t : nat) (l : list nevent) : nat :=
  length (filter (fun e => match e with ECalled u _ => u =? t | _ => false end) l).

(** ** The signal arrives on the only thread

    The handler then runs from its begin to its end between two statements of the application. *)

Inductive call := Do (mv : nmove) | Signal (t : nat).

Fixpoint schedule_of (set : option nat) (l : list call) : list nmove :=
  match l with
  | [] => []
  | Do (NSet id) :: l => NSet id :: schedule_of (Some id) l
  | Do NUnset :: l => NUnset :: schedule_of None l
  | Do mv :: l => mv :: schedule_of set l
  | Signal t :: l =>
      match set with
      | None => [NStep t]
      | Some _ => [NStep t; NStep t; NStep t]
      end ++ schedule_of set l
  end.

(** Only statements of the application; it sets notificators it has, and does not destroy the one that is
    set. *)
Fixpoint orderly (set : option nat) (exist : nat -> bool) (l : list call) : Prop :=
  match l with
  | [] => True
  | Do (NCreate id) :: l => orderly set (nset exist id true) l
  | Do (NSet id) :: l => exist id = true /\ orderly (Some id) exist l
  | Do NUnset :: l => orderly None exist l
  | Do (NDestroy id) :: l => set <> Some id /\ orderly set (nset exist id false) l
  | Do (NStep _) :: l => False
  | Signal _ :: l => orderly set exist l
  end.

(** What is to happen. *)
Fixpoint expected (set : option nat) (l : list call) : list nevent :=
  match l with
  | [] => []
  | Do (NCreate id) :: l => ECreated id :: expected set l
  | Do (NSet id) :: l => ESet id :: expected (Some id) l
  | Do NUnset :: l => EUnset :: expected None l
  | Do (NDestroy id) :: l => EDestroyed id :: expected set l
  | Do (NStep _) :: l => expected set l
  | Signal t :: l =>
      match set with
      | None => EPassed t :: expected set l
      | Some id => ECalled t id :: EReturned t id :: expected set l
      end
  end.
