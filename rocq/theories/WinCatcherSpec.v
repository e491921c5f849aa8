(** When the event catcher on Windows is made and deleted. *)
From Coq Require Import List Arith Bool.
From Verif Require Import WinCatcherModel.
Import ListNotations.

(** The constructor has returned. *)
Definition constructed (c : catcher) : Prop :=
  match c_owner c with Run | Wait => False | _ => True end.
(** The object is in use: the constructor has returned and the destructor was not called. *)
Definition in_use (c : catcher) : Prop := c_owner c = InUse.
(** The destructor has returned. *)
Definition deleted (c : catcher) : Prop := c_owner c = Deleted.
(** No thread is left behind. *)
Definition no_thread (c : catcher) : Prop :=
  match c_dispatcher c with NotCreated | Ended => True | _ => False end.

(** A schedule that consists of [n] parts in each of which both threads get a turn. *)
Inductive rounds : nat -> list turn -> Prop :=
| NoRound l : rounds 0 l
| OneRound n part rest : In Owner part -> In Dispatcher part -> rounds n rest ->
    rounds (S n) (part ++ rest).

(** How many turns the owner gets. *)
Fixpoint owner_turns (l : list turn) : nat :=
  match l with
  | [] => 0
  | Owner :: l => S (owner_turns l)
  | _ :: l => owner_turns l
  end.
