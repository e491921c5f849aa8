(** Fair schedules for two threads. *)
From Coq Require Import List Arith.
From Verif Require Import PipeOpenModel.
Import ListNotations.

(** The schedule has [n] rounds one after the other in each of which both threads take a step. *)
Inductive rounds {A} (both : list A -> Prop) : nat -> list A -> Prop :=
| RZero : forall l, rounds both 0 l
| RMore : forall n a l, both a -> rounds both n l -> rounds both (S n) (a ++ l).

Definition posix_rounds : nat -> list tick -> Prop := rounds (fun l => In Main l /\ In Thread l).
Definition windows_rounds : nat -> list wtick -> Prop := rounds (fun l => In WMain l /\ In WThread l).
(** Nobody else interferes. *)
Definition alone (l : list tick) : Prop := forall k, In k l -> k = Main \/ k = Thread.
