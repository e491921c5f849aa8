(** What is expected of the start of the sockets library. *)
From Coq Require Import List Arith Bool.
From Verif Require Import WinSockModel.
Import ListNotations.

(** How often the library was started with success, and how often it was given back. *)
Fixpoint startups (tr : list wevent) : nat :=
  match tr with
  | [] => 0
  | Started _ true :: tr => S (startups tr)
  | _ :: tr => startups tr
  end.
Fixpoint cleanups (tr : list wevent) : nat :=
  match tr with
  | [] => 0
  | Cleaned :: tr => S (cleanups tr)
  | _ :: tr => cleanups tr
  end.

(** Thread [t] is inside a call: it has begun one that has not been answered. *)
Definition inside (t : nat) (tr : list wevent) : Prop :=
  exists a b, tr = a ++ Begins t :: b /\ forall r, ~ In (Answered t r) b.

(** No two calls overlap. *)
Definition separate (tr : list wevent) : Prop :=
  forall a b t u, tr = a ++ b -> inside t a -> inside u a -> t = u.
