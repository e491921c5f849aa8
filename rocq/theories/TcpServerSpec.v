(** What the properties about a TCP server speak of: the events in the order they happened, with what
    every call gave. *)
From Coq Require Import List Arith ZArith Bool.
From Verif Require Import Base TcpStreamModel TcpStreamSpec TcpServerModel.
Import ListNotations.
Local Open Scope Z_scope.

(** An event: what was called, and the result, the connection it gave, the bytes it stored. *)
Definition event : Type := kcall * (Z * option nat * list Z).

(** The connections that accept gave, in that order. *)
Fixpoint accepts (trace : list event) : list nat :=
  match trace with
  | [] => []
  | (Accept _, (_, Some i, _)) :: trace => i :: accepts trace
  | _ :: trace => accepts trace
  end.

(** The connections that connect made, in that order. *)
Fixpoint connects (trace : list event) : list nat :=
  match trace with
  | [] => []
  | (Connect _ _, (_, Some i, _)) :: trace => i :: connects trace
  | _ :: trace => connects trace
  end.

(** The connections that were given up. *)
Fixpoint gives_up (trace : list event) : list nat :=
  match trace with
  | [] => []
  | (GiveUp i, _) :: trace => i :: gives_up trace
  | _ :: trace => gives_up trace
  end.

(** What happened at the connection [i], in the form of TcpStreamSpec. *)
Fixpoint only (i : nat) (trace : list event) : list (tcall * Z * list Z) :=
  match trace with
  | [] => []
  | (At k t, (r, _, bytes)) :: trace =>
      if Nat.eqb k i then (t, r, bytes) :: only i trace else only i trace
  | _ :: trace => only i trace
  end.

(** How the program of the i-th successful connect and the server handle SIGPIPE. *)
Fixpoint ignoring_of (i : nat) (trace : list event) : bool -> bool :=
  match trace with
  | [] => fun _ => false
  | (Connect g _, (_, Some k, _)) :: trace => if Nat.eqb k i then g else ignoring_of i trace
  | _ :: trace => ignoring_of i trace
  end.

(** Errors are positive numbers. *)
Definition kproper (k : kcall) : Prop :=
  match k with
  | Connect _ a | Accept a => 0 < error a
  | GiveUp _ => True
  | At _ t => proper t
  end.
