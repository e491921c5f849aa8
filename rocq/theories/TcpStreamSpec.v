(** What the properties about TCP connections speak of: what the calls returned. *)
From Coq Require Import List Arith ZArith Bool.
From Verif Require Import Base TcpStreamModel.
Import ListNotations.
Local Open Scope Z_scope.

(** The bytes that the send calls of the end [s] said they sent, in order: of every range the
    first bytes, as many as the call returned. *)
Fixpoint said_sent (s : bool) (trace : list (tcall * Z * list Z)) : list Z :=
  match trace with
  | [] => []
  | (Send s' data _, r, _) :: trace =>
      (if Bool.eqb s' s then firstn (Z.to_nat r) data else []) ++ said_sent s trace
  | _ :: trace => said_sent s trace
  end.

(** The bytes that the receive calls of the end [s] stored, in order. *)
Fixpoint stored (s : bool) (trace : list (tcall * Z * list Z)) : list Z :=
  match trace with
  | [] => []
  | (Receive s' _ _, _, bytes) :: trace => (if Bool.eqb s' s then bytes else []) ++ stored s trace
  | _ :: trace => stored s trace
  end.

(** The calls of send and receive of the end [s]. *)
Definition of_end (s : bool) (t : tcall) : bool :=
  match t with
  | Send s' _ _ | Receive s' _ _ => Bool.eqb s' s
  | _ => false
  end.

(** Sizes for which the size is the same number on the platform. *)
Definition fits (p : platform) (size : nat) : Prop :=
  match p with Posix => True | Windows => Z.of_nat size < 2 ^ 31 end.

(** Errors are positive numbers. *)
Definition proper (t : tcall) : Prop :=
  match t with
  | Send _ _ a | Receive _ _ a => 0 < error a
  | _ => True
  end.
