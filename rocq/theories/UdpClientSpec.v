(** What the properties of UdpClient speak of: the calls and what they returned. *)
From Coq Require Import List Arith ZArith Bool.
From Verif Require Import Base UdpClientModel.
Import ListNotations.
Local Open Scope Z_scope.

(** The datagrams that arrived after the first send that succeeded. *)
Fixpoint arrived (sent : bool) (trace : list (ucall * Z * list Z)) : list (list Z) :=
  match trace with
  | [] => []
  | (USend _ _, r, _) :: trace => arrived (sent || (0 <=? r)) trace
  | (UArrive d, _, _) :: trace => (if sent then [payload d] else []) ++ arrived sent trace
  | _ :: trace => arrived sent trace
  end.

(** The receive calls that did not fail: the size of the range and what was stored. *)
Fixpoint received (trace : list (ucall * Z * list Z)) : list (nat * list Z) :=
  match trace with
  | [] => []
  | (UReceive size _, r, bytes) :: trace => (if 0 <=? r then [(size, bytes)] else []) ++ received trace
  | _ :: trace => received trace
  end.

(** The send calls that did not fail: what they sent. *)
Fixpoint sent (trace : list (ucall * Z * list Z)) : list (list Z) :=
  match trace with
  | [] => []
  | (USend data _, r, _) :: trace => (if 0 <=? r then [data] else []) ++ sent trace
  | _ :: trace => sent trace
  end.

(** A datagram cut to the size of the range. *)
Definition cut (x : nat * list Z) (datagram : list Z) : Prop := snd x = firstn (fst x) datagram.

(** Errors are positive numbers. *)
Definition proper (c : ucall) : Prop :=
  let ok (y : says) := match y with Some e => 0 < e | None => True end in
  match c with
  | UWait y y' => ok y /\ ok y'
  | USend _ y | UReceive _ y => ok y
  | UArrive _ => True
  end.
