(** What an IPv4 text is, independently of the model. *)
From Coq Require Import List ZArith.
Import ListNotations.
Local Open Scope Z_scope.

Definition dot : Z := 46.
Definition digit (c : Z) : Prop := 48 <= c <= 57.

(** "a.b.c": the parts with dots between them. *)
Fixpoint joined (parts : list (list Z)) : list Z :=
  match parts with
  | [] => []
  | [p] => p
  | p :: rest => p ++ dot :: joined rest
  end.

(** The number a sequence of digits stands for. *)
Definition decimal (ds : list Z) : Z := fold_left (fun n c => 10 * n + (c - 48)) ds 0.

(** A number: one digit or more. *)
Definition is_decimal (ds : list Z) : Prop := ds <> [] /\ Forall digit ds.

(** The C string with this content lies at the beginning of this memory. *)
Definition c_string (memory text : list Z) : Prop :=
  Forall (fun c => c <> 0) text /\ exists rest, memory = text ++ 0 :: rest.

Definition octet (n : Z) : Prop := 0 <= n <= 255.

(** The value of a 16 bit two's complement number with the low bits of [n]. *)
Definition short_of (n : Z) : Z :=
  let m := n mod 65536 in if m <? 32768 then m else m - 65536.
