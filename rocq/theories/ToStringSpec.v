(** Decimal notation. *)
From Coq Require Import List ZArith.
From Verif Require Import Base StringModel ToStringModel.
Import ListNotations.
Open Scope Z_scope.

(** The number written by a list of digits. *)
Definition number (ds : list Z) : Z := fold_left (fun acc d => 10 * acc + d) ds 0.

(** [l] is the usual notation of [v]: a minus sign (code 45) for negative numbers, then the
    digits (codes 48 .. 57) without leading zeros. *)
Definition decimal (v : Z) (l : list Z) : Prop :=
  exists ds,
    l = (if v <? 0 then [45] else []) ++ map (fun d => 48 + d) ds
    /\ Forall (fun d => 0 <= d <= 9) ds
    /\ number ds = Z.abs v
    /\ ds <> [] /\ (hd 1 ds = 0 -> ds = [0]).

(** The integer types of the code, and their values. *)
Definition int_ok (t : int_type) : Prop := In (width t) [8; 16; 32; 64].
Definition in_range (t : int_type) (v : Z) : Prop :=
  if is_signed t then - 2 ^ (width t - 1) <= v < 2 ^ (width t - 1)
  else 0 <= v < 2 ^ width t.
