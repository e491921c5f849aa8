(** What the growth of a Vector may cost, in terms of size() and capacity(). *)
From Coq Require Import List Arith Bool.
From Verif Require Import Base Store StaticVectorModel VectorModel.
Import ListNotations.
Local Open Scope outcome_scope.

(** A call that leaves no more than [c] elements; not resize, and no range is erased. *)
Definition within {A} (c : nat) (l : list A) (op : vec_op A) : Prop :=
  match op with
  | VPush _ | VEmplaceBack _ => length l < c
  | VInsert it _ | VEmplace it _ => it <= length l /\ length l < c
  | VInsertRange it xs => it <= length l /\ length xs + length l <= c
  | VReserve n => n <= c
  | VErase it => it <= length l
  | VPop | VClean => True
  | VEraseRange b e => (b <= e /\ e <= length l) /\ (b = e \/ e = length l)
  | VResize n => n <= length l \/ n < c
  end.

Section Cost.
  Context {A : Type}.
  Variable m : mode.
  Variable mem : memory.

  (** pushBack of all [xs], one after another: how many elements were moved to new memory. They are
      all moved whenever capacity() changes. *)
  Fixpoint moves (fuel : nat) (v : vec A) (xs : list A) : outcome nat :=
    match xs with
    | [] => Ok 0
    | x :: xs =>
        let! v' := vec_pushBack m mem fuel v x in
        let! n := moves fuel v' xs in
        Ok ((if vc_capacity v' =? vc_capacity v then 0 else vec_size v) + n)
    end.

  (** The same: how often capacity() changed. *)
  Fixpoint growths (fuel : nat) (v : vec A) (xs : list A) : outcome nat :=
    match xs with
    | [] => Ok 0
    | x :: xs =>
        let! v' := vec_pushBack m mem fuel v x in
        let! n := growths fuel v' xs in
        Ok ((if vc_capacity v' =? vc_capacity v then 0 else 1) + n)
    end.
End Cost.
