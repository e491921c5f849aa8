(** Reads and writes that make progress. *)
From Coq Require Import List Arith ZArith.
From Verif Require Import FileIoModel.
Import ListNotations.

(** The system does not fail and transfers at least one byte of those it is asked for. *)
Definition willing (f : file) : Prop :=
  match f_answers f with
  | [] => True
  | AtMost k :: _ => 0 < k
  | Fails :: _ => False
  end.

(** The result of reading into a place that is not empty: 0 means that the input is at its end, a
    positive number that something came, and a willing system does not fail. *)
Definition read_progress (f : file) (count : Z) : Prop :=
  willing f -> (count = 0 <-> f_input f = [])%Z /\ (0 <= count)%Z.

(** The result of writing something. *)
Definition write_progress (f : file) (count : Z) : Prop := willing f -> (0 < count)%Z.
