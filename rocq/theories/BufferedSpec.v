(** What a buffered writer is for: the bytes it accepts wait in its buffer, in order, and a flush
    hands them all to the stream. Of the model only the names of the calls and answers are used. *)
From Coq Require Import List Arith Bool.
From Verif Require Import BufferedModel.
Import ListNotations.

Section Spec.
  Context {A : Type}.
  Variable cap : nat.

  (** The bytes that wait and the bytes that the stream has got. *)
  Record pending := Pending { waiting : list A; written : list A }.

  (** Accept as much as there is room for, and say how much that was. *)
  Definition wanted_step (p : pending) (op : bw_op A) : bw_answer * pending :=
    match op with
    | BPut xs =>
        let room := cap - length (waiting p) in
        (ANumber (min room (length xs)), Pending (waiting p ++ firstn room xs) (written p))
    | BFlush => (ABool true, Pending [] (written p ++ waiting p))
    | BMove => (ANothing, p)
    end.

  Fixpoint wanted_run (p : pending) (ops : list (bw_op A)) : list bw_answer * pending :=
    match ops with
    | [] => ([], p)
    | op :: ops =>
        let '(a, p) := wanted_step p op in
        let '(as_, p) := wanted_run p ops in (a :: as_, p)
    end.

  (** Every flush of the history finds nothing that waits. *)
  Fixpoint idle_flushes (p : pending) (ops : list (bw_op A)) : Prop :=
    match ops with
    | [] => True
    | op :: ops => (op = BFlush -> waiting p = []) /\ idle_flushes (snd (wanted_step p op)) ops
    end.
End Spec.

(** All the bytes that a history offers. *)
Definition offered {A} (ops : list (bw_op A)) : list A :=
  concat (map (fun op => match op with BPut xs => xs | _ => [] end) ops).
