(** What Objects hold, and whether it can be reached, in any program.

    [None]: the variable does not exist. A value remembers the position, modulo its alignment, of the Object into which
    it was put: moves copy bytes, and alignedPointer looks for the value at a place that depends on the position. *)
From Coq Require Import List Arith ZArith Bool.
From Verif Require Import Base ObjectModel.
Import ListNotations.

Inductive content (V : Type) := Nothing | Value (t : ctype) (x : V) (position : Z).
Arguments Nothing {V}.
Arguments Value {V}.

Section Exact.
  Context {V : Type}.
  Variable addr : nat -> Z.
  Notation state := (list (option (content V))).

  Definition position (p : nat) (t : ctype) : Z := (addr p mod ct_align t)%Z.
  (** Is the value where the Object [p] looks for it? *)
  Definition reached (p : nat) (c : content V) : bool :=
    match c with Nothing => true | Value t _ r => (position p t =? r)%Z end.

  (** The value of [p] is destroyed; undefined ([None]) when it is not reached. *)
  Definition x_clear (s : state) (p : nat) : option state :=
    match nth_error s p with
    | Some (Some c) => if reached p c then Some (upd s p (Some Nothing)) else None
    | _ => None
    end.
  Definition x_new (s : state) (p : nat) : option state :=
    match nth_error s p with Some None => Some (upd s p (Some Nothing)) | _ => None end.
  Definition x_put (s : option state) (p : nat) (t : ctype) (x : V) : option state :=
    match s with Some s => Some (upd s p (Some (Value t x (position p t)))) | None => None end.
  Definition x_take (s : option state) (p q : nat) : option state :=
    match s with
    | Some s => match nth_error s q with
                | Some (Some c) => Some (upd (upd s p (Some c)) q (Some Nothing))
                | _ => None
                end
    | None => None
    end.
  Definition x_step (s : state) (o : b_op V) : option state :=
    match o with
    | BDefault p => x_new s p
    | BFrom p t x => x_put (x_new s p) p t x
    | BSet p t x => x_put (x_clear s p) p t x
    | BMove p q => x_take (x_new s p) p q
    | BMoveAssign p q => x_take (x_clear s p) p q
    | BDestroy p => match x_clear s p with Some s => Some (upd s p None) | None => None end
    end.
  Fixpoint x_steps (s : state) (os : list (b_op V)) : option state :=
    match os with
    | [] => Some s
    | o :: os => match x_step s o with Some s => x_steps s os | None => None end
    end.
  Definition x_held (s : state) : nat :=
    length (filter (fun c => match c with Some (Value _ _ _) => true | _ => false end) s).

  Definition types_of (o : b_op V) : list ctype :=
    match o with BFrom _ t _ | BSet _ t _ => [t] | _ => [] end.
End Exact.
