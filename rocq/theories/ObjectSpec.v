(** What the user of Object expects.

    For every variable: [None] = does not exist, [Some None] = empty, [Some (Some (t, x))] =
    holds the value [x] of type [t]. *)
From Coq Require Import List Arith ZArith.
From Verif Require Import Base ObjectModel.
Import ListNotations.

Definition bvars (V : Type) := list (option (option (ctype * V))).

Section Spec.
  Context {V : Type}.

  Definition b_holds (s : bvars V) (p : nat) (c : option (ctype * V)) : Prop :=
    nth_error s p = Some (Some c).
  Definition b_none (s : bvars V) (p : nat) : Prop := nth_error s p = Some None.
  Definition b_exists (s : bvars V) (p : nat) : Prop := exists c, b_holds s p c.
  Definition b_content (s : bvars V) (q : nat) : option (ctype * V) :=
    match nth_error s q with Some (Some c) => c | _ => None end.

  (** Moving an Object leaves the source empty; an Object moved onto itself is empty. *)
  Definition b_spec (s : bvars V) (o : b_op V) : bvars V :=
    match o with
    | BDefault p => upd s p (Some None)
    | BFrom p t x | BSet p t x => upd s p (Some (Some (t, x)))
    | BMove p q | BMoveAssign p q => upd (upd s p (Some (b_content s q))) q (Some None)
    | BDestroy p => upd s p None
    end.

  (** Types the Object accepts: see the static_assert of the class; sizes and alignments are
      those of C++ types. *)
  Definition good_type (size align : Z) (t : ctype) : Prop :=
    (0 < ct_size t <= size /\ (align < ct_align t -> ct_size t + ct_align t < size) /\
     exists k, 0 <= k <= 40 /\ ct_align t = 2 ^ k)%Z.

  Section Covered.
    Variables (size align : Z) (addr : nat -> Z).

    (** A move is covered when source and target have the same position relative to the
        alignment of what is moved. *)
    Definition same_position (p q : nat) (c : option (ctype * V)) : Prop :=
      match c with
      | Some (t, _) => (addr p mod ct_align t = addr q mod ct_align t)%Z
      | None => True
      end.

    Definition b_covered (s : bvars V) (o : b_op V) : Prop :=
      match o with
      | BDefault p => b_none s p
      | BFrom p t _ => b_none s p /\ good_type size align t
      | BSet p t _ => b_exists s p /\ good_type size align t
      | BMove p q => b_none s p /\ b_exists s q /\ same_position p q (b_content s q)
      | BMoveAssign p q =>
          b_exists s p /\ b_exists s q /\ same_position p q (b_content s q)
      | BDestroy p => b_exists s p
      end.

    Fixpoint b_ok (s : bvars V) (os : list (b_op V)) : Prop :=
      match os with
      | [] => True
      | o :: os' => b_covered s o /\ b_ok (b_spec s o) os'
      end.
  End Covered.

  (** Programs that only store values whose type is not aligned more strictly than the
      storage. *)
  Definition b_valid (size align : Z) (s : bvars V) (o : b_op V) : Prop :=
    match o with
    | BDefault p => b_none s p
    | BFrom p t _ => b_none s p /\ good_type size align t /\ (ct_align t <= align)%Z
    | BSet p t _ => b_exists s p /\ good_type size align t /\ (ct_align t <= align)%Z
    | BMove p q => b_none s p /\ b_exists s q
    | BMoveAssign p q => b_exists s p /\ b_exists s q
    | BDestroy p => b_exists s p
    end.
  Fixpoint b_valid_run (size align : Z) (s : bvars V) (os : list (b_op V)) : Prop :=
    match os with
    | [] => True
    | o :: os' => b_valid size align s o /\ b_valid_run size align (b_spec s o) os'
    end.

  Definition b_result (s : bvars V) (os : list (b_op V)) : bvars V := fold_left b_spec os s.

  Definition b_held (s : bvars V) : nat :=
    length (filter (fun c => match c with Some (Some _) => true | _ => false end) s).
End Spec.
