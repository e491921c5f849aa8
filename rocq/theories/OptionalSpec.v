(** What the user of Optional expects.

    For every variable: [None] = does not exist, [Some None] = empty, [Some (Some x)] = holds
    [x]. *)
From Coq Require Import List Arith Bool.
From Verif Require Import Base OptionalModel.
Import ListNotations.

Definition ovars (V : Type) := list (option (option V)).

Section Spec.
  Context {V : Type}.
  Variable mv : V -> V.
  Variable dflt : V.

  Definition o_holds (s : ovars V) (p : nat) (c : option V) : Prop :=
    nth_error s p = Some (Some c).
  Definition o_none (s : ovars V) (p : nat) : Prop := nth_error s p = Some None.
  Definition o_exists (s : ovars V) (p : nat) : Prop := exists c, o_holds s p c.
  Definition o_content (s : ovars V) (q : nat) : option V :=
    match nth_error s q with Some (Some c) => c | _ => None end.

  (** A moved-from optional still holds a (moved-from) value. *)
  Definition o_spec (s : ovars V) (o : o_op V) : ovars V :=
    match o with
    | ODefault p => upd s p (Some None)
    | OFrom p x => upd s p (Some (Some x))
    | OCopy p q => upd s p (Some (o_content s q))
    | OMove p q =>
        upd (upd s p (Some (o_content s q))) q (Some (option_map mv (o_content s q)))
    | OAssign p q => upd s p (Some (o_content s q))
    | OMoveAssign p q =>
        upd (upd s p (Some (o_content s q))) q (Some (option_map mv (o_content s q)))
    | OSet p x => upd s p (Some (Some x))
    | OUnset p => upd s p (Some None)
    | OInit p => upd s p (Some (Some dflt))
    | ODestroy p => upd s p None
    end.

  (** What does happen: assigning an empty optional changes nothing, and init() leaves an empty optional
      empty. *)
  Definition o_does (s : ovars V) (o : o_op V) : ovars V :=
    match o with
    | OAssign p q | OMoveAssign p q => match o_content s q with Some _ => o_spec s o | None => s end
    | OInit p => match o_content s p with Some _ => o_spec s o | None => s end
    | _ => o_spec s o
    end.
  Definition o_outcome (s : ovars V) (os : list (o_op V)) : ovars V := fold_left o_does os s.

  (** Covered: everything except init(), assigning an empty optional to a filled one, and
      moving an optional onto itself. *)
  Definition o_covered (s : ovars V) (o : o_op V) : Prop :=
    match o with
    | ODefault p | OFrom p _ => o_none s p
    | OCopy p q | OMove p q => o_none s p /\ o_exists s q
    | OAssign p q =>
        o_exists s p /\ o_exists s q /\ (p = q \/ o_content s q <> None \/ o_content s p = None)
    | OMoveAssign p q =>
        o_exists s p /\ o_exists s q /\ p <> q /\
        (o_content s q <> None \/ o_content s p = None)
    | OSet p _ | OUnset p | ODestroy p => o_exists s p
    | OInit _ => False
    end.

  Fixpoint o_ok (s : ovars V) (os : list (o_op V)) : Prop :=
    match os with
    | [] => True
    | o :: os' => o_covered s o /\ o_ok (o_spec s o) os'
    end.
  Definition o_result (s : ovars V) (os : list (o_op V)) : ovars V := fold_left o_spec os s.

  (** Every program without init(): constructors on variables that do not exist, all other
      calls on variables that do. *)
  Definition o_lives (w : oworld V) (p : nat) : Prop := exists v, ovar w p = Ok v.
  Definition o_valid (w : oworld V) (o : o_op V) : Prop :=
    match o with
    | ODefault p | OFrom p _ => ofresh w p = Ok tt
    | OCopy p q | OMove p q => ofresh w p = Ok tt /\ o_lives w q
    | OAssign p q => o_lives w p /\ o_lives w q
    | OMoveAssign p q => o_lives w p /\ o_lives w q /\ p <> q
    | OSet p _ | OUnset p | ODestroy p => o_lives w p
    | OInit _ => False
    end.
  Fixpoint o_valid_run (w : oworld V) (os : list (o_op V)) : Prop :=
    match os with
    | [] => True
    | o :: os' => o_valid w o /\ forall w', o_step mv dflt w o = Ok w' -> o_valid_run w' os'
    end.

  (** The number of optionals that are filled. *)
  Definition filled (w : oworld V) : nat :=
    length (filter (fun v => match v with Some v => o_fill v | None => false end) (ow_vars w)).
End Spec.

(** The variables that exist, after a call; [None]: the call constructs where an optional is, or uses one that does
    not exist. *)
Definition is_there (a : list bool) (p : nat) : bool := nth p a false.
Definition is_free (a : list bool) (p : nat) : bool := (p <? length a) && negb (nth p a false).
Definition o_uses {V} (a : list bool) (o : o_op V) : option (list bool) :=
  match o with
  | ODefault p | OFrom p _ => if is_free a p then Some (upd a p true) else None
  | OCopy p q | OMove p q => if is_free a p && is_there a q then Some (upd a p true) else None
  | OAssign p q | OMoveAssign p q => if is_there a p && is_there a q then Some a else None
  | OSet p _ | OUnset p | OInit p => if is_there a p then Some a else None
  | ODestroy p => if is_there a p then Some (upd a p false) else None
  end.
Fixpoint o_uses_all {V} (a : list bool) (os : list (o_op V)) : option (list bool) :=
  match os with
  | [] => Some a
  | o :: os => match o_uses a o with Some a => o_uses_all a os | None => None end
  end.

(** The calls of init(). *)
Definition inits {V} (os : list (o_op V)) : nat :=
  length (filter (fun o => match o with OInit _ => true | _ => false end) os).
