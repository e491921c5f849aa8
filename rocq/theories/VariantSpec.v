(** What the user of Variant expects.

    For every variable: [None] = does not exist, [Some None] = not set,
    [Some (Some (t, x))] = holds the alternative [t] with the value [x]. *)
From Coq Require Import List Arith ZArith Bool.
From Verif Require Import Base VariantModel.
Import ListNotations.

Definition vvars (V : Type) := list (option (option (nat * V))).

Section Spec.
  Context {V : Type}.
  Variable mv : V -> V.

  Definition holds_in (s : vvars V) (p : nat) (c : option (nat * V)) : Prop :=
    nth_error s p = Some (Some c).
  Definition no_var (s : vvars V) (p : nat) : Prop := nth_error s p = Some None.
  Definition is_var (s : vvars V) (p : nat) : Prop := exists c, holds_in s p c.

  Definition content (s : vvars V) (q : nat) : option (nat * V) :=
    match nth_error s q with Some (Some c) => c | _ => None end.
  Definition moved (c : option (nat * V)) : option (nat * V) :=
    match c with Some (t, x) => Some (t, mv x) | None => None end.
  (** Storing an object of a type that is not an alternative leaves the variant not set. *)
  Definition stored (ts : list nat) (t : nat) (x : V) : option (nat * V) :=
    if in_dec Nat.eq_dec t ts then Some (t, x) else None.

  Definition v_spec (ts : list nat) (s : vvars V) (o : v_op V) : vvars V :=
    match o with
    | VDefault p => upd s p (Some None)
    | VFrom p t x => upd s p (Some (stored ts t x))
    | VCopy p q => upd s p (Some (content s q))
    | VMove p q => upd (upd s p (Some (content s q))) q (Some (moved (content s q)))
    | VCopyNamed p q => upd s p (Some (content s q))
    | VAssign p q => upd s p (Some (content s q))
    | VMoveAssign p q =>
        if p =? q then s
        else upd (upd s p (Some (content s q))) q (Some (moved (content s q)))
    | VSet p t x => upd s p (Some (stored ts t x))
    | VReset p => upd s p (Some None)
    | VDestroy p => upd s p None
    end.

  (** The calls covered by the positive theorem. Not covered: copying a named variant that is
      not const, when it is not set or when moving changes the value; assigning a variant
      that is not set to one that is. *)
  Definition v_covered (s : vvars V) (o : v_op V) : Prop :=
    match o with
    | VDefault p | VFrom p _ _ => no_var s p
    | VCopy p q | VMove p q => no_var s p /\ is_var s q
    | VCopyNamed p q => no_var s p /\ exists t x, holds_in s q (Some (t, x)) /\ mv x = x
    | VAssign p q | VMoveAssign p q =>
        is_var s p /\ is_var s q /\ (p = q \/ content s q <> None \/ content s p = None)
    | VSet p _ _ | VReset p | VDestroy p => is_var s p
    end.

  Fixpoint v_ok (ts : list nat) (s : vvars V) (os : list (v_op V)) : Prop :=
    match os with
    | [] => True
    | o :: os' => v_covered s o /\ v_ok ts (v_spec ts s o) os'
    end.
  Definition v_result (ts : list nat) (s : vvars V) (os : list (v_op V)) : vvars V :=
    fold_left (v_spec ts) os s.

  (** A program that uses constructors on variables that do not exist and everything else on
      variables that do; the only calls left out are copies of a named variant that is not
      const and not set. The states are those the program is really in. *)
  Definition lives (w : world V) (p : nat) : Prop := exists v, var w p = Ok v.
  Definition v_valid (w : world V) (o : v_op V) : Prop :=
    match o with
    | VDefault p | VFrom p _ _ => fresh w p = Ok tt
    | VCopy p q | VMove p q => fresh w p = Ok tt /\ lives w q
    | VCopyNamed p q => fresh w p = Ok tt /\ exists v, var w q = Ok v /\ v_is_set v = true
    | VAssign p q | VMoveAssign p q => lives w p /\ lives w q
    | VSet p _ _ | VReset p | VDestroy p => lives w p
    end.

  Fixpoint v_valid_run (ts : list nat) (w : world V) (os : list (v_op V)) : Prop :=
    match os with
    | [] => True
    | o :: os' =>
        v_valid w o /\ forall w', v_step mv ts w o = Ok w' -> v_valid_run ts w' os'
    end.

  (** The number of variants that hold an object. *)
  Definition set_count (w : world V) : nat :=
    length (filter (fun v => match v with Some v => v_is_set v | None => false end) (w_vars w)).
End Spec.
