(** What happens to the Variants of any program.

    For every variable: [None] = does not exist, [Unset] = not set, [Odd] = a copy made of a named variant that was
    not set (not set either, but it cannot be copied), [Has t x] = holds the alternative [t] with the value [x]. As a
    result, [None] = undefined behaviour. *)
From Coq Require Import List Arith Bool.
From Verif Require Import Base VariantModel.
Import ListNotations.

Inductive content_of (V : Type) := Unset | Odd | Has (t : nat) (x : V).
Arguments Unset {V}.
Arguments Odd {V}.
Arguments Has {V}.

Section Exact.
  Context {V : Type}.
  Variable mv : V -> V.
  Variable ts : list nat.   (* the alternatives *)

  Definition known := list (option (content_of V)).

  (** An object of a type that is not an alternative is dropped. *)
  Definition kept (t : nat) (x : V) : content_of V := if existsb (Nat.eqb t) ts then Has t x else Unset.

  Definition e_new (s : known) (p : nat) (c : content_of V) : option known :=
    match nth_error s p with Some None => Some (upd s p (Some c)) | _ => None end.
  Definition e_put (s : known) (p : nat) (c : option (content_of V)) : option known :=
    match nth_error s p with Some (Some _) => Some (upd s p c) | _ => None end.

  Definition e_step (s : known) (o : v_op V) : option known :=
    match o with
    | VDefault p => e_new s p Unset
    | VFrom p t x => e_new s p (kept t x)
    | VCopy p q =>
        match nth_error s q with
        | Some (Some Unset) => e_new s p Unset
        | Some (Some (Has t x)) => e_new s p (Has t x)
        | _ => None
        end
    | VMove p q =>
        match nth_error s q with
        | Some (Some Unset) => e_new s p Unset
        | Some (Some (Has t x)) => e_new (upd s q (Some (Has t (mv x)))) p (Has t x)
        | _ => None
        end
    | VCopyNamed p q =>
        match nth_error s q with
        | Some (Some (Has t x)) => e_new (upd s q (Some (Has t (mv x)))) p (Has t x)
        | Some (Some _) => e_new s p Odd
        | _ => None
        end
    | VAssign p q =>
        match nth_error s q with
        | Some (Some (Has t x)) => e_put s p (Some (Has t x))
        | Some (Some _) => match nth_error s p with Some (Some _) => Some s | _ => None end
        | _ => None
        end
    | VMoveAssign p q =>
        match nth_error s q with
        | Some (Some (Has t x)) =>
            if p =? q then Some s else e_put (upd s q (Some (Has t (mv x)))) p (Some (Has t x))
        | Some (Some _) => match nth_error s p with Some (Some _) => Some s | _ => None end
        | _ => None
        end
    | VSet p t x => e_put s p (Some (kept t x))
    | VReset p =>
        match nth_error s p with
        | Some (Some (Has _ _)) => Some (upd s p (Some Unset))
        | Some (Some _) => Some s
        | _ => None
        end
    | VDestroy p => e_put s p None
    end.
  Fixpoint e_steps (s : known) (os : list (v_op V)) : option known :=
    match os with
    | [] => Some s
    | o :: os => match e_step s o with Some s => e_steps s os | None => None end
    end.
  Definition e_held (s : known) : nat :=
    length (filter (fun c => match c with Some (Has _ _) => true | _ => false end) s).
End Exact.
