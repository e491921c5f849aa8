(** What becomes of every array and object made through the allocators, whatever the user does,
    independently of the code. *)
From Coq Require Import List Arith Bool ZArith.
From Verif Require Import AllocatorModel AllocatorSpec.
Import ListNotations.

Section Spec.
  Context {A : Type}.
  (** What is left of an object that was moved from. *)
  Variable moved : A -> A.
  (** sizeof(Type). *)
  Variable type_size : nat.

  (** The objects of a new array: all equal to the named object; made of a temporary, each is what
      the one before it left of it. *)
  Definition array_of (n : nat) (a : argument A) : list A :=
    match a with
    | Lvalue x => repeat x n
    | Rvalue x => map (fun k => Nat.iter k moved x) (seq 0 n)
    end.

  (** What the variables of the user hold: null, or objects. *)
  Definition holdings_step (s : @arrays A) (c : acall A) : @arrays A :=
    match c with
    | AArray n a ok => s ++ [if ok then Some (array_of n a) else None]
    | AObject a ok => s ++ [if ok then Some [value_of a] else None]
    | AArrayDestroy v _ | AObjectDestroy v => set_array s v None
    end.
  Definition holdings (h : list (acall A)) : @arrays A := fold_left holdings_step h [].

  (** The calls that are defined: constructions that fail or whose size in bytes can be
      represented; destruction of at most the objects there are. *)
  Definition defined_call (s : @arrays A) (c : acall A) : bool :=
    match c with
    | AArray n _ ok => negb ok || (Z.of_nat type_size * Z.of_nat n <? 2 ^ 64)%Z
    | AObject _ _ => true
    | AArrayDestroy v n =>
        match nth_error s v with
        | Some (Some l) => n <=? length l
        | Some None => n =? 0
        | None => false
        end
    | AObjectDestroy v =>
        match nth_error s v with
        | Some (Some l) => 1 <=? length l
        | _ => false
        end
    end.
  Fixpoint defined_history (s : @arrays A) (h : list (acall A)) : bool :=
    match h with
    | [] => true
    | c :: h => defined_call s c && defined_history (holdings_step s c) h
    end.

  (** The objects whose memory a call frees without destroying them. *)
  Definition forgets (s : @arrays A) (c : acall A) : nat :=
    match c with
    | AArrayDestroy v n =>
        match nth_error s v with Some (Some l) => length l - n | _ => 0 end
    | AObjectDestroy v =>
        match nth_error s v with Some (Some l) => length l - 1 | _ => 0 end
    | _ => 0
    end.
  Fixpoint forgotten (s : @arrays A) (h : list (acall A)) : nat :=
    match h with
    | [] => 0
    | c :: h => forgets s c + forgotten (holdings_step s c) h
    end.
End Spec.
