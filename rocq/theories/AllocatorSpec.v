(** What a user of the allocators may expect, independently of the code. *)
From Coq Require Import List Arith Bool ZArith.
From Verif Require Import AllocatorModel.
Import ListNotations.

Section Spec.
  Context {A : Type}.
  Variable type_size : nat.

  (** The value of an argument. *)
  Definition value_of (a : argument A) : A := match a with Lvalue x | Rvalue x => x end.

  (** Each variable of the user: null, or an array of so many objects. *)
  Definition arrays := list (option (list A)).

  Fixpoint set_array (s : arrays) (v : nat) (x : option (list A)) : arrays :=
    match s, v with
    | [], _ => []
    | _ :: s, 0 => x :: s
    | y :: s, S v => y :: set_array s v x
    end.

  Definition arrays_step (s : arrays) (c : acall A) : arrays :=
    match c with
    | AArray n a ok => s ++ [if ok then Some (repeat (value_of a) n) else None]
    | AObject a ok => s ++ [if ok then Some [value_of a] else None]
    | AArrayDestroy v _ | AObjectDestroy v => set_array s v None
    end.
  Definition arrays_run (h : list (acall A)) : arrays := fold_left arrays_step h [].

  (** The size in bytes can be represented. *)
  Definition representable (n : nat) : Prop := (Z.of_nat type_size * Z.of_nat n < 2 ^ 64)%Z.

  (** An array is destroyed with its length (a null pointer with 0), an object is destroyed only
      if there is one; arrays of several objects are made of a named object. *)
  Definition proper_call (s : arrays) (c : acall A) : Prop :=
    match c with
    | AArray n a ok => representable n /\ match a with Lvalue _ => True | Rvalue _ => n <= 1 end
    | AObject _ _ => representable 1
    | AArrayDestroy v n =>
        match nth_error s v with
        | Some (Some l) => n = length l
        | Some None => n = 0
        | None => False
        end
    | AObjectDestroy v => exists x, nth_error s v = Some (Some [x])
    end.
  Fixpoint proper_history (s : arrays) (h : list (acall A)) : Prop :=
    match h with
    | [] => True
    | c :: h => proper_call s c /\ proper_history (arrays_step s c) h
    end.

  (** What a variable of the program points to: null, or the objects in the block, which are all
      its cells. *)
  Definition points_to (w : aworld A) (v : nat) (x : option (list A)) : Prop :=
    match x with
    | None => nth_error (h_vars w) v = Some None
    | Some l => exists b, nth_error (h_vars w) v = Some (Some b)
                  /\ nth_error (h_blocks w) b = Some (Some (map Some l))
    end.

  (** Blocks that are not freed. *)
  Definition live_blocks (w : aworld A) : nat :=
    length (filter (fun b => match b with Some _ => true | None => false end) (h_blocks w)).
  Definition not_null (s : arrays) : nat :=
    length (filter (fun x => match x with Some _ => true | None => false end) s).
End Spec.
