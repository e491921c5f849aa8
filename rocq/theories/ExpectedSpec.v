(** What the user of flame_ide::Expected expects.

    For every variable: [None] = does not exist, [Some None] = neither result nor error,
    [Some (Some (k, x))] = the result or error [x]. *)
From Coq Require Import List Arith.
From Verif Require Import Base ExpectedModel.
Import ListNotations.

Record xspec (V : Type) := XS {
  xs_vars : list (option (option (kind * V)));
  xs_calls : list (kind * V);   (* handler calls, in order *)
  xs_taken : nat                (* values handed over by moves and by handlers *)
}.
Arguments XS {V}.
Arguments xs_vars {V}.
Arguments xs_calls {V}.
Arguments xs_taken {V}.

Section Spec.
  Context {V : Type}.

  Definition x_holds (s : xspec V) (p : nat) (c : option (kind * V)) : Prop :=
    nth_error (xs_vars s) p = Some (Some c).
  Definition x_none (s : xspec V) (p : nat) : Prop := nth_error (xs_vars s) p = Some None.
  Definition x_exists (s : xspec V) (p : nat) : Prop := exists c, x_holds s p c.
  Definition x_content (s : xspec V) (q : nat) : option (kind * V) :=
    match nth_error (xs_vars s) q with Some (Some c) => c | _ => None end.
  Definition one_if {B} (c : option B) : nat := match c with Some _ => 1 | None => 0 end.

  (** A handler for the kind [k]: called iff that kind is held. *)
  Definition calls_of (c : option (kind * V)) (k : kind) : list (kind * V) :=
    match c with
    | Some (j, x) => if kind_eqb j k then [(k, x)] else []
    | None => []
    end.

  Definition x_spec (s : xspec V) (o : x_op V) : xspec V :=
    let v := xs_vars s in
    match o with
    | XDefault p => XS (upd v p (Some None)) (xs_calls s) (xs_taken s)
    | XFrom p k x => XS (upd v p (Some (Some (k, x)))) (xs_calls s) (xs_taken s)
    | XCopy p q | XAssign p q => XS (upd v p (Some (x_content s q))) (xs_calls s) (xs_taken s)
    | XMove p q | XMoveAssign p q =>
        XS (upd (upd v p (Some (x_content s q))) q (Some None)) (xs_calls s)
           (xs_taken s + one_if (x_content s q))
    | XSet p k x => XS (upd v p (Some (Some (k, x)))) (xs_calls s) (xs_taken s)
    | XIf p k _ =>
        match calls_of (x_content s p) k with
        | [] => s
        | l => XS (upd v p (Some None)) (xs_calls s ++ l) (S (xs_taken s))
        end
    | XIfConst p k => XS v (xs_calls s ++ calls_of (x_content s p) k) (xs_taken s)
    | XDestroy p => XS (upd v p None) (xs_calls s) (xs_taken s)
    end.

  (** Covered: everything except copy assignment to an object that holds something, and move
      assignment from an empty object or from itself. *)
  Definition x_covered (s : xspec V) (o : x_op V) : Prop :=
    match o with
    | XDefault p | XFrom p _ _ => x_none s p
    | XCopy p q | XMove p q => x_none s p /\ x_exists s q
    | XAssign p q => x_holds s p None /\ x_exists s q
    | XMoveAssign p q =>
        x_exists s p /\ x_exists s q /\ p <> q /\
        (x_content s q <> None \/ x_content s p = None)
    | XSet p _ _ | XIf p _ _ | XIfConst p _ | XDestroy p => x_exists s p
    end.

  Fixpoint x_ok (s : xspec V) (os : list (x_op V)) : Prop :=
    match os with
    | [] => True
    | o :: os' => x_covered s o /\ x_ok (x_spec s o) os'
    end.
  Definition x_result (s : xspec V) (os : list (x_op V)) : xspec V := fold_left x_spec os s.
  Definition x_empty (n : nat) : xspec V := XS (repeat None n) [] 0.

  (** The number of objects that hold a result or an error. *)
  Definition x_held (s : xspec V) : nat :=
    length (filter (fun c => match c with Some (Some _) => true | _ => false end) (xs_vars s)).
End Spec.

(** What does happen. An Expected is empty, holds a result or an error, or still says that it holds one although it
    is destroyed ([Ghost]); [None] as a result: the call has undefined behaviour. *)
Inductive seen (V : Type) := Empty | Holds (k : kind) (x : V) | Ghost (k : kind).
Arguments Empty {V}.
Arguments Holds {V}.
Arguments Ghost {V}.

(** The Expecteds that exist, the calls of handlers, and the number of values that were handed over and are never
    destroyed. *)
Record xseen (V : Type) := XN { n_vars : list (option (seen V)); n_calls : list (kind * V); n_lost : nat }.
Arguments XN {V}.
Arguments n_vars {V}.
Arguments n_calls {V}.
Arguments n_lost {V}.

Section Exact.
  Context {V : Type}.

  Definition n_put (s : xseen V) (p : nat) (c : option (seen V)) : xseen V :=
    XN (upd (n_vars s) p c) (n_calls s) (n_lost s).
  Definition n_take (s : xseen V) (p : nat) : xseen V :=
    XN (upd (n_vars s) p (Some Empty)) (n_calls s) (S (n_lost s)).
  Definition n_call (s : xseen V) (k : kind) (x : V) : xseen V :=
    XN (n_vars s) (n_calls s ++ [(k, x)]) (n_lost s).

  (** A new value for an Expected that is not a ghost. *)
  Definition n_set (s : xseen V) (p : nat) (k : kind) (x : V) : option (xseen V) :=
    match nth_error (n_vars s) p with
    | Some (Some Empty) | Some (Some (Holds _ _)) => Some (n_put s p (Some (Holds k x)))
    | _ => None
    end.
  (** Copy assignment: the target must be empty, or the source, which makes the target a ghost. *)
  Definition n_assign (s : xseen V) (p q : nat) : option (xseen V) :=
    match nth_error (n_vars s) p, nth_error (n_vars s) q with
    | Some (Some Empty), Some (Some Empty) => Some s
    | Some (Some Empty), Some (Some (Holds k x)) => Some (n_put s p (Some (Holds k x)))
    | Some (Some (Holds k _)), Some (Some Empty) => Some (n_put s p (Some (Ghost k)))
    | _, _ => None
    end.
  (** Move assignment: nothing happens if the source is empty. *)
  Definition n_move (s : xseen V) (p q : nat) : option (xseen V) :=
    match nth_error (n_vars s) p, nth_error (n_vars s) q with
    | Some (Some _), Some (Some Empty) => Some s
    | Some (Some (Ghost _)), Some (Some (Holds _ _)) => None
    | Some (Some _), Some (Some (Holds k x)) =>
        if p =? q then None else Some (n_take (n_put s p (Some (Holds k x))) q)
    | _, _ => None
    end.
  Definition n_new (s : xseen V) (p : nat) (c : seen V) : option (xseen V) :=
    match nth_error (n_vars s) p with Some None => Some (n_put s p (Some c)) | _ => None end.
  Definition n_if (consume : bool) (s : xseen V) (p : nat) (k : kind) : option (xseen V) :=
    match nth_error (n_vars s) p with
    | Some (Some Empty) => Some s
    | Some (Some (Holds j x)) =>
        if kind_eqb j k then Some (if consume then n_take (n_call s k x) p else n_call s k x) else Some s
    | Some (Some (Ghost j)) => if kind_eqb j k then None else Some s
    | _ => None
    end.

  Definition n_step (s : xseen V) (o : x_op V) : option (xseen V) :=
    match o with
    | XDefault p => n_new s p Empty
    | XFrom p k x => n_new s p (Holds k x)
    | XCopy p q => match n_new s p Empty with Some s => n_assign s p q | None => None end
    | XMove p q => match n_new s p Empty with Some s => n_move s p q | None => None end
    | XAssign p q => n_assign s p q
    | XMoveAssign p q => n_move s p q
    | XSet p k x => n_set s p k x
    | XIf p k _ => n_if true s p k
    | XIfConst p k => n_if false s p k
    | XDestroy p =>
        match nth_error (n_vars s) p with
        | Some (Some Empty) | Some (Some (Holds _ _)) => Some (n_put s p None)
        | _ => None
        end
    end.
  Fixpoint n_steps (s : xseen V) (os : list (x_op V)) : option (xseen V) :=
    match os with
    | [] => Some s
    | o :: os => match n_step s o with Some s => n_steps s os | None => None end
    end.
  Definition n_none (n : nat) : xseen V := XN (repeat None n) [] 0.

  Definition n_held (s : xseen V) : nat :=
    length (filter (fun c => match c with Some (Holds _ _) => true | _ => false end) (n_vars s)).
End Exact.
