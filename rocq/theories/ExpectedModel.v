(** Model of the two classes Expected<Result, Error>.

    Sources: /repo/include/FlameIDE/Common/Expected.hpp (class flame_ide::Expected) and
    /repo/include/FlameIDE/Templates/Expected.hpp (class flame_ide::templates::Expected).

    Results and errors are values of one type [V], told apart by a tag. Moving from an object
    leaves it with the value [mv x]. *)
From Coq Require Import List Arith ZArith.
From Verif Require Import Base VariantModel.
Import ListNotations.

(** State of Common/Expected.hpp 51-56; the two alternatives of Templates/Expected.hpp 71. *)
Inductive kind := Result | Error.
(** == of two states, Common/Expected.hpp 128-278. *)
Definition kind_eqb (a b : kind) : bool :=
  match a, b with Result, Result | Error, Error => true | _, _ => false end.

(** * flame_ide::Expected *)

(** data.state, Expected.hpp 51-56, and the object in the union, 58-76 ([None] = raw). *)
Record expected (V : Type) := XR { x_state : option kind; x_cell : option (kind * V) }.
Arguments XR {V}.
Arguments x_state {V}.
Arguments x_cell {V}.

(** Any number of variables; objects constructed and destroyed inside Expected objects; the
    handler calls made so far, in order. Of the model. *)
Record xworld (V : Type) := XW {
  xw_vars : list (option (expected V));
  xw_made : nat;
  xw_gone : nat;
  xw_calls : list (kind * V)
}.
Arguments XW {V}.
Arguments xw_vars {V}.
Arguments xw_made {V}.
Arguments xw_gone {V}.
Arguments xw_calls {V}.

Section Common.
  Context {V : Type}.
  Variable mv : V -> V.

  (** Of the model: a living Expected. *)
  Definition xvar (w : xworld V) (p : nat) : outcome (expected V) :=
    match nth_error (xw_vars w) p with
    | Some (Some v) => Ok v
    | _ => UB
    end.
  (** Of the model: a constructor runs where no Expected is. *)
  Definition xfresh (w : xworld V) (p : nat) : outcome unit :=
    match nth_error (xw_vars w) p with
    | Some None => Ok tt
    | _ => UB
    end.
  (** Of the model: the variables after a write to one. *)
  Definition xput (w : xworld V) (p : nat) (v : option (expected V)) : xworld V :=
    XW (upd (xw_vars w) p v) (xw_made w) (xw_gone w) (xw_calls w).

  (** The object of the kind [k] in the union. Common/Expected.hpp 58-75, read by 128-278. *)
  Definition x_object (v : expected V) (k : kind) : outcome V :=
    match x_cell v with
    | Some (j, x) => if kind_eqb j k then Ok x else UB
    | None => UB
    end.

  (** Expected(), 18, with Data(), 60. *)
  Definition x_default (w : xworld V) (p : nat) : outcome (xworld V) :=
    let! _ := xfresh w p in
    Ok (xput w p (Some (XR None None))).

  (** destroy(), FlameIDE/Common/Expected.hpp 261-278: the state is not changed. *)
  Definition x_clear (w : xworld V) (p : nat) : outcome (xworld V) :=
    let! v := xvar w p in
    match x_state v with
    | None => Ok w
    | Some k =>
        let! _ := x_object v k in
        Ok (XW (upd (xw_vars w) p (Some (XR (x_state v) None)))
               (xw_made w) (S (xw_gone w)) (xw_calls w))
    end.

  (** placementNew(&data.result.value, ...); data.state = ... Common/Expected.hpp 157-195. *)
  Definition x_construct (w : xworld V) (p : nat) (k : kind) (x : V) : xworld V :=
    XW (upd (xw_vars w) p (Some (XR (Some k) (Some (k, x)))))
       (S (xw_made w)) (xw_gone w) (xw_calls w).

  (** operator=(const ResultType &), (ResultType &&), (const ErrorType &), (ErrorType &&),
      FlameIDE/Common/Expected.hpp 157-195. *)
  Definition x_set (w : xworld V) (p : nat) (k : kind) (x : V) : outcome (xworld V) :=
    let! w := x_clear w p in
    Ok (x_construct w p k x).

  (** operator=(const Expected &), FlameIDE/Common/Expected.hpp 128-141. *)
  Definition x_assign (w : xworld V) (p q : nat) : outcome (xworld V) :=
    let! w := x_clear w p in
    let! v := xvar w q in
    match x_state v with
    | None => Ok w
    | Some k =>
        let! x := x_object v k in
        x_set w p k x
    end.

  (** operator=(Expected &&), FlameIDE/Common/Expected.hpp 143-155: the handler of [q] runs operator=(ResultType &&), which
      clears [p] and constructs from the object of [q]; then [q] is UNKNOWN. *)
  Definition x_move_assign (w : xworld V) (p q : nat) : outcome (xworld V) :=
    let! _ := xvar w p in
    let! v := xvar w q in
    match x_state v with
    | None => Ok w
    | Some k =>
        let! w := x_clear w p in
        let! v := xvar w q in
        let! x := x_object v k in
        let w := x_construct w p k x in
        Ok (xput w q (Some (XR None (Some (k, mv x)))))
    end.

  (** Expected(const ResultType &) and so on, FlameIDE/Common/Expected.hpp 98-120. *)
  Definition x_from (w : xworld V) (p : nat) (k : kind) (x : V) : outcome (xworld V) :=
    let! w := x_default w p in
    x_set w p k x.
  (** Expected(const Expected &), FlameIDE/Common/Expected.hpp 86-90. *)
  Definition x_copy (w : xworld V) (p q : nat) : outcome (xworld V) :=
    let! w := x_default w p in
    x_assign w p q.
  (** Expected(Expected &&), FlameIDE/Common/Expected.hpp 92-96. *)
  Definition x_move (w : xworld V) (p q : nat) : outcome (xworld V) :=
    let! w := x_default w p in
    x_move_assign w p q.

  (** Of the model: the call of a handler (Common/Expected.hpp 197-249) is recorded. *)
  Definition x_log (w : xworld V) (k : kind) (x : V) : xworld V :=
    XW (xw_vars w) (xw_made w) (xw_gone w) (xw_calls w ++ [(k, x)]).

  (** ifResult (not const), FlameIDE/Common/Expected.hpp 197-209, and ifError (not const), 224-236: the handler gets the
      value as an rvalue; afterwards the object has some value [h x]. *)
  Definition x_if (h : V -> V) (w : xworld V) (p : nat) (k : kind) : outcome (xworld V) :=
    let! v := xvar w p in
    match x_state v with
    | Some j =>
        if kind_eqb j k then
          let! x := x_object v k in
          let w := x_log w k x in
          Ok (xput w p (Some (XR None (Some (k, h x)))))
        else Ok w
    | None => Ok w
    end.

  (** ifResult const, FlameIDE/Common/Expected.hpp 211-222, and ifError const, 238-249. *)
  Definition x_if_const (w : xworld V) (p : nat) (k : kind) : outcome (xworld V) :=
    let! v := xvar w p in
    match x_state v with
    | Some j =>
        if kind_eqb j k then
          let! x := x_object v k in
          Ok (x_log w k x)
        else Ok w
    | None => Ok w
    end.

  (** ~Expected(), FlameIDE/Common/Expected.hpp 122-126. *)
  Definition x_destroy (w : xworld V) (p : nat) : outcome (xworld V) :=
    let! w := x_clear w p in
    Ok (xput w p None).

  (** The calls of Common/Expected.hpp 18, 86-249. *)
  Inductive x_op :=
  | XDefault (p : nat)
  | XFrom (p : nat) (k : kind) (x : V)
  | XCopy (p q : nat)
  | XMove (p q : nat)
  | XAssign (p q : nat)
  | XMoveAssign (p q : nat)
  | XSet (p : nat) (k : kind) (x : V)
  | XIf (p : nat) (k : kind) (h : V -> V)
  | XIfConst (p : nat) (k : kind)
  | XDestroy (p : nat).

  (** The call of the member function, Common/Expected.hpp 18, 86-278. *)
  Definition x_step (w : xworld V) (o : x_op) : outcome (xworld V) :=
    match o with
    | XDefault p => x_default w p
    | XFrom p k x => x_from w p k x
    | XCopy p q => x_copy w p q
    | XMove p q => x_move w p q
    | XAssign p q => x_assign w p q
    | XMoveAssign p q => x_move_assign w p q
    | XSet p k x => x_set w p k x
    | XIf p k h => x_if h w p k
    | XIfConst p k => x_if_const w p k
    | XDestroy p => x_destroy w p
    end.

  (** Calls in a row. *)
  Fixpoint x_run (w : xworld V) (os : list x_op) : outcome (xworld V) :=
    match os with
    | [] => Ok w
    | o :: os' => let! w := x_step w o in x_run w os'
    end.

  (** Of the model: no Expected is constructed. *)
  Definition x_start (n : nat) : xworld V := XW (repeat None n) 0 0 [].
End Common.
Arguments x_op : clear implicits.

(** * flame_ide::templates::Expected

    A wrapper of a mutable Variant<Result, Error>; its variables are variables of the world
    of VariantModel.v. *)
(** Templates/Expected.hpp 71: the types of the alternatives by name. *)
Definition t_kind (k : kind) : nat := match k with Result => 0 | Error => 1 end.
(** Templates/Expected.hpp 71. *)
Definition t_types : list nat := [0; 1].
(** The type const Error, which is not an alternative. Templates/Expected.hpp 115-121. *)
Definition t_const_error : nat := 2.

Section Templates.
  Context {V : Type}.
  Variable mv : V -> V.

  (** Expected(const Result &) and so on, FlameIDE/Templates/Expected.hpp 83-97. *)
  Definition te_from (w : world V) (p : nat) (k : kind) (x : V) : outcome (world V) :=
    v_from t_types w p (t_kind k) x.

  (** Expected(const Expected &) = default, 24: the member variant is mutable, 71, so the
      Variant is constructed from a named Variant that is not const. *)
  Definition te_copy (w : world V) (p q : nat) : outcome (world V) :=
    v_copy_named mv t_types w p q.

  (** operator=(const Result &), (Result &&), (Error &&), FlameIDE/Templates/Expected.hpp 99-113, 123-129. *)
  Definition te_set (w : world V) (p : nat) (k : kind) (x : V) : outcome (world V) :=
    v_set t_types w p (t_kind k) x.
  (** operator=(const Error &), FlameIDE/Templates/Expected.hpp 115-121: [variant.set(move(error))] with a const error, so the
      type looked for is const Error. *)
  Definition te_set_const_error (w : world V) (p : nat) (x : V) : outcome (world V) :=
    v_set t_types w p t_const_error x.

  (** ifResult, FlameIDE/Templates/Expected.hpp 131-142, and ifError, 157-168, not const: the value the handler is called with
      (if any), and the world after the handler left the object with the value [h x]. *)
  Definition te_if (h : V -> V) (w : world V) (p : nat) (k : kind)
    : outcome (option V * world V) :=
    let! v := var w p in
    let! r := v_get t_types v (t_kind k) in
    match r with
    | Some x => Ok (Some x, put w p (Some (VR (v_index v) (Some (t_kind k, h x)))))
    | None => Ok (None, w)
    end.

  (** ifResult const, FlameIDE/Templates/Expected.hpp 144-155, ifError const, 170-181. *)
  Definition te_if_const (w : world V) (p : nat) (k : kind) : outcome (option V) :=
    let! v := var w p in
    v_get t_types v (t_kind k).

  (** done(), FlameIDE/Templates/Expected.hpp 183-187. *)
  Definition te_done (w : world V) (p : nat) : outcome (world V) := v_reset t_types w p.
End Templates.
