(** Model of Optional<T>.

    Source: /repo/include/FlameIDE/Templates/Optional.hpp.

    [V] is the type of the values; moving from an object leaves it with the value [mv x];
    [dflt] is a default-constructed value. The world counts the objects constructed and
    destroyed inside optionals. *)
From Coq Require Import List Arith.
From Verif Require Import Base.
Import ListNotations.

(** The flag isFill and the storage, Optional.hpp 58-59 ([None] = raw bytes). *)
Record optional (V : Type) := OR { o_fill : bool; o_cell : option V }.
Arguments OR {V}.
Arguments o_fill {V}.
Arguments o_cell {V}.

(** Any number of variables ([None]: not constructed or destroyed). Of the model. *)
Record oworld (V : Type) := OW {
  ow_vars : list (option (optional V)); ow_made : nat; ow_gone : nat
}.
Arguments OW {V}.
Arguments ow_vars {V}.
Arguments ow_made {V}.
Arguments ow_gone {V}.

Section Optional.
  Context {V : Type}.
  Variable mv : V -> V.
  Variable dflt : V.

  (** Of the model: a living Optional. *)
  Definition ovar (w : oworld V) (p : nat) : outcome (optional V) :=
    match nth_error (ow_vars w) p with
    | Some (Some v) => Ok v
    | _ => UB
    end.
  (** Of the model: a constructor runs where no Optional is. *)
  Definition ofresh (w : oworld V) (p : nat) : outcome unit :=
    match nth_error (ow_vars w) p with
    | Some None => Ok tt
    | _ => UB
    end.
  (** Of the model: the variables after a write to one. *)
  Definition oput (w : oworld V) (p : nat) (v : option (optional V)) : oworld V :=
    OW (upd (ow_vars w) p v) (ow_made w) (ow_gone w).

  (** The object in the storage, for reading or assigning. Optional.hpp 114-266. *)
  Definition o_object (v : optional V) : outcome V :=
    match o_cell v with Some x => Ok x | None => UB end.

  (** placement new in the storage of [p], then isFill = [f]. Optional.hpp 72-106, 114-184,
      216-232. *)
  Definition o_construct (w : oworld V) (p : nat) (f : bool) (x : V) : oworld V :=
    OW (upd (ow_vars w) p (Some (OR f (Some x)))) (S (ow_made w)) (ow_gone w).

  (** Optional(), Optional.hpp 68-70. *)
  Definition o_default (w : oworld V) (p : nat) : outcome (oworld V) :=
    let! _ := ofresh w p in
    Ok (oput w p (Some (OR false None))).

  (** Optional(const Optional &), Optional.hpp 72-80; Optional(Optional &&), 82-90. *)
  Definition o_copy (moving : bool) (w : oworld V) (p q : nat) : outcome (oworld V) :=
    let! _ := ofresh w p in
    let! v := ovar w q in
    if o_fill v then
      let! x := o_object v in
      let w := o_construct w p true x in
      Ok (if moving then oput w q (Some (OR (o_fill v) (Some (mv x)))) else w)
    else Ok (oput w p (Some (OR false None))).

  (** Optional(const T &), Optional(T &&), Optional.hpp 92-106. *)
  Definition o_from (w : oworld V) (p : nat) (x : V) : outcome (oworld V) :=
    let! _ := ofresh w p in
    Ok (o_construct w p true x).

  (** operator=(const Optional &), Optional.hpp 114-133; operator=(Optional &&), 135-154. *)
  Definition o_assign (moving : bool) (w : oworld V) (p q : nat) : outcome (oworld V) :=
    let! u := ovar w p in
    let! v := ovar w q in
    if o_fill v then
      let! x := o_object v in
      let! w :=
        if o_fill u then
          let! _ := o_object u in
          Ok (oput w p (Some (OR true (Some x))))
        else Ok (o_construct w p true x) in
      Ok (if moving then oput w q (Some (OR (o_fill v) (Some (mv x)))) else w)
    else Ok w.

  (** operator=(const T &), operator=(T &&), Optional.hpp 156-184; set, 222-232. *)
  Definition o_set (w : oworld V) (p : nat) (x : V) : outcome (oworld V) :=
    let! u := ovar w p in
    if o_fill u then
      let! _ := o_object u in
      Ok (oput w p (Some (OR true (Some x))))
    else Ok (o_construct w p true x).

  (** unset(), Optional.hpp 258-266. *)
  Definition o_unset (w : oworld V) (p : nat) : outcome (oworld V) :=
    let! u := ovar w p in
    if o_fill u then
      let! _ := o_object u in
      Ok (OW (upd (ow_vars w) p (Some (OR false None))) (ow_made w) (S (ow_gone w)))
    else Ok w.

  (** init(), Optional.hpp 216-220. *)
  Definition o_init (w : oworld V) (p : nat) : outcome (oworld V) :=
    let! u := ovar w p in
    Ok (o_construct w p (o_fill u) dflt).

  (** ~Optional(), Optional.hpp 108-112. *)
  Definition o_destroy (w : oworld V) (p : nat) : outcome (oworld V) :=
    let! w := o_unset w p in
    Ok (oput w p None).

  (** get, operator *, Optional.hpp 198-214, 234-244. *)
  Definition o_get (w : oworld V) (p : nat) : outcome V :=
    let! v := ovar w p in
    o_object v.

  (** The calls of Optional.hpp 68-266. *)
  Inductive o_op :=
  | ODefault (p : nat)
  | OFrom (p : nat) (x : V)
  | OCopy (p q : nat)
  | OMove (p q : nat)
  | OAssign (p q : nat)
  | OMoveAssign (p q : nat)
  | OSet (p : nat) (x : V)
  | OUnset (p : nat)
  | OInit (p : nat)
  | ODestroy (p : nat).

  (** The call of the member function, Optional.hpp 68-266. *)
  Definition o_step (w : oworld V) (o : o_op) : outcome (oworld V) :=
    match o with
    | ODefault p => o_default w p
    | OFrom p x => o_from w p x
    | OCopy p q => o_copy false w p q
    | OMove p q => o_copy true w p q
    | OAssign p q => o_assign false w p q
    | OMoveAssign p q => o_assign true w p q
    | OSet p x => o_set w p x
    | OUnset p => o_unset w p
    | OInit p => o_init w p
    | ODestroy p => o_destroy w p
    end.

  (** Calls in a row. *)
  Fixpoint o_run (w : oworld V) (os : list o_op) : outcome (oworld V) :=
    match os with
    | [] => Ok w
    | o :: os' => let! w := o_step w o in o_run w os'
    end.

  (** Of the model: no Optional is constructed. *)
  Definition o_start (n : nat) : oworld V := OW (repeat None n) 0 0.
End Optional.
Arguments o_op : clear implicits.
