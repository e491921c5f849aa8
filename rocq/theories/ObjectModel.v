(** Model of the type-erased Object<SIZE_IN_BYTES, AlignedAsType>.

    Source: /repo/include/FlameIDE/Templates/Object.hpp.

    Any number of Object variables; the variable [p] lies at the address [addr p], which is
    also the address of its member data (97: it is the first member). What is stored is one
    object, described by its offset in data, its type and its value. Copying the bytes of data
    (147) is taken to move the object to the same offset of the target. *)
From Coq Require Import List Arith ZArith Bool.
From Verif Require Import Base UtilsModel.
Import ListNotations.

(** A C++ type: a name, sizeof and alignof. *)
Record ctype := CT { ct_name : nat; ct_size : Z; ct_align : Z }.
(** Of the model: equality. *)
Definition ctype_eqb (a b : ctype) : bool :=
  (ct_name a =? ct_name b) && (ct_size a =? ct_size b)%Z && (ct_align a =? ct_align b)%Z.

Section Object.
  Context {V : Type}.
  (** SIZE_IN_BYTES and alignof(AlignedAsType). *)
  Variables (size align : Z) (addr : nat -> Z).

  (** The bytes of data, seen as: nothing, or an object; callbackDestroy is for a type. Object.hpp
      97-98. *)
  Record object := OB { ob_data : option (Z * ctype * V); ob_callback : option ctype }.

  (** Of the model: the Object variables (None: not alive), and how many objects were constructed
      and destroyed in them. *)
  Record bworld := BW {
    bw_vars : list (option object);
    bw_made : nat;
    bw_gone : nat
  }.

  (** Of the model: access to a variable; one that is not alive: undefined. *)
  Definition bvar (w : bworld) (p : nat) : outcome object :=
    match nth_error (bw_vars w) p with
    | Some (Some v) => Ok v
    | _ => UB
    end.
  (** Of the model: a variable is constructed when it is not alive. *)
  Definition bfresh (w : bworld) (p : nat) : outcome unit :=
    match nth_error (bw_vars w) p with
    | Some None => Ok tt
    | _ => UB
    end.
  (** Of the model: a change of one variable. *)
  Definition bput (w : bworld) (p : nat) (v : option object) : bworld :=
    BW (upd (bw_vars w) p v) (bw_made w) (bw_gone w).

  (** staticCheck, Object.hpp 70-89. *)
  Definition b_accepts (t : ctype) : bool :=
    (ct_size t <=? size)%Z &&
    (if (align <? ct_align t)%Z then (ct_size t + ct_align t <? size)%Z else true).

  (** alignedPointer<T>(data), as an offset in data. alignedPointer, Utils.hpp 500-525, as in
      Object.hpp 117-210. *)
  Definition b_offset (p : nat) (t : ctype) : outcome Z :=
    let! a := aligned_pointer (ct_align t) (addr p) in
    Ok (a - addr p)%Z.

  (** The object of the type [t] at alignedPointer<T>(data). As in Object.hpp 188-210. *)
  Definition b_object (p : nat) (v : object) (t : ctype) : outcome V :=
    let! o := b_offset p t in
    match ob_data v with
    | Some (o', t', x) => if (o =? o')%Z && ctype_eqb t t' then Ok x else UB
    | None => UB
    end.

  (** The function behind callbackDestroy, Object.hpp 222-232, called for [data]. *)
  Definition b_callback (w : bworld) (p : nat) (v : object) (t : ctype) : outcome bworld :=
    let! _ := b_object p v t in
    Ok (BW (upd (bw_vars w) p (Some (OB None (ob_callback v)))) (bw_made w) (S (bw_gone w))).

  (** destroy(), Object.hpp 212-220. *)
  Definition b_clear (w : bworld) (p : nat) : outcome bworld :=
    let! v := bvar w p in
    match ob_callback v with
    | None => Ok w
    | Some t =>
        let! w := b_callback w p v t in
        let! v := bvar w p in
        Ok (bput w p (Some (OB (ob_data v) None)))
    end.

  (** Object(), Object.hpp 107-109. *)
  Definition b_default (w : bworld) (p : nat) : outcome bworld :=
    let! _ := bfresh w p in
    Ok (bput w p (Some (OB None None))).

  (** operator=(T &&), operator=(const T &), Object.hpp 154-180. The object must lie inside data. *)
  Definition b_set (w : bworld) (p : nat) (t : ctype) (x : V) : outcome bworld :=
    if b_accepts t then
      let! w := b_clear w p in
      let! o := b_offset p t in
      if (0 <=? o)%Z && (o + ct_size t <=? size)%Z then
        Ok (BW (upd (bw_vars w) p (Some (OB (Some (o, t, x)) (Some t))))
               (S (bw_made w)) (bw_gone w))
      else UB
    else UB.

  (** operator=(Object &&), Object.hpp 141-152. *)
  Definition b_move_assign (w : bworld) (p q : nat) : outcome bworld :=
    let! w := b_clear w p in
    let! v := bvar w q in
    let w := bput w p (Some (OB (ob_data v) (ob_callback v))) in
    let! v := bvar w q in
    Ok (bput w q (Some (OB (ob_data v) None))).

  (** Object(Object &&), Object.hpp 111-115; Object(T &&), Object(const T &), 117-131. *)
  Definition b_move (w : bworld) (p q : nat) : outcome bworld :=
    let! w := b_default w p in
    b_move_assign w p q.
  (** Object(T &&), Object.hpp 117-123, and Object(const T &), 125-130. *)
  Definition b_from (w : bworld) (p : nat) (t : ctype) (x : V) : outcome bworld :=
    let! w := b_default w p in
    b_set w p t x.

  (** ~Object(), Object.hpp 133-139. *)
  Definition b_destroy (w : bworld) (p : nat) : outcome bworld :=
    let! v := bvar w p in
    match ob_callback v with
    | None => Ok (bput w p None)
    | Some t =>
        let! w := b_callback w p v t in
        Ok (bput w p None)
    end.

  (** operator bool, Object.hpp 182-186. *)
  Definition b_bool (v : object) : bool :=
    match ob_callback v with Some _ => true | None => false end.

  (** get<T>(), Object.hpp 188-202. *)
  Definition b_get (w : bworld) (p : nat) (t : ctype) : outcome V :=
    let! v := bvar w p in
    b_object p v t.

  (** The member function move(), Object.hpp 204-210, is not modelled: it calls get() without a template
      argument and does not compile. *)

  (** The members of Object, Object.hpp, as a program calls them; of the model. *)
  Inductive b_op :=
  | BDefault (p : nat)
  | BFrom (p : nat) (t : ctype) (x : V)
  | BMove (p q : nat)
  | BMoveAssign (p q : nat)
  | BSet (p : nat) (t : ctype) (x : V)
  | BDestroy (p : nat).

  (** One call of a member, Object.hpp 107-232, by the functions above. *)
  Definition b_step (w : bworld) (o : b_op) : outcome bworld :=
    match o with
    | BDefault p => b_default w p
    | BFrom p t x => b_from w p t x
    | BMove p q => b_move w p q
    | BMoveAssign p q => b_move_assign w p q
    | BSet p t x => b_set w p t x
    | BDestroy p => b_destroy w p
    end.

  (** Of the model: the calls of a history one after the other. *)
  Fixpoint b_run (w : bworld) (os : list b_op) : outcome bworld :=
    match os with
    | [] => Ok w
    | o :: os' => let! w := b_step w o in b_run w os'
    end.

  (** Of the model: no variable is alive. *)
  Definition b_start (n : nat) : bworld := BW (repeat None n) 0 0.
End Object.
Arguments object : clear implicits.
Arguments bworld : clear implicits.
Arguments b_op : clear implicits.
