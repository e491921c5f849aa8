(** Model of UniquePointer and SharedPointer.

    Source: /repo/include/FlameIDE/Templates/Pointers.hpp and Allocator/ObjectAllocator.hpp.

    A program has any number of pointer variables, named by their number. Simplifications:
    allocation does not fail; allocators have no state; objects are values of a type [A]
    and constructing one copies a value. *)
From Coq Require Import List Arith ZArith.
From Verif Require Import Base.
Import ListNotations.

(** * UniquePointer *)

(** A pointer variable: not constructed or already destroyed; or alive, with the field
    [object] (null, or the number of an object). *)
Inductive slot := Absent | Present (object : option nat).

(** All objects ever created ([None] = destroyed) and all pointer variables. Of the model; the
    objects are those of allocator.construct and destroy (ObjectAllocator.hpp 78-124). *)
Record uworld (A : Type) := UW { u_objs : list (option A); u_vars : list slot }.
Arguments UW {A}.
Arguments u_objs {A}.
Arguments u_vars {A}.

Section Unique.
  Context {A : Type}.

  (** Of the model: the member object of a living UniquePointer (Pointers.hpp 463-583). *)
  Definition u_field (w : uworld A) (p : nat) : outcome (option nat) :=
    match nth_error (u_vars w) p with
    | Some (Present o) => Ok o
    | _ => UB
    end.
  (** Of the model: the variables after a write to one. *)
  Definition u_set (w : uworld A) (p : nat) (v : slot) : uworld A :=
    UW (u_objs w) (upd (u_vars w) p v).
  (** Of the model: a constructor runs on a variable that holds no pointer. *)
  Definition u_fresh (w : uworld A) (p : nat) : outcome unit :=
    match nth_error (u_vars w) p with
    | Some Absent => Ok tt
    | _ => UB
    end.

  (** UniquePointer(Args &&...), Pointers.hpp 463-468, 478-488: allocator.construct. *)
  Definition u_new (w : uworld A) (p : nat) (x : A) : outcome (uworld A) :=
    let! _ := u_fresh w p in
    Ok (UW (u_objs w ++ [Some x])
           (upd (u_vars w) p (Present (Some (length (u_objs w)))))).

  (** makeEmpty(), Pointers.hpp 573-577, UniquePointer(Empty), 581-583. *)
  Definition u_empty (w : uworld A) (p : nat) : outcome (uworld A) :=
    let! _ := u_fresh w p in
    Ok (u_set w p (Present None)).

  (** clean(), Pointers.hpp 539-547; allocator.destroy of an object that is not alive is UB. *)
  Definition u_clean (w : uworld A) (p : nat) : outcome (uworld A) :=
    let! o := u_field w p in
    match o with
    | None => Ok w
    | Some i =>
        match nth_error (u_objs w) i with
        | Some (Some _) => Ok (UW (upd (u_objs w) i None) (upd (u_vars w) p (Present None)))
        | _ => UB
        end
    end.

  (** UniquePointer(UniquePointer &&), Pointers.hpp 470-476. *)
  Definition u_move (w : uworld A) (p q : nat) : outcome (uworld A) :=
    let! _ := u_fresh w p in
    let! o := u_field w q in
    Ok (u_set (u_set w p (Present o)) q (Present None)).

  (** operator=(UniquePointer &&), Pointers.hpp 490-501. *)
  Definition u_assign (w : uworld A) (p q : nat) : outcome (uworld A) :=
    let! w := u_clean w p in
    let! o := u_field w q in
    let w := u_set w p (Present o) in
    Ok (u_set w q (Present None)).

  (** ~UniquePointer(), Pointers.hpp 503-507. *)
  Definition u_destroy (w : uworld A) (p : nat) : outcome (uworld A) :=
    let! w := u_clean w p in
    Ok (u_set w p Absent).

  (** operator bool, Pointers.hpp 533-537. *)
  Definition u_bool (w : uworld A) (p : nat) : outcome bool :=
    let! o := u_field w p in
    Ok (match o with Some _ => true | None => false end).

  (** operator *, Pointers.hpp 509-519. *)
  Definition u_deref (w : uworld A) (p : nat) : outcome A :=
    let! o := u_field w p in
    match o with
    | None => UB
    | Some i =>
        match nth_error (u_objs w) i with
        | Some (Some x) => Ok x
        | _ => UB
        end
    end.

  (** The calls of Pointers.hpp 463-583. *)
  Inductive u_op :=
  | UNew (p : nat) (x : A)
  | UEmpty (p : nat)
  | UMove (p q : nat)
  | UAssign (p q : nat)
  | UClean (p : nat)
  | UDestroy (p : nat).

  (** The call of the member function, Pointers.hpp 463-583. *)
  Definition u_step (w : uworld A) (o : u_op) : outcome (uworld A) :=
    match o with
    | UNew p x => u_new w p x
    | UEmpty p => u_empty w p
    | UMove p q => u_move w p q
    | UAssign p q => u_assign w p q
    | UClean p => u_clean w p
    | UDestroy p => u_destroy w p
    end.

  (** Calls in a row. *)
  Fixpoint u_run (w : uworld A) (os : list u_op) : outcome (uworld A) :=
    match os with
    | [] => Ok w
    | o :: os' => let! w := u_step w o in u_run w os'
    end.

  (** A program with [n] pointer variables, none of them constructed. Of the model. *)
  Definition u_start (n : nat) : uworld A := UW [] (repeat Absent n).
End Unique.
Arguments u_op : clear implicits.

(** * SharedPointer *)

(** The field [members] of a pointer: indeterminate, null, or the number of a Members.
    Pointers.hpp 205. *)
Inductive mptr := Garbage | Nil | To (i : nat).
(** Of the model: a variable without, or with, a SharedPointer. *)
Inductive svar := SAbsent | SPresent (m : mptr).

(** Members, Pointers.hpp 165-168: counter and object; [None] = destroyed and freed. *)
Record sworld (A : Type) := SW { s_objs : list (option (Z * A)); s_vars : list svar }.
Arguments SW {A}.
Arguments s_objs {A}.
Arguments s_vars {A}.

Section Shared.
  Context {A : Type}.

  (** size_t arithmetic of Counter, Pointers.hpp 300-312. *)
  Definition size_t (z : Z) : Z := (z mod 2 ^ 64)%Z.

  (** Of the model: the member members of a living SharedPointer (Pointers.hpp 330-435). *)
  Definition s_field (w : sworld A) (p : nat) : outcome mptr :=
    match nth_error (s_vars w) p with
    | Some (SPresent m) => Ok m
    | _ => UB
    end.
  (** Of the model: the variables after a write to one. *)
  Definition s_set (w : sworld A) (p : nat) (v : svar) : sworld A :=
    SW (s_objs w) (upd (s_vars w) p v).
  (** Of the model: a constructor runs on a variable that holds no pointer. *)
  Definition s_fresh (w : sworld A) (p : nat) : outcome unit :=
    match nth_error (s_vars w) p with
    | Some SAbsent => Ok tt
    | _ => UB
    end.
  (** Access to the Members a field refers to. The accesses `members->...` in Pointers.hpp
      330-435. *)
  Definition s_get (w : sworld A) (m : mptr) : outcome (nat * Z * A) :=
    match m with
    | To i =>
        match nth_error (s_objs w) i with
        | Some (Some (c, x)) => Ok (i, c, x)
        | _ => UB
        end
    | _ => UB
    end.

  (** SharedPointer() = default, Pointers.hpp 190: members is not initialised. *)
  Definition s_default (w : sworld A) (p : nat) : outcome (sworld A) :=
    let! _ := s_fresh w p in
    Ok (s_set w p (SPresent Garbage)).

  (** SharedPointer(Args &&...), Pointers.hpp 358-363; the counter starts at 0, 296-298. *)
  Definition s_new (w : sworld A) (p : nat) (x : A) : outcome (sworld A) :=
    let! _ := s_fresh w p in
    Ok (SW (s_objs w ++ [Some (0%Z, x)])
           (upd (s_vars w) p (SPresent (To (length (s_objs w)))))).

  (** ++(members->counter). Pointers.hpp 335, 379 with 300-305. *)
  Definition s_incr (w : sworld A) (m : mptr) : outcome (sworld A) :=
    let! r := s_get w m in
    let '(i, c, x) := r in
    Ok (SW (upd (s_objs w) i (Some (size_t (c + 1), x))) (s_vars w)).

  (** clean(), Pointers.hpp 427-435. *)
  Definition s_clean (w : sworld A) (p : nat) : outcome (sworld A) :=
    let! m := s_field w p in
    match m with
    | Garbage => UB
    | Nil => Ok w
    | To _ =>
        let! r := s_get w m in
        let '(i, c, x) := r in
        if (size_t (c - 1) =? 0)%Z then
          Ok (SW (upd (s_objs w) i None) (upd (s_vars w) p (SPresent Nil)))
        else
          Ok (SW (upd (s_objs w) i (Some (size_t (c - 1), x))) (s_vars w))
    end.

  (** SharedPointer(const SharedPointer &), Pointers.hpp 330-336. It is called for a const source; for a
      named one that is not const the constructor for any arguments is (OverloadModel, C216). *)
  Definition s_copy (w : sworld A) (p q : nat) : outcome (sworld A) :=
    let! _ := s_fresh w p in
    let! m := s_field w q in
    let w := s_set w p (SPresent m) in
    s_incr w m.

  (** SharedPointer(SharedPointer &&), Pointers.hpp 338-344. *)
  Definition s_move (w : sworld A) (p q : nat) : outcome (sworld A) :=
    let! _ := s_fresh w p in
    let! m := s_field w q in
    let w := s_set w p (SPresent m) in
    Ok (s_set w q (SPresent Nil)).

  (** operator=(const SharedPointer &), Pointers.hpp 371-382. *)
  Definition s_assign (w : sworld A) (p q : nat) : outcome (sworld A) :=
    let! w := s_clean w p in
    let! m := s_field w q in
    let w := s_set w p (SPresent m) in
    s_incr w m.

  (** operator=(SharedPointer &&), Pointers.hpp 384-395. *)
  Definition s_move_assign (w : sworld A) (p q : nat) : outcome (sworld A) :=
    let! w := s_clean w p in
    let! m := s_field w q in
    let w := s_set w p (SPresent m) in
    Ok (s_set w q (SPresent Nil)).

  (** ~SharedPointer(), Pointers.hpp 365-369. *)
  Definition s_destroy (w : sworld A) (p : nat) : outcome (sworld A) :=
    let! w := s_clean w p in
    Ok (s_set w p SAbsent).

  (** operator *, Pointers.hpp 397-407. *)
  Definition s_deref (w : sworld A) (p : nat) : outcome A :=
    let! m := s_field w p in
    let! r := s_get w m in
    Ok (snd r).

  (** operator bool, Pointers.hpp 421-425: [&members->object]; the access through a null [members] is
      UB. *)
  Definition s_bool (w : sworld A) (p : nat) : outcome bool :=
    let! m := s_field w p in
    match m with
    | To _ => Ok true
    | _ => UB
    end.

  (** The calls of Pointers.hpp 330-435. *)
  Inductive s_op :=
  | SDefault (p : nat)
  | SNew (p : nat) (x : A)
  | SCopy (p q : nat)
  | SMove (p q : nat)
  | SAssign (p q : nat)
  | SMoveAssign (p q : nat)
  | SClean (p : nat)
  | SDestroy (p : nat).

  (** The call of the member function, Pointers.hpp 330-435. *)
  Definition s_step (w : sworld A) (o : s_op) : outcome (sworld A) :=
    match o with
    | SDefault p => s_default w p
    | SNew p x => s_new w p x
    | SCopy p q => s_copy w p q
    | SMove p q => s_move w p q
    | SAssign p q => s_assign w p q
    | SMoveAssign p q => s_move_assign w p q
    | SClean p => s_clean w p
    | SDestroy p => s_destroy w p
    end.

  (** Calls in a row. *)
  Fixpoint s_run (w : sworld A) (os : list s_op) : outcome (sworld A) :=
    match os with
    | [] => Ok w
    | o :: os' => let! w := s_step w o in s_run w os'
    end.

  (** Of the model: no variable is constructed. *)
  Definition s_start (n : nat) : sworld A := SW [] (repeat SAbsent n).
End Shared.
Arguments s_op : clear implicits.
