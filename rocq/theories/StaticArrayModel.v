(** Model of StaticArray = Array<T, CAPACITY, true>
    (/repo/include/FlameIDE/Templates/Array.hpp, 1013-1264 declaration, 1279-1570
    definitions).

    The object is the plain array [Type objects[CAPACITY]] (line 1263). All CAPACITY
    elements are objects from construction to destruction. A cell is [None] when the value
    is indeterminate (a default-initialised trivial type); reading it is UB. *)
From Coq Require Import List Arith Bool.
From Verif Require Import Base.
Import ListNotations.

Section StaticArray.
  Context {A : Type}.
  (** The value of a default-initialised element: [None] for trivial types, [Some d] for
      types with a default constructor. *)
  Variable fresh : option A.
  (** [Type()], the value-initialised element. *)
  Variable dflt : A.
  Variable eqA : A -> A -> bool.

  (** The member objects, Array.hpp 1263. *)
  Definition sarr := list (option A).

  (** Array(), Array.hpp 1279-1281. *)
  Definition sa_new (cap : nat) : sarr := repeat fresh cap.

  (** An assignment to an element, `*it = ...` in Array.hpp 1284-1420. *)
  Definition sa_set (a : sarr) (i : nat) (x : option A) : outcome sarr := write a i x.

  (** operator[], Array.hpp 1424-1438. *)
  Definition sa_get (a : sarr) (i : nat) : outcome A :=
    match nth_error a i with
    | Some (Some x) => Ok x
    | _ => UB
    end.

  (** Loop [for (i : array) { *it = i; ++it; }]. Copying an element with an indeterminate value is
      UB. Array.hpp 1289-1293, 1301-1305, 1314-1318, 1326-1330, 1337-1341, 1405-1409, 1417-1421.
      *)
  Fixpoint sa_copy_advancing (src : list (option A)) (it : nat) (a : sarr) : outcome sarr :=
    match src with
    | [] => Ok a
    | Some x :: src => let! a := sa_set a it (Some x) in sa_copy_advancing src (S it) a
    | None :: _ => UB
    end.

  (** Loop [for (i : array) { *it = i; }] without advancing [it]. Array.hpp 1350-1353, 1364-1367.
      *)
  Fixpoint sa_copy_still (src : list (option A)) (it : nat) (a : sarr) : outcome sarr :=
    match src with
    | [] => Ok a
    | Some x :: src => let! a := sa_set a it (Some x) in sa_copy_still src it a
    | None :: _ => UB
    end.

  (** Array(const Array &), Array.hpp 1297-1306 and 1283-1295 (other capacity: only when it fits);
      the moving constructors 1308-1331 are meant to have the same effect on the new object, but do not
      compile when they are called (C215_no_compile_refuted). *)
  Definition sa_copy (cap : nat) (b : sarr) : outcome sarr :=
    if length b <=? cap then sa_copy_advancing b 0 (sa_new cap) else Ok (sa_new cap).

  (** Array(InitializerList), Array.hpp 1333-1342. *)
  Definition sa_of_list (cap : nat) (xs : list A) : outcome sarr :=
    sa_copy_advancing (map Some xs) 0 (sa_new cap).

  (** operator=(const &), Array.hpp 1344-1370: [it] is never advanced. *)
  Definition sa_assign (a b : sarr) : outcome sarr :=
    if length b <=? length a then sa_copy_still b 0 a else Ok a.

  (** operator=(&&), Array.hpp 1399-1422: copies all elements, then the function ends without
      returning a value although it is declared to return a reference: UB. This is the text as it is
      meant: an iterator gives an lvalue, which `MoveReference i` does not bind to, so that it does not
      compile when it is called (C215_no_compile_refuted). *)
  Definition sa_assign_move (a b : sarr) : outcome sarr :=
    let! _ := (if length b <=? length a then sa_copy_advancing b 0 a else Ok a) in UB.

  (** clone, Array.hpp 1474-1484: [copyIt] is never advanced. Before C++17 the result needs a moving
      constructor (1322-1331), which does not compile; the effect is that of the text as it is meant. *)
  Definition sa_clone (a : sarr) : outcome sarr := sa_copy_still a 0 (sa_new (length a)).

  (** operator==, Array.hpp 1372-1391. *)
  Fixpoint sa_eq_from (a : sarr) (b : sarr) (it : nat) : outcome bool :=
    match a with
    | [] => Ok true
    | Some x :: a =>
        let! y := sa_get b it in
        if eqA x y then sa_eq_from a b (S it) else Ok false
    | None :: _ => UB
    end.

  (** Array.hpp 1372-1391. *)
  Definition sa_eq (a b : sarr) : outcome bool :=
    if negb (length a =? length b) then Ok false else sa_eq_from a b 0.

  (** reset, Array.hpp 1464-1472. *)
  Fixpoint sa_reset_from (n it : nat) (a : sarr) : outcome sarr :=
    match n with
    | O => Ok a
    | S n => let! a := sa_set a it (Some dflt) in sa_reset_from n (S it) a
    end.
  (** Array.hpp 1464-1472. *)
  Definition sa_reset (a : sarr) : outcome sarr := sa_reset_from (length a) 0 a.
End StaticArray.
