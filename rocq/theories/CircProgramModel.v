(** Programs with any number of CircularArrays: member functions, copies, moves, assignments and destructors in
    any order.

    Source: /repo/include/FlameIDE/Templates/CircularArray.hpp 263-315, 345-428. *)
From Coq Require Import List Arith.
From Verif Require Import Base Store StaticVectorModel CircularArrayModel.
Import ListNotations.

Section CircProgram.
  Context {A : Type}.
  Variable m : mode.
  (** The value left in an object that was moved from. *)
  Variable moved : A -> A.
  (** ARRAY_CAPACITY, CircularArray.hpp 25. *)
  Variable cap : nat.

  (** The elements of the source of CircularArray(Me &&) after [move(i)] was given to the buffer's
      emplaceBack(), CircularArray.hpp 282-285. *)
  Fixpoint move_out (s : store A) (is_ : list nat) : outcome (store A) :=
    match is_ with
    | [] => Ok s
    | i :: is_ =>
        let! x := st_load s i in
        let! s := st_assign m s i (moved x) in
        move_out s is_
    end.

  (** CircularArray(Me &&), CircularArray.hpp 278-286: the new object, and what is left of the source. *)
  Definition ca_take (c : circ A) : outcome (circ A * circ A) :=
    let! d := ca_move m c in
    let! is_ := ca_indices c in
    let! s := move_out (ca_store c) is_ in
    Ok (d, Circ (SVec s (sv_tail (ca_buffer c))) (ca_head c) (ca_tail c)).

  (** A call of the program; objects are numbered in the order they are made. Of the application. *)
  Inductive ca_call :=
  | PNew | PDo (i : nat) (op : ca_op A) | PCopy (i : nat) | PMove (i : nat)
  | PAssign (i j : nat) | PDrop (i : nat).

  (** The objects, [None] once destroyed, and how many elements of the destroyed objects were never destroyed.
      Of the model. *)
  Record ca_state := CaState { ca_objects : list (option (circ A)); ca_lost : nat }.

  (** The object with number [i]; using one that does not exist is undefined. Of the model. *)
  Definition circ_at (os : list (option (circ A))) (i : nat) : outcome (circ A) :=
    match nth_error os i with Some (Some c) => Ok c | _ => UB end.

  (** One call: the constructors CircularArray.hpp 263-286, the member functions 345-428, operator= 297-315 and
      the destructor 288-295. *)
  Definition program_step (st : ca_state) (call : ca_call) : outcome ca_state :=
    let os := ca_objects st in
    match call with
    | PNew => Ok (CaState (os ++ [Some (ca_new cap)]) (ca_lost st))
    | PDo i op =>
        let! c := circ_at os i in
        let! c := ca_step m c op in
        Ok (CaState (upd os i (Some c)) (ca_lost st))
    | PCopy i =>
        let! c := circ_at os i in
        let! d := ca_copy m c in
        Ok (CaState (os ++ [Some d]) (ca_lost st))
    | PMove i =>
        let! c := circ_at os i in
        let! p := ca_take c in
        Ok (CaState (upd os i (Some (snd p)) ++ [Some (fst p)]) (ca_lost st))
    | PAssign i j =>
        let! c := circ_at os i in
        let! d := circ_at os j in
        let! c := ca_assign m c d in
        Ok (CaState (upd os i (Some c)) (ca_lost st))
    | PDrop i =>
        let! c := circ_at os i in
        let! s := ca_destructor m c in
        Ok (CaState (upd os i None) (ca_lost st + st_leaks s + count_live (st_cells s)))
    end.

  (** The calls one after the other. Of the model. *)
  Fixpoint program_run (st : ca_state) (calls : list ca_call) : outcome ca_state :=
    match calls with
    | [] => Ok st
    | call :: calls => let! st := program_step st call in program_run st calls
    end.
End CircProgram.
Arguments ca_call : clear implicits.
Arguments ca_state : clear implicits.
