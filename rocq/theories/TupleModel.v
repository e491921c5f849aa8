(** Tuple and InitializerList.

    Source: /repo/include/FlameIDE/Templates/Tuple.hpp, InitializerList.hpp. The objects of the
    different types are values of one type [V]; what is left of an object that was moved from is
    [mv x]. *)
From Coq Require Import List Arith Bool.
From Verif Require Import Base.
Import ListNotations.

Section Tuple.
  Context {V : Type}.
  Variable mv : V -> V.

  (** Tuple<Arg, Args...>, Tuple.hpp 111-150: a base class Tuple<Args...> and the member object;
      None: no object there. Tuple<>, 152-156. *)
  Inductive tuple := TEmpty | TCons (base : tuple) (object : option V).

  (** Reading the member object, Tuple.hpp 149; of an object without a value: undefined. *)
  Definition get_object (o : option V) : outcome V :=
    match o with Some x => Ok x | None => UB end.

  (** The variables of the user: tuples, and named objects; the objects constructed and destroyed
      in tuples. Of the model: the state around Tuple.hpp 111-150. *)
  Record tworld := TW {
    tw_tuples : list (option tuple); tw_objects : nat -> V; tw_made : nat; tw_gone : nat
  }.
  (** Of the model: no tuple yet. *)
  Definition tw_start (n : nat) (objects : nat -> V) : tworld := TW (repeat None n) objects 0 0.
  (** Of the model: a change of one variable. *)
  Definition set_tuple (w : tworld) (v : nat) (t : option tuple) : tworld :=
    TW (upd (tw_tuples w) v t) (tw_objects w) (tw_made w) (tw_gone w).
  (** Of the model: a change of one named object. *)
  Definition set_object (w : tworld) (p : nat) (x : V) : tworld :=
    TW (tw_tuples w) (fun q => if q =? p then x else tw_objects w q) (tw_made w) (tw_gone w).
  (** Of the model: counts one more object constructed. *)
  Definition one_made (w : tworld) : tworld := TW (tw_tuples w) (tw_objects w) (S (tw_made w)) (tw_gone w).
  (** Of the model: counts one more object destroyed. *)
  Definition one_gone (w : tworld) : tworld := TW (tw_tuples w) (tw_objects w) (tw_made w) (S (tw_gone w)).
  (** Of the model: access to a variable; one that does not exist: undefined. *)
  Definition the_tuple (w : tworld) (v : nat) : outcome tuple :=
    match nth_error (tw_tuples w) v with Some (Some t) => Ok t | _ => UB end.
  (** Of the model: a variable is constructed at most once. *)
  Definition tuple_fresh (w : tworld) (v : nat) : outcome unit :=
    match nth_error (tw_tuples w) v with Some None => Ok tt | _ => UB end.

  (** Tuple(const Arg &, const Args &...), Tuple.hpp 164-167, with temporaries. *)
  Fixpoint tup_make (w : tworld) (xs : list V) : tworld * tuple :=
    match xs with
    | [] => (w, TEmpty)
    | x :: xs => let (w, base) := tup_make w xs in (one_made w, TCons base (Some x))
    end.
  (** The same with named objects. Tuple.hpp 164-167. *)
  Fixpoint tup_from (w : tworld) (ps : list nat) : tworld * tuple :=
    match ps with
    | [] => (w, TEmpty)
    | p :: ps => let (w, base) := tup_from w ps in (one_made w, TCons base (Some (tw_objects w p)))
    end.
  (** Tuple(Arg &&, Args &&...), Tuple.hpp 169-172, with objects that may be moved from: the base is
      constructed first. *)
  Fixpoint tup_from_move (w : tworld) (ps : list nat) : tworld * tuple :=
    match ps with
    | [] => (w, TEmpty)
    | p :: ps =>
        let (w, base) := tup_from_move w ps in
        let x := tw_objects w p in
        (one_made (set_object w p (mv x)), TCons base (Some x))
    end.
  (** Tuple(const Me &) = default, Tuple.hpp 119. *)
  Fixpoint tup_copy (w : tworld) (t : tuple) : outcome (tworld * tuple) :=
    match t with
    | TEmpty => Ok (w, TEmpty)
    | TCons base o =>
        let! r := tup_copy w base in
        let! x := get_object o in
        Ok (one_made (fst r), TCons (snd r) (Some x))
    end.
  (** Tuple(Me &&) = default, Tuple.hpp 120: the new tuple and the source. *)
  Fixpoint tup_move (w : tworld) (t : tuple) : outcome (tworld * (tuple * tuple)) :=
    match t with
    | TEmpty => Ok (w, (TEmpty, TEmpty))
    | TCons base o =>
        let! r := tup_move w base in
        let! x := get_object o in
        Ok (one_made (fst r), (TCons (fst (snd r)) (Some x), TCons (snd (snd r)) (Some (mv x))))
    end.
  (** operator=(const Me &) = default, Tuple.hpp 124. *)
  Fixpoint tup_assign (t u : tuple) : outcome tuple :=
    match t, u with
    | TEmpty, TEmpty => Ok TEmpty
    | TCons base o, TCons base' o' =>
        let! b := tup_assign base base' in
        let! _ := get_object o in
        let! x := get_object o' in
        Ok (TCons b (Some x))
    | _, _ => UB                                       (* another type *)
    end.
  (** operator=(Me &&) = default, Tuple.hpp 125. *)
  Fixpoint tup_move_assign (t u : tuple) : outcome (tuple * tuple) :=
    match t, u with
    | TEmpty, TEmpty => Ok (TEmpty, TEmpty)
    | TCons base o, TCons base' o' =>
        let! b := tup_move_assign base base' in
        let! _ := get_object o in
        let! x := get_object o' in
        Ok (TCons (fst b) (Some x), TCons (snd b) (Some (mv x)))
    | _, _ => UB
    end.
  (** get<INDEX>(), Tuple.hpp 136-140: Getter, 42-69. An INDEX that is too large does not compile. *)
  Fixpoint tup_get (t : tuple) (i : nat) : outcome V :=
    match t, i with
    | TEmpty, _ => UB
    | TCons _ o, O => get_object o
    | TCons base _, S i => tup_get base i
    end.
  (** An assignment to the reference get<INDEX>(). Tuple.hpp 136-140. *)
  Fixpoint tup_set (t : tuple) (i : nat) (x : V) : outcome tuple :=
    match t, i with
    | TEmpty, _ => UB
    | TCons base o, O => let! _ := get_object o in Ok (TCons base (Some x))
    | TCons base o, S i => let! b := tup_set base i x in Ok (TCons b o)
    end.
  (** ~Tuple() = default, Tuple.hpp 123: the member, then the base. *)
  Fixpoint tup_destroy (w : tworld) (t : tuple) : outcome tworld :=
    match t with
    | TEmpty => Ok w
    | TCons base o => let! _ := get_object o in tup_destroy (one_gone w) base
    end.

  (** The calls of the members, Tuple.hpp 118-146. *)
  Inductive tcall :=
  | TNew (v : nat) (xs : list V)
  | TFrom (v : nat) (ps : list nat)
  | TFromMove (v : nat) (ps : list nat)
  | TCopy (v u : nat) | TMove (v u : nat)
  | TAssign (v u : nat) | TMoveAssign (v u : nat)
  | TGet (v i : nat)
  | TSet (v i : nat) (x : V)
  | TDelete (v : nat).

  (** One call, Tuple.hpp 118-146, 164-172, by the functions above. *)
  Definition tuple_step (w : tworld) (c : tcall) : outcome (tworld * option V) :=
    let done w := Ok (w, None) in
    match c with
    | TNew v xs =>
        let! _ := tuple_fresh w v in
        let (w, t) := tup_make w xs in done (set_tuple w v (Some t))
    | TFrom v ps =>
        let! _ := tuple_fresh w v in
        let (w, t) := tup_from w ps in done (set_tuple w v (Some t))
    | TFromMove v ps =>
        let! _ := tuple_fresh w v in
        let (w, t) := tup_from_move w ps in done (set_tuple w v (Some t))
    | TCopy v u =>
        let! _ := tuple_fresh w v in
        let! t := the_tuple w u in
        let! r := tup_copy w t in done (set_tuple (fst r) v (Some (snd r)))
    | TMove v u =>
        let! _ := tuple_fresh w v in
        let! t := the_tuple w u in
        let! r := tup_move w t in
        done (set_tuple (set_tuple (fst r) v (Some (fst (snd r)))) u (Some (snd (snd r))))
    | TAssign v u =>
        let! t := the_tuple w v in
        let! t' := the_tuple w u in
        let! t := tup_assign t t' in done (set_tuple w v (Some t))
    | TMoveAssign v u =>
        let! t := the_tuple w v in
        let! t' := the_tuple w u in
        if v =? u then UB                              (* depends on the types of the elements *)
        else
          let! r := tup_move_assign t t' in
          done (set_tuple (set_tuple w v (Some (fst r))) u (Some (snd r)))
    | TGet v i =>
        let! t := the_tuple w v in
        let! x := tup_get t i in Ok (w, Some x)
    | TSet v i x =>
        let! t := the_tuple w v in
        let! t := tup_set t i x in done (set_tuple w v (Some t))
    | TDelete v =>
        let! t := the_tuple w v in
        let! w := tup_destroy w t in done (set_tuple w v None)
    end.
  (** Of the model: the calls of a history one after the other. *)
  Fixpoint tuple_run (w : tworld) (h : list tcall) : outcome (tworld * list (option V)) :=
    match h with
    | [] => Ok (w, [])
    | c :: h =>
        let! r := tuple_step w c in
        let! r' := tuple_run (fst r) h in
        Ok (fst r', snd r :: snd r')
    end.
End Tuple.
Arguments tuple : clear implicits.
Arguments tworld : clear implicits.
Arguments tcall : clear implicits.

Section InitializerList.
  Context {V : Type}.
  (** Whether the destructor of the elements does nothing; the value of a default-constructed
      element (for the primitive types: whatever is there). *)
  Variable trivial : bool.
  Variable initial : V.

  (** InitializerList<T, SIZE>, InitializerList.hpp 14-87: listSize and list. *)
  Record ilist := IL { il_size : nat; il_cells : cells V }.

  (** Helper<...>::init, InitializerList.hpp 58-82. *)
  Fixpoint il_init (c : cells V) (i : nat) (args : list V) : outcome (cells V) :=
    match args with
    | [] => Ok c
    | x :: args => let! c := assign c i x in il_init c (S i) args
    end.
  (** InitializerList(Args &&...), InitializerList.hpp 95-101: the array is default-constructed. None or too many
      arguments do not compile. *)
  Definition il_new (size : nat) (args : list V) : outcome ilist :=
    if (size <? length args) || (length args =? 0) then UB
    else
      let! c := il_init (repeat (Some initial) size) 0 args in
      Ok (IL (length args) c).
  (** The implicit copy constructor: every cell. Not declared in InitializerList.hpp 15-87. *)
  Definition il_copy (l : ilist) : ilist := l.
  (** The loop of ~InitializerList, InitializerList.hpp 140-141. *)
  Fixpoint destroy_from (c : cells V) (i n : nat) : outcome (cells V) :=
    match n with
    | O => Ok c
    | S n => let! c := destroy c i in destroy_from c (S i) n
    end.
  (** ~InitializerList(), InitializerList.hpp 137-142, and then the destructors of the elements of the array. *)
  Definition il_destroy (l : ilist) : outcome (cells V) :=
    let! c := if trivial then Ok (il_cells l) else destroy_from (il_cells l) 0 (il_size l) in
    destroy_from c 0 (length c).

  (** The InitializerList objects of a program; None: destroyed. Of the model. *)
  Definition iworld := list (option ilist).
  (** A pointer to an element: the object and the index. InitializerList.hpp 20. *)
  Definition iptr : Type := nat * nat.

  (** Of the model: access to an object; a destroyed one: undefined. *)
  Definition the_list (w : iworld) (n : nat) : outcome ilist :=
    match nth_error w n with Some (Some l) => Ok l | _ => UB end.
  (** begin() and end(), InitializerList.hpp 109-113, 123-127. *)
  Definition il_begin (n : nat) : iptr := (n, 0).
  (** end(), InitializerList.hpp 123-127. *)
  Definition il_end (w : iworld) (n : nat) : outcome iptr :=
    let! l := the_list w n in Ok (n, il_size l).
  (** The operator * of such a pointer. InitializerList.hpp 20. *)
  Definition il_deref (w : iworld) (p : iptr) : outcome V :=
    let! l := the_list w (fst p) in load (il_cells l) (snd p).
  (** [for (auto &i : list)]. The pointer of InitializerList.hpp 20 goes forward. *)
  Fixpoint il_walk (w : iworld) (p : iptr) (n : nat) : outcome (list V) :=
    match n with
    | O => Ok []
    | S n =>
        let! x := il_deref w p in
        let! l := il_walk w (fst p, S (snd p)) n in
        Ok (x :: l)
    end.
  (** From begin() to end(), InitializerList.hpp 109-113, 123-127. *)
  Definition il_elements (w : iworld) (n : nat) : outcome (list V) :=
    let! e := il_end w n in il_walk w (il_begin n) (snd e - 0).

  (** Of the model: a new object by InitializerList.hpp 95-101. *)
  Definition i_new (w : iworld) (size : nat) (args : list V) : outcome (iworld * nat) :=
    let! l := il_new size args in Ok (w ++ [Some l], length w).
  (** Of the model: the end of an object, InitializerList.hpp 137-142. *)
  Definition i_delete (w : iworld) (n : nat) : outcome iworld :=
    let! l := the_list w n in
    let! _ := il_destroy l in Ok (upd w n None).
  (** begin(InitializerList<U, SIZE1> list), InitializerList.hpp 115-121, and end(...), 129-135: the parameter is a
      copy, which is destroyed when the function returns. *)
  Definition i_begin_of (w : iworld) (n : nat) : outcome (iworld * iptr) :=
    let! l := the_list w n in
    let w := w ++ [Some (il_copy l)] in
    let p := il_begin (length w - 1) in
    let! w := i_delete w (length w - 1) in
    Ok (w, p).
  (** end(InitializerList<U, SIZE1>), InitializerList.hpp 129-135. *)
  Definition i_end_of (w : iworld) (n : nat) : outcome (iworld * iptr) :=
    let! l := the_list w n in
    let w := w ++ [Some (il_copy l)] in
    let! p := il_end w (length w - 1) in
    let! w := i_delete w (length w - 1) in
    Ok (w, p).
End InitializerList.
Arguments ilist : clear implicits.
