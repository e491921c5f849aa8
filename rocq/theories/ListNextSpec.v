(** Specification of C17, every call on a List: what the next call does, whatever calls went well before
    it. Nothing here mentions nodes. *)
From Coq Require Import List Arith Bool.
From Verif Require Import Base ListModel ListSpec.
Import ListNotations.

Section Next.
  Context {A : Type}.

  (** What a call of the interface of a sequence container does to this one.
      [Works]: what it should; [Spoils]: it returns, but the list can no longer be walked;
      [Breaks]: it reaches for an object that does not exist; [Hangs]: it never returns. *)
  Inductive next := Works (s : shape) | Spoils | Breaks | Hangs.

  (** The calls outside [covered]. *)
  Definition uncovered (l : list A) (s : shape) (o : list_op A) : next :=
    match s, o with
    (* nothing is inserted *)
    | _, LInsertRange _ [] => Works s
    (* the only element is taken from the back; the list still begins with it *)
    | Whole, LPopBack => Spoils
    (* the empty range at the end *)
    | Whole, LEraseRange _ _ => Hangs
    (* into a list whose last element was removed by popFront() or erase(it) *)
    | FrontOnly, LInsert _ _ => match l with [] => Spoils | _ => Breaks end
    | FrontOnly, LInsertRange _ _ => match l with [] => Works Whole | _ => Breaks end
    | FrontOnly, LEraseRange _ _ => match l with [] => Works Untouched | _ => Breaks end
    | _, _ => Breaks
    end.
  Definition next_call (l : list A) (s : shape) (o : list_op A) : next :=
    match covered l s o with Some s' => Works s' | None => uncovered l s o end.

  (** How a whole history goes; [Spoiled k]: the first [k] calls return and leave a list that cannot be
      walked. *)
  Inductive story := AllWork (s : shape) | Spoiled (k : nat) | Broken | Hung.
  Fixpoint list_story (l : list A) (s : shape) (done : nat) (os : list (list_op A)) : story :=
    match os with
    | [] => AllWork s
    | o :: os' =>
        match next_call l s o with
        | Works s' => list_story (list_seq_step l o) s' (S done) os'
        | Spoils => Spoiled (S done)
        | Breaks => Broken
        | Hangs => Hung
        end
    end.
End Next.
