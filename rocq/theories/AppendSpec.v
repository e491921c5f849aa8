(** What += and -= of a string are to do, whatever the type of the operand. Written without the functions
    of AppendModel.v; only the types of operands are shared. *)
From Coq Require Import List Bool ZArith.
From Verif Require Import Base StringModel StringSpec AppendModel.
Import ListNotations.

Section Spec.
  Context {A : Type}.
  Variable nul : A.
  Variable is_nul : A -> bool.
  (** The text of an integer, whatever it is: decimal or other. *)
  Variable digits : Z -> list A.

  (** [l] is the text of the operand: the character, the characters of the C string before its
      terminator, of the string, of the range, the digits of the integer. *)
  Inductive has_text : argument A -> list A -> Prop :=
  | text_of_char : forall c rv x, has_text (ArgChar c rv x) [x]
  | text_of_pointer : forall c r, terminated is_nul r -> has_text (ArgPointer c r) (text is_nul r)
  | text_of_array : forall c l, terminated is_nul (Some l) ->
      has_text (ArgArray c l) (text is_nul (Some l))
  | text_of_string : forall c rv t l cap, holds nul t l cap -> has_text (ArgString c rv t) l
  | text_of_range : forall xs, has_text (ArgRange xs) xs
  | text_of_integer : forall z, has_text (ArgInteger z) (digits z).

  (** The operands that work: characters, and C strings of const characters. *)
  Definition appendable (x : argument A) : Prop :=
    match x with
    | ArgChar _ _ _ => True
    | ArgPointer const _ | ArgArray const _ => const = true
    | _ => False
    end.

  (** Without the characters that are removed. *)
  Definition without (l : list A) (x : removed) : list A :=
    match x with
    | AtIterator i | AtReverse i => firstn i l ++ skipn (S i) l
    | InRange i j | InReverseRange i j => firstn i l ++ skipn j l
    end.
End Spec.
