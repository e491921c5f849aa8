(** The operators += and -= of String: which of the overloads is called for an argument, and what it does.

    Source: /repo/include/FlameIDE/Templates/String.hpp.

    Simplifications: an integer is of another type than the characters and is not the literal 0; there
    are no arguments of other classes with conversion functions. *)
From Coq Require Import List Bool ZArith.
From Verif Require Import Base StringModel.
Import ListNotations.

Section Append.
  Context {A : Type}.
  Variable nul : A.
  Variable is_nul : A -> bool.

  (** The argument of +=: a character, a pointer to characters, an array of characters, a string, a range
      of characters, an integer. [const]: it, or what it points to, is const; [rvalue]: it is a temporary
      or was moved. Of the model. *)
  Inductive argument :=
  | ArgChar (const rvalue : bool) (x : A)
  | ArgPointer (const : bool) (r : cstring A)
  | ArgArray (const : bool) (l : list A)
  | ArgString (const rvalue : bool) (t : str A)
  | ArgRange (xs : list A)
  | ArgInteger (z : Z).

  (** The overloads, String.hpp 87-98: (const T &), (T &&), (PointerToConst), (IntType), (const Me &),
      (Range<InputIterator>). *)
  Inductive overload := OfChar | OfMovedChar | OfPointer | OfAny | OfString | OfRange.
  (** In the order of the declarations, String.hpp 87-98. *)
  Definition overloads : list overload := [OfChar; OfMovedChar; OfPointer; OfAny; OfString; OfRange].
  (** template<...>, String.hpp 93-94, 97-98. *)
  Definition of_template (f : overload) : bool :=
    match f with OfAny | OfRange => true | _ => false end.

  (** How the argument becomes the parameter, from best to worst: as it is, with const added to what is
      pointed to, by a conversion of integers, by a constructor. [over.best.ics]. C++ itself. *)
  Inductive conversion := AsIs | ConstAdded | IntegerConverted | Constructed.
  (** C++ itself. *)
  Definition conversion_rank (c : conversion) : nat :=
    match c with AsIs => 0 | ConstAdded => 1 | IntegerConverted => 2 | Constructed => 3 end.

  (** The conversion to the parameter of the overload, String.hpp 87-98; the constructor is
      BasicString(PointerToConst), 75. [None]: there is none. *)
  Definition converts (f : overload) (x : argument) : option conversion :=
    match f, x with
    | OfChar, ArgChar _ _ _ => Some AsIs
    | OfChar, ArgInteger _ => Some IntegerConverted
    | OfMovedChar, ArgChar false true _ => Some AsIs
    | OfMovedChar, ArgInteger _ => Some IntegerConverted
    | OfPointer, ArgPointer c _ => Some (if c then AsIs else ConstAdded)
    | OfPointer, ArgArray c _ => Some (if c then AsIs else ConstAdded)
    | OfAny, _ => Some AsIs
    | OfString, ArgString _ _ _ => Some AsIs
    | OfString, ArgPointer _ _ => Some Constructed
    | OfString, ArgArray _ _ => Some Constructed
    | OfRange, ArgRange _ => Some AsIs
    | _, _ => None
    end.

  (** Is [f] better than [g]? [over.match.best]: by the conversion; a temporary bound to T && rather than
      to const T &; no template rather than a template; of the templates the more specialised,
      Range<InputIterator> than IntType. C++ itself. *)
  Definition better_overload (x : argument) (f g : overload) : bool :=
    match converts f x, converts g x with
    | Some c, Some d =>
        if Nat.ltb (conversion_rank c) (conversion_rank d) then true
        else if Nat.ltb (conversion_rank d) (conversion_rank c) then false
        else match f, g with
             | OfMovedChar, OfChar => true
             | OfChar, OfMovedChar => false
             | OfRange, OfAny => true
             | _, _ => negb (of_template f) && of_template g
             end
    | Some _, None => true
    | None, _ => false
    end.

  (** C++ itself. *)
  Definition same_overload (f g : overload) : bool :=
    match f, g with
    | OfChar, OfChar | OfMovedChar, OfMovedChar | OfPointer, OfPointer | OfAny, OfAny
    | OfString, OfString | OfRange, OfRange => true
    | _, _ => false
    end.

  (** The overload that is called: the one better than each other; [None]: the call is ambiguous.
      C++ itself. *)
  Definition chosen (x : argument) : option overload :=
    find (fun f => forallb (fun g => same_overload f g || better_overload x f g) overloads) overloads.

  (** What the overload does, String.hpp 333-379: the first two push back the character - the parameter
      has a name, so both call pushBack(const T &) - the third the C string; the other three are marked
      "TODO: implement" and only return *this. *)
  Definition append_by (fuel : nat) (s : str A) (f : overload) (x : argument) : outcome (str A) :=
    match f, x with
    | OfChar, ArgChar _ _ c | OfMovedChar, ArgChar _ _ c => str_push_back nul fuel s c
    | OfPointer, ArgPointer _ r => str_push_raw nul is_nul fuel s r
    | OfPointer, ArgArray _ l => str_push_raw nul is_nul fuel s (Some l)
    | OfAny, _ | OfString, _ | OfRange, _ => Ok s
    | _, _ => UB
    end.

  (** string += x, String.hpp 333-379. *)
  Definition append (fuel : nat) (s : str A) (x : argument) : outcome (str A) :=
    match chosen x with
    | Some f => append_by fuel s f x
    | None => UB
    end.

  (** The argument of -=, String.hpp 100-104, as positions: an iterator and a reverse iterator at
      character [i]; a range of the characters from [i] on before [j], in one order or the other. The
      overload is the one for the type. *)
  Inductive removed :=
  | AtIterator (i : nat) | AtReverse (i : nat) | InRange (i j : nat) | InReverseRange (i j : nat).

  (** string -= x, String.hpp 382-407: internalData() of the reverse iterator is the iterator it wraps,
      BaseIterator.hpp 138-142, and *it of the reverse iterator is the character at that iterator
      (rbegin() wraps tail - 1, String.hpp 472-476); the overloads for ranges are marked
      "TODO: implement" and only return *this. *)
  Definition remove (s : str A) (x : removed) : outcome (str A) :=
    match x with
    | AtIterator i | AtReverse i => str_erase nul s i
    | InRange _ _ | InReverseRange _ _ => Ok s
    end.
End Append.
Arguments argument : clear implicits.
