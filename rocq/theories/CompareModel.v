(** What the comparison of two objects calls, and what it answers: iterators, smart pointers, Optional,
    Variant and addresses.

    Source: /repo/include/FlameIDE/Templates/Iterator/{BaseIterator,Iterator,ConstIterator,ReverseIterator,
    ConstReverseIterator,Operators}.hpp, /repo/include/FlameIDE/Templates/{List,Pointers,Optional,Variant}.hpp, /repo/include/FlameIDE/Os/Network/Ipv4.hpp.

    Simplifications: the operands are two objects of the classes below with the same template arguments,
    named or temporary, const or not; a Variant is compared with a Variant only. The right operand is not
    converted by a constructor: the other classes with operators have no constructor that takes an iterator
    of another of these classes. *)
From Coq Require Import List Bool ZArith.
From Verif Require Import Base PointersModel OptionalModel VariantModel Ipv4Model IteratorsModel.
Import ListNotations.
Local Open Scope Z_scope.

(** * Which operator *)

(** The operators. C++ itself. *)
Inductive comparison := Equal | NotEqual | Less | Greater | LessEqual | GreaterEqual.

(** The classes: the iterators of Array, Vector and String (Array.hpp 63-74, Vector.hpp 70-81,
    String.hpp 63-70), those of List (List.hpp 253-260), and classes that refer to or hold something
    (Pointers.hpp 172-228, 234-283, Optional.hpp 11-60, Variant.hpp 160-240,
    Ipv4.hpp 13-59). *)
Inductive klass :=
| LinearIterator | LinearConstIterator | LinearReverse | LinearConstReverse
| ListIterator | ListConstIterator | ListReverse | ListConstReverse
| SharedHandle | UniqueHandle | OptionalHandle | VariantHandle | Ipv4Handle.
(** Of the model: are two classes the same? *)
Scheme Equality for klass.

(** Is the operator a member, with the parameter const Me &, and is the member a const one? == and != of
    iterators: BaseIterator.hpp 51-52; the others of Iterator and ConstIterator: Operators.hpp 179-201; of
    reverse iterators: Operators.hpp 219-241; the bidirectional iterators of a List have none. Variant:
    Variant.hpp 184-185. *)
Definition member_operator (k : klass) (op : comparison) : option bool :=
  match k, op with
  | (LinearIterator | LinearConstIterator), Greater => Some true
  | (LinearIterator | LinearConstIterator | LinearReverse | LinearConstReverse), _ => Some false
  | (ListIterator | ListConstIterator | ListReverse | ListConstReverse | VariantHandle),
      (Equal | NotEqual) => Some false
  | _, _ => None
  end.

(** Is there a conversion to bool, not explicit, for const objects too? BaseIterator.hpp 49,
    Pointers.hpp 210, 263, Optional.hpp 35, Variant.hpp 187, Ipv4.hpp 41. *)
Definition converts_to_bool (k : klass) : bool :=
  match k with
  | LinearIterator | LinearConstIterator | LinearReverse | LinearConstReverse => true
  | ListIterator | ListConstIterator | ListReverse | ListConstReverse => true
  | SharedHandle | UniqueHandle => true
  | OptionalHandle => true
  | VariantHandle => true
  | Ipv4Handle => true
  end.

(** Of the model: what is called: the member, or the built-in operator for numbers, after both operands are
    converted to bool. *)
Inductive means := ByMember | ByBool.

(** An operand: its class, and is it const? Of the model. *)
Definition operand : Type := klass * bool.

(** Can the member be called? A member that is not const is not called on a const object; the parameter is a
    reference to the class. [over.match.viable]. C++ itself. *)
Definition member_viable (op : comparison) (l r : operand) : bool :=
  match member_operator (fst l) op with
  | Some for_const => klass_beq (fst l) (fst r) && implb (snd l) for_const
  | None => false
  end.

(** The operator of an expression; [None]: the expression does not compile. The member is better: it needs
    no conversion function ([over.ics.rank], [over.built]). C++ itself. *)
Definition chosen (op : comparison) (l r : operand) : option means :=
  if member_viable op l r then Some ByMember
  else if converts_to_bool (fst l) && converts_to_bool (fst r) then Some ByBool
  else None.

(** * What it answers *)

(** The built-in operators for numbers. C++ itself. *)
Definition compare_numbers (op : comparison) (a b : Z) : bool :=
  match op with
  | Equal => a =? b
  | NotEqual => negb (a =? b)
  | Less => a <? b
  | Greater => b <? a
  | LessEqual => a <=? b
  | GreaterEqual => b <=? a
  end.

(** A bool is promoted to int. [conv.prom]. C++ itself. *)
Definition promoted (b : bool) : Z := if b then 1 else 0.

(** The built-in operator after the conversions. C++ itself. *)
Definition compare_bools (op : comparison) (a b : bool) : bool := compare_numbers op (promoted a) (promoted b).

(** An iterator: its class, is it const, and the address it wraps (0: null), in units of elements.
    BaseIterator.hpp 66. *)
Record iterator := It { it_class : klass; it_const : bool; it_at : Z }.
(** Of the model: an iterator as an operand. *)
Definition operand_of (i : iterator) : operand := (it_class i, it_const i).

(** operator bool of an iterator, BaseIterator.hpp 89-100: is the address not null? *)
Definition iterator_bool (i : iterator) : bool := negb (it_at i =? 0).

(** The members: BaseIterator.hpp 102-129, Operators.hpp 179-201; of reverse iterators Operators.hpp
    219-241. *)
Definition member_result (k : klass) (op : comparison) (a b : Z) : bool :=
  match k, op with
  | (LinearReverse | LinearConstReverse), Less => rev_lt a b
  | (LinearReverse | LinearConstReverse), Greater => rev_gt a b
  | (LinearReverse | LinearConstReverse), LessEqual => rev_le a b
  | (LinearReverse | LinearConstReverse), GreaterEqual => rev_ge a b
  | _, _ => compare_numbers op a b
  end.

(** The expression [i op j]; [None]: it does not compile. BaseIterator.hpp 49-52, Operators.hpp 179-201. *)
Definition compare_iterators (op : comparison) (i j : iterator) : option bool :=
  match chosen op (operand_of i) (operand_of j) with
  | Some ByMember => Some (member_result (it_class i) op (it_at i) (it_at j))
  | Some ByBool => Some (compare_bools op (iterator_bool i) (iterator_bool j))
  | None => None
  end.

(** Of the application: the loop `for (it = first; it != last; ++it)`. [route]: the positions from the first
    on, without the one of [last]; the result is the positions for which the body runs. Each step is
    [operator++], Operators.hpp 3-8, List.hpp 98-107. Going on at the end is UB. *)
Fixpoint loop (k : klass) (last : iterator) (route : list Z) : outcome (list Z) :=
  match route with
  | [] =>
      match compare_iterators NotEqual (It k false (it_at last)) last with
      | Some false => Ok []
      | _ => UB
      end
  | p :: rest =>
      match compare_iterators NotEqual (It k false p) last with
      | Some true => let! visited := loop k last rest in Ok (p :: visited)
      | Some false => Ok []
      | None => UB
      end
  end.

(** Of the application: the same loop, with the condition written `last != it`. *)
Fixpoint loop_swapped (k : klass) (last : iterator) (route : list Z) : outcome (list Z) :=
  match route with
  | [] =>
      match compare_iterators NotEqual last (It k false (it_at last)) with
      | Some false => Ok []
      | _ => UB
      end
  | p :: rest =>
      match compare_iterators NotEqual last (It k false p) with
      | Some true => let! visited := loop_swapped k last rest in Ok (p :: visited)
      | Some false => Ok []
      | None => UB
      end
  end.

(** The built-in operator on two objects with the conversion [to_bool]. C++ itself. *)
Definition compare_by_bool (op : comparison) (x y : outcome bool) : outcome bool :=
  let! x := x in let! y := y in Ok (compare_bools op x y).

(** Two UniquePointers, Pointers.hpp 244-283: no operator is declared. [None]: does not compile. *)
Definition compare_unique {A : Type} (op : comparison) (w : uworld A) (cp : bool) (p : nat) (cq : bool) (q : nat)
  : option (outcome bool) :=
  match chosen op (UniqueHandle, cp) (UniqueHandle, cq) with
  | Some ByBool => Some (compare_by_bool op (u_bool w p) (u_bool w q))
  | _ => None
  end.

(** Two SharedPointers, Pointers.hpp 190-228: no operator is declared. *)
Definition compare_shared {A : Type} (op : comparison) (w : sworld A) (cp : bool) (p : nat) (cq : bool) (q : nat)
  : option (outcome bool) :=
  match chosen op (SharedHandle, cp) (SharedHandle, cq) with
  | Some ByBool => Some (compare_by_bool op (s_bool w p) (s_bool w q))
  | _ => None
  end.

(** Two Optionals, Optional.hpp 22-60: no operator is declared; operator bool is 186-190. *)
Definition compare_optional {V : Type} (op : comparison) (w : oworld V) (cp : bool) (p : nat) (cq : bool) (q : nat)
  : option (outcome bool) :=
  match chosen op (OptionalHandle, cp) (OptionalHandle, cq) with
  | Some ByBool =>
      Some (let! v := ovar w p in let! u := ovar w q in Ok (compare_bools op (o_fill v) (o_fill u)))
  | _ => None
  end.

(** An Optional and a number: the built-in operator, with the Optional converted to bool. Optional.hpp 35,
    186-190. *)
Definition compare_optional_number {V : Type} (op : comparison) (w : oworld V) (p : nat) (n : Z) : outcome bool :=
  let! v := ovar w p in Ok (compare_numbers op (promoted (o_fill v)) n).

(** Two Variants, Variant.hpp 184-187: ==, 512-520, != is its negation, 522-526; operator bool, 528-532. *)
Definition compare_variant {V : Type} (eqv : nat -> V -> V -> bool) (op : comparison) (ts : list nat)
    (cv : bool) (v : variant V) (cu : bool) (u : variant V) : option (outcome bool) :=
  match chosen op (VariantHandle, cv) (VariantHandle, cu) with
  | Some ByMember =>
      match op with
      | Equal => Some (v_equal eqv ts v u)
      | NotEqual => Some (let! b := v_equal eqv ts v u in Ok (negb b))
      | _ => None
      end
  | Some ByBool => Some (Ok (compare_bools op (v_is_set v) (v_is_set u)))
  | None => None
  end.

(** Two addresses, Ipv4.hpp 27-52: no operator is declared; operator bool, Ipv4.cpp 158-170. *)
Definition compare_ipv4 (op : comparison) (ca : bool) (a : ipv4) (cb : bool) (b : ipv4) : option bool :=
  match chosen op (Ipv4Handle, ca) (Ipv4Handle, cb) with
  | Some ByBool => Some (compare_bools op (ip_bool a) (ip_bool b))
  | _ => None
  end.
