(** How the containers, the allocators and the pointers pass on the objects they are given: as a named
    object, which may only be copied, or as one that may be moved from.

    Source: /repo/include/FlameIDE/Templates/{Array,Vector,HybridVector,CircularArray,List,Pointers,
    Optional,AlignObject,InitializerList}.hpp, Allocator/ObjectAllocator.hpp, Common/{Utils,Expected}.hpp.

    A function is what it makes of one argument: the expression (type and category, TraitsModel) that
    the constructor or the assignment operator of the element is given in the end. [None]: the call
    does not compile. Arguments are passed on one by one, so a function of several arguments is the
    same function for each of them. *)
From Coq Require Import List Bool.
From Verif Require Import CppTypes TraitsModel.
Import ListNotations.

(** * Parameters *)

(** forward(x), T not given but deduced, Utils.hpp 343-354. For a named x both overloads take it and
    forward(T &), with T the type of x, is more specialised than forward(T &&) ([temp.func.order]): the
    result is T &&. What is no lvalue can only be taken by forward(T &&), or is taken better by it,
    and the static_assert of 346 fails. *)
Definition forward_deduced (x : value) : option value :=
  match x with
  | (t, Lvalue) => bind (mk_rref t) as_value
  | (t, Xvalue) => None
  end.

(** The ways to write a parameter `Args &&...args` in a call: forward<decltype(args)>(args)...,
    forward<Args>(args)..., forward(args)... and args.... *)
Inductive how := ByDecltype | ByArgs | ByDeduction | ByName.

(** A parameter declared as Args && is taken and written into a call. Inside it is a named object. As in
    Vector.hpp 726-734, Pointers.hpp 463-467, HybridVector.hpp 1726-1754 and 1925. *)
Definition hand_on (h : how) (arg : value) : option value :=
  let x := (fst arg, Lvalue) in
  match h with
  | ByDecltype => bind (mk_rref (deduced arg)) (fun declared => forward declared x)
  | ByArgs => forward (deduced arg) x
  | ByDeduction => forward_deduced x
  | ByName => Some x
  end.

(** Overloads for T && and const T &, T an object type: the first is preferred for what it can take
    ([over.ics.rank]). Inside, the parameter is a named object. As in Utils.hpp 363-376. *)
Definition either (t : ty) (arg : value) (rvalue lvalue : value -> option value) : option value :=
  if binds (Rref t) arg then rvalue (t, Lvalue)
  else if binds (Lref (mk_const t)) arg then lvalue (mk_const t, Lvalue)
  else None.

(** Overloads for Args &&..., T && and const T &: a template that takes an argument no better than an
    ordinary function is not chosen ([over.match.best]). As in ObjectAllocator.hpp 78-115 and
    Pointers.hpp 463-488. *)
Definition any_or_either (t : ty) (arg : value) (any rvalue lvalue : value -> option value)
  : option value :=
  if ty_eqb (fst arg) t then
    match snd arg with Xvalue => rvalue (t, Lvalue) | Lvalue => any arg end
  else if ty_eqb (fst arg) (mk_const t) then
    match snd arg with Xvalue => any arg | Lvalue => lvalue (mk_const t, Lvalue) end
  else any arg.

(** * Utils.hpp *)

(** emplaceNew, Utils.hpp 356-361. *)
Definition emplace_new (arg : value) : option value := hand_on ByDecltype arg.

(** placementNew, Utils.hpp 363-376. *)
Definition placement_new (t : ty) (arg : value) : option value :=
  either t arg (fun obj => forward t obj) (fun obj => Some obj).

(** * Containers of Array.hpp and Vector.hpp; [t]: the type of the elements *)

(** StaticVector::pushBack, Array.hpp 770-789; operator+=, 601-613, adds one step of the same kind. *)
Definition array_pushBack (t : ty) (arg : value) : option value :=
  either t arg (fun object => bind (move object) (placement_new t)) (placement_new t).
(** StaticVector::operator+=, Array.hpp 601-613. *)
Definition array_add (t : ty) (arg : value) : option value :=
  either t arg (fun object => bind (move object) (array_pushBack t)) (array_pushBack t).

(** StaticVector::insert(Iterator, object), Array.hpp 810-856; [at_end]: the position is end(). Else the
    element is assigned. *)
Definition array_insert (at_end : bool) (t : ty) (arg : value) : option value :=
  either t arg
    (fun object => bind (move object) (fun o => if at_end then array_pushBack t o else Some o))
    (fun object => if at_end then array_pushBack t object else Some object).

(** StaticVector::emplaceBack, Array.hpp 791-797. *)
Definition array_emplaceBack (arg : value) : option value :=
  bind (hand_on ByDecltype arg) emplace_new.
(** StaticVector::emplace, Array.hpp 906-929. *)
Definition array_emplace (at_end : bool) (arg : value) : option value :=
  bind (hand_on ByDecltype arg) (fun a => if at_end then array_emplaceBack a else emplace_new a).

(** StaticVector(StaticVector &&), Array.hpp 458-472: what becomes of one element of the source. [i] is
    an lvalue, as `auto &&` of the lvalue that the iterator gives. *)
Definition array_move_element (t : ty) : option value :=
  bind (forward t (t, Lvalue)) (array_pushBack t).

(** StaticArray(StaticArray &&) and operator=(StaticArray &&), Array.hpp 1308-1331, 1399-1422:
    `for (MoveReference i : array) *it = move(i)`, where the iterator gives an lvalue. *)
Definition static_array_move_element (t : ty) : option value :=
  if binds (Rref t) (t, Lvalue) then move (t, Lvalue) else None.

(** Vector::pushBack, Vector.hpp 698-723; [retries]: how many times it reserves and calls itself. *)
Fixpoint vector_pushBack (retries : nat) (t : ty) (arg : value) : option value :=
  match retries with
  | O => either t arg (fun object => bind (move object) (placement_new t)) (placement_new t)
  | S n =>
      either t arg (fun object => bind (move object) (vector_pushBack n t)) (vector_pushBack n t)
  end.

(** Vector::emplaceBack, Vector.hpp 725-736. *)
Fixpoint vector_emplaceBack (retries : nat) (arg : value) : option value :=
  match retries with
  | O => bind (hand_on ByDecltype arg) emplace_new
  | S n => bind (hand_on ByDecltype arg) (vector_emplaceBack n)
  end.

(** Vector::emplace, Vector.hpp 849-878. Not at the end it uses placementNew: one argument. *)
Fixpoint vector_emplace (retries : nat) (at_end : bool) (t : ty) (arg : value) : option value :=
  match retries with
  | O =>
      bind (hand_on ByDecltype arg)
        (fun a => if at_end then vector_emplaceBack 0 a else placement_new t a)
  | S n => bind (hand_on ByDecltype arg) (vector_emplace n at_end t)
  end.

(** Vector::insert(Iterator, const T &), Vector.hpp 745-773. insert(Iterator, T &&), 775-807, has the call
    `placementNew<Type>(tail)` (785), and there is no placementNew with one parameter. *)
Definition vector_insert (at_end : bool) (t : ty) (arg : value) : option value :=
  either t arg (fun _ => None)
    (fun object => if at_end then vector_pushBack 0 t object else Some object).

(** Vector(Vector<T, other traits or allocator> &&), Vector.hpp 418-427: `for (Type &&i : vector)`, where the
    iterator gives an lvalue. *)
Definition vector_convert_element (t : ty) : option value :=
  if binds (Rref t) (t, Lvalue) then bind (move (t, Lvalue)) (placement_new t) else None.

(** * HybridVector *)

(** What the container is when the function is called; [n]: retries of the Vector. Of the model: the
    branches of HybridVector.hpp 1666-1755. *)
Inductive hybrid_state :=
| HasRoom                  (* an array with room *)
| IsVector (n : nat)       (* a vector *)
| IsFull (n : nat)         (* a full array: becomes a vector *)
| IsUnset (full : option nat).  (* nothing: becomes an array, which has room or (capacity 0) is full *)

(** The state the recursive call sees, HybridVector.hpp 1742, 1753. *)
Definition hybrid_next (s : hybrid_state) : hybrid_state :=
  match s with
  | IsFull n => IsVector n
  | IsUnset (Some n) => IsFull n
  | IsUnset None => HasRoom
  | _ => s
  end.

(** HybridVector::pushBack, HybridVector.hpp 1666-1724. The calls nest at most three deep. *)
Fixpoint hybrid_pushBack_in (depth : nat) (s : hybrid_state) (t : ty) (arg : value) : option value :=
  match depth with
  | O => None
  | S d =>
      let inner :=
        match s with
        | HasRoom => array_pushBack t
        | IsVector n => vector_pushBack n t
        | _ => hybrid_pushBack_in d (hybrid_next s) t
        end in
      either t arg (fun object => bind (move object) inner) inner
  end.
(** HybridVector.hpp 1666-1724. *)
Definition hybrid_pushBack := hybrid_pushBack_in 3.

(** HybridVector::emplaceBack, HybridVector.hpp 1726-1755: forward(args)... *)
Fixpoint hybrid_emplaceBack_in (depth : nat) (s : hybrid_state) (arg : value) : option value :=
  match depth with
  | O => None
  | S d =>
      bind (hand_on ByDeduction arg)
        match s with
        | HasRoom => array_emplaceBack
        | IsVector n => vector_emplaceBack n
        | _ => hybrid_emplaceBack_in d (hybrid_next s)
        end
  end.
(** HybridVector.hpp 1726-1755. *)
Definition hybrid_emplaceBack := hybrid_emplaceBack_in 3.

(** HybridVector::emplace, HybridVector.hpp 1894-1927: forward(args)..., and args... in 1925. *)
Fixpoint hybrid_emplace_in (depth : nat) (s : hybrid_state) (at_end : bool) (t : ty) (arg : value)
  : option value :=
  match depth with
  | O => None
  | S d =>
      match s with
      | HasRoom => bind (hand_on ByDeduction arg) (array_emplace at_end)
      | IsVector n => bind (hand_on ByDeduction arg) (vector_emplace n at_end t)
      | IsFull _ => bind (hand_on ByDeduction arg) (hybrid_emplace_in d (hybrid_next s) at_end t)
      | IsUnset _ => bind (hand_on ByName arg) (hybrid_emplace_in d (hybrid_next s) at_end t)
      end
  end.
(** HybridVector.hpp 1894-1927. *)
Definition hybrid_emplace := hybrid_emplace_in 3.

(** HybridVector::insert(Iterator, T &&), HybridVector.hpp 1809-1843: one function, so it compiles only if
    all its calls do (1819, 1834). insert(Iterator, const T &), 1773-1807. The state decides which
    call is made. *)
Definition hybrid_insert (in_vector at_end : bool) (t : ty) (arg : value) : option value :=
  either t arg
    (fun object =>
       bind (bind (move object) (array_insert at_end t)) (fun a =>
       bind (bind (move object) (vector_insert at_end t)) (fun v =>
       Some (if in_vector then v else a))))
    (fun object => if in_vector then vector_insert at_end t object else array_insert at_end t object).

(** * CircularArray, List *)

(** CircularArray::pushBack, CircularArray.hpp 355-376. *)
Definition circular_pushBack (t : ty) (arg : value) : option value :=
  either t arg (fun obj => bind (move obj) (placement_new t)) (placement_new t).
(** CircularArray::emplaceBack, CircularArray.hpp 414-418: Type(forward(args)...). *)
Definition circular_emplaceBack (arg : value) : option value := hand_on ByDeduction arg.

(** Node(const T &), Node(T &&), List.hpp 344-352: `object(object)` in both. *)
Definition node_new (t : ty) (arg : value) : option value :=
  either t arg (fun object => Some object) (fun object => Some object).
(** allocator.construct(object) with an allocator of nodes, List.hpp 617, 635, ...: the template,
    ObjectAllocator.hpp 78-89. *)
Definition node_construct (t : ty) (arg : value) : option value :=
  bind (hand_on ByDecltype arg) (fun a => bind (emplace_new a) (node_new t)).

(** List::pushBack, List.hpp 614-648, and pushFront, 668-702: `construct(object)` in both overloads. *)
Definition list_push (t : ty) (arg : value) : option value :=
  either t arg (node_construct t) (node_construct t).
(** List::operator+=, List.hpp 461-473. *)
Definition list_add (t : ty) (arg : value) : option value :=
  either t arg (fun object => bind (move object) (list_push t)) (list_push t).
(** List::insert(Iterator, object), List.hpp 722-780; [inside]: the list is empty or the position is neither
    begin() nor end(). *)
Definition list_insert (inside : bool) (t : ty) (arg : value) : option value :=
  let inner := if inside then node_construct t else list_push t in
  either t arg (fun object => bind (move object) inner) inner.
(** List::emplaceBack, emplaceFront, List.hpp 650-666, 704-720: `Type(forward<decltype(args)>(args)...)`. *)
Definition list_emplaceBack (arg : value) : option value := hand_on ByDecltype arg.
(** List::emplace, List.hpp 844-871. *)
Definition list_emplace (inside : bool) (arg : value) : option value :=
  if inside then hand_on ByDecltype arg else bind (hand_on ByDecltype arg) list_emplaceBack.

(** * Allocators and pointers *)

(** ObjectAllocator::construct, ObjectAllocator.hpp 78-115: the overload for T && passes the named parameter to
    placementNew (100), that for const T & passes it to emplaceNew (114). *)
Definition object_construct (t : ty) (arg : value) : option value :=
  any_or_either t arg
    (fun arg => bind (hand_on ByDecltype arg) emplace_new)
    (fun obj => placement_new t obj)
    (fun obj => emplace_new obj).

(** UniquePointer(Args &&...), (const T &), (T &&), Pointers.hpp 463-468, 478-488. *)
Definition unique_new (t : ty) (arg : value) : option value :=
  any_or_either t arg
    (fun arg => bind (hand_on ByArgs arg) (object_construct t))
    (object_construct t)
    (object_construct t).

(** SharedPointer(Args &&...), Pointers.hpp 358-363, construct of Members, ObjectAllocator.hpp 78-89, and
    Members(Args &&...), Pointers.hpp 157-161. *)
Definition shared_new (arg : value) : option value :=
  bind (hand_on ByArgs arg) (fun a => bind (hand_on ByDecltype a) (fun a =>
  bind (emplace_new a) (hand_on ByDecltype))).

(** * Others *)

(** AlignedObject(Arg &&, Args &&...), AlignObject.hpp 102-111; [default]: AlignObject, 137-142. *)
Definition aligned_new (default : bool) (arg : value) : option value :=
  bind (if default then hand_on ByArgs arg else Some arg) (fun a => bind (hand_on ByArgs a) emplace_new).

(** InitializerList(Args &&...), InitializerList.hpp 95-101, and Helper::init, 59-81: the argument of number
    [i], [last]: the last one. It is assigned to the element. *)
Fixpoint helper_init (i : nat) (arg : value) : option value :=
  match i with
  | O => hand_on ByDecltype arg
  | S i => bind (hand_on ByDecltype arg) (helper_init i)
  end.
(** InitializerList.hpp 95-101. *)
Definition initializer_list_new (i : nat) (arg : value) : option value :=
  bind (hand_on ByDecltype arg) (helper_init i).

(** Optional(const T &), (T &&), Optional.hpp 92-106; operator= and set of an empty Optional, 156-184,
    222-232; Expected::operator= of a result or an error, Expected.hpp 157-195. *)
Definition optional_new (t : ty) (arg : value) : option value :=
  either t arg (fun value => bind (move value) (placement_new t)) (placement_new t).
(** operator= and set of an Optional that has a value, Optional.hpp 156-184, 222-232: it is assigned. *)
Definition optional_assign (t : ty) (arg : value) : option value :=
  either t arg move (fun value => Some value).

(** * The objects *)

Section Objects.
  Context {V : Type}.
  (** What a move leaves in an object. *)
  Variable moved : V -> V.

  (** Does the constructor of an element, given this, move? It has one for T && and one for const T &.
      C++ itself. *)
  Definition taken (arg : value) : bool :=
    match snd arg with Xvalue => negb (is_c (fst arg)) | Lvalue => false end.

  (** A call with one object [x]: the value that the element is made of, and what is left in the
      object of the caller. Of the model: for the functions above. *)
  Definition given (via : value -> option value) (arg : value) (x : V) : option (V * V) :=
    option_map (fun a => (x, if taken a then moved x else x)) (via arg).

  (** With several objects. Of the model. *)
  Fixpoint given_all (via : value -> option value) (args : list (value * V)) : option (list V * list V) :=
    match args with
    | [] => Some ([], [])
    | (a, x) :: args =>
        bind (given via a x) (fun r => bind (given_all via args) (fun rs =>
          Some (fst r :: fst rs, snd r :: snd rs)))
    end.
End Objects.
