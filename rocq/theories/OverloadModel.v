(** Which constructor or assignment operator a copy calls: overload resolution for one argument, for the
    classes that have a constructor for arguments of any type.

    Source: /repo/include/FlameIDE/Templates/{Pointers,Variant,Object,AlignObject,InitializerList,
    Builder}.hpp.

    Simplification: functions that could be called only after a conversion of the argument by a
    constructor or a conversion function are left out. They are worse than one that takes the
    argument as it is, and in every class here there is such a one for every argument
    ([over.ics.rank], [over.match.best]). *)
From Coq Require Import List Bool ZArith.
From Verif Require Import Base CppTypes TraitsModel PointersModel ObjectModel.
Import ListNotations.

(** * The rules *)

(** The forms of parameters: const T & and T && for a given T; and, in a template, Args &&... or
    T &&, and const T &. As in Pointers.hpp 190-197, 244-250, Variant.hpp 169-177. *)
Inductive parameter := ConstRef (t : ty) | RvalueRef (t : ty) | Forwarding | AnyConstRef.

(** What a function is for. Of the model. *)
Inductive role := Copying | Moving | FromAny | FromAnyConst | FromElement | FromElementMoved.

(** A function of one parameter; [deleted]: `= delete`. As in Pointers.hpp 244-250. *)
Record function := Fn { fn_role : role; fn_parameter : parameter; fn_deleted : bool }.

(** Is it a template? C++ itself. *)
Definition is_template (f : function) : bool :=
  match fn_parameter f with Forwarding | AnyConstRef => true | _ => false end.

(** The type of the parameter for an argument, [None]: cannot be called. [temp.deduct.call]. C++ itself. *)
Definition parameter_type (f : function) (arg : value) : option ty :=
  let p := match fn_parameter f with
           | ConstRef t => Some (Lref (mk_const t))
           | RvalueRef t => Some (Rref t)
           | Forwarding => mk_rref (deduced arg)
           | AnyConstRef => mk_lref (mk_const (fst arg))
           end in
  match p with
  | Some p => if binds p arg then Some p else None
  | None => None
  end.

(** What a reference refers to. C++ itself. *)
Definition referred (t : ty) : ty := match t with Lref u | Rref u => u | _ => t end.
(** C++ itself. *)
Definition is_rref (t : ty) : bool := match t with Rref _ => true | _ => false end.
(** Without const and volatile. C++ itself. *)
Definition plain (t : ty) : ty := set_c false (set_v false t).

(** Is the argument bound better to [p] than to [q]? [over.ics.rank] 3.2.3: an rvalue to an rvalue
    reference rather than to an lvalue reference; 3.2.6: to the less qualified of two references.
    C++ itself. *)
Definition binds_better (arg : value) (p q : ty) : bool :=
  match snd arg with
  | Xvalue => is_rref p && negb (is_rref q)
  | Lvalue => false
  end
  || (ty_eqb (plain (referred p)) (plain (referred q))
      && implb (is_c (referred p)) (is_c (referred q)) && implb (is_v (referred p)) (is_v (referred q))
      && negb (eqb (is_c (referred p)) (is_c (referred q)) && eqb (is_v (referred p)) (is_v (referred q)))).

(** Is [f] better than [g]? [over.match.best]: by the binding; else a function that is no template; else
    the more specialised template: const T & than T && ([temp.deduct.partial] 9). C++ itself. *)
Definition better (arg : value) (f g : function) : bool :=
  match parameter_type f arg, parameter_type g arg with
  | Some p, Some q =>
      binds_better arg p q
      || negb (binds_better arg q p)
         && match is_template f, is_template g with
            | false, true => true
            | true, true =>
                match fn_parameter f, fn_parameter g with AnyConstRef, Forwarding => true | _, _ => false end
            | _, _ => false
            end
  | Some _, None => true
  | None, _ => false
  end.

(** All but the member of number [n]. Of the model. *)
Definition others (fs : list function) (n : nat) : list function := firstn n fs ++ skipn (S n) fs.

(** The best function, if there is one. C++ itself. *)
Definition best (fs : list function) (arg : value) : option function :=
  match
    filter (fun n => match nth_error fs n with
                     | Some f => match parameter_type f arg with Some _ => true | None => false end
                                 && forallb (better arg f) (others fs n)
                     | None => false
                     end) (seq 0 (length fs))
  with
  | [n] => nth_error fs n
  | _ => None
  end.

(** The function that is called; [None]: the call does not compile, there is no best function or it is
    deleted. C++ itself. *)
Definition called (fs : list function) (arg : value) : option role :=
  match best fs arg with
  | Some f => if fn_deleted f then None else Some (fn_role f)
  | None => None
  end.

(** * The classes; [me]: the class *)

(** SharedPointer, Pointers.hpp 190-197. *)
Definition shared_constructors (me : ty) : list function :=
  [Fn Copying (ConstRef me) false; Fn Moving (RvalueRef me) false; Fn FromAny Forwarding false].

(** UniquePointer, Pointers.hpp 244-250; [t]: the type of the object. *)
Definition unique_constructors (me t : ty) : list function :=
  [Fn FromAny Forwarding false; Fn Copying (ConstRef me) true; Fn Moving (RvalueRef me) false;
   Fn FromElement (ConstRef t) false; Fn FromElementMoved (RvalueRef t) false].

(** Variant, Variant.hpp 169-177. *)
Definition variant_constructors (me : ty) : list function :=
  [Fn Copying (ConstRef me) false; Fn Moving (RvalueRef me) false; Fn FromAnyConst AnyConstRef false;
   Fn FromAny Forwarding false].
(** Variant::set, Variant.hpp 196-200. *)
Definition variant_set : list function :=
  [Fn FromAny Forwarding false; Fn FromAnyConst AnyConstRef false].

(** Object, Object.hpp 31-38; operator=, 42-49, has the same parameters. *)
Definition object_functions (me : ty) : list function :=
  [Fn Copying (ConstRef me) true; Fn Moving (RvalueRef me) false; Fn FromAny Forwarding false;
   Fn FromAnyConst AnyConstRef false].

(** AlignedObject and AlignObject, AlignObject.hpp 50-55, 77-83, and InitializerList, InitializerList.hpp
    23-26: the copy constructor is declared implicitly, a moving one is not, as there is a destructor
    ([class.copy]). *)
Definition implicit_constructors (me : ty) : list function :=
  [Fn Copying (ConstRef me) false; Fn FromAny Forwarding false].

(** Substep, Builder.hpp 25-34. *)
Definition substep_constructors (me : ty) : list function :=
  [Fn FromAny Forwarding false; Fn Copying (ConstRef me) false; Fn Moving (RvalueRef me) false].

(** ObjectAllocator::construct with one argument, ObjectAllocator.hpp 57-60. *)
Definition construct_functions (t : ty) : list function :=
  [Fn FromAny Forwarding false; Fn FromElementMoved (RvalueRef t) false; Fn FromElement (ConstRef t) false].

(** pushBack, insert, placementNew, ...: T && and const T &. As in Utils.hpp 363-376, Vector.hpp
    698-723. *)
Definition pair_functions (t : ty) : list function :=
  [Fn FromElementMoved (RvalueRef t) false; Fn FromElement (ConstRef t) false].

(** * Copies of pointers *)

Section Pointers.
  Context {A : Type}.
  (** The object that a pointer makes of a bool, if an object can be made of one: the only conversion a
      pointer has is operator bool (Pointers.hpp 210, 263). Types with a constructor for the pointer itself are left
      out. *)
  Variable of_bool : option (bool -> A).

  (** `SharedPointer p(q)`, also as an argument or result by value; [arg]: what q is. By the best of the
      constructors, Pointers.hpp 330-363. FromAny makes an object of the pointer itself. *)
  Definition shared_from (me : ty) (arg : value) (w : sworld A) (p q : nat) : option (outcome (sworld A)) :=
    match called (shared_constructors me) arg with
    | Some Copying => Some (s_copy w p q)
    | Some Moving => Some (s_move w p q)
    | Some FromAny => option_map (fun f => let! b := s_bool w q in s_new w p (f b)) of_bool
    | _ => None
    end.

  (** `UniquePointer p(q)`, Pointers.hpp 463-488. *)
  Definition unique_from (me t : ty) (arg : value) (w : uworld A) (p q : nat) : option (outcome (uworld A)) :=
    match called (unique_constructors me t) arg with
    | Some Moving => Some (u_move w p q)
    | Some FromAny => option_map (fun f => let! b := u_bool w q in u_new w p (f b)) of_bool
    | _ => None
    end.
End Pointers.

(** * Copies of the others *)

(** What the constructor makes: a copy, member by member; what a moving constructor makes; an object of
    the type T, of the argument; nothing: does not compile. Of the model. *)
Inductive made := Copied | Moved | Element | Nothing.

(** `Variant v(w)`, Variant.hpp 450-480: FromAny and FromAnyConst with a Variant call InitStruct<Variant,
    true>, 234-253. *)
Definition variant_from (me : ty) (arg : value) : made :=
  match called (variant_constructors me) arg with
  | Some Copying | Some FromAnyConst => Copied
  | Some Moving | Some FromAny => Moved
  | _ => Nothing
  end.

(** `Object b(a)`, Object.hpp 111-130: FromAny and FromAnyConst check the size of the argument (70-89), here
    of an Object, which has [size] bytes and a pointer (97-98). *)
Definition object_from (size align : Z) (me_type : ctype) (me : ty) (arg : value) : made :=
  match called (object_functions me) arg with
  | Some Moving => Moved
  | Some FromAny | Some FromAnyConst => if b_accepts size align me_type then Element else Nothing
  | _ => Nothing
  end.

(** `AlignedObject b(a)`, AlignObject.hpp 102-111, 137-142; [can]: can a T be made of an AlignedObject? *)
Definition aligned_from (can : bool) (me : ty) (arg : value) : made :=
  match called (implicit_constructors me) arg with
  | Some Copying => Copied
  | Some FromAny => if can then Element else Nothing
  | _ => Nothing
  end.

(** `InitializerList b(a)`, InitializerList.hpp 95-101: the static_assert of 76-81 wants an argument of the
    element type [t]. *)
Definition initializer_list_from (t me : ty) (arg : value) : made :=
  match called (implicit_constructors me) arg with
  | Some Copying => Copied
  | Some FromAny => if ty_eqb t (plain (fst arg)) then Element else Nothing
  | _ => Nothing
  end.

(** `Substep b(a)`, Builder.hpp 105-115: FromAny calls initImpl, with the Substep. *)
Definition substep_from (me : ty) (arg : value) : made :=
  match called (substep_constructors me) arg with
  | Some Copying => Copied
  | Some Moving => Moved
  | Some FromAny => Element
  | _ => Nothing
  end.

(** What a value of the type [t] that is put into an Object is passed on as, Object.hpp 117-131: the
    constructor for T && moves from it whatever it is (122, and 166), that for const T & copies. *)
Definition object_holds (me : ty) (arg : value) : option value :=
  match called (object_functions me) arg with
  | Some FromAny => bind (move (fst arg, Lvalue)) (fun a => bind (move (fst a, Lvalue)) Some)
  | Some FromAnyConst => Some (mk_const (fst arg), Lvalue)
  | _ => None
  end.

(** The assignment of such a value, Object.hpp 154-180. For a named object T is a reference and the call
    `->~T()` of 229 does not compile. *)
Definition object_assigned (me : ty) (arg : value) : option value :=
  match called (object_functions me) arg with
  | Some FromAny =>
      match snd arg with
      | Lvalue => None
      | Xvalue => move (fst arg, Lvalue)
      end
  | Some FromAnyConst => Some (mk_const (fst arg), Lvalue)
  | _ => None
  end.
