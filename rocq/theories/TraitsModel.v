(** Model of the type traits: /repo/include/FlameIDE/Common/Traits/Defaults.hpp, Functional.hpp,
    Numbers.hpp, and of move, forward and the is... functions of
    /repo/include/FlameIDE/Common/Utils.hpp.

    A trait is a function of types. [None]: the use does not compile. *)
From Coq Require Import List Bool Arith ZArith.
From Verif Require Import CppTypes.
Import ListNotations.
Local Open Scope nat_scope.

(** Of the model: [None] is a program that does not compile. *)
Definition bind {A B} (x : option A) (f : A -> option B) : option B :=
  match x with Some a => f a | None => None end.

(** * Defaults.hpp *)

(** RemovePointerTrait, Defaults.hpp 95-105. *)
Definition remove_pointer (t : ty) : option ty := specialise t [as_ptr t].
(** RemoveReferenceTrait, Defaults.hpp 114-130. *)
Definition remove_reference (t : ty) : option ty := specialise t [as_lref t; as_rref t].
(** RemoveConstTrait, Defaults.hpp 138-148. *)
Definition remove_const (t : ty) : option ty := specialise t [as_const t].
(** RemoveVolatileTrait, Defaults.hpp 157-167. *)
Definition remove_volatile (t : ty) : option ty := specialise t [as_volatile t].

(** RemoveAllTrait, Defaults.hpp 176-223: primary template, volatile T, T *, T const, T &, T &&. [fuel]: the
    instantiations nested so far. *)
Fixpoint remove_all_in (fuel : nat) (t : ty) : option ty :=
  match fuel with
  | O => None
  | S fuel =>
      let rest (trait : ty -> option ty) (u : ty) := bind (trait u) (remove_all_in fuel) in
      bind (specialise (Some t)
              [ option_map (rest remove_volatile) (as_volatile t);
                option_map (rest remove_pointer) (as_ptr t);
                option_map (rest remove_const) (as_const t);
                option_map (rest remove_reference) (as_lref t);
                option_map (rest remove_reference) (as_rref t) ])
           (fun r => r)
  end.

(** More instantiations than a type can need. Of the model: for Defaults.hpp 176-223. *)
Fixpoint depth (t : ty) : nat :=
  match t with
  | Named _ _ _ | Void _ _ | Fun _ _ | Mem _ _ _ _ _ _ _ => 3
  | Ptr _ _ t | Lref t | Rref t | Arr t _ => 3 + depth t
  end.
(** RemoveAllTrait, Defaults.hpp 176-223. *)
Definition remove_all (t : ty) : option ty := remove_all_in (depth t) t.

(** The members of DefaultTraits, Defaults.hpp 47-88; a member that a specialisation lacks is [None]. *)
Record default_traits := DefaultTraits {
  dt_type : option ty;
  dt_reference : option ty;
  dt_move_reference : option ty;
  dt_const_reference : option ty;
  dt_pointer : option ty;
  dt_pointer_to_const : option ty;
  dt_const_pointer : option ty }.

(** All member types of a class template specialisation have to be well-formed (implicit
    instantiation declares all of them). As in Defaults.hpp 47-88. *)
Definition declared (d : default_traits) : option default_traits :=
  match d with
  | DefaultTraits (Some _) (Some _) (Some _) (Some _) (Some _) (Some _) (Some _) => Some d
  | _ => None
  end.

(** DefaultTraits<void>, Defaults.hpp 81-88, is preferred to the primary template, 47-62; DefaultTraits<const T>,
    64-77, to the primary template too. *)
Definition default_traits_of (t : ty) : option default_traits :=
  match t with
  | Void false false =>
      Some (DefaultTraits None None None None
              (mk_ptr (Void false false)) (mk_ptr (Void true false))
              (option_map mk_const (mk_ptr (Void false false))))
  | _ =>
      match as_const t with
      | Some u =>
          let type := mk_const u in
          declared (DefaultTraits (Some type) (mk_lref (mk_const type)) (mk_rref (mk_const type))
                      (mk_lref (mk_const type)) (mk_ptr (mk_const type)) (mk_ptr (mk_const type))
                      (option_map mk_const (mk_ptr (mk_const type))))
      | None =>
          declared (DefaultTraits (Some t) (mk_lref t) (mk_rref t) (mk_lref (mk_const t))
                      (mk_ptr t) (mk_ptr (mk_const t)) (option_map mk_const (mk_ptr t)))
      end
  end.

(** AddReferenceTrait, Defaults.hpp 237-243. *)
Definition add_reference (t : ty) : option ty := bind (default_traits_of t) dt_reference.
(** AddMoveReferenceTrait, Defaults.hpp 248-254. *)
Definition add_move_reference (t : ty) : option ty := bind (default_traits_of t) dt_move_reference.
(** AddConstTrait, Defaults.hpp 259-265. *)
Definition add_const (t : ty) : option ty :=
  bind (default_traits_of t) (fun d => option_map mk_const (dt_type d)).
(** AddPointerTrait, Defaults.hpp 270-276. *)
Definition add_pointer (t : ty) : option ty := bind (default_traits_of t) dt_pointer.
(** AddVolatileTrait, Defaults.hpp 281-287. *)
Definition add_volatile (t : ty) : option ty :=
  bind (default_traits_of t) (fun d => option_map mk_volatile (dt_pointer d)).

(** * Functional.hpp *)

(** GetTypeByIndex, Functional.hpp 16-42. [None] for an index greater than 1 left without types: the
    static_assert; for 1: there is no member Type. *)
Fixpoint type_by_index (i : nat) (l : list ty) : option ty :=
  match i, l with
  | 0, t :: _ => Some t
  | S i, _ :: l => type_by_index i l
  | 0, [] => Some (Void false false)
  | S _, [] => None
  end.

(** ComparingTypes, Functional.hpp 50-61. *)
Definition same_types (t u : ty) : bool := if ty_eqb t u then true else false.

(** ComparingTypeWithPack, Functional.hpp 71-82; it needs at least one type to compare with. *)
Fixpoint compare_with_pack (t : ty) (l : list ty) : option bool :=
  match l with
  | [] => None
  | [u] => Some (same_types t u)
  | u :: l => option_map (orb (same_types t u)) (compare_with_pack t l)
  end.

(** IsPointer, Functional.hpp 89-98; IsReference, 105-115; IsConst, 122-131; IsVolatile, 137-143; IsLvalue,
    149-155; IsRvalue, 161-170. *)
Definition is_some {A} (x : option A) : bool := match x with Some _ => true | None => false end.
(** IsPointer, Functional.hpp 89-98. *)
Definition is_pointer (t : ty) : bool := is_some (as_ptr t).
(** IsReference, Functional.hpp 105-115. *)
Definition is_reference (t : ty) : bool := is_some (as_lref t) || is_some (as_rref t).
(** IsConst, Functional.hpp 122-131. *)
Definition is_const (t : ty) : bool := is_some (as_const t).
(** IsVolatile, Functional.hpp 137-143. *)
Definition is_volatile (t : ty) : bool := is_some (as_volatile t).
(** IsLvalue, Functional.hpp 149-155. *)
Definition is_lvalue (t : ty) : bool := is_some (as_lref t).
(** IsRvalue, Functional.hpp 161-170. *)
Definition is_rvalue (t : ty) : bool := is_some (as_rref t).

(** GetIndexOfType, Functional.hpp 239-262. *)
Fixpoint index_of_type (t : ty) (l : list ty) : Z :=
  match l with
  | [] => (-1)%Z
  | u :: l =>
      if same_types t u then 0%Z
      else if (index_of_type t l <? 0)%Z then index_of_type t l
      else (1 + index_of_type t l)%Z
  end.

(** FunctionReturnValueType, Functional.hpp 267-314: pointers to functions and to member functions. *)
Definition function_return (t : ty) : option ty :=
  match t with
  | Ptr false false (Fun r _) => Some r
  | Mem false false _ r _ false false => Some r
  | Mem false false _ r _ true false => Some r
  | Mem false false _ r _ false true => Some r
  | Mem false false _ r _ true true => Some r
  | _ => None
  end.

(** * Numbers.hpp *)

(** What the types of <stdint.h> are aliases of. [LP64]: Linux on 64-bit machines; [LLP64]:
    Windows, and Linux on 32-bit machines. *)
Inductive platform := LP64 | LLP64.

(** PrimitiveTypes.hpp 11-28 and Types, Numbers.hpp 14-37. *)
Definition char_t : builtin := Char.
(** int8_t, PrimitiveTypes.hpp 16. *)
Definition ichar_t : builtin := SChar.
(** int16_t, PrimitiveTypes.hpp 18. *)
Definition short_t : builtin := Short.
(** int32_t, PrimitiveTypes.hpp 20. *)
Definition int_t : builtin := Int.
(** int64_t, PrimitiveTypes.hpp 22. *)
Definition long_t (p : platform) : builtin := match p with LP64 => Long | LLP64 => LLong end.
(** uint8_t, PrimitiveTypes.hpp 15. *)
Definition uichar_t : builtin := UChar.
(** uint16_t, PrimitiveTypes.hpp 17. *)
Definition ushort_t : builtin := UShort.
(** uint32_t, PrimitiveTypes.hpp 19. *)
Definition uint_t : builtin := UInt.
(** uint64_t, PrimitiveTypes.hpp 21. *)
Definition ulong_t (p : platform) : builtin := match p with LP64 => ULong | LLP64 => ULLong end.

(** A full specialisation matches exactly the unqualified type. [temp.expl.spec]; as in
    Numbers.hpp 48-93. *)
Definition is_builtin (t : ty) (b : builtin) : bool := ty_eqb t (Named false false (Builtin b)).
(** Several full specialisations, as in Numbers.hpp 48-93. *)
Definition one_of (t : ty) (l : list builtin) : bool := existsb (is_builtin t) l.

(** IsPrimitiveTrait, Numbers.hpp 44-94. *)
Definition is_primitive (p : platform) (t : ty) : bool :=
  one_of t [ char_t; ichar_t; short_t; int_t; long_t p; uichar_t; ushort_t; uint_t; ulong_t p;
             Float; Double; LDouble ].
(** IsFloatTrait, Numbers.hpp 103-117. *)
Definition is_float (t : ty) : bool := one_of t [Float; Double; LDouble].
(** IsIntegralTrait, Numbers.hpp 219-223. *)
Definition is_integral (p : platform) (t : ty) : bool := is_primitive p t && negb (is_float t).

(** The two static_asserts of the primary templates IsSignedTrait Numbers.hpp 126-132, IsUnsignedTrait
    173-179, MakeSignedTrait 232-238, MakeUnsignedTrait 274-280. *)
Definition asserted (p : platform) (t : ty) : bool :=
  match remove_all t with
  | Some u => is_primitive p u && negb (is_float u)
  | None => false
  end.

(** IsSignedTrait, Numbers.hpp 125-164. *)
Definition is_signed (p : platform) (t : ty) : option bool :=
  if one_of t [uichar_t; ushort_t; uint_t; ulong_t p] then Some false
  else if one_of t [ichar_t; short_t; int_t; long_t p] then Some true
  else if asserted p t then Some false else None.
(** IsUnsignedTrait, Numbers.hpp 172-211. *)
Definition is_unsigned (p : platform) (t : ty) : option bool :=
  if one_of t [uichar_t; ushort_t; uint_t; ulong_t p] then Some true
  else if one_of t [ichar_t; short_t; int_t; long_t p] then Some false
  else if asserted p t then Some false else None.

(** Of the model: a built-in type without qualifiers. *)
Definition arith (b : builtin) : ty := Named false false (Builtin b).

(** MakeSignedTrait, Numbers.hpp 231-265. *)
Definition make_signed (p : platform) (t : ty) : option ty :=
  if is_builtin t uichar_t then Some (arith ichar_t)
  else if is_builtin t ushort_t then Some (arith short_t)
  else if is_builtin t uint_t then Some (arith int_t)
  else if is_builtin t (ulong_t p) then Some (arith (long_t p))
  else if asserted p t then Some t else None.
(** MakeUnsignedTrait, Numbers.hpp 273-307. *)
Definition make_unsigned (p : platform) (t : ty) : option ty :=
  if is_builtin t ichar_t then Some (arith uichar_t)
  else if is_builtin t short_t then Some (arith ushort_t)
  else if is_builtin t int_t then Some (arith uint_t)
  else if is_builtin t (long_t p) then Some (arith (ulong_t p))
  else if asserted p t then Some t else None.

(** NumberLimitTrait, Numbers.hpp 315-383: MIN_VALUE and MAX_VALUE; [None]: they are not members. *)
Definition limits_of (p : platform) (t : ty) : option (Z * Z) :=
  if is_builtin t ichar_t then Some (-128, 127)%Z
  else if is_builtin t short_t then Some (-32768, 32767)%Z
  else if is_builtin t int_t then Some (-2147483648, 2147483647)%Z
  else if is_builtin t (long_t p) then Some (-9223372036854775808, 9223372036854775807)%Z
  else if is_builtin t uichar_t then Some (0, 255)%Z
  else if is_builtin t ushort_t then Some (0, 65535)%Z
  else if is_builtin t uint_t then Some (0, 4294967295)%Z
  else if is_builtin t (ulong_t p) then Some (0, 18446744073709551615)%Z
  else None.
(** NumberLimitTrait of a volatile type, Numbers.hpp 315-383: that of the type. *)
Definition number_limits (p : platform) (t : ty) : option (Z * Z) :=
  match as_volatile t with
  | Some u => limits_of p u
  | None => limits_of p t
  end.

(** * Utils.hpp *)

(** isPrimitiveType, isFloatType, isIntegralType, isSigned, isUnsigned, Utils.hpp 290-323. *)
Definition is_primitive_type (p : platform) (t : ty) : option bool :=
  option_map (is_primitive p) (remove_all t).
(** isFloatType, Utils.hpp 297-302. *)
Definition is_float_type (t : ty) : option bool := option_map is_float (remove_all t).
(** isIntegralType, Utils.hpp 304-309. *)
Definition is_integral_type (p : platform) (t : ty) : option bool :=
  option_map (is_integral p) (remove_all t).
(** isSigned, Utils.hpp 311-316. *)
Definition is_signed_type (p : platform) (t : ty) : option bool :=
  bind (remove_all t) (is_signed p).
(** isUnsigned, Utils.hpp 318-323. *)
Definition is_unsigned_type (p : platform) (t : ty) : option bool :=
  bind (remove_all t) (is_unsigned p).

(** An argument: its type (not a reference) and whether it is an lvalue. [basic.lval]; for
    Utils.hpp 337-354. *)
Inductive category := Lvalue | Xvalue.
(** Of the model: an argument of Utils.hpp 337-354. *)
Definition value := (ty * category)%type.

(** What an expression whose type is written [t] is: a call of a function that returns [t],
    static_cast<t>(...). Functions are lvalues. For types that are not references (prvalues)
    [None]: not needed. [basic.lval], [expr.static.cast]. *)
Definition as_value (t : ty) : option value :=
  match t with
  | Lref u => Some (u, Lvalue)
  | Rref u => Some (u, if is_fun u then Lvalue else Xvalue)
  | _ => None
  end.

(** T deduced for a parameter T && ([temp.deduct.call]). As in Utils.hpp 337-341. *)
Definition deduced (arg : value) : ty :=
  match arg with
  | (u, Lvalue) => Lref u
  | (u, Xvalue) => u
  end.

(** move, Utils.hpp 337-341: the return type is written with the deduced T. *)
Definition move (arg : value) : option value :=
  bind (remove_reference (deduced arg)) (fun u => bind (mk_rref u) as_value).

(** Can a parameter of the reference type [param] be bound to the argument? The qualifiers of the
    argument may not be dropped; no conversions to other types. [dcl.init.ref]; as in Utils.hpp
    343-354. *)
Definition binds (param : ty) (arg : value) : bool :=
  let compatible u t :=
    ty_eqb (set_c false (set_v false u)) (set_c false (set_v false t)) &&
    implb (is_c t) (is_c u) && implb (is_v t) (is_v u) in
  match param, arg with
  | Lref u, (t, Lvalue) => compatible u t
  | Lref u, (t, Xvalue) => compatible u t && (is_c u && negb (is_v u))
  | Rref u, (t, Xvalue) => compatible u t
  | Rref u, (t, Lvalue) => compatible u t && is_fun u
  | _, _ => false
  end.

(** forward<t>(arg), Utils.hpp 343-354, [t] given explicitly. The overloads are forward(T && reference) and
    forward(T & reference). If both can be called and their parameters are of the same type, or
    the argument is an lvalue, forward(T &) is chosen (it is more specialised, or its parameter
    binds an lvalue, [over.ics.rank]); if both can be called and the argument is an xvalue, a
    parameter that is an rvalue reference is preferred. The first overload has a static_assert
    that T is an lvalue reference. *)
Definition forward (t : ty) (arg : value) : option value :=
  bind (mk_rref t) (fun by_rvalue =>
  bind (mk_lref t) (fun by_lvalue =>
  let first := if is_lvalue t then as_value by_rvalue else None in
  let second := as_value by_rvalue in
  match binds by_rvalue arg, binds by_lvalue arg with
  | false, false => None
  | true, false => first
  | false, true => second
  | true, true =>
      match snd arg with
      | Lvalue => second
      | Xvalue => if ty_eqb by_rvalue by_lvalue then second else first
      end
  end)).

(** isEqual of two ranges, Utils.hpp 378-388: is it accepted for iterators whose operator* gives [t] and
    [u]? The static_assert. *)
Definition is_equal_accepted (t u : ty) : option bool :=
  bind (remove_all t) (fun t' => bind (remove_all u) (fun u' =>
    if negb (same_types t' u') then Some true else None)).
