(** Model of ReferenceWrapper and of the functions that make one.

    Source: /repo/include/FlameIDE/Common/ReferenceWrapper.hpp.

    Simplifications: an object is a number or a pointer to an object, const or not; classes, arrays and
    volatile objects are left out. *)
From Coq Require Import List Bool ZArith.
From Verif Require Import Base.
Import ListNotations.

(** Types: of a number, or of a pointer to a type; [is_const]: of the object itself. C++ itself. *)
Inductive rtype := NumberType (is_const : bool) | PointerType (pointee : rtype) (is_const : bool).
(** C++ itself. *)
Definition const_of (t : rtype) : bool := match t with NumberType c | PointerType _ c => c end.
(** const t. C++ itself. *)
Definition add_const (t : rtype) : rtype :=
  match t with NumberType _ => NumberType true | PointerType u _ => PointerType u true end.

(** What an object holds: a number, or an address ([None]: null). C++ itself. *)
Inductive content := Number (z : Z) | Location (a : option nat).

(** The objects, by address; [None]: destroyed. C++ itself. *)
Definition memory : Type := list (option content).

(** ReferenceWrapper<T>: the type T and the member value. ReferenceWrapper.hpp 13-50; ConstReferenceWrapper<T>,
    55-56, is one of const T. *)
Record wrapper := RW { rw_type : rtype; rw_value : option nat }.

(** get(), ReferenceWrapper.hpp 93-98: the address of the object that the reference denotes; to use it is UB
    if the object does not exist. *)
Definition rw_get (m : memory) (w : wrapper) : outcome nat :=
  match rw_value w with
  | Some a => match nth_error m a with Some (Some _) => Ok a | _ => UB end
  | None => UB
  end.

(** operator bool, ReferenceWrapper.hpp 100-104. *)
Definition rw_bool (w : wrapper) : bool := match rw_value w with Some _ => true | None => false end.

(** operator->, ReferenceWrapper.hpp 106-111: to use the pointer is UB if there is no object. *)
Definition rw_arrow (m : memory) (w : wrapper) : outcome nat :=
  match rw_value w with
  | Some a => match nth_error m a with Some (Some _) => Ok a | _ => UB end
  | None => UB
  end.

(** A read of the object. Of the application. *)
Definition rw_read (m : memory) (w : wrapper) : outcome content :=
  let! a := rw_get m w in
  match nth_error m a with Some (Some c) => Ok c | _ => UB end.

(** w.get() = c; [None]: does not compile. Of the application. *)
Definition rw_write (m : memory) (w : wrapper) (c : content) : option (outcome memory) :=
  if const_of (rw_type w) then None
  else Some (let! a := rw_get m w in Ok (upd m a (Some c))).

(** ReferenceWrapper(Pointer = nullptr), ReferenceWrapper.hpp 83-86. *)
Definition rw_of_pointer (t : rtype) (value : option nat) : wrapper := RW t value.
(** ReferenceWrapper(Reference), ReferenceWrapper.hpp 88-91. *)
Definition rw_of_reference (t : rtype) (address : nat) : wrapper := RW t (Some address).

(** * The functions that make one *)

(** The argument of a call: an object with a name, its type and its address; or the value of an expression,
    like [&x], which is a pointer to the type. C++ itself. *)
Inductive argument := Named (t : rtype) (address : nat) | PointerValue (pointee : rtype) (value : option nat).

(** The two overloads: for T & and for a pointer. ReferenceWrapper.hpp 58-68. *)
Inductive overload := ForReference | ForPointer.

(** The type of the argument. C++ itself. *)
Definition argument_type (a : argument) : rtype :=
  match a with Named t _ => t | PointerValue u _ => PointerType u false end.

(** Can T be deduced for T &? Only from an object with a name. [temp.deduct.call]. C++ itself. *)
Definition viable_reference (a : argument) : bool := match a with Named _ _ => true | _ => false end.
(** What the argument points to; T * and const T * can be deduced from any pointer. C++ itself. *)
Definition pointee_of (a : argument) : option rtype :=
  match argument_type a with PointerType u _ => Some u | NumberType _ => None end.

(** Overload resolution for makeReferenceWrapper, ReferenceWrapper.hpp 58-62: if both can be called neither
    needs a conversion ([over.ics.rank] 3.2.1), and T * is more specialised than T & ([temp.func.order]).
    [None]: does not compile. C++ itself. *)
Definition choose_plain (a : argument) : option overload :=
  match pointee_of a with
  | Some _ => Some ForPointer
  | None => if viable_reference a then Some ForReference else None
  end.

(** Overload resolution for makeConstReferenceWrapper, ReferenceWrapper.hpp 64-68: for a pointer to an object
    that is not const, const T * needs a qualification conversion and T & none, so T & is better if it can be
    called; else const T * is more specialised. C++ itself. *)
Definition choose_const (a : argument) : option overload :=
  match pointee_of a with
  | Some u =>
      if negb (const_of u) && viable_reference a then Some ForReference else Some ForPointer
  | None => if viable_reference a then Some ForReference else None
  end.

(** The value of a pointer argument. C++ itself. *)
Definition pointer_value (m : memory) (a : argument) : outcome (option nat) :=
  match a with
  | Named _ l => match nth_error m l with Some (Some (Location v)) => Ok v | _ => UB end
  | PointerValue _ v => Ok v
  end.

(** The address of a named argument. C++ itself. *)
Definition address_of (a : argument) : outcome nat :=
  match a with Named _ l => Ok l | PointerValue _ _ => UB end.

(** What the argument points to, as a type. C++ itself. *)
Definition pointee_type (a : argument) : rtype :=
  match pointee_of a with Some u => u | None => argument_type a end.

(** makeReferenceWrapper(T &), (T * ), ReferenceWrapper.hpp 115-125; [None]: does not compile. *)
Definition make_reference_wrapper (m : memory) (a : argument) : option (outcome wrapper) :=
  match choose_plain a with
  | Some ForReference => Some (let! l := address_of a in Ok (rw_of_reference (argument_type a) l))
  | Some ForPointer => Some (let! v := pointer_value m a in Ok (rw_of_pointer (pointee_type a) v))
  | None => None
  end.

(** makeConstReferenceWrapper(T &), (const T * ), ReferenceWrapper.hpp 127-137. *)
Definition make_const_reference_wrapper (m : memory) (a : argument) : option (outcome wrapper) :=
  match choose_const a with
  | Some ForReference => Some (let! l := address_of a in Ok (rw_of_reference (add_const (argument_type a)) l))
  | Some ForPointer => Some (let! v := pointer_value m a in Ok (rw_of_pointer (add_const (pointee_type a)) v))
  | None => None
  end.

(** getReference(T &), ReferenceWrapper.hpp 139-143: get() of a wrapper, returned as T &; [None]: does not
    compile, the argument has no name or get() is a reference to another type. *)
Definition get_reference (m : memory) (a : argument) : option (outcome nat) :=
  if viable_reference a then
    match choose_plain a with
    | Some ForReference =>
        Some (let! l := address_of a in rw_get m (rw_of_reference (argument_type a) l))
    | _ => None
    end
  else None.

(** The parameter of getConstReference, which is const, ReferenceWrapper.hpp 145-146. *)
Definition as_const (a : argument) : argument :=
  match a with Named t l => Named (add_const t) l | PointerValue u v => PointerValue u v end.

(** getConstReference(const T &) for an object with a name, ReferenceWrapper.hpp 145-149; [None]: does not
    compile. *)
Definition get_const_reference (m : memory) (a : argument) : option (outcome nat) :=
  if viable_reference a then
    match choose_const (as_const a) with
    | Some ForReference =>
        Some (let! l := address_of (as_const a) in
              rw_get m (rw_of_reference (add_const (argument_type (as_const a))) l))
    | _ => None
    end
  else None.

(** The same for a temporary that holds [c]: it exists until the end of the expression. The result is the
    memory afterwards and the address that the reference denotes. [class.temporary]. *)
Definition get_const_reference_temporary (m : memory) (t : rtype) (c : content) : option (outcome (memory * nat)) :=
  match get_const_reference (m ++ [Some c]) (Named t (length m)) with
  | Some r => Some (let! a := r in Ok (m ++ [None], a))
  | None => None
  end.
