(** Model of the values of the UBJSON library: BaseValue
    (/repo/include/FlameIDE/Ubjson/BaseValue.hpp 40-160), with the value as a member (40-90,
    IS_ALLOCATED = false) or behind a SharedPointer (92-160, IS_ALLOCATED = true), and the table
    of the types of the format (Traits.hpp 27-178, Types.hpp 10-53).

    The classes Array, Object, Pair, String, HugeNumber, StreamIn and StreamOut are empty or
    declared only, Value (Value.hpp 36-67) has a constructor that is not defined, and
    getType() and getTypeClose() (BaseValue.hpp 22-30) do not compile when they are called: they
    convert between two unrelated enumerations. They are not modelled. *)
From Coq Require Import List Arith Bool ZArith Ascii.
From Verif Require Import Base PointersModel.
Import ListNotations.

(** What a program does with variables of type BaseValue: the constructors BaseValue.hpp 48-56 (100-112),
    the destructor 58 (114), the assignments 60-71 (116-141), a write through getValue() 78-81 (148-151). *)
Inductive ub_op (A : Type) :=
| UbDefault (p : nat)
| UbNew (p : nat) (x : A)
| UbCopy (p q : nat)
| UbMove (p q : nat)
| UbAssign (p q : nat)
| UbMoveAssign (p q : nat)
| UbAssignValue (p : nat) (x : A)
| UbPut (p : nat) (x : A)
| UbDestroy (p : nat).
Arguments UbDefault {A}. Arguments UbNew {A}. Arguments UbCopy {A}. Arguments UbMove {A}.
Arguments UbAssign {A}. Arguments UbMoveAssign {A}. Arguments UbAssignValue {A}.
Arguments UbPut {A}. Arguments UbDestroy {A}.

Section Direct.
  Context {A : Type}.

  (** Of the model: for every variable, nothing, or a BaseValue whose member [value]
      (BaseValue.hpp 89) is indeterminate ([None]) or a value. *)
  Definition dworld := list (option (option A)).

  (** Of the model: a constructor runs on a variable without an object. *)
  Definition d_fresh (w : dworld) (p : nat) : outcome unit :=
    match nth_error w p with Some None => Ok tt | _ => UB end.

  (** Of the model: the member of a living object. *)
  Definition d_field (w : dworld) (p : nat) : outcome (option A) :=
    match nth_error w p with Some (Some c) => Ok c | _ => UB end.

  (** getValue() and a read of the result, BaseValue.hpp 78-86. *)
  Definition d_get (w : dworld) (p : nat) : outcome A :=
    let! c := d_field w p in match c with Some x => Ok x | None => UB end.

  (** One call. A move is a copy (ValueType is a number; BaseValue.hpp 50, 61). Reading an
      indeterminate number is UB. The assignments from a value, 63-71, flow off their end. *)
  Definition d_step (w : dworld) (o : ub_op A) : outcome dworld :=
    match o with
    | UbDefault p => let! _ := d_fresh w p in Ok (upd w p (Some None))
    | UbNew p x => let! _ := d_fresh w p in Ok (upd w p (Some (Some x)))
    | UbCopy p q | UbMove p q =>
        let! _ := d_fresh w p in let! x := d_get w q in Ok (upd w p (Some (Some x)))
    | UbAssign p q | UbMoveAssign p q =>
        let! _ := d_field w p in let! x := d_get w q in Ok (upd w p (Some (Some x)))
    | UbAssignValue p x => UB
    | UbPut p x => let! _ := d_field w p in Ok (upd w p (Some (Some x)))
    | UbDestroy p => let! _ := d_field w p in Ok (upd w p None)
    end.

  (** Calls in a row. *)
  Fixpoint d_run (w : dworld) (os : list (ub_op A)) : outcome dworld :=
    match os with
    | [] => Ok w
    | o :: os => let! w := d_step w o in d_run w os
    end.

  (** Of the model: no variable is constructed. *)
  Definition d_start (n : nat) : dworld := repeat None n.
End Direct.

(** operator bool(), BaseValue.hpp 73-76, where a BaseValue of another number type is given to the
    constructor BaseValue(ValueType &&), 55-56: the conversion goes through bool, and true becomes
    1 in the number type. [number] is the value of the source. *)
Definition ub_convert (number : Z) : Z := 1.

Section Allocated.
  Context {A : Type}.

  (** getValue() and a read of the result, BaseValue.hpp 148-156. *)
  Definition a_get (w : sworld A) (p : nat) : outcome A := s_deref w p.

  (** A write through getValue(), BaseValue.hpp 148-151. *)
  Definition a_put (w : sworld A) (p : nat) (x : A) : outcome (sworld A) :=
    let! m := s_field w p in
    let! r := s_get w m in
    let '(i, c, _) := r in
    Ok (SW (upd (s_objs w) i (Some (c, x))) (s_vars w)).

  (** One call; the member [value] (BaseValue.hpp 159) is the SharedPointer of the variable. The
      constructors from a value, 104-112, move a temporary SharedPointer into the member; the constructor
      without arguments, 100, leaves the pointer indeterminate (BaseValue v;). The
      assignments from a value, 119-141, ask the pointer whether it is null, do their work and
      flow off their end. *)
  Definition a_step (w : sworld A) (o : ub_op A) : outcome (sworld A) :=
    match o with
    | UbDefault p => s_default w p
    | UbNew p x => s_new w p x
    | UbCopy p q => s_copy w p q
    | UbMove p q => s_move w p q
    | UbAssign p q => s_assign w p q
    | UbMoveAssign p q => s_move_assign w p q
    | UbAssignValue p x => UB
    | UbPut p x => a_put w p x
    | UbDestroy p => s_destroy w p
    end.

  (** Calls in a row. *)
  Fixpoint a_run (w : sworld A) (os : list (ub_op A)) : outcome (sworld A) :=
    match os with
    | [] => Ok w
    | o :: os => let! w := a_step w o in a_run w os
    end.
End Allocated.

(** EnumeratedValueType, Types.hpp 33-53. *)
Inductive ubtype :=
| UNull | UNoop | UTrue | UFalse | UInt8 | UUint8 | UInt16 | UInt32 | UInt64 | UFloat32
| UFloat64 | UHuge | UChar | UString | UArray | UObject | UError | UCount.

(** ValueType::ERROR, Types.hpp 30. *)
Definition error_marker : ascii := "255"%char.

(** ValueTraits::VALUE_TYPE, Traits.hpp 27-178 (the letters: Types.hpp 12-29). *)
Definition value_type (t : ubtype) : ascii :=
  match t with
  | UNull => "Z" | UNoop => "N" | UTrue => "T" | UFalse => "F"
  | UInt8 => "i" | UUint8 => "U" | UInt16 => "I" | UInt32 => "l" | UInt64 => "L"
  | UFloat32 => "d" | UFloat64 => "D" | UHuge => "H" | UChar => "C" | UString => "S"
  | UArray => "[" | UObject => "{"
  | UError | UCount => error_marker
  end%char.

(** ValueTraits::VALUE_TYPE_CLOSE, Traits.hpp 27-178. *)
Definition value_type_close (t : ubtype) : ascii :=
  match t with
  | UArray => "]" | UObject => "}"
  | _ => error_marker
  end%char.

(** ValueTraits::DATA_PAYLOAD, Traits.hpp 27-178; isDataPayload(), BaseValue.hpp 32-35. *)
Definition data_payload (t : ubtype) : bool :=
  match t with
  | UNull | UNoop | UError | UCount => false
  | _ => true
  end.
