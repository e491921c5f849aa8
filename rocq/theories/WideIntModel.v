(** Model of include/FlameIDE/Templates/WideInt.hpp: WideInt<BITS, SIGNED>, for the operand
    types that are integral. Construction and assignment from float types (371-406) cannot be
    instantiated (the functions are spelt "opeator..."); the constructors from another WideInt
    and from a string (61-64) are declared only.

    The object is its byte array (Data, 52 and 158), most significant byte first. SIGNED is
    not used by any of the functions, so the model has no such argument. *)
From Coq Require Import ZArith List.
From Verif Require Import Base ByteOrderModel SerializationModel.
Import ListNotations.
Local Open Scope outcome_scope.

(** WideInt.hpp 45-47 *)
Definition COUNT_BYTES (BITS : nat) : nat :=
  if Nat.eqb (BITS mod 8) 0 then BITS / 8 else BITS / 8 + 1.

(** WideInt.hpp 226-229 and 347-350: SPECIALIZED_VALUE_INIT_SIZE; [n] is COUNT_BYTES, [sz] is
    sizeof(PrimitiveType). *)
Definition VALUE_INIT_SIZE (n sz : nat) : nat := if sz <=? n then sz else n.

(** WideInt.hpp 231-233 and 352-354: SPECIALIZED_VALUE_OFFSET *)
Definition VALUE_OFFSET (n sz : nat) : nat := if sz <=? n then 0 else sz - n.

(** WideInt.hpp 235-237 and 356-358: SERIALIZER_OFFSET *)
Definition SERIALIZER_OFFSET (n sz : nat) : nat :=
  if Nat.eqb (VALUE_OFFSET n sz) 0 then n - sz else 0.

(** WideInt.hpp 221-245 operatorInit: the value in the byte order of the host is handed to a big endian
    serializer over the array. *)
Definition operatorInit (host : order) (t : ity) (array : list Z) (value : Z)
  : outcome (list Z) :=
  let n := length array in
  let sz := size_of (it_width t) in
  let specValue := SV (mem_of host t value) (VALUE_INIT_SIZE n sz) (VALUE_OFFSET n sz) in
  let! (s, _) := serialize_sv BE host specValue (Ser array (SERIALIZER_OFFSET n sz)) in
  Ok (s_data s).

(** WideInt.hpp 426-438 WideInt(PrimitiveType). byteArray is default constructed: Array() (Array.hpp:
    1279-1281) leaves the bytes uninitialised, so they are an argument. *)
Definition wi_construct (host : order) (t : ity) (uninitialised : list Z) (value : Z)
  : outcome (list Z) :=
  operatorInit host t uninitialised value.

(** WideInt.hpp 868-872 reset and Array.hpp 1464-1472: every byte becomes uichar_t(). *)
Definition wi_reset (array : list Z) : list Z := map (fun _ => 0%Z) array.

(** WideInt.hpp 440-454 operator=(PrimitiveType) *)
Definition wi_assign (host : order) (t : ity) (array : list Z) (value : Z)
  : outcome (list Z) :=
  operatorInit host t (wi_reset array) value.

(** WideInt.hpp 341-367 and 408-417 operatorConvert; the conversion operators are 813-862. *)
Definition wi_convert (host : order) (t : ity) (array : list Z) : outcome Z :=
  let n := length array in
  let sz := size_of (it_width t) in
  let specValue := SV (mem_of host t 0) (VALUE_INIT_SIZE n sz) (VALUE_OFFSET n sz) in
  let! (_, sv, _) := deserialize_sv BE host specValue (Ser array (SERIALIZER_OFFSET n sz)) in
  Ok (val_of host t (sv_mem sv)).

(** WideInt.hpp 330-337: every byte is replaced by Type(~i). *)
Definition operatorBitwiseNegation (array : list Z) : list Z :=
  map (fun i => (Z.lnot i mod 256)%Z) array.

(** WideInt.hpp 800-808 operator~ returns a reference to the object itself: the result is what the
    operand has become. First component: the operand after the call. *)
Definition wi_not (array : list Z) : list Z * list Z :=
  let array' := operatorBitwiseNegation array in (array', array').

(** The binary operators. WideInt.hpp 254-326. *)
Inductive wop := WShl | WShr | WAnd | WOr | WAdd | WSub | WMul | WDiv.

(** WideInt.hpp 456-606: the compound assignments with a primitive operand, and with another WideInt;
    254-326: the functions the first ones call. No statement changes the array. [arg] is the
    right operand. *)
Definition wi_compound (op : wop) (array : list Z) (arg : Z) : list Z := array.

(** WideInt.hpp 612-762: the binary operators return the left operand. First component: the left operand
    after the call, second component: the result. *)
Definition wi_binary (op : wop) (array : list Z) (arg : Z) : list Z * list Z := (array, array).

(** WideInt.hpp 771-795 *)
Definition wi_increment (array : list Z) : list Z := array.
(** operator--, WideInt.hpp 784-790. *)
Definition wi_decrement (array : list Z) : list Z := array.
