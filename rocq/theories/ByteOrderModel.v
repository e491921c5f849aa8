(** Model of include/FlameIDE/Templates/ByteOrder.hpp *)
From Coq Require Import ZArith List.
From Verif Require Import BitsModel.
Import ListNotations.
Local Open Scope Z_scope.

(** ByteOrder.hpp:11-17. PDP_ENDIAN_ORDER is not supported by the library
    (static_assert at 120-122) and is left out. *)
Inductive order := LE | BE.

(** Integer types for which [reverseBytes] is overloaded (ByteOrder.hpp:157-237). By number of
    bits: Types in include/FlameIDE/Common/PrimitiveTypes.hpp on LP64. *)
Inductive width := W8 | W16 | W32 | W64.
(** The type of the argument in ByteOrder.hpp:157, 161, 167, 182 (unsigned) and 206, 214, 222, 230
    (signed). *)
Record ity := IT { it_width : width; it_signed : bool }.

(** sizeof(T) * 8 of the argument types of ByteOrder.hpp:157-237. *)
Definition bits (w : width) : Z :=
  match w with W8 => 8 | W16 => 16 | W32 => 32 | W64 => 64 end.
(** sizeof of the argument types of ByteOrder.hpp:157-237. *)
Definition size_of (w : width) : nat :=
  match w with W8 => 1 | W16 => 2 | W32 => 4 | W64 => 8 end%nat.

(** Conversions between integer types (static_cast): two's complement wrap-around.
    ByteOrder.hpp:211, 219, 227, 235 (the static_cast to ValueUType). *)
Definition to_unsigned (w : Z) (v : Z) : Z := v mod 2 ^ w.
(** ByteOrder.hpp:210, 218, 226, 234 (the static_cast to ValueType). *)
Definition to_signed (w : Z) (v : Z) : Z :=
  let u := v mod 2 ^ w in if u <? 2 ^ (w - 1) then u else u - 2 ^ w.

(** Left shift in the unsigned type of [w] bits. The << of ByteOrder.hpp:48-51, 66-73, 171-174,
    186-193. *)
Definition shl (w v n : Z) : Z := trunc w (Z.shiftl v n).

(** ByteOrder.hpp:157-160 *)
Definition reverseBytes8 (value : Z) : Z := value.

(** ByteOrder.hpp:161-166. The operands are promoted to int; the result of the first
    shift is cast back to ushort_t, the function result too. *)
Definition reverseBytes16 (value : Z) : Z :=
  let BYTE := trunc 16 BYTE_FF in
  trunc 16
    (Z.lor (trunc 16 (Z.shiftl (Z.land value BYTE) 8))
           (Z.shiftr (Z.land value (Z.shiftl BYTE 8)) 8)).

(** ByteOrder.hpp:167-181 *)
Definition reverseBytes32 (value : Z) : Z :=
  let BYTE := trunc 32 BYTE_FF in
  let BYTE1 := shl 32 (Z.land value BYTE) 24 in
  let BYTE2 := shl 32 (Z.land value (shl 32 BYTE 8)) 8 in
  let BYTE3 := Z.shiftr (Z.land value (shl 32 BYTE 16)) 8 in
  let BYTE4 := Z.shiftr (Z.land value (shl 32 BYTE 24)) 24 in
  Z.lor (Z.lor (Z.lor BYTE1 BYTE2) BYTE3) BYTE4.

(** ByteOrder.hpp:182-204 *)
Definition reverseBytes64 (value : Z) : Z :=
  let BYTE := trunc 64 BYTE_FF in
  let BYTE1 := shl 64 (Z.land value BYTE) 56 in
  let BYTE2 := shl 64 (Z.land value (shl 64 BYTE 8)) 40 in
  let BYTE3 := shl 64 (Z.land value (shl 64 BYTE 16)) 24 in
  let BYTE4 := shl 64 (Z.land value (shl 64 BYTE 24)) 8 in
  let BYTE5 := Z.shiftr (Z.land value (shl 64 BYTE 32)) 8 in
  let BYTE6 := Z.shiftr (Z.land value (shl 64 BYTE 40)) 24 in
  let BYTE7 := Z.shiftr (Z.land value (shl 64 BYTE 48)) 40 in
  let BYTE8 := Z.shiftr (Z.land value (shl 64 BYTE 56)) 56 in
  Z.lor (Z.lor (Z.lor (Z.lor (Z.lor (Z.lor (Z.lor BYTE1 BYTE2) BYTE3) BYTE4) BYTE5)
    BYTE6) BYTE7) BYTE8.

(** ByteOrder.hpp:157-204: overload resolution among the unsigned overloads. *)
Definition reverseUnsigned (w : width) (value : Z) : Z :=
  match w with
  | W8 => reverseBytes8 value
  | W16 => reverseBytes16 value
  | W32 => reverseBytes32 value
  | W64 => reverseBytes64 value
  end.

(** ByteOrder.hpp:157-237: overload resolution on the argument type; the signed
    overloads (206-237) go through the unsigned type of the same width. *)
Definition reverseBytes (t : ity) (value : Z) : Z :=
  if it_signed t
  then to_signed (bits (it_width t))
         (reverseUnsigned (it_width t) (to_unsigned (bits (it_width t)) value))
  else reverseUnsigned (it_width t) value.

(** ByteOrder.hpp:125-139 (LE->LE), 141-155 (LE->BE), 240-256 (BE->LE), 258-272 (BE->BE). *)
Definition ToNeedOrder (current need : order) (t : ity) (value : Z) : Z :=
  match current, need with
  | LE, LE => value
  | LE, BE => reverseBytes t value
  | BE, LE => reverseBytes t value  (* delegates to ToNeedOrder<LE, BE> *)
  | BE, BE => value
  end.

(** ByteOrder.hpp:281, and 282-285 for the following; as functions of the host order. *)
Definition ToBigEndian (host : order) := ToNeedOrder host BE.
(** ByteOrder.hpp:282. *)
Definition ToLittleEndian (host : order) := ToNeedOrder host LE.
(** ByteOrder.hpp:284. *)
Definition FromBigEndian (host : order) := ToNeedOrder BE host.
(** ByteOrder.hpp:285. *)
Definition FromLittleEndian (host : order) := ToNeedOrder LE host.

(** ByteOrder.hpp:24-79: CompileTimeReverseBytes for the unsigned types. The signed
    specialisations (81-115) cannot be instantiated as written (they call the template
    with arguments that do not match their own parameter type) and are not modelled. *)
Definition CompileTimeReverseBytes16 (VALUE : Z) : Z :=
  let BYTE := trunc 16 BYTE_FF in
  let BYTE1 := trunc 16 (Z.shiftl (Z.land VALUE BYTE) 8) in
  let BYTE2 := trunc 16 (Z.shiftr (Z.land VALUE (Z.shiftl BYTE 8)) 8) in
  trunc 16 (Z.lor BYTE1 BYTE2).

(** ByteOrder.hpp:40-56. *)
Definition CompileTimeReverseBytes32 (VALUE : Z) : Z :=
  let BYTE := trunc 32 BYTE_FF in
  let BYTE1 := shl 32 (Z.land VALUE BYTE) 24 in
  let BYTE2 := shl 32 (Z.land VALUE (shl 32 BYTE 8)) 8 in
  let BYTE3 := Z.shiftr (Z.land VALUE (shl 32 BYTE 16)) 8 in
  let BYTE4 := Z.shiftr (Z.land VALUE (shl 32 BYTE 24)) 24 in
  Z.lor (Z.lor (Z.lor BYTE1 BYTE2) BYTE3) BYTE4.

(** ByteOrder.hpp:58-79. *)
Definition CompileTimeReverseBytes64 (VALUE : Z) : Z :=
  let BYTE := trunc 64 BYTE_FF in
  let BYTE1 := shl 64 (Z.land VALUE BYTE) 56 in
  let BYTE2 := shl 64 (Z.land VALUE (shl 64 BYTE 8)) 40 in
  let BYTE3 := shl 64 (Z.land VALUE (shl 64 BYTE 16)) 24 in
  let BYTE4 := shl 64 (Z.land VALUE (shl 64 BYTE 24)) 8 in
  let BYTE5 := Z.shiftr (Z.land VALUE (shl 64 BYTE 32)) 8 in
  let BYTE6 := Z.shiftr (Z.land VALUE (shl 64 BYTE 40)) 24 in
  let BYTE7 := Z.shiftr (Z.land VALUE (shl 64 BYTE 48)) 40 in
  let BYTE8 := Z.shiftr (Z.land VALUE (shl 64 BYTE 56)) 56 in
  Z.lor (Z.lor (Z.lor (Z.lor (Z.lor (Z.lor (Z.lor BYTE1 BYTE2) BYTE3) BYTE4) BYTE5)
    BYTE6) BYTE7) BYTE8.

(** ByteOrder.hpp:19-79: the specialisation for a type. *)
Definition CompileTimeReverseBytes (w : width) (VALUE : Z) : option Z :=
  match w with
  | W8 => None  (* empty primary template, 19-22 *)
  | W16 => Some (CompileTimeReverseBytes16 VALUE)
  | W32 => Some (CompileTimeReverseBytes32 VALUE)
  | W64 => Some (CompileTimeReverseBytes64 VALUE)
  end.
