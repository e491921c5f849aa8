(** Model of include/FlameIDE/Templates/Bits.hpp *)
From Coq Require Import ZArith List.
Import ListNotations.
Local Open Scope Z_scope.

(** Unsigned integer types by their number of bits (Types::uichar_t, ushort_t, uint_t, ulong_t on
    an LP64 platform). Bits.hpp:15, 23-148. *)
Definition trunc (w v : Z) : Z := v mod 2 ^ w.

(** Bits.hpp:12-16 [UpperedBit<IntegralType, BIT>::VALUE = IntegralType(1) << BIT]
    (the macro BIT, lines 18-19). *)
Definition BIT (w n : Z) : Z := trunc w (Z.shiftl 1 n).

(** Bits.hpp:23-30: the constants BIT8_n, by n. *)
Definition BIT8 : list Z :=
  [BIT 8 0; BIT 8 1; BIT 8 2; BIT 8 3; BIT 8 4; BIT 8 5; BIT 8 6; BIT 8 7].

(** Of the model: the constant called BIT8_n in the expressions of Bits.hpp:32-33. *)
Definition nthZ (l : list Z) (n : nat) : Z := nth n l 0.

(** Bits.hpp:32 *)
Definition BYTE_0F : Z :=
  Z.lor (Z.lor (Z.lor (nthZ BIT8 0) (nthZ BIT8 1)) (nthZ BIT8 2)) (nthZ BIT8 3).

(** Bits.hpp:33 *)
Definition BYTE_FF : Z :=
  Z.lor (Z.lor (Z.lor (Z.lor BYTE_0F (nthZ BIT8 4)) (nthZ BIT8 5)) (nthZ BIT8 6))
        (nthZ BIT8 7).

(** Bits.hpp:35-50: BIT16_0..7 are conversions of BIT8_n, the others BIT(ushort_t, n). *)
Definition BIT16 : list Z :=
  map (trunc 16) BIT8
  ++ [BIT 16 8; BIT 16 9; BIT 16 10; BIT 16 11; BIT 16 12; BIT 16 13; BIT 16 14; BIT 16 15].

(** Bits.hpp:52-83 *)
Definition BIT32 : list Z :=
  map (trunc 32) BIT16
  ++ [BIT 32 16; BIT 32 17; BIT 32 18; BIT 32 19; BIT 32 20; BIT 32 21; BIT 32 22; BIT 32 23;
      BIT 32 24; BIT 32 25; BIT 32 26; BIT 32 27; BIT 32 28; BIT 32 29; BIT 32 30; BIT 32 31].

(** Bits.hpp:85-148. The list is in the order of the {e names}: entry n is the value of
    the constant called BIT64_n. Lines 146-148 define, in this order,
    BIT64_63 = BIT(ulong_t, 61), BIT64_62 = BIT(ulong_t, 62), BIT64_61 = BIT(ulong_t, 63). *)
Definition BIT64 : list Z :=
  map (trunc 64) BIT32
  ++ [BIT 64 32; BIT 64 33; BIT 64 34; BIT 64 35; BIT 64 36; BIT 64 37; BIT 64 38; BIT 64 39;
      BIT 64 40; BIT 64 41; BIT 64 42; BIT 64 43; BIT 64 44; BIT 64 45; BIT 64 46; BIT 64 47;
      BIT 64 48; BIT 64 49; BIT 64 50; BIT 64 51; BIT 64 52; BIT 64 53; BIT 64 54; BIT 64 55;
      BIT 64 56; BIT 64 57; BIT 64 58; BIT 64 59; BIT 64 60;
      (* BIT64_61 *) BIT 64 63; (* BIT64_62 *) BIT 64 62; (* BIT64_63 *) BIT 64 61].

(** The constants of a given width. Bits.hpp:21-149, the struct Constants, by the width in the
    name. *)
Definition bit_constants (w : Z) : list Z :=
  if w =? 8 then BIT8 else if w =? 16 then BIT16 else if w =? 32 then BIT32
  else if w =? 64 then BIT64 else [].

(** Bits.hpp:153-175 [MinimalType<n>]: the width of the chosen type, [None] for void. *)
Definition MinimalType (n : Z) : option Z :=
  if n <=? 1 * 8 then Some 8
  else if n <=? 2 * 8 then Some 16
  else if n <=? 4 * 8 then Some 32
  else if n <=? 8 * 8 then Some 64
  else None.
