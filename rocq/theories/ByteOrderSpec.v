(** What "the bytes of an integer in memory" means, independently of the library. *)
From Coq Require Import ZArith List.
From Verif Require Import ByteOrderModel.
Import ListNotations.
Local Open Scope Z_scope.

(** Values an integer type can hold. *)
Definition in_range (t : ity) (v : Z) : Prop :=
  let w := bits (it_width t) in
  if it_signed t then - 2 ^ (w - 1) <= v < 2 ^ (w - 1) else 0 <= v < 2 ^ w.

(** Byte number [i] of the two's complement representation, least significant first. *)
Definition byte_of (v : Z) (i : nat) : Z := (v / 256 ^ Z.of_nat i) mod 256.

(** The [n] bytes of [v], least significant first. *)
Definition le_bytes (n : nat) (v : Z) : list Z := map (byte_of v) (seq 0 n).

(** The [n] bytes of [v], most significant first. *)
Definition be_bytes (n : nat) (v : Z) : list Z := rev (le_bytes n v).

(** The [n] bytes of [v] in a given byte order. On a host with byte order [o] this is the
    object representation of an integer of [n] bytes with value [v]. *)
Definition bytes_in (o : order) (n : nat) (v : Z) : list Z :=
  match o with LE => le_bytes n v | BE => be_bytes n v end.
