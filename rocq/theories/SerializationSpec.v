(** What the serialized form of values is, independently of the library code. *)
From Coq Require Import ZArith List.
From Verif Require Import ByteOrderModel ByteOrderSpec.
Import ListNotations.

(** Number of bytes of a sequence of typed values. *)
Definition enc_size (vs : list (ity * Z)) : nat :=
  list_sum (map (fun p => size_of (it_width (fst p))) vs).

(** The values one after another, each in byte order [o]. *)
Definition encode (o : order) (vs : list (ity * Z)) : list Z :=
  flat_map (fun p => bytes_in o (size_of (it_width (fst p))) (snd p)) vs.

(** [size] bytes of an [n] byte value, skipping the [off] most significant ones,
    in byte order [o]. *)
Definition significant (o : order) (n size off : nat) (v : Z) : list Z :=
  let s := firstn size (skipn off (be_bytes n v)) in
  match o with BE => s | LE => rev s end.

(** The value of which only these bytes are kept and all others are zero. *)
Definition select (n size off : nat) (v : Z) : Z :=
  (v / 256 ^ Z.of_nat (n - off - size) mod 256 ^ Z.of_nat size
   * 256 ^ Z.of_nat (n - off - size))%Z.

(** The bit pattern [v] read as a value of type [t]. *)
Definition as_type (t : ity) (v : Z) : Z :=
  if it_signed t then to_signed (bits (it_width t)) v else v.
