(** Properties C01 and C02 (byte order conversion). *)
From Coq Require Import ZArith List Lia.
From Verif Require Import BitsModel ByteOrderModel ByteOrderSpec ByteOrderProofs.
Import ListNotations.
Local Open Scope Z_scope.

(** C01. A conversion between different orders reverses the bytes of the value; between
    equal orders it changes nothing. The result is again a value of the type. *)
Theorem C01_conversion_reverses_bytes :
  forall (current need : order) (t : ity) (v : Z),
    in_range t v ->
    let n := size_of (it_width t) in
    let r := ToNeedOrder current need t v in
    in_range t r
    /\ (current = need -> r = v)
    /\ (current <> need -> le_bytes n r = rev (le_bytes n v)).
Proof.
  intros c n t v H; cbv zeta. split; [apply ToNeedOrder_range; auto|]. split.
  - intros ->. destruct n; reflexivity.
  - intros Hne. destruct c, n; try congruence; apply reverseBytes_bytes; auto.
Qed.

(** C01, as the user sees it: on a host of either byte order, the object representation
    (memory bytes) of the converted value is the representation of the original value in
    the requested order. *)
Theorem C01_memory_is_in_needed_order :
  forall (host need : order) (t : ity) (v : Z),
    in_range t v ->
    bytes_in host (size_of (it_width t)) (ToNeedOrder host need t v)
    = bytes_in need (size_of (it_width t)) v.
Proof. exact ToNeedOrder_bytes. Qed.

Example C01_case_u32 :
  in_range (IT W32 false) 0x12345678
  /\ ToNeedOrder LE BE (IT W32 false) 0x12345678 = 0x78563412
  /\ bytes_in LE 4 0x78563412 = [0x12; 0x34; 0x56; 0x78].
Proof. repeat split; vm_compute; congruence. Qed.

Example C01_case_i64_min :
  in_range (IT W64 true) (- 2 ^ 63)
  /\ ToNeedOrder LE BE (IT W64 true) (- 2 ^ 63) = 128.
Proof. repeat split; vm_compute; congruence. Qed.

(** C01 for the compile time variant: it exists for the types of more than one byte, and
    computes the value whose bytes are in the opposite order, as the run time one does. *)
Theorem C01_compile_time_agrees :
  forall (w : width) (v : Z),
    0 <= v < 2 ^ bits w ->
    (w = W8 /\ CompileTimeReverseBytes w v = None) \/
    (w <> W8 /\ exists r, CompileTimeReverseBytes w v = Some r /\
       le_bytes (size_of w) r = rev (le_bytes (size_of w) v) /\ 0 <= r < 2 ^ bits w).
Proof.
  assert (G : forall w v r, 0 <= v < 2 ^ bits w -> CompileTimeReverseBytes w v = Some r ->
    le_bytes (size_of w) r = rev (le_bytes (size_of w) v) /\ 0 <= r < 2 ^ bits w).
  { intros w v r H E. rewrite (CompileTime_agrees w v r) by auto. split.
    - apply reverseUnsigned_bytes; auto.
    - apply reverseUnsigned_range; auto. }
  intros w v H. destruct w; [left; split; reflexivity|right..]; (split; [discriminate|]);
    (eexists; split; [reflexivity|apply G; [exact H|reflexivity]]).
Qed.

Example C01_compile_time_case :
  CompileTimeReverseBytes W16 0xABCD = Some 0xCDAB.
Proof. reflexivity. Qed.

(** C02. Converting to an order and back gives the original value. *)
Theorem C02_round_trip :
  forall (host : order) (t : ity) (v : Z),
    in_range t v ->
    FromBigEndian host t (ToBigEndian host t v) = v
    /\ FromLittleEndian host t (ToLittleEndian host t v) = v
    /\ ToBigEndian host t (FromBigEndian host t v) = v
    /\ ToLittleEndian host t (FromLittleEndian host t v) = v.
Proof. intros; repeat split; apply ToNeedOrder_back; auto. Qed.

(** C02: conversions are bijections on the values of the type. *)
Theorem C02_bijective :
  forall (current need : order) (t : ity),
    (forall v1 v2, in_range t v1 -> in_range t v2 ->
       ToNeedOrder current need t v1 = ToNeedOrder current need t v2 -> v1 = v2)
    /\ (forall r, in_range t r ->
          exists v, in_range t v /\ ToNeedOrder current need t v = r).
Proof.
  intros c n t; split.
  - intros v1 v2 H1 H2 E.
    rewrite <- (ToNeedOrder_back c n t v1), <- (ToNeedOrder_back c n t v2), E; auto.
  - intros r H. exists (ToNeedOrder n c t r). split.
    + apply ToNeedOrder_range; auto.
    + apply ToNeedOrder_back; auto.
Qed.

Example C02_case :
  in_range (IT W16 true) (-2)
  /\ ToBigEndian LE (IT W16 true) (-2) = -257
  /\ FromBigEndian LE (IT W16 true) (-257) = -2.
Proof. repeat split; vm_compute; congruence. Qed.

Print Assumptions C01_conversion_reverses_bytes.
Print Assumptions C01_memory_is_in_needed_order.
Print Assumptions C01_compile_time_agrees.
Print Assumptions C02_round_trip.
Print Assumptions C02_bijective.
