(** Properties C03, C04, C05 (serialization). *)
From Coq Require Import ZArith List Lia Arith.
From Verif Require Import Base BaseLemmas BitsModel ByteOrderModel ByteOrderSpec
  SerializationModel SerializationSpec SerializationProofs.
Import ListNotations.

Definition typed (p : ity * Z) : Prop := in_range (fst p) (snd p).

(** C04. Serializing a sequence of values replaces exactly the bytes from the current
    offset by the encodings of the values in the chosen order; everything before and after
    is unchanged; the byte counts are the sizes of the types. Precondition of the code
    (it has no bounds check): the encodings fit in the buffer. *)
Theorem C04_layout :
  forall (host o : order) (vs : list (ity * Z)) (buf : list Z) (off : nat),
    Forall typed vs ->
    off + enc_size vs <= length buf ->
    serialize_all host o vs (Ser buf off)
    = Ok (Ser (firstn off buf ++ encode o vs ++ skipn (off + enc_size vs) buf)
              (off + enc_size vs),
          map (fun p => size_of (it_width (fst p))) vs).
Proof. intros. apply (serialize_all_ok host o vs (Ser buf off)); auto. Qed.

(** C04, the precondition is necessary: a value that does not fit is written out of
    bounds (undefined behaviour); there is no error report. *)
Theorem C04_overflow_is_undefined :
  forall (host o : order) (t : ity) (v : Z) (buf : list Z) (off : nat),
    in_range t v ->
    length buf < off + size_of (it_width t) ->
    serialize host o t v (Ser buf off) = UB.
Proof.
  intros host o t v buf off Hr Hl. unfold serialize. cbn [s_data s_offset].
  rewrite mem_of_bytes_in.
  rewrite copy_loop_UB; [reflexivity| |].
  - intros E. apply (f_equal (@length Z)) in E. rewrite ByteOrderProofs.bytes_in_length in E.
    destruct t as [[] ?]; discriminate.
  - rewrite ByteOrderProofs.bytes_in_length. auto.
Qed.

Example C04_case :
  serialize_all LE BE [(IT W16 false, 0x1234%Z); (IT W8 true, (-1)%Z)]
    (Ser [9; 9; 9; 9; 9]%Z 1)
  = Ok (Ser [9; 0x12; 0x34; 0xFF; 9]%Z 4, [2; 1]).
Proof. reflexivity. Qed.

(** C03. Reading back a serialized sequence with the same order and the same types gives
    the same values and the same byte counts and ends at the same offset. *)
Theorem C03_round_trip :
  forall (host o : order) (vs : list (ity * Z)) (buf : list Z) (off : nat),
    Forall typed vs ->
    off + enc_size vs <= length buf ->
    exists (buf' : list Z) (counts : list nat),
      serialize_all host o vs (Ser buf off) = Ok (Ser buf' (off + enc_size vs), counts)
      /\ deserialize_all host o (map fst vs) (Ser buf' off)
         = Ok (Ser buf' (off + enc_size vs), map snd vs, counts).
Proof.
  intros host o vs buf off HF Hl.
  eexists; eexists; split. apply C04_layout; auto.
  assert (length (firstn off buf) = off) as Hlen by (rewrite firstn_length; lia).
  pose proof (deserialize_all_ok host o vs (firstn off buf) (skipn (off + enc_size vs) buf))
    as HD.
  rewrite Hlen in HD. rewrite HD by auto. reflexivity.
Qed.

(** C03, different hosts: what a host of one byte order writes, a host of the other byte
    order reads back. *)
Theorem C03_portable :
  forall (host1 host2 o : order) (vs : list (ity * Z)) (buf : list Z) (off : nat),
    Forall typed vs ->
    off + enc_size vs <= length buf ->
    exists (buf' : list Z) (counts : list nat),
      serialize_all host1 o vs (Ser buf off) = Ok (Ser buf' (off + enc_size vs), counts)
      /\ deserialize_all host2 o (map fst vs) (Ser buf' off)
         = Ok (Ser buf' (off + enc_size vs), map snd vs, counts).
Proof.
  intros host1 host2 o vs buf off HF Hl.
  eexists; eexists; split. apply C04_layout; auto.
  assert (length (firstn off buf) = off) as Hlen by (rewrite firstn_length; lia).
  pose proof (deserialize_all_ok host2 o vs (firstn off buf) (skipn (off + enc_size vs) buf))
    as HD.
  rewrite Hlen in HD. rewrite HD by auto. reflexivity.
Qed.

Example C03_case :
  let vs := [(IT W32 true, (-5)%Z); (IT W8 false, 200%Z); (IT W64 false, 2 ^ 63)%Z] in
  Forall typed vs
  /\ enc_size vs = 13
  /\ deserialize_all LE BE (map fst vs)
       (Ser (encode BE vs) 0) = Ok (Ser (encode BE vs) 13, map snd vs, [4; 1; 8]).
Proof.
  cbv zeta. repeat split.
  - repeat constructor; vm_compute; congruence.
Qed.

(** C05. Serializing a SpecializedValue (of either order, by a serializer of either
    order) writes exactly the selected significant bytes in the serializer's order. *)
Theorem C05_partial_value_layout :
  forall (host so vo : order) (t : ity) (v : Z) (size off : nat) (buf : list Z) (pos : nat),
    in_range t v -> size + off <= size_of (it_width t) -> pos + size <= length buf ->
    serialize_sv so vo (makeSpecializedValue host vo t v size off) (Ser buf pos)
    = Ok (Ser (firstn pos buf ++ significant so (size_of (it_width t)) size off v
               ++ skipn (pos + size) buf) (pos + size), size).
Proof. intros. apply serialize_sv_ok; auto. Qed.

(** C05. Reading it back into an empty SpecializedValue of the same size and offset (of
    either order) restores the selected bytes; the other bytes are zero. *)
Theorem C05_partial_value_round_trip :
  forall (host so vo vo' : order) (t : ity) (v : Z) (size off : nat) (buf : list Z) (pos : nat),
    in_range t v -> size + off <= size_of (it_width t) -> pos + size <= length buf ->
    exists (buf' : list Z) (sv : specialized),
      serialize_sv so vo (makeSpecializedValue host vo t v size off) (Ser buf pos)
      = Ok (Ser buf' (pos + size), size)
      /\ deserialize_sv so vo' (makeSpecializedValueEmpty host t size off) (Ser buf' pos)
         = Ok (Ser buf' (pos + size), sv, size)
      /\ sv_value host vo' t sv = as_type t (select (size_of (it_width t)) size off v).
Proof.
  intros host so vo vo' t v size off buf pos Hr Hs Hp.
  eexists; eexists; split; [apply C05_partial_value_layout; auto|].
  assert (length (firstn pos buf) = pos) as Hlen by (rewrite firstn_length; lia).
  split.
  - pose proof (deserialize_sv_ok host so vo' t v size off (firstn pos buf)
                  (skipn (pos + size) buf)) as HD.
    rewrite Hlen in HD. rewrite HD by auto. reflexivity.
  - apply sv_value_blank; auto.
Qed.

(** C05: with the whole value selected the round trip is lossless. *)
Corollary C05_full_selection :
  forall (t : ity) (v : Z),
    in_range t v -> as_type t (select (size_of (it_width t)) (size_of (it_width t)) 0 v) = v.
Proof.
  intros t v Hr.
  apply (ByteOrderProofs.in_range_congr t); auto.
  - unfold in_range, as_type. destruct (it_signed t).
    + apply ByteOrderProofs.to_signed_range.
    + apply select_range. lia.
  - assert (select (size_of (it_width t)) (size_of (it_width t)) 0 v
            = v mod 2 ^ bits (it_width t))%Z as ->.
    { unfold select. rewrite Nat.sub_0_r, Nat.sub_diag. cbn [Z.of_nat].
      rewrite Z.pow_0_r, Z.div_1_r, Z.mul_1_r, ByteOrderProofs.bits_pow. reflexivity. }
    unfold as_type. destruct (it_signed t).
    + rewrite ByteOrderProofs.to_signed_mod.
      apply Z.mod_mod. destruct (it_width t); discriminate.
    + apply Z.mod_mod. destruct (it_width t); discriminate.
Qed.

Example C05_case :
  serialize_sv LE BE (makeSpecializedValue LE BE (IT W32 false) 0x00ABCDEF%Z 3 1)
    (Ser [0; 0; 0; 0]%Z 0)
  = Ok (Ser [0xEF; 0xCD; 0xAB; 0]%Z 3, 3)
  /\ select 4 2 1 0x12345678 = 0x00345600%Z.
Proof. split; reflexivity. Qed.

Print Assumptions C04_layout.
Print Assumptions C04_overflow_is_undefined.
Print Assumptions C03_round_trip.
Print Assumptions C03_portable.
Print Assumptions C05_partial_value_layout.
Print Assumptions C05_partial_value_round_trip.
Print Assumptions C05_full_selection.
