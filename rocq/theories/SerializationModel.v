(** Model of include/FlameIDE/Templates/Serialization/{Serializer,Deserializer,
    SpecializedValue,ValueInfo}.hpp and of the byte copy loop of SimpleAlgorithms.hpp.

    Buffers are lists of bytes; access outside the buffer is UB. The volatile variants
    (IS_VOLATILE = true) have the same definitions and are not distinguished. *)
From Coq Require Import ZArith List.
From Verif Require Import Base BitsModel ByteOrderModel.
Import ListNotations.
Open Scope outcome_scope.

(** The object representation of an integer on the host: its bytes in memory. This is the platform
    (what reinterpret_cast to uichar_t * shows), not library code; see Serializer.hpp
    castToByteArray / Deserializer.hpp castToByteArray. Serializer.hpp:140-146,
    Deserializer.hpp:154-160. *)
Definition mem_of (host : order) (t : ity) (v : Z) : list Z :=
  let le := map (fun i => ((v / 256 ^ Z.of_nat i) mod 256)%Z) (seq 0 (size_of (it_width t))) in
  match host with LE => le | BE => rev le end.

(** The integer whose representation the bytes are: Deserializer.hpp:154-160 read as a value. *)
Definition val_of (host : order) (t : ity) (mem : list Z) : Z :=
  let le := match host with LE => mem | BE => rev mem end in
  let u := fold_right (fun b acc => (b + 256 * acc)%Z) 0%Z le in
  if it_signed t then to_signed (bits (it_width t)) u else u.

(** SimpleAlgorithms.hpp: copy(start, end, out): the loop
    [for (iterator = start; iterator != end; ++iterator, ++out, ++counter) *out = *iterator].
    [src] is the list of bytes the input iterators run over, [pos] the output position.
    Returns the buffer and the counter. *)
Fixpoint copy_loop (src : list Z) (buf : list Z) (pos counter : nat)
  : outcome (list Z * nat) :=
  match src with
  | [] => Ok (buf, counter)
  | b :: src' =>
    let! buf' := write buf pos b in
    copy_loop src' buf' (S pos) (S counter)
  end.

(** The same loop with an output iterator that walks backwards (a ReverseIterator).
    SimpleAlgorithms.hpp copy as called in Deserializer.hpp:114-123. *)
Fixpoint copy_loop_rev (src : list Z) (buf : list Z) (pos counter : nat)
  : outcome (list Z * nat) :=
  match src with
  | [] => Ok (buf, counter)
  | b :: src' =>
    let! buf' := write buf pos b in
    copy_loop_rev src' buf' (pred pos) (S counter)
  end.

(** Reading [n] bytes starting at [pos] (input range of a copy). The input ranges of
    Deserializer.hpp:101-136 and Serializer.hpp:107-122. *)
Fixpoint read_bytes (buf : list Z) (pos n : nat) : outcome (list Z) :=
  match n with
  | O => Ok []
  | S n' =>
    let! b := read buf pos in
    let! r := read_bytes buf (S pos) n' in
    Ok (b :: r)
  end.

(** Serializer.hpp:89-92: data pointer and offset. *)
Record serializer := Ser { s_data : list Z; s_offset : nat }.

(** Serializer.hpp:96-103 operator()(T value); toOrder is 126-129, makeByteRange 131-146 (all bytes of the value). *)
Definition serialize (host ORDER : order) (t : ity) (value : Z) (s : serializer)
  : outcome (serializer * nat) :=
  let serializeValue := ToNeedOrder host ORDER t value in
  let! (data, newOffset) :=
    copy_loop (mem_of host t serializeValue) (s_data s) (s_offset s) 0 in
  Ok (Ser data (s_offset s + newOffset), newOffset).

(** Deserializer.hpp:93-97 (constructor) and 101-110 operator()(T &value); toOrder is
    140-143, makeByteRange 145-160. The local DeserializeValue is uninitialised and every byte is overwritten. *)
Definition deserialize (host ORDER : order) (t : ity) (s : serializer)
  : outcome (serializer * Z * nat) :=
  let! src := read_bytes (s_data s) (s_offset s) (size_of (it_width t)) in
  let! (mem, newOffset) := copy_loop src (repeat 0%Z (size_of (it_width t))) 0 0 in
  let value := ToNeedOrder ORDER host t (val_of host t mem) in
  Ok (Ser (s_data s) (s_offset s + newOffset), value, newOffset).

(** A user program: a sequence of calls. Calls of Serializer.hpp:96-103 in a row. *)
Fixpoint serialize_all (host ORDER : order) (vs : list (ity * Z)) (s : serializer)
  : outcome (serializer * list nat) :=
  match vs with
  | [] => Ok (s, [])
  | (t, v) :: vs' =>
    let! (s1, n) := serialize host ORDER t v s in
    let! (s2, ns) := serialize_all host ORDER vs' s1 in
    Ok (s2, n :: ns)
  end.

(** Calls of Deserializer.hpp:101-110 in a row. *)
Fixpoint deserialize_all (host ORDER : order) (ts : list ity) (s : serializer)
  : outcome (serializer * list Z * list nat) :=
  match ts with
  | [] => Ok (s, [], [])
  | t :: ts' =>
    let! (s1, v, n) := deserialize host ORDER t s in
    let! (s2, vs, ns) := deserialize_all host ORDER ts' s1 in
    Ok (s2, v :: vs, n :: ns)
  end.

(** ValueInfo.hpp:86-125 and SpecializedValue.hpp: value (as its bytes in memory), size,
    offset. *)
Record specialized := SV { sv_mem : list Z; sv_size : nat; sv_off : nat }.

(** SpecializedValue.hpp:360-370 (BE: begin() = bytes + offset) and 423-435
    (LE: begin() = bytes + sizeof(value) - size - offset). If size + offset exceeds
    sizeof(value) the pointer is outside the object (UB). *)
Definition sv_begin (ORDER : order) (sv : specialized) : outcome nat :=
  if (sv_size sv + sv_off sv <=? length (sv_mem sv))%nat then
    match ORDER with
    | BE => Ok (sv_off sv)
    | LE => Ok (length (sv_mem sv) - sv_size sv - sv_off sv)%nat
    end
  else UB.

(** The bytes from begin() to end() = begin() + size (SpecializedValue.hpp:386-398, 451-463). *)
Definition sv_forward (ORDER : order) (sv : specialized) : outcome (list Z) :=
  let! b := sv_begin ORDER sv in
  read_bytes (sv_mem sv) b (sv_size sv).

(** The bytes from rbegin() = end() - 1 down to rend() = begin() - 1
    (SpecializedValue.hpp:372-384, 400-411, 437-449, 465-477). *)
Definition sv_backward (ORDER : order) (sv : specialized) : outcome (list Z) :=
  let! l := sv_forward ORDER sv in Ok (rev l).

(** The overload resolution between Serializer.hpp:107 and 117, Deserializer.hpp:114 and 127. *)
Definition order_eqb (a b : order) : bool :=
  match a, b with LE, LE => true | BE, BE => true | _, _ => false end.

(** Serializer.hpp:107-113 (value of the other order: rbegin..rend) and
    117-122 (value of the serializer's order: begin..end). *)
Definition serialize_sv (ORDER VORDER : order) (sv : specialized) (s : serializer)
  : outcome (serializer * nat) :=
  let! src := (if order_eqb ORDER VORDER then sv_forward VORDER sv
               else sv_backward VORDER sv) in
  let! (data, newOffset) := copy_loop src (s_data s) (s_offset s) 0 in
  Ok (Ser data (s_offset s + newOffset), newOffset).

(** Deserializer.hpp:114-123 (other order: writes from rbegin() downwards) and
    127-136 (same order: writes from begin() upwards). *)
Definition deserialize_sv (ORDER VORDER : order) (sv : specialized) (s : serializer)
  : outcome (serializer * specialized * nat) :=
  let! b := sv_begin VORDER sv in
  let! src := read_bytes (s_data s) (s_offset s) (sv_size sv) in
  let! (mem, newOffset) :=
    (if order_eqb ORDER VORDER then copy_loop src (sv_mem sv) b 0
     else copy_loop_rev src (sv_mem sv) (b + sv_size sv - 1) 0) in
  Ok (Ser (s_data s) (s_offset s + newOffset), SV mem (sv_size sv) (sv_off sv), newOffset).

(** makeSpecializedValue, SpecializedValue.hpp:496-505; makeSpecializedValueLe, 518-525, and makeSpecializedValueBe,
    534-541, are this with ORDER given. *)
Definition makeSpecializedValue (host ORDER : order) (t : ity) (value : Z) (size offset : nat)
  : specialized :=
  SV (mem_of host t (ToNeedOrder host ORDER t value)) size offset.

(** makeSpecializedValueEmpty, SpecializedValue.hpp:508-515; with ORDER given 527-532, 543-548, 550-555. *)
Definition makeSpecializedValueEmpty (host : order) (t : ity) (size offset : nat) : specialized :=
  SV (mem_of host t 0) size offset.

(** The value the user obtains: getValue() (ValueInfo.hpp:91-101) brought to host order. *)
Definition sv_value (host ORDER : order) (t : ity) (sv : specialized) : Z :=
  ToNeedOrder ORDER host t (val_of host t (sv_mem sv)).
