(** Model of Ipv4.

    Source: /repo/src/Os/Network/Ipv4.cpp and /repo/include/FlameIDE/Os/Network/Ipv4.hpp.
    A [char] is its code (-128 .. 127); a pointer to a text is the list of the characters
    that can be read from there on: reading past the list or before its first character is
    UB. A [Number] is a short (16 bits), a [Port] an int (32 bits). *)
From Coq Require Import List Arith ZArith Bool.
From Verif Require Import Base UtilsModel.
Import ListNotations.
Local Open Scope Z_scope.

(** Conversions to short and to char. *)
Definition to_short (z : Z) : Z := (z + 32768) mod 65536 - 32768.
(** Conversion to char, as in Ipv4.cpp 103-110. *)
Definition to_char (z : Z) : Z := (z + 128) mod 256 - 128.

(** POINT, ZERO, CHAR_NULL, Ipv4.cpp 20-22. *)
Definition POINT : Z := 46.
(** Ipv4.cpp 21. *)
Definition ZERO : Z := 48.
(** Ipv4.cpp 22. *)
Definition CHAR_NULL : Z := 0.

(** MAX_STRING_SIZE, COUNT_NUMBERS, Ipv4.hpp 14-15; IP_MIN_STRING_LENGTH,
    IP_MAX_STRING_LENGTH, Ipv4.cpp 17-18. *)
Definition MAX_STRING_SIZE : nat := 16.
(** Ipv4.hpp 15. *)
Definition COUNT_NUMBERS : nat := 4.
(** Ipv4.cpp 17. *)
Definition IP_MIN_STRING_LENGTH : nat := 7.
(** Ipv4.cpp 18 with Ipv4.hpp 14. *)
Definition IP_MAX_STRING_LENGTH : nat := 15.

(** isNumberLambda, Ipv4.cpp 27-34. *)
Definition is_number (c : Z) : bool := (48 <=? c) && (c <=? 57).

(** stringToNumberLambda, Ipv4.cpp 35-53: the characters from [stop - 1] down to
    [stop - n]. The sums are sums of int, they do not overflow for digits. *)
Fixpoint string_to_number (text : list Z) (n stop : nat) (number devider : Z) : outcome Z :=
  match n with
  | O => Ok number
  | S n' =>
      match stop with
      | O => UB
      | S stop' =>
          let! c := read text stop' in
          string_to_number text n' stop' (to_short (number + (c - 48) * devider))
            (to_short (devider * 10))
      end
  end.

(** The loop of convertIp (text to numbers), Ipv4.cpp 60-88. [start] is numberStart
    ([None] = nullptr; the subtraction from it and the walk towards it are UB). *)
Fixpoint convert_loop (fuel : nat) (text : list Z) (last it : nat) (start : option nat)
  (index : nat) (ip : list Z) : outcome (bool * list Z) :=
  match fuel with
  | O => Diverge
  | S fuel' =>
      if (it =? last)%nat then Ok (true, ip)
      else
        let! c := read text it in
        if is_number c then
          convert_loop fuel' text last (S it)
            (match start with None => Some it | Some b => Some b end) index ip
        else if (index =? COUNT_NUMBERS)%nat then Ok (false, ip)
        else if negb ((c =? POINT) || (c =? CHAR_NULL)) then Ok (false, ip)
        else
          match start with
          | None => UB
          | Some b =>
              let! v := string_to_number text (it - b) it 0 1 in
              let! ip := write ip index v in
              convert_loop fuel' text last (S it) None (S index) ip
          end
  end.

(** convertIp, Ipv4.cpp 24-89: the value returned and the array of numbers afterwards. *)
Definition convert_from_text (text : list Z) (ip : list Z) : outcome (bool * list Z) :=
  let! n := length_from (fun c => c =? 0) (S (length text)) text 0 0 in
  if ((n <? IP_MIN_STRING_LENGTH) || (IP_MAX_STRING_LENGTH <? n))%nat then Ok (false, ip)
  else convert_loop (S (S n)) text (S n) 0 (Some 0%nat) 0 ip.

(** [*(ipIt++) = c]. As in Ipv4.cpp 103, 107, 110, 114. *)
Definition put_char (st : list Z * nat) (c : Z) : outcome (list Z * nat) :=
  let! buf := write (fst st) (snd st) (to_char c) in Ok (buf, S (snd st)).
(** The digits that may be left out, Ipv4.cpp 102-107. *)
Definition put_char_if (value : Z) (st : list Z * nat) : outcome (list Z * nat) :=
  if value =? 0 then Ok st else put_char st (value + ZERO).

(** The loop of convertIp (numbers to text), Ipv4.cpp 97-117; [points] counts down from
    COUNT_POINTS. C++ division and remainder truncate. *)
Fixpoint format_loop (ip : list Z) (points : nat) (st : list Z * nat)
  : outcome (list Z * nat) :=
  match ip with
  | [] => Ok st
  | v :: ip' =>
      let! st := put_char_if (Z.quot v 100) st in
      let! st := put_char_if (Z.quot (Z.rem v 100) 10) st in
      let! st := put_char st (Z.rem (Z.rem v 100) 10 + ZERO) in
      match points with
      | O => format_loop ip' O st
      | S points' => let! st := put_char st POINT in format_loop ip' points' st
      end
  end.

(** convertIp, Ipv4.cpp 91-121: the buffer afterwards. *)
Definition convert_to_text (buf : list Z) (ip : list Z) : outcome (list Z) :=
  let! st := format_loop ip (COUNT_NUMBERS - 1) (buf, 0%nat) in
  write (fst st) (snd st) CHAR_NULL.

(** Ipv4, Ipv4.hpp 53-59; Address, 21-25. *)
Record ipv4 := Ip { ip_numbers : list Z; ip_port : Z }.
(** Address, Ipv4.hpp 21-25. *)
Record address := Addr { ad_text : list Z; ad_port : Z }.

(** NumberLimitTrait<Number>::MIN_VALUE, Ipv4.hpp 53-58. *)
Definition NUMBER_MIN : Z := - 32768.
(** NumberLimitTrait<Port>::MIN_VALUE, Ipv4.hpp 59. *)
Definition PORT_MIN : Z := - 2147483648.

(** Ipv4(), Ipv4.hpp 27 with 53-59; reset(), Ipv4.cpp 203-213, gives the same. *)
Definition ip_default : ipv4 := Ip (repeat NUMBER_MIN COUNT_NUMBERS) PORT_MIN.

(** set(const char *, Port), Ipv4.cpp 172-181; set(const Address &), 183-186: the value
    returned and the object afterwards. *)
Definition ip_set_text (a : ipv4) (text : list Z) (port : Z) : outcome (bool * ipv4) :=
  let! r := convert_from_text text (ip_numbers a) in
  if fst r then Ok (true, Ip (snd r) port) else Ok (false, ip_default).
(** set(const Address &), Ipv4.cpp 183-186. *)
Definition ip_set_address (a : ipv4) (b : address) : outcome (bool * ipv4) :=
  ip_set_text a (ad_text b) (ad_port b).

(** Ipv4(const char *, Port), Ipv4.cpp 131-137, Ipv4(const Address &), 139-140. *)
Definition ip_of_text (text : list Z) (port : Z) : outcome ipv4 :=
  let! r := convert_from_text text (ip_numbers ip_default) in
  if fst r then Ok (Ip (snd r) port) else Ok ip_default.
(** Ipv4(const Address &), Ipv4.cpp 139-140. *)
Definition ip_of_address (b : address) : outcome ipv4 := ip_of_text (ad_text b) (ad_port b).

(** Ipv4(const Number (&)[4], Port), Ipv4.cpp 142-145; set(const Number (&)[4], Port), 188-193
    (returns true). *)
Definition ip_of_numbers (numbers : list Z) (port : Z) : outcome ipv4 :=
  let! ip := copy_array (ip_numbers ip_default) numbers COUNT_NUMBERS in
  Ok (Ip ip port).
(** set(const Number (&)[4], Port), Ipv4.cpp 188-193. *)
Definition ip_set_numbers (a : ipv4) (numbers : list Z) (port : Z) : outcome (bool * ipv4) :=
  let! ip := copy_array (ip_numbers a) numbers COUNT_NUMBERS in
  Ok (true, Ip ip port).

(** operator Address, Ipv4.cpp 147-156: the buffer starts as "0.0.0.0" followed by zeroes. *)
Definition address_init : list Z := [48; 46; 48; 46; 48; 46; 48] ++ repeat 0 9.
(** operator Address, Ipv4.cpp 147-156. *)
Definition ip_to_address (a : ipv4) : outcome address :=
  let! buf := convert_to_text address_init (ip_numbers a) in
  Ok (Addr buf (ip_port a)).

(** operator bool, Ipv4.cpp 158-170. *)
Fixpoint all_octets (l : list Z) : bool :=
  match l with
  | [] => true
  | i :: l' => if (0 <=? i) && (i <=? 255) then all_octets l' else false
  end.
(** operator bool, Ipv4.cpp 158-170. *)
Definition ip_bool (a : ipv4) : bool := all_octets (ip_numbers a).

(** localhost(Port), Ipv4.cpp 195-201. *)
Definition ip_localhost (port : Z) : outcome ipv4 := ip_of_numbers [127; 0; 0; 1] port.
