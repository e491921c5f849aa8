(** What reading into and writing from a range should do. *)
From Coq Require Import List Arith ZArith.
From Verif Require Import StreamModel StreamSpec FileIoModel.
Import ListNotations.
Local Open Scope Z_scope.

(** A read that reports [count >= 0] has taken [count] bytes from the file and put them, in
    order, into the first places of the range; no other byte of the memory changed. A read
    that reports a negative number has taken nothing and changed nothing. *)
Definition read_right (f : file) (m : list Z) (r : brange) (f' : file) (m' : list Z) (count : Z)
  : Prop :=
  f_output f' = f_output f /\
  (0 <= count -> exists xs, f_input f = xs ++ f_input f' /\ Z.of_nat (length xs) = count /\
     (length xs <= length (places (length m) r))%nat /\ filled m r xs m') /\
  (count < 0 -> f_input f' = f_input f /\ m' = m).

(** A write that reports [count >= 0] has written the first [count] bytes of the range; one
    that reports a negative number has written nothing. *)
Definition write_right (f : file) (m : list Z) (r : brange) (f' : file) (count : Z) : Prop :=
  f_input f' = f_input f /\
  (0 <= count -> count <= Z.of_nat (length (bytes_of m r)) /\
     f_output f' = f_output f ++ firstn (Z.to_nat count) (bytes_of m r)) /\
  (count < 0 -> f_output f' = f_output f).
