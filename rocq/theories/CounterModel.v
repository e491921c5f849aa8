(** Model of threads::Counter<Lock, Value>.

    Source: /repo/include/FlameIDE/Os/Threads/Counter.hpp. Value is an unsigned type with
    [MODULUS] values (ConditionVariable uses uichar_t, with 256). Lock is Spin (as in
    ConditionVariable) or any lock that excludes; what Locker does is ConcModel's [Acquire] and
    [Release]. The defaulted move operations are not modelled. *)
From Coq Require Import List Arith.
From Verif Require Import Base ConcModel.
Import ListNotations.

Section Counter.
  Variable MODULUS : nat.

  (** The operations. *)
  Inductive cop := Increment | Decrement | Current.
  (** [RSelf]: the reference to the counter that ++ and -- return, Counter.hpp 26-29. *)
  Inductive cres := RSelf | RValue (v : nat).

  (** The member value, Counter.hpp 33. A read and a write are separate accesses. *)
  Definition get_value (v : nat) : outcome nat := Ok v.
  (** Of the model: an assignment to the member. *)
  Definition set_value (v : nat) (_ : nat) : outcome nat := Ok v.

  (** [Value value = {};], Counter.hpp 33. *)
  Definition counter_new : nat := 0.

  (** operator++, Counter.hpp 43-49: [++value] reads, adds one modulo the range of the type, writes. *)
  Definition increment_code : prog nat cres :=
    Acquire (Get get_value (fun v =>
    Set_ (set_value ((v + 1) mod MODULUS))
    (Release (Done RSelf)))).

  (** operator--, Counter.hpp 51-57. *)
  Definition decrement_code : prog nat cres :=
    Acquire (Get get_value (fun v =>
    Set_ (set_value ((v + (MODULUS - 1)) mod MODULUS))
    (Release (Done RSelf)))).

  (** current, Counter.hpp 59-64: the value is read before the Locker is destroyed. *)
  Definition current_code : prog nat cres :=
    Acquire (Get get_value (fun v => Release (Done (RValue v)))).

  (** The bodies of the operations, Counter.hpp 43-66. *)
  Definition counter_code (o : cop) : prog nat cres :=
    match o with
    | Increment => increment_code
    | Decrement => decrement_code
    | Current => current_code
    end.
End Counter.
