(** Model of QueuedArray and of the part of Registrar that creates and uses the queues.

    Source: /repo/src/Os/Async/Network/QueuedArray.hpp, /repo/src/Os/Async/Network/Registrar.cpp. *)
From Coq Require Import List Arith.
From Verif Require Import Base ConcModel.
Import ListNotations.

Section Queue.
  (** Type, SIZE, the value of a default constructed element. *)
  Variable A : Type.
  Variable SIZE : nat.
  Variable fresh : A.

  (** The members, QueuedArray.hpp 31-35. [q_array = None]: null pointer. The circular
      iterators are positions in the current array (their range is the whole array); using
      them without an array is UB. *)
  Record queue : Type :=
    Queue { q_array : option (list A); q_first : nat; q_last : nat; q_count : nat }.

  (** A QueuedArray that has just been constructed (implicit constructor). QueuedArray.hpp 31-36.
      *)
  Definition queue_new : queue := Queue None 0 0 0.

  (** The calls: init, push, pop, operator bool, QueuedArray.hpp 19-24. *)
  Inductive qop : Type :=
  | Init (initValue : A)
  | Push (value : A)
  | Pop (initValue : A)
  | Test
  | Ensure (initValue : A).

  (** [RPop None] is the Expected that holds the error. QueuedArray.hpp 19-24, 91-105. *)
  Inductive qres : Type :=
  | RInit (b : bool)
  | RPush (b : bool)
  | RPop (v : option A)
  | RTest (b : bool)
  | REnsure.

  (** Single accesses to the members. Of the model: the test of the member pointer,
      QueuedArray.hpp 32. *)
  Definition get_null (q : queue) : outcome bool :=
    Ok (match q_array q with None => true | Some _ => false end).
  (** pointer->capacity(): the pointer must not be null. QueuedArray.hpp 32. *)
  Definition get_capacity (q : queue) : outcome nat :=
    match q_array q with None => UB | Some _ => Ok SIZE end.
  (** Of the model: a read of count, QueuedArray.hpp 35. *)
  Definition get_count (q : queue) : outcome nat := Ok (q_count q).
  (** Of the model: a read of first, QueuedArray.hpp 33. *)
  Definition get_first (q : queue) : outcome nat := Ok (q_first q).
  (** Of the model: a read of last, QueuedArray.hpp 34. *)
  Definition get_last (q : queue) : outcome nat := Ok (q_last q).
  (** Of the model: a read of an element of the array. *)
  Definition get_cell (i : nat) (q : queue) : outcome A :=
    match q_array q with None => UB | Some a => read a i end.
  (** Of the model: an assignment to pointer, QueuedArray.hpp 32. *)
  Definition set_array (a : list A) (q : queue) : outcome queue :=
    Ok (Queue (Some a) (q_first q) (q_last q) (q_count q)).
  (** Of the model: an assignment to count, QueuedArray.hpp 35. *)
  Definition set_count (n : nat) (q : queue) : outcome queue :=
    Ok (Queue (q_array q) (q_first q) (q_last q) n).
  (** Of the model: an assignment to first, QueuedArray.hpp 33. *)
  Definition set_first (i : nat) (q : queue) : outcome queue :=
    Ok (Queue (q_array q) i (q_last q) (q_count q)).
  (** Of the model: an assignment to last, QueuedArray.hpp 34. *)
  Definition set_last (i : nat) (q : queue) : outcome queue :=
    Ok (Queue (q_array q) (q_first q) i (q_count q)).
  (** Of the model: an assignment to an element of the array. *)
  Definition set_cell (i : nat) (v : A) (q : queue) : outcome queue :=
    match q_array q with
    | None => UB
    | Some a => let! a := write a i v in Ok (Queue (Some a) (q_first q) (q_last q) (q_count q))
    end.

  (** ++ of the circular iterator over [data, data + capacity),
      /repo/include/FlameIDE/Templates/Iterator/Operators.hpp 475-485. *)
  Definition advance (i : nat) : nat := if S i =? SIZE then 0 else S i.

  (** QueuedArray::init, QueuedArray.hpp 57-73. [pointer = Pointer{}] replaces the array by a
      new one, whose elements are [fresh]; allocation succeeds. [count] is not touched. *)
  Fixpoint fill (v : A) (i n : nat) (k : prog queue qres) : prog queue qres :=
    match n with
    | O => k
    | S n' => Set_ (set_cell i v) (fill v (S i) n' k)
    end.
  (** init, QueuedArray.hpp 57-73. *)
  Definition init_code (initValue : A) (result : qres) : prog queue qres :=
    Acquire
      (Set_ (set_array (repeat fresh SIZE))
        (fill initValue 0 SIZE
          (Set_ (set_last 0)
            (Set_ (set_first 0)
              (Release (Done result)))))).

  (** QueuedArray::push, QueuedArray.hpp 75-88. *)
  Definition push_code (value : A) : prog queue qres :=
    Acquire
      (Get get_count (fun count =>
       Get get_capacity (fun capacity =>
       if count =? capacity then Release (Done (RPush false))
       else
         Get get_last (fun last =>
         Set_ (set_cell last value)
        (Get get_last (fun last =>
         Set_ (set_last (advance last))
        (Get get_count (fun count =>
         Set_ (set_count (S count))
        (Release (Done (RPush true))))))))))).

  (** QueuedArray::pop, QueuedArray.hpp 90-105. *)
  Definition pop_code (initValue : A) : prog queue qres :=
    Acquire
      (Get get_count (fun count =>
       if count =? 0 then Release (Done (RPop None))
       else
         Get get_first (fun first =>
         Get (get_cell first) (fun value =>
         Get get_first (fun first =>
         Set_ (set_cell first initValue)
        (Get get_first (fun first =>
         Set_ (set_first (advance first))
        (Get get_count (fun count =>
         Set_ (set_count (Nat.pred count))
        (Release (Done (RPop (Some value))))))))))))).

  (** QueuedArray::operator bool, QueuedArray.hpp 50-54. *)
  Definition test_code : prog queue qres :=
    Acquire (Get get_null (fun null => Release (Done (RTest (negb null))))).

  (** The beginning of every Registrar::add, Registrar.cpp 22-60:
      [if (!queue) queue.init(value);], two calls. *)
  Definition ensure_code (initValue : A) : prog queue qres :=
    Acquire (Get get_null (fun null =>
      Release (if null then init_code initValue REnsure else Done REnsure))).

  (** The bodies of operator bool, init, push and pop, QueuedArray.hpp 46-105. *)
  Definition qcode (o : qop) : prog queue qres :=
    match o with
    | Init v => init_code v (RInit true)
    | Push v => push_code v
    | Pop v => pop_code v
    | Test => test_code
    | Ensure v => ensure_code v
    end.
End Queue.

Arguments Queue {A}. Arguments q_array {A}. Arguments q_first {A}. Arguments q_last {A}.
Arguments q_count {A}. Arguments queue_new {A}.
Arguments Init {A}. Arguments Push {A}. Arguments Pop {A}. Arguments Test {A}.
Arguments Ensure {A}.
Arguments RInit {A}. Arguments RPush {A}. Arguments RPop {A}. Arguments RTest {A}.
Arguments REnsure {A}.
Arguments qcode {A}.
