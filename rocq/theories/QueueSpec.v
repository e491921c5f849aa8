(** The sequential bounded FIFO queue. *)
From Coq Require Import List Arith.
From Verif Require Import QueueModel.
Import ListNotations.

Section Fifo.
  Variable A : Type.
  Variable capacity : nat.

  (** Effect of one call on a queue that has been initialised: the new contents (oldest
      first) and the result. *)
  Definition fifo (l : list A) (o : qop A) : list A * qres A :=
    match o with
    | Push v => if length l <? capacity then (l ++ [v], RPush true) else (l, RPush false)
    | Pop _ => match l with
               | [] => ([], RPop None)
               | x :: l' => (l', RPop (Some x))
               end
    | Test => (l, RTest true)
    | Ensure _ => (l, REnsure)
    | Init _ => (l, RInit true)
    end.

  (** Every call except init. *)
  Definition usage (o : qop A) : Prop :=
    match o with Init _ => False | _ => True end.

  (** The values pushed successfully and the values popped, in the order of the calls. *)
  Fixpoint pushed (calls : list (nat * qop A * qres A)) : list A :=
    match calls with
    | [] => []
    | (_, Push v, RPush true) :: rest => v :: pushed rest
    | _ :: rest => pushed rest
    end.
  Fixpoint popped (calls : list (nat * qop A * qres A)) : list A :=
    match calls with
    | [] => []
    | (_, Pop _, RPop (Some v)) :: rest => v :: popped rest
    | _ :: rest => popped rest
    end.
End Fifo.

Arguments fifo {A}. Arguments usage {A}. Arguments pushed {A}. Arguments popped {A}.
