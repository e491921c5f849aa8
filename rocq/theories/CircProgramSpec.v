(** What a program with any number of CircularArrays of objects may rely on. An object is described by the queue
    it holds, by the cell of the buffer its first element is in, and by whether it was made from another object
    that was not empty. *)
From Coq Require Import List Arith.
From Verif Require Import CircularArrayModel CircularArraySpec CircProgramModel.
Import ListNotations.

Record queue (A : Type) := Queue { q_list : list A; q_at : nat; q_made : bool }.
Arguments Queue {A}.
Arguments q_list {A}.
Arguments q_at {A}.
Arguments q_made {A}.

Definition is_empty {A} (q : list A) : bool := match q with [] => true | _ => false end.

(** Entry [i] of a list replaced. *)
Fixpoint put {T} (l : list T) (i : nat) (x : T) : list T :=
  match l, i with
  | [], _ => []
  | _ :: l, O => x :: l
  | y :: l, S i => y :: put l i x
  end.

Section Spec.
  Context {A : Type}.
  Variable moved : A -> A.
  Variable cap : nat.

  (** The member functions: a bounded queue ([q_step]), except that clean() of a queue that is not empty is not
      allowed. Popping moves the head on by one cell, in a ring of [cap + 1]; clean() moves it back to cell 0. *)
  Definition queue_do (o : queue A) (op : ca_op A) : option (queue A) :=
    match op with
    | CClean => if is_empty (q_list o) then Some (Queue [] 0 (q_made o)) else None
    | CPop => Some (Queue (tl (q_list o))
                (if is_empty (q_list o) then q_at o else (q_at o + 1) mod (cap + 1)) (q_made o))
    | _ => Some (Queue (q_step cap (q_list o) op) (q_at o) (q_made o))
    end.

  (** The object with number [i], if it exists. *)
  Definition the (os : list (option (queue A))) (i : nat) : option (queue A) :=
    match nth_error os i with Some o => o | None => None end.

  (** One call; [None]: not allowed.
      - A copy is allowed if the source is empty or its head is in cell 0. It has the same queue.
      - A move is always allowed; the source keeps as many elements, moved from.
      - Assignments are not allowed.
      - Destroying an object is allowed unless it was made from another that was not empty. *)
  Definition spec_step (os : list (option (queue A))) (call : ca_call A)
    : option (list (option (queue A))) :=
    match call with
    | PNew => Some (os ++ [Some (Queue [] 0 false)])
    | PDo i op =>
        match the os i with
        | Some o => match queue_do o op with Some o => Some (put os i (Some o)) | None => None end
        | None => None
        end
    | PCopy i =>
        match the os i with
        | Some o => if (is_empty (q_list o) || (q_at o =? 0))%bool
                    then Some (os ++ [Some (Queue (q_list o) 0 (negb (is_empty (q_list o))))]) else None
        | None => None
        end
    | PMove i =>
        match the os i with
        | Some o => Some (put os i (Some (Queue (map moved (q_list o)) (q_at o) (q_made o)))
                          ++ [Some (Queue (q_list o) 0 (negb (is_empty (q_list o))))])
        | None => None
        end
    | PAssign i j => None
    | PDrop i =>
        match the os i with
        | Some o => if q_made o then None else Some (put os i None)
        | None => None
        end
    end.

  Fixpoint spec_run (os : list (option (queue A))) (calls : list (ca_call A))
    : option (list (option (queue A))) :=
    match calls with
    | [] => Some os
    | call :: calls =>
        match spec_step os call with Some os => spec_run os calls | None => None end
    end.

  (** The object shows the queue. *)
  Definition shows (c : option (circ A)) (o : option (queue A)) : Prop :=
    match c, o with
    | Some c, Some o => ca_elements c = Base.Ok (q_list o) /\ ca_size c = length (q_list o)
                        /\ ca_capacity c = cap /\ length (q_list o) <= cap
    | None, None => True
    | _, _ => False
    end.
End Spec.
