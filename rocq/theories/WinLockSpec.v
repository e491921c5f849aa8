(** Vocabulary for the theorems about the Windows locks. *)
From Coq Require Import List Arith ZArith.
From Verif Require Import Base WinLockModel.
Import ListNotations.

(** * Spin: what calls that are made one after the other should give *)

(** A lock is free or held. *)
Definition spin_effect (held : bool) (o : sop) : bool * sres :=
  match o with
  | SLock => (true, SVoid)
  | STryLock => (true, STried (negb held))
  | SUnlock => (false, SVoid)
  end.

(** lock() of a lock that is held does not return, so it is not called. *)
Fixpoint not_locked_twice (held : bool) (calls : list (nat * sop)) : Prop :=
  match calls with
  | [] => True
  | (t, o) :: rest => (o = SLock -> held = false) /\ not_locked_twice (fst (spin_effect held o)) rest
  end.

Fixpoint spin_history (held : bool) (calls : list (nat * sop)) : list (tevent sop sres) :=
  match calls with
  | [] => []
  | (t, o) :: rest =>
      TInv t o :: TRes t (snd (spin_effect held o)) :: spin_history (fst (spin_effect held o)) rest
  end.

(** A call that runs from beginning to end before the next one begins. *)
Definition complete (call : nat * sop) : list (tmove sop) :=
  TCall (fst call) (snd call) :: repeat (TTick (fst call)) 3.

(** * Semaphore: tokens *)

(** How many tokens each thread has taken by wait() or tryWait() and not given back by post(). *)
Definition tokens_after (own : nat -> nat) (e : tevent wop wres) : nat -> nat :=
  match e with
  | TRes t (WWaited true) | TRes t (WTried true) => fun u => if u =? t then S (own u) else own u
  | TInv t WPost => fun u => if u =? t then Nat.pred (own u) else own u
  | _ => own
  end.

Definition tokens (own : nat -> nat) (h : list (tevent wop wres)) : nat -> nat :=
  fold_left tokens_after h own.

(** post() is called only by a thread that has a token; getValue() is not called. *)
Definition gives_back (own : nat -> nat) (e : tevent wop wres) : Prop :=
  match e with
  | TInv t WPost => own t <> 0
  | TInv t WGetValue => False
  | _ => True
  end.

Fixpoint disciplined (own : nat -> nat) (c : tconfig wsem wpc) (moves : list (tmove wop)) : Prop :=
  match moves with
  | [] => True
  | mv :: rest =>
      let r := tstep wstart wpstep c mv in
      Forall (gives_back own) (snd r) /\ disciplined (tokens own (snd r)) (fst r) rest
  end.

(** The tokens of the threads 0, …, N-1. *)
Fixpoint total_tokens (own : nat -> nat) (N : nat) : nat :=
  match N with
  | O => 0
  | S n => own n + total_tokens own n
  end.
