(** The tokens of a Semaphore on Windows: what every history of calls leaves. *)
From Coq Require Import List Arith Bool ZArith.
From Verif Require Import WinLockModel.
Import ListNotations.

(** A wait() or tryWait() that took a token has returned. *)
Definition passes (e : tevent wop wres) : bool :=
  match e with TRes _ (WWaited true) | TRes _ (WTried true) => true | _ => false end.
(** A post() has returned with success. *)
Definition posts (e : tevent wop wres) : bool :=
  match e with TRes _ (WPosted true) => true | _ => false end.
(** A post() has been called. *)
Definition calls_post (e : tevent wop wres) : bool :=
  match e with TInv _ WPost => true | _ => false end.
Definition count_of (f : tevent wop wres -> bool) (h : list (tevent wop wres)) : nat :=
  length (filter f h).

(** Nobody is in a call. *)
Definition all_idle (c : tconfig wsem wpc) : Prop := forall t, tc_threads c t = None.

(** What the next call of a thread does when nobody else is in one and [free] tokens of [v] are
    there. *)
Definition next_calls (v free : nat) (c : tconfig wsem wpc) (t : nat) : Prop :=
  snd (wrun c [TCall t WTryWait; TTick t; TTick t]) = [TInv t WTryWait; TRes t (WTried (1 <=? free))] /\
  snd (wrun c [TCall t WPost; TTick t; TTick t]) = [TInv t WPost; TRes t (WPosted (free <? v))] /\
  (1 <= free -> snd (wrun c [TCall t WWait; TTick t; TTick t]) = [TInv t WWait; TRes t (WWaited true)]) /\
  (free = 0 -> forall n, snd (wrun c (TCall t WWait :: repeat (TTick t) n)) = [TInv t WWait]).

(** A call on a semaphore that was made with the value 0: it fails. *)
Definition fails (e : tevent wop wres) : Prop :=
  match e with
  | TRes _ (WWaited ok) | TRes _ (WTried ok) | TRes _ (WPosted ok) => ok = false
  | _ => True
  end.
