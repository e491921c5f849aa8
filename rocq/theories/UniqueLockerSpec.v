(** Who is responsible for which lock, as the user of UniqueLocker sees it. *)
From Coq Require Import List Arith Bool.
From Verif Require Import Base LockModel UniqueLockerModel.
Import ListNotations.

(** A variable does not exist, was moved from, or belongs to a lock; and if it has locked it,
    the thread that did so. *)
Inductive duty := Gone | Empty | For (l : nat) (by_ : option nat).

Definition duty_of (s : list duty) (v : nat) : duty := nth v s Gone.

(** What a call by thread [t] with result [r] changes. *)
Definition duty_step (s : list duty) (t : nat) (c : ucall) (r : uresult) : list duty :=
  match c with
  | UNew v l Plain | UNew v l WithUnlock => upd s v (For l None)
  | UNew v l WithLock => upd s v (For l (Some t))
  | UNew v l WithTry =>
      upd s v (For l (match r with RBool true => Some t | _ => None end))
  | UCopy v p | UCopyAssign v p => upd s v (duty_of s p)
  | UMove v p | UMoveAssign v p => upd (upd s v (duty_of s p)) p Empty
  | ULock v =>
      match duty_of s v with For l _ => upd s v (For l (Some t)) | _ => s end
  | UTryLock v =>
      match duty_of s v, r with
      | For l None, RBool true => upd s v (For l (Some t))
      | _, _ => s
      end
  | UUnlock v =>
      match duty_of s v with For l _ => upd s v (For l None) | _ => s end
  | UStatus v => s
  | UDestroy v => upd s v Gone
  end.

(** Proper use: no copies; only lockers that have not locked are moved, and onto such ones;
    lock is called when not locked, unlock when locked; a locked locker is unlocked and
    destroyed by the thread that locked it. *)
Definition duty_proper (s : list duty) (t : nat) (c : ucall) : Prop :=
  match c with
  | UNew v l h => v < length s /\ duty_of s v = Gone /\ h <> WithUnlock
  | UCopy _ _ | UCopyAssign _ _ => False
  | UMove v p => v < length s /\ duty_of s v = Gone /\ exists l, duty_of s p = For l None
  | UMoveAssign v p =>
      v <> p /\ (duty_of s v = Empty \/ exists l, duty_of s v = For l None) /\
      (exists l, duty_of s p = For l None)
  | ULock v => exists l, duty_of s v = For l None
  | UTryLock v => exists l b, duty_of s v = For l b
  | UUnlock v => exists l, duty_of s v = For l (Some t)
  | UStatus v => exists l b, duty_of s v = For l b
  | UDestroy v =>
      duty_of s v = Empty \/ (exists l, duty_of s v = For l None) \/
      (exists l, duty_of s v = For l (Some t))
  end.

Fixpoint duty_run (s : list duty) (h : list (nat * ucall)) (rs : list uresult) : list duty :=
  match h, rs with
  | (t, c) :: h, r :: rs => duty_run (duty_step s t c r) h rs
  | _, _ => s
  end.

(** Every call is proper, given the results of the calls before it. *)
Definition duties_proper (n : nat) (kinds : nat -> lock_kind) (values : nat -> nat)
  (h : list (nat * ucall)) : Prop :=
  forall h1 t c h2 w rs, h = h1 ++ (t, c) :: h2 ->
    urun (u_start n kinds values) h1 = Ok (w, rs) ->
    duty_proper (duty_run (repeat Gone n) h1 rs) t c.

(** The number of variables that have the duty to release [l]. *)
Definition owes (l : nat) (d : duty) : bool :=
  match d with For l' (Some _) => l' =? l | _ => false end.
Definition owed (s : list duty) (l : nat) : nat := length (filter (owes l) s).
