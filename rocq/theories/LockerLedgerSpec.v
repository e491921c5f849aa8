(** What becomes of every acquisition and every release of UniqueLockers, however they are used. *)
From Coq Require Import List Arith Bool.
From Verif Require Import Base LockModel UniqueLockerModel.
Import ListNotations.

(** What a variable is to its user: there is none; it was moved from (and may still believe that it
    is locked); or it is for the lock [l], and believes that it has locked it or not. Of the
    specification. *)
Inductive view := NoLocker | Emptied (believes : bool) | Guards (l : nat) (believes : bool).

Definition viewed (s : list view) (v : nat) : view := nth v s NoLocker.

(** A locker that is moved hands over the lock, but not that it is locked. *)
Definition handed_over (x : view) : view :=
  match x with
  | NoLocker => NoLocker
  | Emptied _ => Emptied false
  | Guards l _ => Guards l false
  end.
Definition left_behind (x : view) : view :=
  match x with
  | NoLocker => NoLocker
  | Emptied b | Guards _ b => Emptied b
  end.
Definition moved (s : list view) (v p : nat) : list view :=
  if v =? p then upd s v (Emptied false)
  else upd (upd s p (left_behind (viewed s p))) v (handed_over (viewed s p)).

(** What a call that returned [r] changes. *)
Definition view_step (s : list view) (c : ucall) (r : uresult) : list view :=
  match c with
  | UNew v l Plain | UNew v l WithUnlock => upd s v (Guards l false)
  | UNew v l WithLock => upd s v (Guards l true)
  | UNew v l WithTry => upd s v (Guards l (match r with RBool b => b | _ => false end))
  | UCopy v p | UCopyAssign v p => upd s v (viewed s p)
  | UMove v p => moved (upd s v (Emptied false)) v p
  | UMoveAssign v p => moved s v p
  | ULock v => match viewed s v with Guards l _ => upd s v (Guards l true) | _ => s end
  | UUnlock v => match viewed s v with Guards l _ => upd s v (Guards l false) | _ => s end
  | UTryLock v =>
      match viewed s v, r with
      | Guards l false, RBool b => upd s v (Guards l b)
      | _, _ => s
      end
  | UStatus _ => s
  | UDestroy v => upd s v NoLocker
  end.

Fixpoint views (s : list view) (h : list (nat * ucall)) (rs : list uresult) : list view :=
  match h, rs with
  | (_, c) :: h, r :: rs => views (view_step s c r) h rs
  | _, _ => s
  end.

(** Does the variable claim the lock [l]: will it be released by its destructor? *)
Definition claims (l : nat) (x : view) : bool :=
  match x with Guards l' true => l' =? l | _ => false end.
Definition one (b : bool) : nat := if b then 1 else 0.
Definition claim (s : list view) (v l : nat) : nat := one (claims l (viewed s v)).
(** How many do. *)
Definition claimed (s : list view) (l : nat) : nat := length (filter (claims l) s).

(** Acquisitions of [l] that a call makes everybody forget: a locked locker is moved from, or
    assigned over, or locked once more. *)
Definition forgotten_by (s : list view) (c : ucall) (l : nat) : nat :=
  match c with
  | UMove v p => if v =? p then 0 else claim s p l
  | UMoveAssign v p => claim s p l + (if v =? p then 0 else claim s v l)
  | UCopyAssign v p => claim s v l
  | ULock v => claim s v l
  | _ => 0
  end.

(** Releases of [l] too many that a call makes or prepares: a locked locker is copied, or what is not
    locked is unlocked. *)
Definition unfounded_by (s : list view) (c : ucall) (l : nat) : nat :=
  match c with
  | UCopy v p | UCopyAssign v p => claim s p l
  | UUnlock v =>
      match viewed s v with Guards l' false => one (l' =? l) | _ => 0 end
  | UNew v l' WithUnlock => one (l' =? l)
  | _ => 0
  end.

(** The sum over a history. *)
Fixpoint tally (f : list view -> ucall -> nat -> nat) (s : list view) (h : list (nat * ucall))
  (rs : list uresult) (l : nat) : nat :=
  match h, rs with
  | (_, c) :: h, r :: rs => f s c l + tally f (view_step s c r) h rs l
  | _, _ => 0
  end.

(** [k]: the kind of a lock, [x]: the lock now. Who may release it. *)
Definition may_release (k : lock_kind) (x : lock) (t : nat) : Prop :=
  k = KSemaphore \/ l_owner x = Some t.

(** The calls that go wrong: a variable that does not exist, or exists already; a locker that was
    moved from; a release of a mutex or a spin lock by a thread that does not have it. *)
Definition goes_wrong (kinds : nat -> lock_kind) (now : nat -> lock) (s : list view) (t : nat)
  (c : ucall) : Prop :=
  match c with
  | UNew v l h =>
      ~ (v < length s /\ viewed s v = NoLocker) \/
      (h = WithUnlock /\ ~ may_release (kinds l) (now l) t)
  | UCopy v p => ~ (v < length s /\ viewed s v = NoLocker) \/ viewed s p = NoLocker
  | UMove v p => ~ (v < length s /\ viewed s v = NoLocker) \/ (v <> p /\ viewed s p = NoLocker)
  | UCopyAssign v p | UMoveAssign v p => viewed s v = NoLocker \/ viewed s p = NoLocker
  | ULock v | UStatus v => forall l b, viewed s v <> Guards l b
  | UTryLock v => (forall l b, viewed s v <> Guards l b) /\ viewed s v <> Emptied true
  | UUnlock v =>
      (forall l b, viewed s v <> Guards l b) \/
      (exists l b, viewed s v = Guards l b /\ ~ may_release (kinds l) (now l) t)
  | UDestroy v =>
      viewed s v = NoLocker \/ viewed s v = Emptied true \/
      (exists l, viewed s v = Guards l true /\ ~ may_release (kinds l) (now l) t)
  end.

(** The calls that wait: lock() of what is not free. *)
Definition waits (now : nat -> lock) (s : list view) (c : ucall) : Prop :=
  match c with
  | UNew v l WithLock => v < length s /\ viewed s v = NoLocker /\ l_count (now l) = 0
  | ULock v => exists l b, viewed s v = Guards l b /\ l_count (now l) = 0
  | _ => False
  end.

(** What a call answers that returns: tryLock() whether the locker has its lock now; lock() and
    unlock() success; getStatus() the status of the lock. *)
Definition answer (now : nat -> lock) (s : list view) (c : ucall) : uresult :=
  match c with
  | UNew v l WithTry => RBool (1 <=? l_count (now l))
  | UTryLock v =>
      match viewed s v with
      | Guards l false => RBool (1 <=? l_count (now l))
      | _ => RBool true
      end
  | ULock v | UUnlock v => RStatus SUCCESS
  | UStatus v =>
      match viewed s v with
      | Guards l _ => RStatus (l_status (now l))
      | _ => RNothing
      end
  | _ => RNothing
  end.
