(** UniqueLocker on Spin, Mutex and Semaphore.

    Source: /repo/include/FlameIDE/Os/Threads/Utils.hpp 52-115 and
    /repo/src/Os/Threads/Utils.cpp 73-282. A history is a list of calls in the order in which
    they complete, each made by some thread; a call that would have to wait for the lock is
    [Diverge] (a history in which it completes has it later in the list). Signals during a
    wait are not part of this model (see LockModel.v for them). *)
From Coq Require Import List Arith ZArith.
From Verif Require Import Base LockModel.
Import ListNotations.

(** The members of UniqueLocker, Utils.hpp 109-114. The four callbacks are set together and
    always for the same kind of lock: [q_callbacks], None for nullptr. *)
Record ulocker := ULocker { q_callbacks : option lock_kind; q_data : option nat; q_locked : bool }.

(** Variables of type UniqueLocker (None: not constructed), the locks, and how often each lock was
    acquired and released so far. Of the model. *)
Record uworld := UWorld {
  w_vars : list (option ulocker); w_locks : nat -> lock;
  w_acquired : nat -> nat; w_released : nat -> nat }.

(** Of the model: access to a variable; one that is not constructed: undefined. *)
Definition get_var (w : uworld) (v : nat) : outcome ulocker :=
  match nth_error (w_vars w) v with
  | Some (Some q) => Ok q
  | _ => UB
  end.

(** Of the model: a change of one variable. *)
Definition put_var (w : uworld) (v : nat) (q : option ulocker) : uworld :=
  UWorld (upd (w_vars w) v q) (w_locks w) (w_acquired w) (w_released w).

(** Of the model: counts one more. *)
Definition bump (f : nat -> nat) (l : nat) : nat -> nat := set_at f l (S (f l)).

(** callbackLock(data): lockSemaphore, lockMutex, lockSpin, Utils.cpp 235-248; these assign the
    status of the lock. *)
Definition callback_lock (w : uworld) (t : nat) (q : ulocker) : outcome uworld :=
  match q_callbacks q, q_data q with
  | Some k, Some l =>
      match acquire (w_locks w l) t with
      | None => Diverge
      | Some x =>
          Ok (UWorld (w_vars w) (set_at (w_locks w) l (set_status x SUCCESS))
                     (bump (w_acquired w) l) (w_released w))
      end
  | _, _ => UB
  end.

(** callbackTryLock(data): Utils.cpp 252-265, Spin.cpp 63-76, Mutex.cpp 62-74, Semaphore.cpp
    67-82: success or busy; the status is not changed by either. *)
Definition callback_try (w : uworld) (t : nat) (q : ulocker) : outcome (uworld * bool) :=
  match q_callbacks q, q_data q with
  | Some k, Some l =>
      match acquire (w_locks w l) t with
      | None => Ok (w, false)
      | Some x =>
          Ok (UWorld (w_vars w) (set_at (w_locks w) l x) (bump (w_acquired w) l) (w_released w), true)
      end
  | _, _ => UB
  end.

(** callbackUnlock(data): Utils.cpp 218-231. *)
Definition callback_unlock (w : uworld) (t : nat) (q : ulocker) : outcome uworld :=
  match q_callbacks q, q_data q with
  | Some k, Some l =>
      let! x := release k (w_locks w l) t in
      Ok (UWorld (w_vars w) (set_at (w_locks w) l (set_status x SUCCESS))
                 (w_acquired w) (bump (w_released w) l))
  | _, _ => UB
  end.

(** getStatus, Utils.cpp 181-184. *)
Definition get_status (w : uworld) (q : ulocker) : outcome Z :=
  match q_callbacks q, q_data q with
  | Some k, Some l => Ok (l_status (w_locks w l))
  | _, _ => UB
  end.

(** What a call returns. Utils.hpp 86-99 (include/FlameIDE/Os/Threads). *)
Inductive uresult := RNothing | RBool (b : bool) | RStatus (s : Z).

(** lock, Utils.cpp 186-191. *)
Definition u_lock (w : uworld) (t v : nat) : outcome (uworld * uresult) :=
  let! q := get_var w v in
  let! w := callback_lock w t q in
  let q := ULocker (q_callbacks q) (q_data q) true in
  let w := put_var w v (Some q) in
  let! s := get_status w q in
  Ok (w, RStatus s).

(** tryLock, Utils.cpp 193-198. *)
Definition u_tryLock (w : uworld) (t v : nat) : outcome (uworld * uresult) :=
  let! q := get_var w v in
  if q_locked q then Ok (w, RBool true)
  else
    let! r := callback_try w t q in
    Ok (put_var (fst r) v (Some (ULocker (q_callbacks q) (q_data q) (snd r))), RBool (snd r)).

(** unlock, Utils.cpp 200-205. *)
Definition u_unlock (w : uworld) (t v : nat) : outcome (uworld * uresult) :=
  let! q := get_var w v in
  let! w := callback_unlock w t q in
  let q := ULocker (q_callbacks q) (q_data q) false in
  let w := put_var w v (Some q) in
  let! s := get_status w q in
  Ok (w, RStatus s).

(** The destructor, Utils.cpp 156-160; the variable is gone afterwards. *)
Definition u_destroy (w : uworld) (t v : nat) : outcome uworld :=
  let! q := get_var w v in
  let! w := (if q_locked q then let! r := u_unlock w t v in Ok (fst r) else Ok w) in
  Ok (put_var w v None).

(** UniqueLocker(Semaphore &), (Mutex &), (Spin &), Utils.cpp 78-84, 104-110, 130-136: the
    callbacks for the kind of the lock; locked is false (Utils.hpp 114). *)
Definition u_make (k : lock_kind) (l : nat) : ulocker :=
  match k with
  | KSemaphore => ULocker (Some KSemaphore) (Some l) false
  | KMutex => ULocker (Some KMutex) (Some l) false
  | KSpin => ULocker (Some KSpin) (Some l) false
  end.

(** operator=(UniqueLocker &&), Utils.cpp 162-179: this and source are read as they stand, so
    that [v] and [p] may be the same variable. Line 176 assigns [locked], not
    [locker.locked]. *)
Definition u_move_assign (w : uworld) (v p : nat) : outcome uworld :=
  let! q := get_var w v in
  let! s := get_var w p in
  let w := put_var w v (Some (ULocker (q_callbacks s) (q_data s) (q_locked s))) in
  let! s := get_var w p in
  let w := put_var w p (Some (ULocker None None (q_locked s))) in
  let! q := get_var w v in
  Ok (put_var w v (Some (ULocker (q_callbacks q) (q_data q) false))).

(** The tags of the constructors: none, LOCK, TRY_LOCK, UNLOCK, Utils.hpp 60-62. *)
Inductive how := Plain | WithLock | WithTry | WithUnlock.

(** The calls: the constructors, Utils.cpp 73-154, the destructor, 156-160, the assignments,
    162-179 and Utils.hpp, lock, tryLock, unlock and getStatus, 181-205. *)
Inductive ucall :=
| UNew (v l : nat) (h : how)
| UCopy (v p : nat)          (* UniqueLocker v(p) *)
| UMove (v p : nat)          (* UniqueLocker v(move(p)) *)
| UCopyAssign (v p : nat)    (* v = p *)
| UMoveAssign (v p : nat)    (* v = move(p) *)
| ULock (v : nat)
| UTryLock (v : nat)
| UUnlock (v : nat)
| UStatus (v : nat)
| UDestroy (v : nat).

(** A place for a new variable. Of the model. *)
Definition fresh (w : uworld) (v : nat) : outcome unit :=
  match nth_error (w_vars w) v with
  | Some None => Ok tt
  | _ => UB
  end.

(** One call by thread [t]. The constructors with a tag, Utils.cpp 86-102, 112-128, 138-154,
    delegate to the plain one and call lock, tryLock or unlock. For the constructor with
    TRY_LOCK the result is what tryLock returned, although the constructor has no result. The
    copy constructor and assignment are defaulted, Utils.hpp 66, 86. The move constructor,
    Utils.cpp 73-76, calls the assignment on the members' initial values, Utils.hpp 109-114. *)
Definition ustep (w : uworld) (t : nat) (c : ucall) : outcome (uworld * uresult) :=
  match c with
  | UNew v l h =>
      let! _ := fresh w v in
      let w := put_var w v (Some (u_make (l_kind (w_locks w l)) l)) in
      match h with
      | Plain => Ok (w, RNothing)
      | WithLock => let! r := u_lock w t v in Ok (fst r, RNothing)
      | WithTry => u_tryLock w t v
      | WithUnlock => let! r := u_unlock w t v in Ok (fst r, RNothing)
      end
  | UCopy v p =>
      let! _ := fresh w v in
      let! q := get_var w p in
      Ok (put_var w v (Some q), RNothing)
  | UMove v p =>
      let! _ := fresh w v in
      let w := put_var w v (Some (ULocker None None false)) in
      let! w := u_move_assign w v p in
      Ok (w, RNothing)
  | UCopyAssign v p =>
      let! _ := get_var w v in
      let! q := get_var w p in
      Ok (put_var w v (Some q), RNothing)
  | UMoveAssign v p => let! w := u_move_assign w v p in Ok (w, RNothing)
  | ULock v => u_lock w t v
  | UTryLock v => u_tryLock w t v
  | UUnlock v => u_unlock w t v
  | UStatus v => let! q := get_var w v in let! s := get_status w q in Ok (w, RStatus s)
  | UDestroy v => let! w := u_destroy w t v in Ok (w, RNothing)
  end.

(** A history of calls by threads, and what they returned. Of the model. *)
Fixpoint urun (w : uworld) (h : list (nat * ucall)) : outcome (uworld * list uresult) :=
  match h with
  | [] => Ok (w, [])
  | (t, c) :: h =>
      let! r := ustep w t c in
      let! s := urun (fst r) h in
      Ok (fst s, snd r :: snd s)
  end.

(** [n] variables, not yet constructed; all locks free. Of the model. *)
Definition u_start (n : nat) (kinds : nat -> lock_kind) (values : nat -> nat) : uworld :=
  UWorld (repeat None n) (fun l => lock_new (kinds l) (values l)) (fun _ => 0) (fun _ => 0).
