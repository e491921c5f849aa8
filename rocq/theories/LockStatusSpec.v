(** What the status of a lock should be; independent of the model of the functions. *)
From Coq Require Import List Arith ZArith.
From Verif Require Import LockObjectModel LockStatusModel.
Import ListNotations.

(** Zero for success, else minus the number of the error. *)
Definition minus_error (a : answer) : Z := match an_error a with None => 0%Z | Some e => (- e)%Z end.

(** Did one of the two calls of a constructor fail? The first failure counts. A Spin or Semaphore makes only
    the second call. *)
Definition first_failure (k : lkind) (attr obj : answer) : answer :=
  match k, an_error attr with KMutex, Some _ => attr | _, _ => obj end.

(** The answer of the last call that concerns the status of [v] in a history, the last call first: a
    construction, lock, unlock, wait, post, and an attempt that failed with something other than "it is
    locked". *)
Fixpoint last_answer (k : lkind) (v : nat) (busy : Z) (rev_h : list scall) : option answer :=
  match rev_h with
  | [] => None
  | SNew u attr obj :: h => if u =? v then Some (first_failure k attr obj) else last_answer k v busy h
  | SLock u a :: h | SUnlock u a :: h => if u =? v then Some a else last_answer k v busy h
  | STry u a :: h =>
      if u =? v then
        match an_error a with
        | Some e => if (e =? busy)%Z then last_answer k v busy h else Some a
        | None => last_answer k v busy h
        end
      else last_answer k v busy h
  end.

(** The error that says that the lock is taken. *)
Definition busy_error (k : lkind) : Z := match k with KSem => EAGAIN | _ => EBUSY end.

(** Errors are positive numbers. *)
Definition real (a : answer) : Prop := forall e, an_error a = Some e -> (0 < e)%Z.
(** The error is also in errno. *)
Definition in_errno (a : answer) : Prop := forall e, an_error a = Some e -> an_errno a = e.
(** After a failure errno is not 0. *)
Definition some_errno (a : answer) : Prop := forall e, an_error a = Some e -> (0 < an_errno a)%Z.
(** The errors POSIX lists for sem_trywait. *)
Definition listed (a : answer) : Prop :=
  forall e, an_error a = Some e -> e = EAGAIN \/ e = EDEADLK \/ e = EINTR \/ e = EINVAL.

(** The answers of a history that sets [c] satisfies [P] (constructors, lock, unlock) and [T] (attempts). *)
Definition answers (P T : answer -> Prop) (c : scall) : Prop :=
  match c with
  | SNew _ attr obj => P attr /\ P obj
  | SLock _ a | SUnlock _ a => P a
  | STry _ a => T a
  end.

(** Objects are constructed before they are used. *)
Fixpoint constructed (alive : nat -> bool) (h : list scall) : Prop :=
  match h with
  | [] => True
  | SNew v _ _ :: h => constructed (lset alive v true) h
  | SLock v _ :: h | SUnlock v _ :: h | STry v _ :: h => alive v = true /\ constructed alive h
  end.
