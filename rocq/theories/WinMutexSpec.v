(** Vocabulary for the theorems about mutexes on Windows. *)
From Coq Require Import List Arith ZArith Bool.
From Verif Require Import Base WinLockModel WinMutexModel.
Import ListNotations.

(** * One Mutex and many threads *)

(** The threads that hold the mutex, from what they called and what was returned. *)
Definition holders_after (hs : list nat) (e : tevent mop mres) : list nat :=
  match e with
  | TRes t MLocked | TRes t (MTried true) => t :: hs
  | TInv t MUnlock => remove Nat.eq_dec t hs
  | _ => hs
  end.
Definition holders (hs : list nat) (h : list (tevent mop mres)) : list nat := fold_left holders_after h hs.

(** unlock() is called only by a thread that holds the mutex, and nobody deletes the object. *)
Definition allowed (hs : list nat) (e : tevent mop mres) : Prop :=
  match e with
  | TInv t MUnlock => In t hs
  | TInv t MDelete => False
  | _ => True
  end.
Fixpoint fair_use (hs : list nat) (h : list (tevent mop mres)) : Prop :=
  match h with
  | [] => True
  | e :: h => allowed hs e /\ fair_use (holders_after hs e) h
  end.

(** Nobody but [t] is inside a call, except for threads that wait in lock(). *)
Definition only (c : tconfig wmutex mpc) (t : nat) : Prop :=
  forall u, u <> t -> tc_threads c u = None \/ tc_threads c u = Some (mstart MLock).

(** * Calls that are made one after the other: the status *)

Definition mcomplete (call : nat * mop) : list (tmove mop) :=
  TCall (fst call) (snd call) :: repeat (TTick (fst call)) 2.

(** What the status of a Mutex should be after a call that returned, by the state before. *)
Definition expected_status (held : bool) (o : mop) (status : Z) : Z :=
  match o with
  | MLock => 0
  | MTryLock => status
  | MUnlock => if held then 0%Z else (-298)%Z
  | MGetStatus | MDelete => status
  end.

Definition held_after (held : bool) (o : mop) : bool :=
  match o with MLock | MTryLock => true | MUnlock => false | _ => held end.
Fixpoint statuses (held : bool) (status : Z) (calls : list (nat * mop)) : list (tevent mop mres) :=
  match calls with
  | [] => []
  | (t, o) :: calls =>
      TInv t o :: TRes t (match o with
                          | MLock => MLocked
                          | MTryLock => MTried (negb held)
                          | MUnlock => MUnlocked
                          | MGetStatus => MStatusIs status
                          | MDelete => MDeleted
                          end)
      :: statuses (held_after held o) (expected_status held o status) calls
  end.
Fixpoint sequential (held : bool) (calls : list (nat * mop)) : Prop :=
  match calls with
  | [] => True
  | (t, o) :: calls => (o = MLock -> held = false) /\ o <> MDelete /\ sequential (held_after held o) calls
  end.

(** * The life of the objects *)

(** The variables that hold an object. *)
Definition alive_after (live : nat -> bool) (c : xcall) : nat -> bool :=
  match c with
  | XNew v _ _ _ | XMove v _ => set live v true
  | XDelete v => set live v false
  | _ => live
  end.
Definition can_call (live : nat -> bool) (c : xcall) : Prop :=
  match c with
  | XNew v _ _ _ => live v = false
  | XMove v p => live v = false /\ live p = true
  | XAssign v p => live v = true /\ live p = true
  | XAcquire v | XTry v | XRelease v | XGetStatus v | XDelete v => live v = true
  | XForeignOpen _ | XForeignClose _ => True
  end.
Fixpoint proper (live : nat -> bool) (h : list xcall) : Prop :=
  match h with
  | [] => True
  | c :: h => can_call live c /\ proper (alive_after live c) h
  end.

(** Which objects have been moved away and got nothing since. *)
Definition moved_after (moved : nat -> bool) (c : xcall) : nat -> bool :=
  match c with
  | XNew v _ _ _ => set moved v false
  | XMove v p | XAssign v p => set (set moved v (moved p)) p true
  | _ => moved
  end.
(** Assignments only to objects that have been moved away. *)
Fixpoint assigns_empty (moved : nat -> bool) (h : list xcall) : Prop :=
  match h with
  | [] => True
  | c :: h =>
      match c with XAssign v _ => moved v = true | _ => True end /\ assigns_empty (moved_after moved c) h
  end.

(** The semaphores of the system are exactly those that the objects have, one each. *)
Definition one_each (s : xstate) : Prop :=
  (forall n, (exists c m, xs_kernel s n = Some (Sem c m)) <->
             (exists v st, xs_vars s v = Some (XLock (Handle n) st))) /\
  (forall v w n st st', xs_vars s v = Some (XLock (Handle n) st) ->
                        xs_vars s w = Some (XLock (Handle n) st') -> v = w).

(** * Mutexes of PKCS#11 *)

(** Each mutex is free or taken ([true]). What a module expects according to the standard, if
    the system can make mutexes: [None] when the standard asks for another value than CKR_OK. *)
Definition pk_state := nat -> option bool.
Definition pk_step (s : pk_state) (c : ccall) : option (pk_state * cres) :=
  match c with
  | CCreate false _ _ => Some (s, Some (ARGUMENTS_BAD, None))
  | CCreate true None _ => Some (s, Some (HOST_MEMORY, None))
  | CCreate true (Some a) None =>
      match s a with
      | Some _ => Some (s, Some (HOST_MEMORY, None))
      | None => Some (set s a (Some false), Some (OK, Some a))
      end
  | CCreate true (Some a) (Some e) => None
  | CDestroy None | CLock None | CUnlock None => Some (s, Some (ARGUMENTS_BAD, None))
  | CDestroy (Some a) =>
      match s a with Some _ => Some (set s a None, Some (OK, None)) | None => None end
  | CLock (Some a) =>
      match s a with
      | Some false => Some (set s a (Some true), Some (OK, None))
      | Some true => Some (s, None)                          (* it waits *)
      | None => None
      end
  | CUnlock (Some a) =>
      match s a with
      | Some true => Some (set s a (Some false), Some (OK, None))
      | _ => None                                            (* CKR_MUTEX_NOT_LOCKED, CKR_MUTEX_BAD *)
      end
  end.
Fixpoint pk_run (s : pk_state) (l : list ccall) : option (pk_state * list cres) :=
  match l with
  | [] => Some (s, [])
  | c :: l =>
      match pk_step s c with
      | None => None
      | Some (s, r) => match pk_run s l with None => None | Some (s, rs) => Some (s, r :: rs) end
      end
  end.

(** * A Mutex that the system could not make *)

(** The answers to calls made one after the other; [status]: what the status is before. *)
Fixpoint broken_answers (status : Z) (calls : list (nat * mop)) : list (tevent mop mres) :=
  match calls with
  | [] => []
  | (t, o) :: calls =>
      TInv t o :: TRes t (match o with
                          | MLock => MLocked
                          | MTryLock => MTried false
                          | MUnlock => MUnlocked
                          | MGetStatus => MStatusIs status
                          | MDelete => MDeleted
                          end)
      :: broken_answers (match o with MGetStatus | MDelete => status | _ => (-6)%Z end) calls
  end.

Definition deletes (e : tevent mop mres) : Prop := exists t, e = TInv t MDelete.
