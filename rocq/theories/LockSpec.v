(** What is said about threads and scopes. *)
From Coq Require Import List Arith.
From Verif Require Import Base LockModel.
Import ListNotations.

(** The number of scopes guarded by the lock [l] that thread [t] is inside of. *)
Definition open_scopes (c : locks) (t l : nat) : nat :=
  length (filter (fun k => k_data k =? l) (t_scopes (k_threads c t))).

Definition inside (c : locks) (t l : nat) : Prop := open_scopes c t l <> 0.

(** Nobody is inside a scope guarded by [l], nor entering or leaving one. *)
Definition all_out (c : locks) (l : nat) : Prop :=
  forall t, ~ inside c t l /\ t_task (k_threads c t) = Running.

(** Scopes of all the listed threads together. *)
Definition open_by (c : locks) (ts : list nat) (l : nat) : nat :=
  list_sum (map (fun t => open_scopes c t l) ts).

Definition interrupts (mv : lmove) : Prop := match mv with Interrupt _ => True | _ => False end.

(** The thread is about to write the status of [l]. *)
Definition writes_status (c : locks) (t l : nat) : Prop :=
  match t_task (k_threads c t) with
  | Taken l' _ | Given l' _ => l' = l
  | _ => False
  end.

(** The thread waits for a lock that is not free. *)
Definition blocked (c : locks) (t : nat) : Prop :=
  exists l, t_task (k_threads c t) = Waiting l /\ l_count (k_locks c l) = 0.

(** Every thread opens a scope only while its open scopes are guarded by smaller locks. *)
Fixpoint ordered (c : locks) (moves : list lmove) : Prop :=
  match moves with
  | [] => True
  | mv :: moves =>
      match mv with
      | Enter t l => forall l', inside c t l' -> l' < l
      | _ => True
      end /\ forall c', lstep c mv = Ok c' -> ordered c' moves
  end.
