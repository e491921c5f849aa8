(** What every history of thread objects does, call by call. *)
From Coq Require Import List Arith ZArith Bool.
From Verif Require Import Base ThreadModel.
Import ListNotations.

(** A thread object: without a thread; responsible for a thread; it has joined its thread and
    still names it; a run() failed to create the thread. *)
Inductive holding := Without | Owns (n : nat) | Joined | Broken.

(** [x_objects]: the objects that exist, and what getStatus() answers for each. [x_threads]: the
    threads started so far: the object the body works on, how far it is, and whether it was
    joined or detached. [x_lost]: the threads for which no object is responsible any more
    although nobody joined or detached them. *)
Record account := Account {
  x_objects : nat -> option (holding * Z);
  x_threads : list (nat * phase * bool);
  x_lost : list nat
}.

Definition x_start : account := Account (fun _ => None) [] [].

Definition x_put (x : account) (v : nat) (o : option (holding * Z)) : account :=
  Account (fun u => if u =? v then o else x_objects x u) (x_threads x) (x_lost x).
(** The thread [n] goes on to [ph]; [r]: joined or detached. *)
Definition x_thread (x : account) (n : nat) (ph : phase) (r : bool) : account :=
  match nth_error (x_threads x) n with
  | Some (v, _, _) => Account (x_objects x) (upd (x_threads x) n (v, ph, r)) (x_lost x)
  | None => x
  end.
(** The object gives up what it holds. *)
Definition x_lose (x : account) (h : holding) : account :=
  match h with
  | Owns n => Account (x_objects x) (x_threads x) (n :: x_lost x)
  | _ => x
  end.
Definition x_phase (x : account) (n : nat) : phase :=
  match nth_error (x_threads x) n with Some (_, ph, _) => ph | None => Ended end.
Definition x_released (x : account) (n : nat) : bool :=
  match nth_error (x_threads x) n with Some (_, _, r) => r | None => true end.
(** Some body has still to work on the object. *)
Definition x_busy (x : account) (v : nat) : bool :=
  existsb (fun t => match t with
                    | (_, Ended, _) => false
                    | (u, _, _) => u =? v
                    end) (x_threads x).
(** A thread is started on the object [v]. *)
Definition x_started (x : account) (v : nat) : account :=
  x_put (Account (x_objects x) (x_threads x ++ [(v, NotBegun, false)]) (x_lost x))
    v (Some (Owns (length (x_threads x)), 0%Z)).

(** [None]: the behaviour is undefined. [az], [le]: the choices of the system (ThreadModel);
    [errno]: the value of errno, which the thread functions do not set. *)
Definition x_step (az le : bool) (errno : Z) (x : account) (c : tcall) : option (account * option Z) :=
  match c with
  | TNew v =>
      match x_objects x v with
      | None => Some (x_put x v (Some (Without, 0%Z)), None)
      | Some _ => None
      end
  | TMove _ _ => None
  | TMoveAssign v p =>
      match x_objects x v, x_objects x p with
      | Some (Broken, _), _ => None
      | Some (h, _), Some o => Some (x_put (x_put (x_lose x h) v (Some o)) p (Some (Without, 0%Z)), None)
      | _, _ => None
      end
  | TRun v init create =>
      let created :=
        if (create =? 0)%Z then x_started x v else x_put x v (Some (Broken, (- errno)%Z)) in
      match x_objects x v with
      | Some (Without, _) =>
          if (init =? 0)%Z then Some (created, None)
          else if (errno =? 0)%Z then None
          else Some (x_put x v (Some (Without, (- errno)%Z)), None)
      | Some (Owns n, _) => Some (x_lose created (Owns n), None)
      | Some (Joined, _) => Some (created, None)
      | _ => None
      end
  | TJoin v =>
      match x_objects x v with
      | Some (Owns n, _) => Some (x_put (x_thread x n Ended true) v (Some (Joined, 0%Z)), None)
      | _ => None
      end
  | TDetach v =>
      match x_objects x v with
      | Some (Owns n, _) =>
          if (az || le)%bool
          then Some (x_put (x_thread x n (x_phase x n) true) v (Some (Without, 0%Z)), None)
          else None
      | _ => None
      end
  | TIsWorking v r =>
      match x_objects x v with
      | Some (Owns n, _) =>
          Some (x, Some (match x_phase x n with
                         | Ended => if (r =? 0)%Z then 1%Z else 0%Z
                         | _ => 1%Z
                         end))
      | _ => None
      end
  | TGetStatus v =>
      match x_objects x v with Some (_, st) => Some (x, Some st) | None => None end
  | TDelete v =>
      if x_busy x v then None
      else
        match x_objects x v with
        | Some (Without, _) => Some (x_put x v None, None)
        | Some (Owns n, _) => Some (x_put (x_thread x n Ended true) v None, None)
        | _ => None
        end
  | KBegin n =>
      Some (match x_phase x n with
            | NotBegun => x_thread x n Working (x_released x n)
            | _ => x
            end, None)
  | KEnd n =>
      Some (match x_phase x n with
            | Working => x_thread x n Ended (x_released x n)
            | _ => x
            end, None)
  end.

Fixpoint x_steps (az le : bool) (errno : Z) (x : account) (h : list tcall)
  : option (account * list (option Z)) :=
  match h with
  | [] => Some (x, [])
  | c :: h =>
      match x_step az le errno x c with
      | None => None
      | Some (x, r) =>
          match x_steps az le errno x h with
          | None => None
          | Some (x, rs) => Some (x, r :: rs)
          end
      end
  end.
