(** Who is responsible for which thread. *)
From Coq Require Import List Arith ZArith.
From Verif Require Import Base ThreadModel.
Import ListNotations.

(** [d_objects]: the thread objects that exist, each with the thread it has to join, if any.
    [d_bodies]: the threads that were started: the object the body works on, and how far it is. *)
Record duty := Duty { d_objects : nat -> option (option nat); d_bodies : list (nat * phase) }.

Definition duty_start : duty := Duty (fun _ => None) [].

Definition set_object (d : duty) (v : nat) (x : option (option nat)) : nat -> option (option nat) :=
  fun u => if u =? v then x else d_objects d u.

Definition advance (from to : phase) (b : nat * phase) : nat * phase :=
  match from, snd b with
  | NotBegun, NotBegun | Working, Working => (fst b, to)
  | _, _ => b
  end.
Definition update_body (f : nat * phase -> nat * phase) (n : nat) (l : list (nat * phase)) :=
  match nth_error l n with Some b => upd l n (f b) | None => l end.

Definition duty_step (d : duty) (c : tcall) : duty :=
  match c with
  | TNew v => Duty (set_object d v (Some None)) (d_bodies d)
  | TRun v _ _ =>
      Duty (set_object d v (Some (Some (length (d_bodies d))))) (d_bodies d ++ [(v, NotBegun)])
  | TMoveAssign v p =>
      Duty (set_object (Duty (set_object d v (d_objects d p)) (d_bodies d)) p (Some None)) (d_bodies d)
  | TDelete v =>
      (* waits for the end of the thread the object is responsible for *)
      Duty (set_object d v None)
        match d_objects d v with
        | Some (Some n) => update_body (fun b => (fst b, Ended)) n (d_bodies d)
        | _ => d_bodies d
        end
  | KBegin n => Duty (d_objects d) (update_body (advance NotBegun Working) n (d_bodies d))
  | KEnd n => Duty (d_objects d) (update_body (advance Working Ended) n (d_bodies d))
  | _ => d
  end.

(** No body that works on the object is still to end. *)
Definition quiet (d : duty) (v : nat) : Prop :=
  forall ph, In (v, ph) (d_bodies d) -> ph = Ended.

(** The histories in question: a thread is started at most once per object and successfully, is
    handed only to an object that has none, is never joined or detached explicitly, and no
    object is deleted while a body works on it. *)
Definition duty_proper (d : duty) (c : tcall) : Prop :=
  match c with
  | TNew v => d_objects d v = None
  | TRun v r1 r2 => d_objects d v = Some None /\ r1 = 0%Z /\ r2 = 0%Z
  | TMoveAssign v p => v <> p /\ d_objects d v = Some None /\ d_objects d p <> None
  | TIsWorking v _ => exists n, d_objects d v = Some (Some n)
  | TGetStatus v => d_objects d v <> None
  | TDelete v => d_objects d v <> None /\ quiet d v
  | KBegin _ | KEnd _ => True
  | TMove _ _ | TJoin _ | TDetach _ => False
  end.

Fixpoint duties (d : duty) (h : list tcall) : duty :=
  match h with
  | [] => d
  | c :: h => duties (duty_step d c) h
  end.
Fixpoint all_proper (d : duty) (h : list tcall) : Prop :=
  match h with
  | [] => True
  | c :: h => duty_proper d c /\ all_proper (duty_step d c) h
  end.
