(** What tuples are for: a tuple is a list of values, one for each type. *)
From Coq Require Import List Arith Bool.
From Verif Require Import Base TupleModel.
Import ListNotations.

Section Spec.
  Context {V : Type}.
  Variable mv : V -> V.

  (** The tuples of the program (None: no such variable now) and its named objects. *)
  Record tspec := TS { ts_tuples : list (option (list V)); ts_objects : nat -> V }.
  Definition ts_start (n : nat) (objects : nat -> V) : tspec := TS (repeat None n) objects.

  Definition ts_put (s : tspec) (v : nat) (l : option (list V)) : tspec :=
    TS (upd (ts_tuples s) v l) (ts_objects s).
  Definition ts_at (s : tspec) (v : nat) : option (list V) :=
    match nth_error (ts_tuples s) v with Some (Some l) => Some l | _ => None end.
  Definition ts_free (s : tspec) (v : nat) : bool :=
    match nth_error (ts_tuples s) v with Some None => true | _ => false end.

  Fixpoint distinct (ps : list nat) : bool :=
    match ps with
    | [] => true
    | p :: ps => negb (existsb (Nat.eqb p) ps) && distinct ps
    end.

  (** None: a call that the language does not allow, or that has no meaning. *)
  Definition ts_step (s : tspec) (c : tcall V) : option (tspec * option V) :=
    match c with
    | TNew v xs => if ts_free s v then Some (ts_put s v (Some xs), None) else None
    | TFrom v ps =>
        if ts_free s v then Some (ts_put s v (Some (map (ts_objects s) ps)), None) else None
    | TFromMove v ps =>
        if ts_free s v && distinct ps then
          Some (TS (upd (ts_tuples s) v (Some (map (ts_objects s) ps)))
                   (fun q => if existsb (Nat.eqb q) ps then mv (ts_objects s q) else ts_objects s q), None)
        else None
    | TCopy v u =>
        match ts_free s v, ts_at s u with
        | true, Some l => Some (ts_put s v (Some l), None)
        | _, _ => None
        end
    | TMove v u =>
        match ts_free s v, ts_at s u with
        | true, Some l => Some (ts_put (ts_put s v (Some l)) u (Some (map mv l)), None)
        | _, _ => None
        end
    | TAssign v u =>
        match ts_at s v, ts_at s u with
        | Some l, Some l' => if length l =? length l' then Some (ts_put s v (Some l'), None) else None
        | _, _ => None
        end
    | TMoveAssign v u =>
        match ts_at s v, ts_at s u with
        | Some l, Some l' =>
            if (length l =? length l') && negb (v =? u)
            then Some (ts_put (ts_put s v (Some l')) u (Some (map mv l')), None) else None
        | _, _ => None
        end
    | TGet v i =>
        match ts_at s v with
        | Some l => match nth_error l i with Some x => Some (s, Some x) | None => None end
        | None => None
        end
    | TSet v i x =>
        match ts_at s v with
        | Some l => if i <? length l then Some (ts_put s v (Some (upd l i x)), None) else None
        | None => None
        end
    | TDelete v =>
        match ts_at s v with
        | Some l => Some (ts_put s v None, None)
        | None => None
        end
    end.
  Fixpoint ts_run (s : tspec) (h : list (tcall V)) : option (tspec * list (option V)) :=
    match h with
    | [] => Some (s, [])
    | c :: h =>
        match ts_step s c with
        | Some (s, r) =>
            match ts_run s h with
            | Some (s, rs) => Some (s, r :: rs)
            | None => None
            end
        | None => None
        end
    end.

  (** The number of values in all tuples. *)
  Fixpoint values_in (l : list (option (list V))) : nat :=
    match l with
    | [] => 0
    | Some x :: l => length x + values_in l
    | None :: l => values_in l
    end.
End Spec.
Arguments tspec : clear implicits.
