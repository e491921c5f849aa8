(** What the user of UniquePointer and SharedPointer expects. *)
From Coq Require Import List Arith ZArith Bool.
From Verif Require Import Base PointersModel.
Import ListNotations.

(** * UniquePointer

    For every pointer variable: [None] = does not exist, [Some None] = empty,
    [Some (Some x)] = owns an object with value [x]. *)
Definition uvars (A : Type) := list (option (option A)).

Section Unique.
  Context {A : Type}.

  Definition absent (s : uvars A) (p : nat) : Prop := nth_error s p = Some None.
  Definition present (s : uvars A) (p : nat) (c : option A) : Prop :=
    nth_error s p = Some (Some c).

  (** What is being called: constructors on variables that do not exist, everything else on
      variables that do. Moving a pointer onto itself is allowed. *)
  Definition u_documented (s : uvars A) (o : u_op A) : Prop :=
    match o with
    | UNew p _ | UEmpty p => absent s p
    | UMove p q => absent s p /\ exists c, present s q c
    | UAssign p q => (exists c, present s p c) /\ exists c, present s q c
    | UClean p | UDestroy p => exists c, present s p c
    end.

  Definition content (s : uvars A) (q : nat) : option A :=
    match nth_error s q with Some (Some c) => c | _ => None end.

  (** The effect: a moved-from pointer is empty; the content of [p] before an assignment is
      gone. Assigning a pointer to itself empties it. *)
  Definition u_spec (s : uvars A) (o : u_op A) : uvars A :=
    match o with
    | UNew p x => upd s p (Some (Some x))
    | UEmpty p => upd s p (Some None)
    | UMove p q => upd (upd s p (Some (content s q))) q (Some None)
    | UAssign p q =>
        if p =? q then upd s p (Some None)
        else upd (upd s p (Some (content s q))) q (Some None)
    | UClean p => upd s p (Some None)
    | UDestroy p => upd s p None
    end.

  Fixpoint u_ok (s : uvars A) (os : list (u_op A)) : Prop :=
    match os with
    | [] => True
    | o :: os' => u_documented s o /\ u_ok (u_spec s o) os'
    end.
  Definition u_result (s : uvars A) (os : list (u_op A)) : uvars A :=
    fold_left u_spec os s.
End Unique.

(** * SharedPointer

    Objects are named by their order of creation. For every pointer variable: [None] = does
    not exist, [Some None] = empty, [Some (Some o)] = one of the owners of [o]. *)
Record sspec (A : Type) := SS { ss_vars : list (option (option nat)); ss_vals : list A }.
Arguments SS {A}.
Arguments ss_vars {A}.
Arguments ss_vals {A}.

Section Shared.
  Context {A : Type}.

  Definition owns (s : sspec A) (p o : nat) : Prop :=
    nth_error (ss_vars s) p = Some (Some (Some o)).
  Definition exists_var (s : sspec A) (p : nat) : Prop :=
    exists c, nth_error (ss_vars s) p = Some (Some c).
  Definition free_var (s : sspec A) (p : nat) : Prop :=
    nth_error (ss_vars s) p = Some None.

  Definition is_owner (o : nat) (v : option (option nat)) : bool :=
    match v with Some (Some i) => i =? o | _ => false end.
  (** The number of owners of an object. *)
  Definition owners (s : sspec A) (o : nat) : nat :=
    length (filter (is_owner o) (ss_vars s)).

  Definition target (s : sspec A) (q : nat) : option nat :=
    match nth_error (ss_vars s) q with Some (Some c) => c | _ => None end.

  Definition s_spec (s : sspec A) (o : s_op A) : sspec A :=
    let v := ss_vars s in
    match o with
    | SDefault p => SS (upd v p (Some None)) (ss_vals s)
    | SNew p x => SS (upd v p (Some (Some (length (ss_vals s))))) (ss_vals s ++ [x])
    | SCopy p q => SS (upd v p (Some (target s q))) (ss_vals s)
    | SMove p q => SS (upd (upd v p (Some (target s q))) q (Some None)) (ss_vals s)
    | SAssign p q => SS (upd v p (Some (target s q))) (ss_vals s)
    | SMoveAssign p q => SS (upd (upd v p (Some (target s q))) q (Some None)) (ss_vals s)
    | SClean p => SS (upd v p (Some None)) (ss_vals s)
    | SDestroy p => SS (upd v p None) (ss_vals s)
    end.

  (** [p] exists and dropping what it refers to does not leave exactly one owner. *)
  Definition droppable (s : sspec A) (p : nat) : Prop :=
    exists_var s p /\ forall o, owns s p o -> owners s o <> 2.

  (** The calls covered by the positive theorem. Not covered: default construction, [clean]
      on an owner, copying an empty pointer, and dropping an owner when just one other
      remains. *)
  Definition s_covered (s : sspec A) (o : s_op A) : Prop :=
    match o with
    | SDefault p => False
    | SNew p _ => free_var s p
    | SCopy p q => free_var s p /\ exists o, owns s q o
    | SMove p q => free_var s p /\ exists_var s q
    | SAssign p q => droppable s p /\ exists o, owns s q o
    | SMoveAssign p q => droppable s p /\ exists_var s q
    | SClean p => nth_error (ss_vars s) p = Some (Some None)
    | SDestroy p => droppable s p
    end.

  Fixpoint s_ok (s : sspec A) (os : list (s_op A)) : Prop :=
    match os with
    | [] => True
    | o :: os' => s_covered s o /\ s_ok (s_spec s o) os'
    end.
  Definition s_result (s : sspec A) (os : list (s_op A)) : sspec A :=
    fold_left s_spec os s.
  Definition s_none (n : nat) : sspec A := SS (repeat None n) [].

  (** The object is there, undestroyed. *)
  Definition alive (w : sworld A) (o : nat) : Prop :=
    exists c x, nth_error (s_objs w) o = Some (Some (c, x)).
  Definition destroyed (w : sworld A) (o : nat) : Prop :=
    nth_error (s_objs w) o = Some None.
End Shared.

(** What does happen. Objects are named by their order of creation, with the value, or [None] if the object is
    destroyed; for every variable what it refers to. [None] as a result: the call has undefined behaviour. *)
Record xspec (A : Type) := XS { x_vars : list (option (option nat)); x_vals : list (option A) }.
Arguments XS {A}.
Arguments x_vars {A}.
Arguments x_vals {A}.

Section SharedExact.
  Context {A : Type}.

  Definition x_owners (s : xspec A) (o : nat) : nat := length (filter (is_owner o) (x_vars s)).
  Definition x_var (s : xspec A) (p : nat) : option (option (option nat)) := nth_error (x_vars s) p.
  Definition x_put (s : xspec A) (p : nat) (c : option (option nat)) : xspec A :=
    XS (upd (x_vars s) p c) (x_vals s).
  Definition x_live (s : xspec A) (o : nat) : bool :=
    match nth_error (x_vals s) o with Some (Some _) => true | _ => false end.

  (** A pointer lets go: if it was one of exactly two owners, the object is destroyed. *)
  Definition x_release (s : xspec A) (p : nat) : option (xspec A) :=
    match x_var s p with
    | Some (Some None) => Some s
    | Some (Some (Some o)) =>
        if x_live s o then
          Some (XS (upd (x_vars s) p (Some None))
                   (if x_owners s o =? 2 then upd (x_vals s) o None else x_vals s))
        else None
    | _ => None
    end.
  (** A pointer that refers to nothing becomes one more owner. *)
  Definition x_share (s : xspec A) (p q : nat) : option (xspec A) :=
    match x_var s q with
    | Some (Some (Some o)) => if x_live s o then Some (x_put s p (Some (Some o))) else None
    | _ => None
    end.
  Definition x_take (s : xspec A) (p q : nat) : option (xspec A) :=
    match x_var s q with
    | Some (Some c) => Some (x_put (x_put s p (Some c)) q (Some None))
    | _ => None
    end.
  Definition x_free (s : xspec A) (p : nat) : bool := match x_var s p with Some None => true | _ => false end.

  Definition x_step (s : xspec A) (o : s_op A) : option (xspec A) :=
    match o with
    | SNew p x =>
        if x_free s p then Some (XS (upd (x_vars s) p (Some (Some (length (x_vals s))))) (x_vals s ++ [Some x])) else None
    | SCopy p q => if x_free s p then x_share s p q else None
    | SMove p q => if x_free s p then x_take s p q else None
    | SAssign p q =>
        if p =? q then
          match x_var s p with
          | Some (Some (Some o)) => if x_live s o && negb (x_owners s o =? 2) then Some s else None
          | _ => None
          end
        else match x_release s p with Some s => x_share s p q | None => None end
    | SMoveAssign p q =>
        match x_release s p with Some s => if p =? q then Some s else x_take s p q | None => None end
    | SDestroy p => match x_release s p with Some s => Some (x_put s p None) | None => None end
    | SClean p => match x_var s p with Some (Some None) => Some s | _ => None end
    | SDefault p => None
    end.
  Fixpoint x_steps (s : xspec A) (os : list (s_op A)) : option (xspec A) :=
    match os with
    | [] => Some s
    | o :: os => match x_step s o with Some s => x_steps s os | None => None end
    end.
  Definition x_none (n : nat) : xspec A := XS (repeat None n) [].

  (** No call of the default constructor, and clean() only for pointers that own nothing (C25_clean_refuted,
      C25_empty_refuted). *)
  Definition x_usual (s : xspec A) (o : s_op A) : Prop :=
    match o with
    | SDefault p => False
    | SClean p => forall i, x_var s p <> Some (Some (Some i))
    | _ => True
    end.
  Fixpoint x_all_usual (s : xspec A) (os : list (s_op A)) : Prop :=
    match os with
    | [] => True
    | o :: os => x_usual s o /\ match x_step s o with Some s => x_all_usual s os | None => True end
    end.
End SharedExact.
