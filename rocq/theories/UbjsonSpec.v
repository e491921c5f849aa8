(** What UBJSON values are: variables that hold values (a copy holds what the original held, and
    changing one changes no other), and the markers of the format (the table "Value Types" of the
    UBJSON specification, draft 12). *)
From Coq Require Import List Arith Bool ZArith Ascii.
From Verif Require Import Base UbjsonModel.
Import ListNotations.

Section Values.
  Context {A : Type}.

  (** For every variable: [None] = does not exist, [Some None] = exists and holds no value that
      one may read, [Some (Some x)] = holds [x]. *)
  Definition vars := list (option (option A)).
  Definition free (s : vars) (p : nat) : Prop := nth_error s p = Some None.
  Definition here (s : vars) (p : nat) : Prop := exists c, nth_error s p = Some (Some c).
  Definition has (s : vars) (p : nat) (x : A) : Prop := nth_error s p = Some (Some (Some x)).
  Definition held (s : vars) (p : nat) : option A :=
    match nth_error s p with Some (Some c) => c | _ => None end.

  (** Constructors on variables that do not exist, other calls on variables that do; a source
      holds a value. *)
  Definition ub_documented (s : vars) (o : ub_op A) : Prop :=
    match o with
    | UbDefault p | UbNew p _ => free s p
    | UbCopy p q | UbMove p q => free s p /\ exists x, has s q x
    | UbAssign p q | UbMoveAssign p q => here s p /\ exists x, has s q x
    | UbAssignValue p _ | UbDestroy p => here s p
    | UbPut p _ => here s p
    end.

  (** The effect. What a moved-from variable holds is not said. *)
  Definition ub_wanted (s : vars) (o : ub_op A) : vars :=
    match o with
    | UbDefault p => upd s p (Some None)
    | UbNew p x => upd s p (Some (Some x))
    | UbCopy p q | UbAssign p q => upd s p (Some (held s q))
    | UbMove p q | UbMoveAssign p q => upd (upd s p (Some (held s q))) q (Some None)
    | UbAssignValue p x | UbPut p x => upd s p (Some (Some x))
    | UbDestroy p => upd s p None
    end.

  Fixpoint ub_ok (s : vars) (os : list (ub_op A)) : Prop :=
    match os with
    | [] => True
    | o :: os => ub_documented s o /\ ub_ok (ub_wanted s o) os
    end.
  Definition ub_result (s : vars) (os : list (ub_op A)) : vars := fold_left ub_wanted os s.
  Definition ub_none (n : nat) : vars := repeat None n.

  (** The calls that copy no value, make no variable without one and write to none. *)
  Definition unshared (s : vars) (o : ub_op A) : Prop :=
    match o with
    | UbDefault _ | UbCopy _ _ | UbAssign _ _ | UbAssignValue _ _ => False
    | UbPut p _ => exists x, has s p x
    | _ => True
    end.

  Fixpoint all_unshared (s : vars) (os : list (ub_op A)) : Prop :=
    match os with
    | [] => True
    | o :: os => unshared s o /\ all_unshared (ub_wanted s o) os
    end.
End Values.

(** A line of the table of the format: the marker, whether data follows it, and the marker that
    closes the value, if there is one. *)
Record line := Line { marker : ascii; data_follows : bool; closed_by : option ascii }.

Definition ub_format : list (ubtype * line) :=
  [ (UNull, Line "Z" false None); (UNoop, Line "N" false None);
    (UTrue, Line "T" false None); (UFalse, Line "F" false None);
    (UInt8, Line "i" true None); (UUint8, Line "U" true None);
    (UInt16, Line "I" true None); (UInt32, Line "l" true None);
    (UInt64, Line "L" true None); (UFloat32, Line "d" true None);
    (UFloat64, Line "D" true None); (UHuge, Line "H" true None);
    (UChar, Line "C" true None); (UString, Line "S" true None);
    (UArray, Line "[" true (Some "]")); (UObject, Line "{" true (Some "}")) ]%char.
