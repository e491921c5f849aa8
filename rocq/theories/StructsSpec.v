(** What a user expects of the PKCS#11 structures. Independent of the statements of the classes:
    only the fields of the structures of OASIS and the declared types of the parameters of
    the constructors from values are used. *)
From Coq Require Import String List Arith Bool.
From Verif Require Import Base StructsModel.
Import ListNotations.

Section Spec.
  Context {V : Type}.
  Variable zero : V.

  (** An object is worth the values of its fields, in their order; [None]: its fields were never
      given values. *)
  Definition worth := option (list V).

  (** The value of field number [k] of the object made of [args]: the argument that is declared
      for this field. [declared] gives the fields of the parameters. *)
  Definition argument_for (declared : list string) (args : list V) (f : string) : option V :=
    option_map snd (find (fun p => String.eqb (fst p) f) (combine declared args)).

  Definition spec_step (c : code) (w : list worth) (k : scall (V := V)) : list worth :=
    match k with
    | MakeDefault =>
        match c_default c with
        | Uninitialised => w ++ [None]
        | EmptyParent => w ++ [Some (map (fun _ => zero) (c_fields c))]
        end
    | MakeFrom vs => w ++ [Some vs]
    | MakeCopy j => w ++ [nth j w None]
    | MakeValues args =>
        w ++ [Some (map (fun f => match argument_for (map snd (c_params c)) args f with
                                  | Some v => v
                                  | None => zero
                                  end) (map fst (c_fields c)))]
    | Assign i j => upd w i (nth j w None)
    | AssignFrom i vs => upd w i (Some vs)
    end.

  Definition spec_run (c : code) (w : list worth) (ks : list (scall (V := V))) : list worth :=
    fold_left (spec_step c) ks w.

  (** A call that may be made: the objects exist, structures have a value for each field, the
      constructor from values gets all its arguments, and nothing is copied from an object
      without values. *)
  Definition allowed (c : code) (w : list worth) (k : scall (V := V)) : Prop :=
    match k with
    | MakeDefault => True
    | MakeFrom vs => length vs = length (c_fields c)
    | MakeCopy j => nth j w None <> None
    | MakeValues args => length args = length (c_params c)
    | Assign i j => i < length w /\ nth j w None <> None
    | AssignFrom i vs => i < length w /\ length vs = length (c_fields c)
    end.

  Fixpoint allowed_all (c : code) (w : list worth) (ks : list (scall (V := V))) : Prop :=
    match ks with
    | [] => True
    | k :: rest => allowed c w k /\ allowed_all c (spec_step c w k) rest
    end.

  (** What the user sees of an object: each field, by its name. *)
  Definition seen (c : code) (x : worth) : object (V := V) :=
    match x with
    | Some vs => combine (map fst (c_fields c)) (map Some vs)
    | None => map (fun f => (f, None)) (map fst (c_fields c))
    end.
End Spec.

(** The layout of a C compiler without [#pragma pack], which modules are built with on POSIX:
    every field at the next multiple of its alignment. *)
Fixpoint alignment (long ptr : nat) (t : ftype) : nat :=
  match t with
  | Int n => n
  | Long => long
  | Pointer => ptr
  | Bytes _ => 1
  | Struct ts => list_max (map (alignment long ptr) ts)
  end.

Definition round_up (at_ a : nat) : nat := ((at_ + a - 1) / a) * a.

Section Natural.
  Variable long ptr : nat.

  Definition round_end (ts : list ftype) (at_ : nat) : nat :=
    round_up at_ (list_max (map (alignment long ptr) ts)).

  Fixpoint natural_size (t : ftype) : nat :=
    match t with
    | Int n => n
    | Long => long
    | Pointer => ptr
    | Bytes n => n
    | Struct ts =>
        round_end ts
          (fold_left (fun at_ t => round_up at_ (alignment long ptr t) + natural_size t) ts 0)
    end.

  (** A type without holes: each structure is as long as its members together. *)
  Fixpoint tight (t : ftype) : Prop :=
    match t with
    | Struct ts =>
        natural_size (Struct ts) = list_sum (map natural_size ts)
        /\ (fix all (l : list ftype) : Prop :=
              match l with [] => True | t :: l => tight t /\ all l end) ts
    | _ => True
    end.

  Fixpoint natural_offsets (at_ : nat) (fs : list (string * ftype)) : list (string * nat) :=
    match fs with
    | [] => []
    | (f, t) :: rest =>
        let at' := round_up at_ (alignment long ptr t) in
        (f, at') :: natural_offsets (at' + natural_size t) rest
    end.
End Natural.
