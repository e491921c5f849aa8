(** Model of the PKCS#11 structures of /repo/include/FlameIDE/Crypto/Pkcs11/Types/Structs and
    /repo/src/Crypto/Pkcs11/Types/Structs: classes derived from the C structures of OASIS whose
    constructors and assignments copy field by field.

    A class is given by its statements ([code], one instance per class in StructsTable.v); this
    file runs such statements. *)
From Coq Require Import String List Arith Bool.
From Verif Require Import Base.
Import ListNotations.

(** Types of fields: integers of one byte, [unsigned long], pointers, arrays of bytes, and
    nested structures. include/FlameIDE/Crypto/Oasis/pkcs11t.h 34-67. *)
Inductive ftype :=
| Int (bytes : nat)
| Long
| Pointer
| Bytes (count : nat)
| Struct (members : list ftype).

(** What the default constructor does: nothing (the fields are not initialised), or copy the
    value-initialised structure ([: Me(Parent{})]). As in the .cpp files of Types/Structs. *)
Inductive default := Uninitialised | EmptyParent.

(** The statements of a class. [c_fields]: the fields of the structure of OASIS, in order.
    [c_params]: the parameters of the constructor from values, each with the field that its
    declared type names (const decltype(Parent::field) &name). [c_value]: the statements [field =
    name;] or [copy(field, name);] of that constructor. [c_assign]: the statements [field =
    params.field';] or [copy(field, params.field');] of operator=(const Parent &). The .hpp and .cpp files of Types/Structs. *)
Record code := Code {
  c_name : string; c_parent : string;
  c_fields : list (string * ftype);
  c_default : default;
  c_params : list (string * string);
  c_value : list (string * string);
  c_assign : list (string * string)
}.

Section Run.
  (** The values of fields, and the value of value-initialised ones. A whole array is one value
      (copy of arrays is UtilsModel.v). *)
  Context {V : Type}.
  Variable zero : V.

  (** An object: for every field its value, [None] if it is indeterminate. Of the model. *)
  Definition object := list (string * option V).

  (** Of the model: reading a field. *)
  Definition field_value (o : object) (f : string) : option V :=
    match find (fun p => String.eqb (fst p) f) o with
    | Some p => snd p
    | None => None
    end.

  (** Of the model: writing a field. *)
  Definition set_field (o : object) (f : string) (v : option V) : object :=
    map (fun p => if String.eqb (fst p) f then (fst p, v) else p) o.

  (** Of the model: the names of the fields. *)
  Definition names (c : code) : list string := map fst (c_fields c).

  (** An object of which no field is initialised. C++ itself. *)
  Definition blank (c : code) : object := map (fun f => (f, None)) (names c).

  (** A structure of OASIS with the given values. pkcs11t.h. *)
  Definition parent_of (c : code) (vs : list V) : object := combine (names c) (map Some vs).

  (** Only bytes may be copied when they are indeterminate. C++ itself. *)
  Fixpoint only_bytes (t : ftype) : bool :=
    match t with
    | Int n => Nat.eqb n 1
    | Bytes _ => true
    | Long | Pointer => false
    | Struct ts => forallb only_bytes ts
    end.

  (** Of the model: the type of a field. *)
  Definition type_of (c : code) (f : string) : ftype :=
    match find (fun p => String.eqb (fst p) f) (c_fields c) with
    | Some p => snd p
    | None => Pointer
    end.

  (** Where the right operand of an assignment is: a structure of the caller, or an object. Of the
      model. *)
  Inductive operand := Theirs (o : object) | Ours (j : nat).

  (** Of the model: reading a field of it. *)
  Definition operand_value (w : list object) (s : operand) (f : string) : outcome (option V) :=
    match s with
    | Theirs o => Ok (field_value o f)
    | Ours j => let! o := read w j in Ok (field_value o f)
    end.

  (** One statement [dst = params.src;] run on object [i]. As in the .cpp files of Types/Structs. *)
  Definition copy_field (c : code) (w : list object) (i : nat) (s : operand)
      (dst src : string) : outcome (list object) :=
    let! v := operand_value w s src in
    match v with
    | None => if only_bytes (type_of c src) then
                let! o := read w i in write w i (set_field o dst None)
              else UB
    | Some x => let! o := read w i in write w i (set_field o dst (Some x))
    end.

  (** operator=(const Parent &). As in the .cpp files of Types/Structs. *)
  Fixpoint run_assign (c : code) (st : list (string * string)) (w : list object) (i : nat)
      (s : operand) : outcome (list object) :=
    match st with
    | [] => Ok w
    | (dst, src) :: rest =>
        let! w' := copy_field c w i s dst src in run_assign c rest w' i s
    end.

  (** The body of the constructor from values. As in the .cpp files of Types/Structs. *)
  Fixpoint run_value (st : list (string * string)) (args : list (string * V)) (o : object)
      : outcome object :=
    match st with
    | [] => Ok o
    | (dst, arg) :: rest =>
        match find (fun p => String.eqb (fst p) arg) args with
        | Some p => run_value rest args (set_field o dst (Some (snd p)))
        | None => UB
        end
    end.

  (** The calls a program makes. Objects are named in the order of their construction.
      The .hpp files of Types/Structs. *)
  Inductive scall :=
  | MakeDefault
  | MakeFrom (vs : list V)
  | MakeCopy (j : nat)
  | MakeValues (args : list V)
  | Assign (i j : nat)
  | AssignFrom (i : nat) (vs : list V).

  (** One call, by the functions above. *)
  Definition sstep (c : code) (w : list object) (k : scall) : outcome (list object) :=
    match k with
    | MakeDefault =>
        match c_default c with
        | Uninitialised => Ok (w ++ [blank c])
        | EmptyParent =>
            run_assign c (c_assign c) (w ++ [blank c]) (length w)
              (Theirs (parent_of c (map (fun _ => zero) (c_fields c))))
        end
    | MakeFrom vs =>
        run_assign c (c_assign c) (w ++ [blank c]) (length w) (Theirs (parent_of c vs))
    | MakeCopy j =>
        run_assign c (c_assign c) (w ++ [blank c]) (length w) (Ours j)
    | MakeValues args =>
        let! o := run_value (c_value c) (combine (map fst (c_params c)) args) (blank c) in
        Ok (w ++ [o])
    | Assign i j => run_assign c (c_assign c) w i (Ours j)
    | AssignFrom i vs => run_assign c (c_assign c) w i (Theirs (parent_of c vs))
    end.

  (** Of the model: the calls of a history one after the other. *)
  Fixpoint srun (c : code) (w : list object) (ks : list scall) : outcome (list object) :=
    match ks with
    | [] => Ok w
    | k :: rest => let! w' := sstep c w k in srun c w' rest
    end.
End Run.

(** Layout. [#pragma pack(push, 1)] of include/FlameIDE/Crypto/Oasis/Oasis.hpp 16-24 (the macro
    FLAMEIDE_COMPILER is always defined, Common/Macros/DetectCompiler.hpp 9) puts each field
    directly behind the one before. [long] is the size of unsigned long, [ptr] of a pointer. *)
Fixpoint packed_size (long ptr : nat) (t : ftype) : nat :=
  match t with
  | Int n => n
  | Long => long
  | Pointer => ptr
  | Bytes n => n
  | Struct ts => list_sum (map (packed_size long ptr) ts)
  end.

(** C++ itself: fields one after the other under #pragma pack(1). *)
Fixpoint packed_offsets (long ptr : nat) (at_ : nat) (fs : list (string * ftype))
    : list (string * nat) :=
  match fs with
  | [] => []
  | (f, t) :: rest => (f, at_) :: packed_offsets long ptr (at_ + packed_size long ptr t) rest
  end.
