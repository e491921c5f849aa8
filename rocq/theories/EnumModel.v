(** The enumerations of the PKCS#11 wrapper: values, conversions, operators.

    Source: /repo/include/FlameIDE/Crypto/Pkcs11/Types/Enums.hpp; the tables are in EnumTable.v. *)
From Coq Require Import List ZArith String Bool.
From Verif Require Import EnumTable.
Import ListNotations.
Local Open Scope Z_scope.

(** The number of bits of unsigned long: 64 on Posix, 32 on Windows. *)
Section Long.
  Variable long : Z.

  (** The bits of the type an enumeration or a flag is kept in, Enums.hpp; C++ itself. *)
  Definition bits (w : width) : Z := match w with Eight => 8 | Long => long end.

  (** Of the model: the definition of a name in a table. *)
  Fixpoint find {A} (l : list (string * A)) (c : string) : option A :=
    match l with
    | [] => None
    | (d, x) :: l => if String.eqb c d then Some x else find l c
    end.
  (** The value of a constant of the header; constants are defined by others at most once removed,
      so [fuel] 2 is enough. The macros of pkcs11t.h. *)
  Fixpoint constant_from (fuel : nat) (c : string) : option Z :=
    match fuel with
    | O => None
    | S fuel =>
        match find header c with
        | None => None
        | Some (HNumber n) => Some n
        | Some (HSame d) => constant_from fuel d
        | Some (HOr d n) => option_map (fun m => Z.lor m n) (constant_from fuel d)
        | Some HOnes => Some (2 ^ long - 1)
        end
    end.
  (** The macros of pkcs11t.h. *)
  Definition constant : string -> option Z := constant_from 2.

  (** The enumerators of an enumeration and their values; None: does not compile (no such
      constant, or the value does not fit the underlying type). [next]: the value of an
      enumerator without a definition. Enums.hpp 60-1515; C++ itself. *)
  Fixpoint values_from (w : Z) (next : Z) (rows : list (string * evalue)) : option (list (string * Z)) :=
    match rows with
    | [] => Some []
    | (n, v) :: rows =>
        let x := match v with
                 | EConstant c => constant c
                 | ENumber k => Some k
                 | ENext => Some next
                 end in
        match x with
        | None => None
        | Some x =>
            if (0 <=? x) && (x <? 2 ^ w)
            then option_map (cons (n, x)) (values_from w (x + 1) rows)
            else None
        end
    end.
  (** Enums.hpp 60-1515. *)
  Definition values (e : enumeration) : option (list (string * Z)) :=
    values_from (bits (en_width e)) 0 (en_rows e).

  (** toX(RealType), Enums.hpp 39-42, and value(EnumType), 1536-1544: the enumeration has a fixed
      underlying type, so each value of it is a value of the enumeration. *)
  Definition to_enum (w : width) (v : Z) : Z := v mod 2 ^ bits w.
  (** value(EnumType), Enums.hpp 1536-1544. *)
  Definition of_enum (w : width) (x : Z) : Z := x mod 2 ^ bits w.
  (** OPERATOR(EnumType, &) and OPERATOR(EnumType, |), Enums.hpp 45-56. *)
  Definition flag_and (w : width) (x y : Z) : Z := to_enum w (Z.land (of_enum w x) (of_enum w y)).
  (** OPERATOR(EnumType, |), Enums.hpp 45-56. *)
  Definition flag_or (w : width) (x y : Z) : Z := to_enum w (Z.lor (of_enum w x) (of_enum w y)).
End Long.
