(** How a call of an exported function of the software PKCS#11 module reaches the function that
    does the work (src/Crypto/SoftPkcs11/Interface, Callbacks.hpp, Functions). The tables are in
    RouteTable.v; here is what a call means for given tables. Values of arguments are abstract:
    neither the exported functions nor those that only return look at them. *)
From Coq Require Import String List Arith.
Import ListNotations.

(** An exported function (e.g. Interface/EncryptFunctions.cpp 5-13): its parameters, the members
    of GlobalContext::get().callbacks() that lead to the callback, the arguments of the call. *)
Record export := Export {
  x_name : string;
  x_params : list string;
  x_path : list string;
  x_args : list string
}.

(** The body of a function behind a callback: it marks its parameters as unused and returns OK
    (e.g. Functions/EncryptFunctions.cpp 12-23), or it is one of the functions of
    Functions/GeneralPurposeFunctions.cpp 16-39, 47-115, which SoftPkcs11Model.v models. *)
Inductive body := ReturnOk | GeneralPurpose.

(** The files of SoftPkcs11/Functions: the parameters and the body of a function. *)
Record code := Code { k_params : list string; k_body : body }.

(** Of the model: an entry of a table. *)
Fixpoint lookup {A : Type} (same : A -> bool) {B : Type} (l : list (A * B)) : option B :=
  match l with
  | [] => None
  | (a, b) :: l => if same a then Some b else lookup same l
  end.

(** Of the model: equality. *)
Fixpoint same_path (p q : list string) : bool :=
  match p, q with
  | [], [] => true
  | a :: p, b :: q => if String.eqb a b then same_path p q else false
  | _, _ => false
  end.

(** The values of the argument expressions, which are all names of parameters. The files of SoftPkcs11/Interface. *)
Fixpoint values {V : Type} (env : list (string * V)) (args : list string) : option (list V) :=
  match args with
  | [] => Some []
  | a :: args =>
      match lookup (String.eqb a) env, values env args with
      | Some v, Some vs => Some (v :: vs)
      | _, _ => None
      end
  end.

Section Call.
Context {V : Type}.
Variable exported : list export.
Variable callbacks : list (list string * string).
Variable functions : list (string * code).

(** The call C_name(vs): which function is reached and the values of its parameters. [None] if it
    would not compile: no such function, member or parameter, or a wrong number of arguments.
    The files of SoftPkcs11/Interface. *)
Definition route (name : string) (vs : list V) : option (string * list (string * V)) :=
  match find (fun x => String.eqb (x_name x) name) exported with
  | None => None
  | Some x =>
      if Nat.eqb (length vs) (length (x_params x)) then
        match values (combine (x_params x) vs) (x_args x),
              lookup (same_path (x_path x)) callbacks with
        | Some ws, Some target =>
            match lookup (String.eqb target) functions with
            | Some k => if Nat.eqb (length ws) (length (k_params k))
                        then Some (target, combine (k_params k) ws) else None
            | None => None
            end
        | _, _ => None
        end
      else None
  end.

(** The result of the call and the memory after it, for the functions that only return. OK is
    CKR_OK = 0 (include/FlameIDE/Crypto/Oasis/Oasis.hpp). [None]: see SoftPkcs11Model.v. *)
Definition respond {M : Type} (name : string) (vs : list V) (memory : M) : option (nat * M) :=
  match route name vs with
  | Some (target, _) =>
      match lookup (String.eqb target) functions with
      | Some k => match k_body k with
                  | ReturnOk => Some (0, memory)
                  | GeneralPurpose => None
                  end
      | None => None
      end
  | None => None
  end.
End Call.
