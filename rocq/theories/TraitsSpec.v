(** What the type traits are for. Independent of TraitsModel.v, except for the names of the
    platforms and of value categories. *)
From Coq Require Import List Bool Arith ZArith.
From Verif Require Import CppTypes TraitsModel.
Import ListNotations.
Local Open Scope Z_scope.

(** [r] is [t] without a qualifier: it does not have the qualifier, it differs from [t] in nothing
    else, and there is no other such type. [has]: the qualifier is there; [add]: add it. *)
Definition without (has : ty -> bool) (add : ty -> ty) (t r : ty) : Prop :=
  has r = false /\ add r = add t /\ forall r', has r' = false -> add r' = add t -> r' = r.

(** [r] is the type that [t] is or refers to. *)
Definition referred (t r : ty) : Prop :=
  (forall u, r <> Lref u /\ r <> Rref u) /\ (t = r \/ t = Lref r \/ t = Rref r).

(** A type to which qualifiers can be added. *)
Definition qualifiable (t : ty) : Prop := forall u p, t <> Lref u /\ t <> Rref u /\ t <> Fun u p.

(** All pointers and references are followed to their end; [r] is what is there, without
    qualifiers. *)
Inductive bare : ty -> ty -> Prop :=
| bare_ptr c v t r : bare t r -> bare (Ptr c v t) r
| bare_lref t r : bare t r -> bare (Lref t) r
| bare_rref t r : bare t r -> bare (Rref t) r
| bare_end t : (forall c v u, t <> Ptr c v u) -> (forall u, t <> Lref u /\ t <> Rref u) ->
    bare t (set_c false (set_v false t)).

(** Something on the way there is both const and volatile. *)
Inductive doubly : ty -> Prop :=
| doubly_here t : is_c t = true -> is_v t = true -> doubly t
| doubly_ptr c v t : doubly t -> doubly (Ptr c v t)
| doubly_lref t : doubly t -> doubly (Lref t)
| doubly_rref t : doubly t -> doubly (Rref t).

(** The integer types of C++ with their signedness and width. char is signed or not, by choice of
    the compiler. *)
Definition integer (p : platform) (char_signed : bool) (b : builtin) : option (bool * Z) :=
  match b with
  | Char => Some (char_signed, 8)
  | SChar => Some (true, 8)
  | UChar => Some (false, 8)
  | Short => Some (true, 16)
  | UShort => Some (false, 16)
  | Int => Some (true, 32)
  | UInt => Some (false, 32)
  | Long => Some (true, match p with LP64 => 64 | LLP64 => 32 end)
  | ULong => Some (false, match p with LP64 => 64 | LLP64 => 32 end)
  | LLong => Some (true, 64)
  | ULLong => Some (false, 64)
  | _ => None
  end.

(** The values of an integer type. *)
Definition representable (s : bool) (w : Z) (x : Z) : Prop :=
  if s then - 2 ^ (w - 1) <= x < 2 ^ (w - 1) else 0 <= x < 2 ^ w.

(** The types that have a name in Types: int8_t ... uint64_t. *)
Definition fixed_width (p : platform) : list builtin :=
  [SChar; Short; Int; UChar; UShort; UInt]
  ++ match p with LP64 => [Long; ULong] | LLP64 => [LLong; ULLong] end.

Definition number (b : builtin) : ty := Named false false (Builtin b).
