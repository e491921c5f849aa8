(** The types of C++: what the traits of /repo/include/FlameIDE/Common/Traits range over.

    This file has no counterpart in /repo. It states the part of the language (C++14,
    [basic.type.qualifier], [dcl.ref], [dcl.array], [temp.class.spec.match]) that the model of the
    traits needs. Simplifications: a parameter list is a number; there are no pointers to data
    members, no functions with a trailing "..." and no functions with qualifiers other than member
    functions. *)
From Coq Require Import List Bool Arith.

(** [basic.fundamental]; C++ itself. *)
Inductive builtin :=
| Bool | Char | SChar | UChar | Short | UShort | Int | UInt | Long | ULong | LLong | ULLong
| Float | Double | LDouble | WChar | Char16 | Char32.

(** [basic.types]; used by Defaults.hpp 47-287. *)
Inductive name := Builtin (b : builtin) | User (n : nat).

(** [c], [v]: const, volatile. Qualifiers of an array are those of its elements; references and
    functions have none. [Mem]: pointer to a member function of the class [cls] with the return
    type [r], itself const [fc], volatile [fv]. [basic.compound]; used by Defaults.hpp 47-287. *)
Inductive ty :=
| Named (c v : bool) (n : name)
| Void (c v : bool)
| Ptr (c v : bool) (t : ty)
| Mem (c v : bool) (cls : nat) (r : ty) (params : nat) (fc fv : bool)
| Lref (t : ty)
| Rref (t : ty)
| Arr (t : ty) (n : nat)
| Fun (r : ty) (params : nat).

(** Is it a reference? [dcl.ref]. *)
Definition is_ref (t : ty) : bool := match t with Lref _ | Rref _ => true | _ => false end.
(** Is it void, with any qualifiers? *)
Definition is_void (t : ty) : bool := match t with Void _ _ => true | _ => false end.
(** Is it a function type? [dcl.fct]. *)
Definition is_fun (t : ty) : bool := match t with Fun _ _ => true | _ => false end.
(** Is it an array type? [dcl.array]. *)
Definition is_arr (t : ty) : bool := match t with Arr _ _ => true | _ => false end.

(** The types that exist. [dcl.ref], [dcl.array], [dcl.fct]: no pointers or references to
    references, no arrays of references, functions or void, no references to void. *)
Fixpoint exists_ (t : ty) : bool :=
  match t with
  | Named _ _ _ | Void _ _ => true
  | Ptr _ _ t => exists_ t && negb (is_ref t)
  | Mem _ _ _ r _ _ _ => exists_ r && negb (is_fun r) && negb (is_arr r)
  | Lref t | Rref t => exists_ t && negb (is_ref t) && negb (is_void t)
  | Arr t n => exists_ t && negb (is_ref t) && negb (is_void t) && negb (is_fun t) && negb (n =? 0)
  | Fun r _ => exists_ r && negb (is_fun r) && negb (is_arr r)
  end.

(** Is the type itself const, volatile?. [basic.type.qualifier]. *)
Fixpoint is_c (t : ty) : bool :=
  match t with
  | Named c _ _ | Void c _ | Ptr c _ _ | Mem c _ _ _ _ _ _ => c
  | Arr t _ => is_c t
  | Lref _ | Rref _ | Fun _ _ => false
  end.
(** The same for volatile. *)
Fixpoint is_v (t : ty) : bool :=
  match t with
  | Named _ v _ | Void _ v | Ptr _ v _ | Mem _ v _ _ _ _ _ => v
  | Arr t _ => is_v t
  | Lref _ | Rref _ | Fun _ _ => false
  end.

(** The type with its const, volatile set to [b]; references and functions stay.
    [basic.type.qualifier], [dcl.array]. *)
Fixpoint set_c (b : bool) (t : ty) : ty :=
  match t with
  | Named _ v n => Named b v n
  | Void _ v => Void b v
  | Ptr _ v t => Ptr b v t
  | Mem _ v k r p fc fv => Mem b v k r p fc fv
  | Arr t n => Arr (set_c b t) n
  | Lref _ | Rref _ | Fun _ _ => t
  end.
(** The same for volatile. *)
Fixpoint set_v (b : bool) (t : ty) : ty :=
  match t with
  | Named c _ n => Named c b n
  | Void c _ => Void c b
  | Ptr c _ t => Ptr c b t
  | Mem c _ k r p fc fv => Mem c b k r p fc fv
  | Arr t n => Arr (set_v b t) n
  | Lref _ | Rref _ | Fun _ _ => t
  end.

(** [const T], [volatile T], [T *], [T &], [T &&] in a declaration; [None]: ill-formed.
    [dcl.type.cv]; as in Defaults.hpp 259-265. *)
Definition mk_const (t : ty) : ty := set_c true t.
(** [volatile T], as in Defaults.hpp 281-287. *)
Definition mk_volatile (t : ty) : ty := set_v true t.
(** [T *], as in Defaults.hpp 270-276; there are no pointers to references. *)
Definition mk_ptr (t : ty) : option ty := if is_ref t then None else Some (Ptr false false t).
(** [T &], as in Defaults.hpp 237-243; references collapse, there are none to void. *)
Definition mk_lref (t : ty) : option ty :=
  match t with
  | Lref u | Rref u => Some (Lref u)
  | Void _ _ => None
  | _ => Some (Lref t)
  end.
(** [T &&], as in Defaults.hpp 248-254; references collapse, there are none to void. *)
Definition mk_rref (t : ty) : option ty :=
  match t with
  | Lref u => Some (Lref u)
  | Rref u => Some (Rref u)
  | Void _ _ => None
  | _ => Some (Rref t)
  end.

(** Matching a type with the patterns of partial specialisations: what T becomes.
    [temp.class.spec.match]; const T as in Defaults.hpp 138-148. *)
Definition as_const (t : ty) : option ty := if is_c t then Some (set_c false t) else None.
(** volatile T, as in Defaults.hpp 157-167. *)
Definition as_volatile (t : ty) : option ty := if is_v t then Some (set_v false t) else None.
(** T *, as in Defaults.hpp 95-105: an unqualified pointer. *)
Definition as_ptr (t : ty) : option ty :=
  match t with Ptr false false u => Some u | _ => None end.
(** T &, as in Defaults.hpp 114-130. *)
Definition as_lref (t : ty) : option ty := match t with Lref u => Some u | _ => None end.
(** T &&, as in Defaults.hpp 114-130. *)
Definition as_rref (t : ty) : option ty := match t with Rref u => Some u | _ => None end.

(** Choice between the primary template and partial specialisations that are not ordered among
    each other: the one that matches, the primary template if none does, ill-formed if several do.
    A specialisation is given by what it makes of the type, if it matches.
    [temp.class.spec.match]; as for Defaults.hpp 176-223. *)
Fixpoint matching {R} (l : list (option R)) : list R :=
  match l with
  | nil => nil
  | Some r :: l => r :: matching l
  | None :: l => matching l
  end.
(** [temp.class.spec.match]; as for Defaults.hpp 176-223. *)
Definition specialise {R} (primary : R) (l : list (option R)) : option R :=
  match matching l with
  | nil => Some primary
  | r :: nil => Some r
  | _ => None
  end.

(** Of the model: equality. *)
Definition builtin_eqb (x y : builtin) : bool :=
  match x, y with
  | Bool, Bool | Char, Char | SChar, SChar | UChar, UChar | Short, Short | UShort, UShort
  | Int, Int | UInt, UInt | Long, Long | ULong, ULong | LLong, LLong | ULLong, ULLong
  | Float, Float | Double, Double | LDouble, LDouble | WChar, WChar | Char16, Char16
  | Char32, Char32 => true
  | _, _ => false
  end.
(** Of the model: equality. *)
Definition name_eqb (x y : name) : bool :=
  match x, y with
  | Builtin a, Builtin b => builtin_eqb a b
  | User a, User b => a =? b
  | _, _ => false
  end.

(** Do two types match [T, T]?. As in Functional.hpp 50-61. *)
Fixpoint ty_eqb (x y : ty) : bool :=
  match x, y with
  | Named c v n, Named c' v' n' => eqb c c' && eqb v v' && name_eqb n n'
  | Void c v, Void c' v' => eqb c c' && eqb v v'
  | Ptr c v t, Ptr c' v' t' => eqb c c' && eqb v v' && ty_eqb t t'
  | Mem c v k r p fc fv, Mem c' v' k' r' p' fc' fv' =>
      eqb c c' && eqb v v' && (k =? k') && ty_eqb r r' && (p =? p') && eqb fc fc' && eqb fv fv'
  | Lref t, Lref t' => ty_eqb t t'
  | Rref t, Rref t' => ty_eqb t t'
  | Arr t n, Arr t' n' => ty_eqb t t' && (n =? n')
  | Fun r p, Fun r' p' => ty_eqb r r' && (p =? p')
  | _, _ => false
  end.
