(** Model of Variant<Types...>.

    Source: /repo/include/FlameIDE/Templates/Variant.hpp.

    The alternatives are a list of type names (numbers). An object is its type name and a
    value of [V]; moving from an object leaves it with the value [mv x]. The nested unions of
    VariantStruct all start at the same address, so the storage is one cell, which holds at
    most one living object. [World] counts the objects constructed and destroyed in variants. *)
From Coq Require Import List Arith ZArith Bool.
From Verif Require Import Base.
Import ListNotations.

(** The union: raw, or an object. *)
Definition cell (V : Type) := option (nat * V).

(** The index and the storage of a Variant, Variant.hpp 258-259. *)
Record variant (V : Type) := VR { v_index : Z; v_cell : cell V }.
Arguments VR {V}.
Arguments v_index {V}.
Arguments v_cell {V}.

Section Variant.
  Context {V : Type}.
  (** Value left behind in an object by a move. *)
  Variable mv : V -> V.
  (** operator== of the alternatives. *)
  Variable eqv : nat -> V -> V -> bool.

  (** An object of the type [t] in the cell. The reads of the union as an object of a type,
      Variant.hpp 299-369. *)
  Definition as_type (t : nat) (c : cell V) : outcome V :=
    match c with
    | Some (u, x) => if u =? t then Ok x else UB
    | None => UB
    end.

  (** ssize_t subtraction [i - 1]. Variant.hpp 268-442. *)
  Definition ssize_min : Z := (- 2 ^ 63)%Z.
  (** The argument `index - 1` of the recursive calls, Variant.hpp 268-442. *)
  Definition dec (i : Z) : outcome Z := if (i =? ssize_min)%Z then UB else Ok (i - 1)%Z.

  (** VariantStruct::set, Variant.hpp 286-296, 371-381, and GetterSetter::set, 383-398, 416-430: index of
      the alternative or -1, and what is now in the cell ([None]: nothing was stored). *)
  Fixpoint vs_set (ts : list nat) (t : nat) (x : V) : Z * option (nat * V) :=
    match ts with
    | [] => ((-1)%Z, None)
    | a :: r =>
        if a =? t then (0%Z, Some (t, x))
        else
          let '(i, c) := vs_set r t x in
          ((if (i <? 0)%Z then i else i + 1)%Z, c)
    end.

  (** VariantStruct::assign, Variant.hpp 299-327 and 86-94: what is stored in the cell ([None]: nothing)
      and the source afterwards. *)
  Fixpoint vs_assign (ts : list nat) (i : Z) (src : cell V) (moving : bool)
    : outcome (option (nat * V) * cell V) :=
    match ts with
    | [] => Ok (None, src)
    | a :: r =>
        if (i =? 0)%Z then
          let! x := as_type a src in
          Ok (Some (a, x), if moving then Some (a, mv x) else src)
        else
          let! j := dec i in
          vs_assign r j src moving
    end.

  (** VariantStruct::reset, Variant.hpp 329-342, 104-107. *)
  Fixpoint vs_reset (ts : list nat) (i : Z) (c : cell V) : outcome (cell V) :=
    match ts with
    | [] => Ok c
    | a :: r =>
        if (i =? 0)%Z then
          let! _ := as_type a c in
          Ok None
        else
          let! j := dec i in
          vs_reset r j c
    end.

  (** VariantStruct::equal, Variant.hpp 344-355, 109-112. *)
  Fixpoint vs_equal (ts : list nat) (i : Z) (c d : cell V) : outcome bool :=
    match ts with
    | [] => Ok false
    | a :: r =>
        if (i =? 0)%Z then
          let! x := as_type a c in
          let! y := as_type a d in
          Ok (eqv a x y)
        else
          let! j := dec i in
          vs_equal r j c d
    end.

  (** VariantStruct::get, Variant.hpp 268-282, 357-369, 400-414, 432-442: is the pointer not null? *)
  Fixpoint vs_get (ts : list nat) (t : nat) : bool :=
    match ts with
    | [] => false
    | a :: r => if a =? t then true else vs_get r t
    end.

  (** GetIndexOfType, Common/Traits/Functional.hpp 239-262. *)
  Fixpoint index_of (ts : list nat) (t : nat) : Z :=
    match ts with
    | [] => (-1)%Z
    | a :: r =>
        if a =? t then 0%Z
        else let i := index_of r t in (if (i <? 0)%Z then i else 1 + i)%Z
    end.

  (** isSet, Variant.hpp 534-538; operator bool, 528-532. *)
  Definition v_is_set (v : variant V) : bool := (0 <=? v_index v)%Z.

  (** get<T>, Variant.hpp 593-621: null, or a pointer to the object, read as a [T]. *)
  Definition v_get (ts : list nat) (v : variant V) (t : nat) : outcome (option V) :=
    if (index_of ts t =? v_index v)%Z && v_is_set v then
      if vs_get ts t then let! x := as_type t (v_cell v) in Ok (Some x)
      else Ok None
    else Ok None.

  (** get<INDEX>(), Variant.hpp 550-555: is the pointer not null? *)
  Definition v_get_index (ts : list nat) (v : variant V) (t : nat) : bool := vs_get ts t.
  (** get<INDEX>() const, Variant.hpp 557-569. *)
  Definition v_get_index_const (ts : list nat) (v : variant V) (t : nat) : bool :=
    if v_is_set v then vs_get ts t else false.

  (** operator==, Variant.hpp 512-520. *)
  Definition v_equal (ts : list nat) (v w : variant V) : outcome bool :=
    if v_is_set v && v_is_set w && (v_index v =? v_index w)%Z then
      vs_equal ts (v_index v) (v_cell v) (v_cell w)
    else Ok false.

  (** ** Operations in a program with any number of variants

      [w_made] and [w_gone] count the objects constructed and destroyed. *)
  (** Of the model. *)
  Record world := World {
    w_vars : list (option (variant V)); w_made : nat; w_gone : nat
  }.

  (** Of the model: a living variant. *)
  Definition var (w : world) (p : nat) : outcome (variant V) :=
    match nth_error (w_vars w) p with
    | Some (Some v) => Ok v
    | _ => UB
    end.
  (** Of the model: a constructor runs where no variant is. *)
  Definition fresh (w : world) (p : nat) : outcome unit :=
    match nth_error (w_vars w) p with
    | Some None => Ok tt
    | _ => UB
    end.
  (** Of the model: the variables after a write to one. *)
  Definition put (w : world) (p : nat) (v : option (variant V)) : world :=
    World (upd (w_vars w) p v) (w_made w) (w_gone w).

  (** placement new: the cell now holds this object, whatever it held before. Variant.hpp 286-327.
      *)
  Definition store (w : world) (p : nat) (i : Z) (old : cell V) (new : option (nat * V))
    : world :=
    match new with
    | Some o => World (upd (w_vars w) p (Some (VR i (Some o)))) (S (w_made w)) (w_gone w)
    | None => put w p (Some (VR i old))
    end.

  (** reset(), Variant.hpp 540-548. *)
  Definition v_reset (ts : list nat) (w : world) (p : nat) : outcome world :=
    let! v := var w p in
    if v_is_set v then
      let! c := vs_reset ts (v_index v) (v_cell v) in
      Ok (World (upd (w_vars w) p (Some (VR (-1) c))) (w_made w) (S (w_gone w)))
    else Ok w.

  (** Variant(), Variant.hpp 446-448. *)
  Definition v_default (w : world) (p : nat) : outcome world :=
    let! _ := fresh w p in
    Ok (put w p (Some (VR (-1) None))).

  (** Variant(const T &), Variant(T &&), Variant.hpp 464-480, InitStruct<T, false>, 221-232. *)
  Definition v_from (ts : list nat) (w : world) (p t : nat) (x : V) : outcome world :=
    let! _ := fresh w p in
    let '(i, c) := vs_set ts t x in
    Ok (store w p i None c).

  (** The source of a copy or move keeps its index. Variant.hpp 450-510. *)
  Definition put_source (w : world) (q : nat) (v : variant V) (c : cell V) : world :=
    put w q (Some (VR (v_index v) c)).

  (** Variant(const Variant &), Variant.hpp 450-455. *)
  Definition v_copy (ts : list nat) (w : world) (p q : nat) : outcome world :=
    let! _ := fresh w p in
    let! v := var w q in
    let! r := vs_assign ts (v_index v) (v_cell v) false in
    Ok (store w p (v_index v) None (fst r)).

  (** Variant(Variant &&), Variant.hpp 457-462. *)
  Definition v_move (ts : list nat) (w : world) (p q : nat) : outcome world :=
    let! _ := fresh w p in
    let! v := var w q in
    let! r := vs_assign ts (v_index v) (v_cell v) true in
    Ok (put_source (store w p (v_index v) None (fst r)) q v (snd r)).

  (** Copy construction from a named variant that is not const: overload resolution takes
      Variant(T &&) with T = Variant &, Variant.hpp 473-480, which runs InitStruct<T, true>::execMove,
      245-252; the index starts as the smallest ssize_t, 259. *)
  Definition v_copy_named (ts : list nat) (w : world) (p q : nat) : outcome world :=
    let! _ := fresh w p in
    let! v := var w q in
    if (0 <=? v_index v)%Z then
      let! r := vs_assign ts (v_index v) (v_cell v) true in
      Ok (put_source (store w p (v_index v) None (fst r)) q v (snd r))
    else Ok (put w p (Some (VR ssize_min None))).

  (** operator=(const Variant &), Variant.hpp 488-498. *)
  Definition v_assign (ts : list nat) (w : world) (p q : nat) : outcome world :=
    let! _ := var w p in
    let! v := var w q in
    if negb (p =? q) && v_is_set v then
      let! w := v_reset ts w p in
      let! u := var w p in
      let! r := vs_assign ts (v_index v) (v_cell v) false in
      Ok (store w p (v_index v) (v_cell u) (fst r))
    else Ok w.

  (** operator=(Variant &&), Variant.hpp 500-510. *)
  Definition v_move_assign (ts : list nat) (w : world) (p q : nat) : outcome world :=
    let! _ := var w p in
    let! v := var w q in
    if negb (p =? q) && v_is_set v then
      let! w := v_reset ts w p in
      let! u := var w p in
      let! r := vs_assign ts (v_index v) (v_cell v) true in
      Ok (put_source (store w p (v_index v) (v_cell u) (fst r)) q v (snd r))
    else Ok w.

  (** set, Variant.hpp 571-585. *)
  Definition v_set (ts : list nat) (w : world) (p t : nat) (x : V) : outcome world :=
    let! w := v_reset ts w p in
    let! u := var w p in
    let '(i, c) := vs_set ts t x in
    Ok (store w p i (v_cell u) c).

  (** set(T &&) called with a named object that is not const, Variant.hpp 571-577 (T is deduced as a
      reference and [move(object)] is stored): the second component is the caller's object
      afterwards. *)
  Definition v_set_named (ts : list nat) (w : world) (p t : nat) (x : V)
    : outcome (world * V) :=
    let! w := v_set ts w p t x in
    Ok (w, mv x).
  (** set(const T &), Variant.hpp 579-585. *)
  Definition v_set_const (ts : list nat) (w : world) (p t : nat) (x : V)
    : outcome (world * V) :=
    let! w := v_set ts w p t x in
    Ok (w, x).

  (** ~Variant(), Variant.hpp 482-486. *)
  Definition v_destroy (ts : list nat) (w : world) (p : nat) : outcome world :=
    let! w := v_reset ts w p in
    Ok (put w p None).

  (** The calls of Variant.hpp 446-585. *)
  Inductive v_op :=
  | VDefault (p : nat)
  | VFrom (p t : nat) (x : V)
  | VCopy (p q : nat)
  | VMove (p q : nat)
  | VCopyNamed (p q : nat)
  | VAssign (p q : nat)
  | VMoveAssign (p q : nat)
  | VSet (p t : nat) (x : V)
  | VReset (p : nat)
  | VDestroy (p : nat).

  (** The call of the member function, Variant.hpp 446-585. *)
  Definition v_step (ts : list nat) (w : world) (o : v_op) : outcome world :=
    match o with
    | VDefault p => v_default w p
    | VFrom p t x => v_from ts w p t x
    | VCopy p q => v_copy ts w p q
    | VMove p q => v_move ts w p q
    | VCopyNamed p q => v_copy_named ts w p q
    | VAssign p q => v_assign ts w p q
    | VMoveAssign p q => v_move_assign ts w p q
    | VSet p t x => v_set ts w p t x
    | VReset p => v_reset ts w p
    | VDestroy p => v_destroy ts w p
    end.

  (** Calls in a row. *)
  Fixpoint v_run (ts : list nat) (w : world) (os : list v_op) : outcome world :=
    match os with
    | [] => Ok w
    | o :: os' => let! w := v_step ts w o in v_run ts w os'
    end.

  (** Of the model: no variant is constructed. *)
  Definition v_start (n : nat) : world := World (repeat None n) 0 0.
End Variant.
Arguments world : clear implicits.
Arguments World {V}.
Arguments w_vars {V}.
Arguments w_made {V}.
Arguments w_gone {V}.
Arguments v_op : clear implicits.

(** ComparingTypeWithPack, Common/Traits/Functional.hpp 71-82. *)
Fixpoint in_pack (t : nat) (ts : list nat) : bool :=
  match ts with
  | [] => false
  | a :: r => (t =? a) || in_pack t r
  end.

(** IsUniqueParameterPack, Common/Traits/Functional.hpp 216-237, for packs of two types or
    more (for one type the template does not compile). *)
Fixpoint is_unique_pack (ts : list nat) : bool :=
  match ts with
  | [] => true
  | a :: r =>
      match r with
      | [b] => negb (a =? b)
      | _ => in_pack a r || is_unique_pack r
      end
  end.
