(** Object storage with element lifetimes: the machine on which the containers of
    /repo/include/FlameIDE/Templates run. Nothing here models a function of /repo, except
    that the shifting loops written out in several containers are factored out (each user
    cites the lines where its loop is).

    A cell is [None] (raw memory) or [Some x] (an object with value [x]).

    There are two modes:
    - [Trivial]: the element type is trivially copyable and destructible. Destroying does
      nothing to memory; assigning to a cell just writes it.
    - [Tracked]: the element type has constructors and destructors that matter. Assigning
      to, or destroying, a cell without an object is UB; constructing over an object that
      was not destroyed is counted in [leaks] (its destructor will never run).

    In both modes reading a raw cell is UB and so is any access outside the storage.

    [moved x] is the value left in an object after its value [x] has been moved out; it is
    arbitrary. *)
From Coq Require Import List Arith.
From Verif Require Import Base.
Import ListNotations.

(** Of the model: the two kinds of element types, as above. *)
Inductive mode := Trivial | Tracked.

(** Of the model: the cells, and how many objects were overwritten without a destructor. *)
Record store (A : Type) := St { st_cells : list (option A); st_leaks : nat }.
Arguments St {A}.
Arguments st_cells {A}.
Arguments st_leaks {A}.

(** Of the model: there is an object in the cell. *)
Definition live {A} (c : option A) : bool :=
  match c with Some _ => true | None => false end.

(** Of the model: the number of objects. *)
Definition count_live {A} (c : list (option A)) : nat := length (filter live c).

Section Store.
  Context {A : Type}.
  Variable m : mode.
  Variable moved : A -> A.
  Variable dflt : A.

  (** placement new *)
  Definition st_construct (s : store A) (i : nat) (x : A) : outcome (store A) :=
    match nth_error (st_cells s) i with
    | None => UB
    | Some c =>
        Ok (St (upd (st_cells s) i (Some x))
               (match m with
                | Tracked => (if live c then 1 else 0) + st_leaks s
                | Trivial => st_leaks s
                end))
    end.

  (** [*p = x] *)
  Definition st_assign (s : store A) (i : nat) (x : A) : outcome (store A) :=
    match nth_error (st_cells s) i with
    | None => UB
    | Some c =>
        match m, c with
        | Tracked, None => UB
        | _, _ => Ok (St (upd (st_cells s) i (Some x)) (st_leaks s))
        end
    end.

  (** [p->~T()] *)
  Definition st_destroy (s : store A) (i : nat) : outcome (store A) :=
    match nth_error (st_cells s) i with
    | None => UB
    | Some c =>
        match m, c with
        | Tracked, None => UB
        | Tracked, Some _ => Ok (St (upd (st_cells s) i None) (st_leaks s))
        | Trivial, _ => Ok s
        end
    end.

  (** [*p] as a value *)
  Definition st_load (s : store A) (i : nat) : outcome A :=
    match nth_error (st_cells s) i with
    | Some (Some x) => Ok x
    | _ => UB
    end.

  (** [*dst = move( *src )] *)
  Definition st_move (s : store A) (dst src : nat) : outcome (store A) :=
    let! x := st_load s src in
    let! s := st_assign s dst x in
    st_assign s src (moved x).

  (** for the [n] cells from [lo], highest first: [*(i + d) = move( *i )] *)
  Fixpoint shift_right (n lo d : nat) (s : store A) : outcome (store A) :=
    match n with
    | O => Ok s
    | S k => let! s := st_move s (lo + k + d) (lo + k) in shift_right k lo d s
    end.

  (** for the [n] cells from [lo + d], lowest first: [*(i - d) = move( *i )] *)
  Fixpoint shift_left (n lo d : nat) (s : store A) : outcome (store A) :=
    match n with
    | O => Ok s
    | S k => let! s := st_move s lo (lo + d) in shift_left k (S lo) d s
    end.

  (** destroy [n] cells from [lo] *)
  Fixpoint destroy_range (n lo : nat) (s : store A) : outcome (store A) :=
    match n with
    | O => Ok s
    | S k => let! s := st_destroy s lo in destroy_range k (S lo) s
    end.

  (** default-construct [n] cells from [lo] *)
  Fixpoint construct_dflt (n lo : nat) (s : store A) : outcome (store A) :=
    match n with
    | O => Ok s
    | S k => let! s := st_construct s lo dflt in construct_dflt k (S lo) s
    end.

  (** assign the values [xs] to the cells from [lo] *)
  Fixpoint assign_list (xs : list A) (lo : nat) (s : store A) : outcome (store A) :=
    match xs with
    | [] => Ok s
    | x :: xs => let! s := st_assign s lo x in assign_list xs (S lo) s
    end.

  (** construct the values [xs] in the cells from [lo] *)
  Fixpoint construct_list (xs : list A) (lo : nat) (s : store A) : outcome (store A) :=
    match xs with
    | [] => Ok s
    | x :: xs => let! s := st_construct s lo x in construct_list xs (S lo) s
    end.

  (** the values of [n] cells from [lo] *)
  Fixpoint load_range (n lo : nat) (s : store A) : outcome (list A) :=
    match n with
    | O => Ok []
    | S k =>
        let! x := st_load s lo in
        let! xs := load_range k (S lo) s in
        Ok (x :: xs)
    end.
End Store.
