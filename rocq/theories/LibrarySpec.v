(** What a program with Library objects owns, independently of the code. *)
From Coq Require Import List Arith Bool.
From Verif Require Import LibraryModel StringModel StringSpec.
Import ListNotations.

(** The path of a library file. *)
Definition library_path {A} (is_nul : A -> bool) (slash : A) (prefix suffix name directory : cstring A)
  : list A :=
  match directory with
  | Some _ => text is_nul directory ++ [slash]
  | None => []
  end ++ text is_nul prefix ++ text is_nul name ++ text is_nul suffix.

(** What an object has: no library, a library, or it was moved from. *)
Inductive held := Nothing | Lib (l : nat) | MovedFrom.

(** [a_objects]: the objects that exist. [a_lost]: libraries that are open and no object has any
    more, one entry per time opened. [a_blocks]: blocks of memory no object has any more. *)
Record libs := Libs { a_objects : list (nat * held); a_lost : list nat; a_blocks : nat }.

Definition libs_start : libs := Libs [] [] 0.

Fixpoint lookup (v : nat) (l : list (nat * held)) : option held :=
  match l with
  | [] => None
  | (u, h) :: l => if u =? v then Some h else lookup v l
  end.
Fixpoint replace (v : nat) (h : held) (l : list (nat * held)) : list (nat * held) :=
  match l with
  | [] => []
  | (u, g) :: l => if u =? v then (u, h) :: l else (u, g) :: replace v h l
  end.
Fixpoint remove_object (v : nat) (l : list (nat * held)) : list (nat * held) :=
  match l with
  | [] => []
  | (u, g) :: l => if u =? v then l else (u, g) :: remove_object v l
  end.

(** An object loses what it has without releasing it. *)
Definition drop (a : libs) (h : option held) : libs :=
  match h with
  | Some (Lib l) => Libs (a_objects a) (l :: a_lost a) (S (a_blocks a))
  | Some Nothing => Libs (a_objects a) (a_lost a) (S (a_blocks a))
  | _ => a
  end.

Definition libs_step (a : libs) (c : lcall) : libs :=
  let o := a_objects a in
  match c with
  | LNew v _ => Libs ((v, Nothing) :: o) (a_lost a) (a_blocks a)
  | LOpen v _ found =>
      Libs ((v, match found with Some l => Lib l | None => Nothing end) :: o) (a_lost a) (a_blocks a)
  | LMove v p =>
      match lookup p o with
      | Some h => Libs ((v, h) :: replace p MovedFrom o) (a_lost a) (a_blocks a)
      | None => a
      end
  | LMoveAssign v p =>
      match lookup p o with
      | Some h =>
          let a' := drop a (lookup v o) in
          Libs (replace p MovedFrom (replace v h o)) (a_lost a') (a_blocks a')
      | None => a
      end
  | LTest _ | LFind _ _ => a
  | LDelete v =>
      match lookup v o with
      | Some Nothing => Libs (remove_object v o) (a_lost a) (S (a_blocks a))
      | _ => Libs (remove_object v o) (a_lost a) (a_blocks a)
      end
  end.

Fixpoint libs_run (a : libs) (h : list lcall) : libs :=
  match h with
  | [] => a
  | c :: h => libs_run (libs_step a c) h
  end.

(** The answer of a call. *)
Definition libs_answer (symbols : nat -> nat -> option nat) (global : nat -> option nat)
    (a : libs) (c : lcall) : lanswer :=
  match c with
  | LTest v => Loaded match lookup v (a_objects a) with Some (Lib _) => true | _ => false end
  | LFind v name =>
      Address match lookup v (a_objects a) with Some (Lib l) => symbols l name | _ => global name end
  | _ => NoAnswer
  end.
Fixpoint libs_answers symbols global (a : libs) (h : list lcall) : list lanswer :=
  match h with
  | [] => []
  | c :: h => libs_answer symbols global a c :: libs_answers symbols global (libs_step a c) h
  end.

(** The programs in question: memory is never exhausted, and objects that were moved from are
    not asked, searched or destroyed. *)
Definition libs_proper (a : libs) (c : lcall) : Prop :=
  let has v := lookup v (a_objects a) in
  match c with
  | LNew v memory | LOpen v memory _ => has v = None /\ memory = true
  | LMove v p => has v = None /\ has p <> None
  | LMoveAssign v p => has v <> None /\ has p <> None
  | LTest v | LFind v _ | LDelete v => has v = Some Nothing \/ exists l, has v = Some (Lib l)
  end.
Fixpoint libs_all_proper (a : libs) (h : list lcall) : Prop :=
  match h with
  | [] => True
  | c :: h => libs_proper a c /\ libs_all_proper (libs_step a c) h
  end.

(** How many objects have the library; how many have a block of memory. *)
Definition holds_lib (l : nat) (x : nat * held) : bool :=
  match snd x with Lib k => k =? l | _ => false end.
Definition holds_block (x : nat * held) : bool :=
  match snd x with MovedFrom => false | _ => true end.
Definition holders (l : nat) (a : libs) : nat := length (filter (holds_lib l) (a_objects a)).
Definition owners (a : libs) : nat := length (filter holds_block (a_objects a)).
Definition lost (l : nat) (a : libs) : nat := length (filter (Nat.eqb l) (a_lost a)).

(** The blocks of memory in use. *)
Definition in_use_block (c : cell) : bool := match c with Freed => false | Cell _ => true end.
Definition blocks (w : lworld) : nat := length (filter in_use_block (l_cells w)).
