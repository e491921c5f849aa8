(** What has become of named pipe writers, read off the calls a program has made. *)
From Coq Require Import List Arith ZArith Bool.
From Verif Require Import Base FileOwnerModel.
Import ListNotations.
Local Open Scope Z_scope.

(** All lists of calls here have the latest call first. *)

(** The writer [v] exists. *)
Fixpoint exists_ (p : list pcall) (v : nat) : bool :=
  match p with
  | [] => false
  | c :: p =>
      match c with
      | PDefault u | PNamed u _ _ _ | PMove u _ => if Nat.eqb u v then true else exists_ p v
      | PDestroy u => if Nat.eqb u v then false else exists_ p v
      | _ => exists_ p v
      end
  end.

(** The name the writer carries: the one it was constructed with; after setName the prefix. *)
Fixpoint named (p : list pcall) (v : nat) : list Z :=
  match p with
  | [] => []
  | c :: p =>
      match c with
      | PNamed u name _ _ => if Nat.eqb u v then name else named p v
      | PDefault u | PMove u _ => if Nat.eqb u v then [] else named p v
      | PSetName u _ _ => if Nat.eqb u v then PIPE_NAME_PREFIX else named p v
      | _ => named p v
      end
  end.

(** Whether it was last asked to delete its file; [None]: it was never told. *)
Fixpoint asked (p : list pcall) (v : nat) : option bool :=
  match p with
  | [] => None
  | c :: p =>
      match c with
      | PDefault u => if Nat.eqb u v then None else asked p v
      | PNamed u _ del _ | PSetName u _ del => if Nat.eqb u v then Some del else asked p v
      | PMove u q | PMoveAssign u q =>
          if Nat.eqb q v then Some false else if Nat.eqb u v then asked p q else asked p v
      | POpen u _ del fd => if (Nat.eqb u v && (0 <=? fd))%bool then Some del else asked p v
      | PDestroy _ => asked p v
      end
  end.

(** The descriptor it has open; -1: none. *)
Fixpoint has_fd (p : list pcall) (v : nat) : Z :=
  match p with
  | [] => -1
  | c :: p =>
      match c with
      | PDefault u => if Nat.eqb u v then -1 else has_fd p v
      | PNamed u _ _ fd => if Nat.eqb u v then fd else has_fd p v
      | POpen u _ _ fd => if Nat.eqb u v then if fd <? 0 then -1 else fd else has_fd p v
      | PMove u q | PMoveAssign u q =>
          if Nat.eqb q v then -1 else if Nat.eqb u v then has_fd p q else has_fd p v
      | _ => has_fd p v
      end
  end.

(** The file [n] exists: made by the constructor or open(), removed by the destructor of a writer
    that was asked to and carries the name. *)
Fixpoint file (files : list Z -> bool) (p : list pcall) (n : list Z) : bool :=
  match p with
  | [] => files n
  | c :: p =>
      match c with
      | PNamed _ name _ _ | POpen _ name _ _ =>
          if list_eq_dec Z.eq_dec n name then true else file files p n
      | PDestroy v =>
          match asked p v with
          | Some true => if list_eq_dec Z.eq_dec n (named p v) then false else file files p n
          | _ => file files p n
          end
      | _ => file files p n
      end
  end.

(** The descriptor [d] is open: it came from the constructor or open(), and no writer that had it was
    destroyed or given another one since. *)
Fixpoint descriptor (p : list pcall) (d : Z) : bool :=
  match p with
  | [] => false
  | c :: p =>
      match c with
      | PNamed _ _ _ fd => if (fd =? d) && negb (fd =? -1) then true else descriptor p d
      | POpen v _ _ fd =>
          if (fd =? d) && negb (fd =? -1) then true
          else if (has_fd p v =? d) && negb (d =? -1) then false else descriptor p d
      | PDestroy v => if (has_fd p v =? d) && negb (d =? -1) then false else descriptor p d
      | _ => descriptor p d
      end
  end.

(** No call was undefined: writers are made where there is none and used where there is one, and
    one that was never told whether to delete is neither moved nor destroyed. *)
Fixpoint defined (p : list pcall) : bool :=
  match p with
  | [] => true
  | c :: p =>
      defined p &&
      match c with
      | PDefault v | PNamed v _ _ _ => negb (exists_ p v)
      | PMove v q =>
          negb (exists_ p v) && exists_ p q &&
          match asked p q with Some _ => true | None => false end
      | PMoveAssign v q =>
          exists_ p v && exists_ p q && match asked p q with Some _ => true | None => false end
      | POpen v _ _ _ | PSetName v _ _ => exists_ p v
      | PDestroy v => exists_ p v && match asked p v with Some _ => true | None => false end
      end
  end.
