(** What String operations are documented to do, and what the code needs for it. Written
    without the functions of StringModel.v; only the types of calls are shared. *)
From Coq Require Import List Arith ZArith Bool.
From Verif Require Import Base StringModel.
Import ListNotations.

Section Spec.
  Context {A : Type}.
  Variable nul : A.
  Variable is_nul : A -> bool.

  (** The text of a C string: everything before the terminator; a null pointer has none. *)
  Fixpoint before_nul (l : list A) : list A :=
    match l with
    | [] => []
    | c :: l' => if is_nul c then [] else c :: before_nul l'
    end.
  Definition text (r : cstring A) : list A :=
    match r with None => [] | Some l => before_nul l end.
  Definition terminated (r : cstring A) : Prop :=
    match r with None => True | Some l => exists c, In c l /\ is_nul c = true end.

  Definition put_in (l : list A) (i : nat) (xs : list A) : list A :=
    firstn i l ++ xs ++ skipn i l.

  (** The effect of a call on the characters. *)
  Definition str_seq_step (l : list A) (o : str_op A) : list A :=
    match o with
    | SPush x | SPushMove x => l ++ [x]
    | SPushRaw r => l ++ text r
    | SPop => removelast l
    | SInsert i x | SInsertMove i x => put_in l i [x]
    | SInsertRange i xs => put_in l i xs
    | SInsertRaw i r => put_in l i (text r)
    | SErase i => firstn i l ++ skipn (S i) l
    | SEraseRange i j => firstn i l ++ skipn j l
    | SClean => []
    | SResize _ | SReserve _ => l
    | SAssignRaw r => text r
    end.
  Definition str_seq_run (l : list A) (os : list (str_op A)) : list A :=
    fold_left str_seq_step os l.
  Definition str_seq_ctor (c : str_ctor A) : list A :=
    match c with CDefault => [] | CRaw r => text r end.

  (** The calls a user may make: positions inside the string, terminated C strings. *)
  Definition str_documented (l : list A) (o : str_op A) : Prop :=
    match o with
    | SInsert i _ | SInsertMove i _ => i <= length l
    | SInsertRange i xs => i <= length l /\ (Z.of_nat (length xs) < 2 ^ 64)%Z
    | SInsertRaw i r => i <= length l /\ terminated r /\ (Z.of_nat (length (text r)) < 2 ^ 64)%Z
    | SErase i => i <= length l
    | SEraseRange i j => i <= j <= length l
    | SPushRaw r | SAssignRaw r => terminated r
    | _ => True
    end.
  Fixpoint str_documented_run (l : list A) (os : list (str_op A)) : Prop :=
    match os with
    | [] => True
    | o :: os' => str_documented l o /\ str_documented_run (str_seq_step l o) os'
    end.
  Definition ctor_documented (c : str_ctor A) : Prop :=
    match c with CDefault => True | CRaw r => terminated r end.

  (** The capacity after a call on a string of [n] characters with capacity [c] (capacity 0:
      no buffer); [None]: the call goes wrong. *)
  Definition str_cap_step (n c : nat) (o : str_op A) : option nat :=
    let grown := c * 3 / 2 in
    match o with
    | SPush _ => if n + 1 <? c then Some c else None
    | SPushMove _ => if n + 1 <? c then Some c else if 2 <=? c then Some grown else None
    | SPushRaw r =>
        let need := n + length (text r) + 2 in
        if need <? c then Some c
        else if need <? grown then Some grown
        else Some (need * 3 / 2)
    | SInsert _ _ | SInsertMove _ _ =>
        if n + 1 <? c then Some c else if 1 <=? c then Some (c + grown) else None
    | SInsertRange _ xs =>
        if (length xs =? 0) || (length xs + n <? c) then Some c else None
    | SInsertRaw _ r =>
        if (length (text r) =? 0) || (length (text r) + n <? c) then Some c else None
    | SPop | SErase _ | SEraseRange _ _ | SClean => Some c
    | SResize m => if (c =? 0) && (m =? 0) then None else Some (max c m)
    | SReserve m => if (c =? 0) && (m =? 0) then None else Some (c + m)
    | SAssignRaw None => None
    | SAssignRaw (Some t) =>
        let need := length (before_nul t) + 1 in
        if need <=? c then Some c else Some (c + need)
    end.
  Fixpoint str_cap_run (l : list A) (c : nat) (os : list (str_op A)) : option nat :=
    match os with
    | [] => Some c
    | o :: os' =>
        match str_cap_step (length l) c o with
        | Some c' => str_cap_run (str_seq_step l o) c' os'
        | None => None
        end
    end.
  Definition str_cap_ctor (c : str_ctor A) : nat :=
    match c with CDefault => 0 | CRaw r => length (text r) + 1 end.

  (** The string is a terminated sequence of the characters [l] inside its buffer, which
      has room for [c] characters. *)
  Definition holds (s : str A) (l : list A) (c : nat) : Prop :=
    str_length s = length l /\ str_capacity s = c /\ str_chars s = Ok l
    /\ (c = 0 -> s_buf s = None /\ l = [])
    /\ (0 < c -> exists b, s_buf s = Some b /\ length b = c
                  /\ length l < c /\ str_at s (length l) = Ok nul).
End Spec.
