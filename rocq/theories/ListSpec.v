(** Specification of List (C17, C18, C19, C58): what every call does to the sequence of
    elements, and which histories the proved part covers. Nothing here mentions nodes. *)
From Coq Require Import List Arith Bool.
From Verif Require Import Base ListModel.
Import ListNotations.

Section Spec.
  Context {A : Type}.

  (** The position an iterator argument denotes: [None] is end(). *)
  Definition position (l : list A) (i : option nat) : nat :=
    match i with Some n => n | None => length l end.

  (** The sequence after a call. *)
  Definition list_seq_step (l : list A) (o : list_op A) : list A :=
    match o with
    | LPushBack x => l ++ [x]
    | LPushFront x => x :: l
    | LInsert i x => firstn (position l i) l ++ x :: skipn (position l i) l
    | LInsertRange i xs => firstn (position l i) l ++ xs ++ skipn (position l i) l
    | LPopBack => removelast l
    | LPopFront => tl l
    | LErase i => firstn (position l i) l ++ skipn (S (position l i)) l
    | LEraseRange i j => firstn (position l i) l ++ skipn (position l j) l
    | LClean => []
    end.
  Definition list_seq_run (l : list A) (os : list (list_op A)) : list A :=
    fold_left list_seq_step os l.

  (** Calls a user of a sequence container may make. *)
  Definition list_documented (l : list A) (o : list_op A) : Prop :=
    match o with
    | LPushBack _ | LPushFront _ | LClean => True
    | LInsert i _ | LInsertRange i _ => position l i <= length l
    | LPopBack | LPopFront => l <> []
    | LErase i => position l i < length l
    | LEraseRange i j => position l i <= position l j <= length l
    end.

  Fixpoint list_documented_run (l : list A) (os : list (list_op A)) : Prop :=
    match os with
    | [] => True
    | o :: os' => list_documented l o /\ list_documented_run (list_seq_step l o) os'
    end.

  (** How the list got to where it is, as far as the calls below care.
      [Untouched]: no element was added since construction or the last clean();
      [Whole]: not empty, and the last element was only ever removed by popBack() or a
      range erase; [FrontOnly]: the last element was removed by popFront() or erase(it). *)
  Inductive shape := Untouched | Whole | FrontOnly.

  (** The calls covered by the proved part, with the shape afterwards; [None] = not
      covered. *)
  Definition covered (l : list A) (s : shape) (o : list_op A) : option shape :=
    match o with
    | LPushBack _ => match s with FrontOnly => None | _ => Some Whole end
    | LPushFront _ => match s with Untouched => Some Whole | _ => Some s end
    | LInsert i _ | LInsertRange i _ =>
        match s, l with
        | Untouched, _ | _, [] => None
        | Whole, _ => if position l i <=? length l then Some Whole else None
        | FrontOnly, _ => if position l i <? length l then Some FrontOnly else None
        end
    | LPopBack =>
        match s with
        | Whole => if 2 <=? length l then Some Whole else None
        | _ => None
        end
    | LPopFront =>
        match length l with
        | 0 => None
        | 1 => Some FrontOnly
        | _ => Some s
        end
    | LErase i =>
        if position l i <? length l then
          if S (position l i) =? length l then Some FrontOnly else Some s
        else None
    | LEraseRange (Some i) j =>
        let j := position l j in
        if (i =? 0) && (j =? length l) then Some Untouched
        else if (i <? length l) && (i <=? j) && (j <? length l) then Some s
        else match s with
             | Whole => if (i <? length l) && (j =? length l) then Some Whole else None
             | _ => None
             end
    | LEraseRange None _ => None
    | LClean => Some Untouched
    end.

  (** The same call with the numbers of the nodes it creates in the place of the elements it
      adds; nodes are numbered from [first] in the order of their creation. *)
  Definition node_op (first : nat) (o : list_op A) : list_op nat :=
    match o with
    | LPushBack _ => LPushBack first
    | LPushFront _ => LPushFront first
    | LInsert i _ => LInsert i first
    | LInsertRange i xs => LInsertRange i (seq first (length xs))
    | LPopBack => LPopBack
    | LPopFront => LPopFront
    | LErase i => LErase i
    | LEraseRange i j => LEraseRange i j
    | LClean => LClean
    end.

  Fixpoint covered_run (l : list A) (s : shape) (os : list (list_op A)) : option shape :=
    match os with
    | [] => Some s
    | o :: os' =>
        match covered l s o with
        | Some s' => covered_run (list_seq_step l o) s' os'
        | None => None
        end
    end.

  (** Calls on two lists: the calls each of them receives. *)
  Definition calls_on (first : bool) (os : list (bool * list_op A)) : list (list_op A) :=
    map snd (filter (fun t => Bool.eqb (fst t) first) os).

  (** No node exists any more. *)
  Definition no_nodes (h : heap A) : Prop := forall n, hp_cell h (Heap n) = None.

  (** As many nodes exist as the sequence has elements. *)
  Definition node_count (h : heap A) (k : nat) : Prop :=
    exists ns, NoDup ns /\ length ns = k /\ (forall n, hp_cell h (Heap n) <> None <-> In n ns).
End Spec.
