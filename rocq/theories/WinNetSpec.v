(** Who owns which socket on Windows, as the user of the network objects sees it. *)
From Coq Require Import List Arith ZArith Bool.
From Verif Require Import Base WinNetModel.
Import ListNotations.
Local Open Scope Z_scope.

(** There is no object; it was moved from; it has no socket; it owns one. *)
Inductive holder := Gone | Moved | Without | Owner (h : Z).
(** The objects; the sockets that no object owns any more; whether winsock was started. *)
Record owners := Owners { s_objs : list holder; s_lost : list Z; s_started : bool }.

Definition who (s : owners) (v : nat) : holder := nth v (s_objs s) Gone.
Definition set_who (s : owners) (v : nat) (d : holder) : owners := Owners (upd (s_objs s) v d) (s_lost s) (s_started s).
Definition lose (s : owners) (hs : list Z) : owners := Owners (s_objs s) (hs ++ s_lost s) (s_started s).
Definition sockets (d : holder) : list Z := match d with Owner h => [h] | _ => [] end.
Definition start (s : owners) (a : answers) : owners := Owners (s_objs s) (s_lost s) (s_started s || a_startup a).

(** What a new object gets: its socket, and the socket that is lost on the way. *)
Definition made (server : bool) (started : bool) (a : answers) : holder * list Z :=
  match started, a_socket a with
  | true, Some h =>
      if server then
        if a_option a then if a_bind a then (Owner h, []) else (Without, [h]) else (Without, [])
      else (Owner h, [])
  | _, _ => (Without, [])
  end.
Definition is_server (c : wclass) : bool := match c with CUdpServer | CTcpServer => true | _ => false end.

(** What a call that returns [r] changes. *)
Definition own_step (s : owners) (c : ncall) (r : Z) : owners :=
  match c with
  | NCreate v c a =>
      let s := start s a in
      let (d, l) := made (is_server c) (s_started s) a in set_who (lose s l) v d
  | NAccept p v c => set_who s v (match c with inl h => if 0 <=? r then Owner h else Without | inr _ => Without end)
  | NMove v p => set_who (set_who s v (who s p)) p Moved
  | NMoveAssign v p => set_who (set_who (lose s (sockets (who s v))) v (who s p)) p Moved
  | NSetStatus v _ => s
  | NDisconnect v => match who s v with Owner _ => set_who s v Without | _ => s end
  | NReconnect v a _ =>
      match who s v with
      | Moved => s
      | _ => let s := start s a in set_who s v (fst (made false (s_started s) a))
      end
  | NDestroy v => set_who s v Gone
  end.
Fixpoint own_run (s : owners) (h : list ncall) (rs : list Z) : owners :=
  match h, rs with
  | c :: h, r :: rs => own_run (own_step s c r) h rs
  | _, _ => s
  end.
Definition own_start (n : nat) : owners := Owners (repeat Gone n) [] false.

(** The program uses objects that exist, and constructs where there is none. The system answers with handles that
    are greater than 0 and not in use, and with errors that are greater than 0. *)
Definition exists_at (s : owners) (v : nat) : Prop := who s v <> Gone.
Definition free_at (s : owners) (v : nat) : Prop := (v < length (s_objs s))%nat /\ who s v = Gone.
Definition new_handle (s : owners) (h : Z) : Prop := 0 < h /\ ~ In h (s_lost s) /\ forall v, who s v <> Owner h.
Definition proper (s : owners) (c : ncall) : Prop :=
  match c with
  | NCreate v c a => free_at s v /\ forall h, a_socket a = Some h -> new_handle s h
  | NAccept p v c =>
      free_at s v /\ exists_at s p /\ match c with inl h => new_handle s h | inr e => 0 < e end
  | NMove v p => free_at s v /\ exists_at s p
  | NMoveAssign v p => exists_at s v /\ exists_at s p
  | NSetStatus v _ | NDisconnect v | NDestroy v => exists_at s v
  | NReconnect v a _ => exists_at s v /\ forall h, a_socket a = Some h -> new_handle (set_who s v Without) h
  end.
(** Every call is proper, given the results of the calls before it. *)
Fixpoint all_proper (w : nworld) (s : owners) (h : list ncall) : Prop :=
  match h with
  | [] => True
  | c :: h => proper s c /\ forall w' r, nstep w c = Ok (w', r) -> all_proper w' (own_step s c r) h
  end.

(** The sockets that programs lose: those of servers that cannot be bound, and those of objects that are assigned to. *)
Definition careful (s : owners) (c : ncall) : Prop :=
  match c with
  | NCreate v c a => is_server c = true -> a_bind a = true
  | NMoveAssign v p => forall h, who s v <> Owner h
  | _ => True
  end.
Fixpoint all_careful (w : nworld) (s : owners) (h : list ncall) : Prop :=
  match h with
  | [] => True
  | c :: h => careful s c /\ forall w' r, nstep w c = Ok (w', r) -> all_careful w' (own_step s c r) h
  end.

(** What native() of an object shows. *)
Definition shown (d : holder) : option Z :=
  match d with Gone => None | Moved => Some 0 | Without => Some (-1) | Owner h => Some h end.
Definition native (w : nworld) (v : nat) : option Z := option_map wo_handle (nth v (nw_vars w) None).

(** Every open socket is owned by exactly one object or is lost, and only those are open. *)
Definition accounted (w : nworld) (s : owners) : Prop :=
  (forall v, native w v = shown (who s v)) /\
  (forall h, In h (nw_open w) <-> In h (s_lost s) \/ exists v, who s v = Owner h) /\
  NoDup (nw_open w) /\ NoDup (s_lost s) /\
  (forall v p h, who s v = Owner h -> who s p = Owner h -> v = p) /\
  (forall v h, who s v = Owner h -> ~ In h (s_lost s)).
