(** What is expected of sockets on Windows. *)
From Coq Require Import List Arith ZArith Bool.
From Verif Require Import Base WinSocketModel.
Import ListNotations.

(** The handles that the system gives are not those of open sockets. *)
Definition fresh (w : sworld) (c : scall) : Prop :=
  match c with
  | MakeServer a | MakeClient a => forall x, a_socket a = Some x -> ~ In x (s_open w)
  | Delete _ => True
  end.
Fixpoint fresh_history (w : sworld) (h : list scall) : Prop :=
  match h with
  | [] => True
  | c :: h => fresh w c /\ forall w', sstep w c = Ok w' -> fresh_history w' h
  end.

(** The handles of the sockets that were made for servers but could not be bound; [started]:
    winsock was started before. *)
Fixpoint unbound (started : bool) (h : list scall) : list nat :=
  match h with
  | [] => []
  | MakeServer a :: h =>
      let started := started || a_startup a in
      (match started, a_socket a, a_option a, a_bind a with
       | true, Some x, true, false => [x]
       | _, _, _, _ => []
       end) ++ unbound started h
  | MakeClient a :: h => unbound (started || a_startup a) h
  | Delete _ :: h => unbound started h
  end.

(** The valid sockets of the objects. *)
Fixpoint owned (l : list (option (option nat))) : list nat :=
  match l with
  | [] => []
  | Some (Some x) :: l => x :: owned l
  | _ :: l => owned l
  end.

(** The datagrams that arrived, and for every call of receive the size of its buffer, and its
    answer. *)
Fixpoint arrived (h : list ucall) : list wdatagram :=
  match h with
  | [] => []
  | Arrive d :: h => d :: arrived h
  | _ :: h => arrived h
  end.
Fixpoint received (h : list ucall) (l : list answer) : list (nat * answer) :=
  match h, l with
  | Receive _ size :: h, a :: l => (size, a) :: received h l
  | _ :: h, _ :: l => received h l
  | _, _ => []
  end.

(** What receive answers with a buffer of a size for a datagram. *)
Definition fits (size : nat) (d : wdatagram) : Prop := length (wd_data d) <= size.
Definition whole (a : answer) (d : wdatagram) : Prop :=
  a = Number (Z.of_nat (length (wd_data d))) (wd_data d).
Definition cut (size : nat) (a : answer) (d : wdatagram) : Prop :=
  a = Number (-10040) (firstn size (wd_data d)).
