(** What a user of Registrar may expect: every event at a registered socket is delivered to
    the queue for sockets of its class, in order, and the notificator is called for it. *)
From Coq Require Import List Arith ZArith Bool.
From Verif Require Import RegistrarModel EventModel.
Import ListNotations.

(** The sockets by descriptor, the registered ones, the events that are not delivered yet, the
    queues, the notificator and the notificators called. *)
Record ideal := Ideal {
  i_kinds : list kind; i_on : list nat; i_wait : list nat;
  i_queue : kind -> list Z; i_connections : list accepted;
  i_note : option nat; i_notes : list nat
}.
Definition ideal_start : ideal := Ideal [] [] [] (fun _ => []) [] None [].

Definition kind_eqb (a b : kind) : bool :=
  match a, b with
  | UdpServer, UdpServer | UdpClient, UdpClient | TcpListener, TcpListener
  | TcpAccepted, TcpAccepted | TcpClient, TcpClient => true
  | _, _ => false
  end.
Definition registered (s : ideal) (fd : nat) : bool := existsb (Nat.eqb fd) (i_on s).

Definition ideal_step (s : ideal) (c : ecall) : ideal :=
  match c with
  | ECreate k _ =>
      Ideal (i_kinds s ++ [k]) (i_on s) (i_wait s) (i_queue s) (i_connections s) (i_note s) (i_notes s)
  | EClose _ => s
  | EAdd fd _ _ _ =>
      Ideal (i_kinds s) (fd :: i_on s) (i_wait s) (i_queue s) (i_connections s) (i_note s) (i_notes s)
  | ERemove fd _ _ _ =>
      Ideal (i_kinds s) (filter (fun x => negb (Nat.eqb fd x)) (i_on s)) (i_wait s) (i_queue s)
            (i_connections s) (i_note s) (i_notes s)
  | EData fd | EConnect fd =>
      Ideal (i_kinds s) (i_on s) (if registered s fd then i_wait s ++ [fd] else i_wait s)
            (i_queue s) (i_connections s) (i_note s) (i_notes s)
  | EHandle _ =>
      match i_wait s with
      | [] => s
      | fd :: rest =>
          let notes := i_notes s ++ match i_note s with Some n => [n] | None => [] end in
          match nth_error (i_kinds s) fd with
          | None => s
          | Some TcpListener =>
              Ideal (i_kinds s ++ [TcpAccepted]) (i_on s) rest (i_queue s)
                    (i_connections s ++ [Accepted (Z.of_nat fd) (Z.of_nat (length (i_kinds s)))])
                    (i_note s) notes
          | Some k =>
              Ideal (i_kinds s) (i_on s) rest
                    (fun k' => if kind_eqb k' k then i_queue s k' ++ [Z.of_nat fd] else i_queue s k')
                    (i_connections s) (i_note s) notes
          end
      end
  | EPop TcpListener =>
      Ideal (i_kinds s) (i_on s) (i_wait s) (i_queue s) (tl (i_connections s)) (i_note s) (i_notes s)
  | EPop k =>
      Ideal (i_kinds s) (i_on s) (i_wait s)
            (fun k' => if kind_eqb k' k then tl (i_queue s k') else i_queue s k')
            (i_connections s) (i_note s) (i_notes s)
  | ENotificator n =>
      Ideal (i_kinds s) (i_on s) (i_wait s) (i_queue s) (i_connections s) n (i_notes s)
  end.
Definition ideal_run (h : list ecall) : ideal := fold_left ideal_step h ideal_start.

(** The room in the queues. *)
Definition has_room (capacity : kind -> nat) (s : ideal) : Prop :=
  match i_wait s with
  | [] => True
  | fd :: _ =>
      match nth_error (i_kinds s) fd with
      | None => True
      | Some TcpListener => length (i_connections s) < capacity TcpListener
      | Some k => length (i_queue s k) < capacity k
      end
  end.

(** What really happens to events, if system calls succeed and no socket is closed. One event
    can wait: one that happens meanwhile is lost. An event that finds the queue full is lost,
    though the notificator is called, and so is one of which the connection cannot be
    accepted. *)
Definition actual_step (capacity : kind -> nat) (s : ideal) (c : ecall) : ideal :=
  match c with
  | EData fd | EConnect fd =>
      Ideal (i_kinds s) (i_on s)
            (match i_wait s with [] => if registered s fd then [fd] else [] | _ :: _ => i_wait s end)
            (i_queue s) (i_connections s) (i_note s) (i_notes s)
  | EHandle accept_ok =>
      match i_wait s with
      | [] => s
      | fd :: _ =>
          let notes := i_notes s ++ match i_note s with Some n => [n] | None => [] end in
          match nth_error (i_kinds s) fd with
          | None => s
          | Some TcpListener =>
              if accept_ok then
                Ideal (i_kinds s ++ [TcpAccepted]) (i_on s) [] (i_queue s)
                      (if length (i_connections s) <? capacity TcpListener
                       then i_connections s ++ [Accepted (Z.of_nat fd) (Z.of_nat (length (i_kinds s)))]
                       else i_connections s)
                      (i_note s) notes
              else
                Ideal (i_kinds s) (i_on s) [] (i_queue s) (i_connections s) (i_note s) notes
          | Some k =>
              Ideal (i_kinds s) (i_on s) []
                    (fun k' => if kind_eqb k' k && (length (i_queue s k) <? capacity k)
                               then i_queue s k' ++ [Z.of_nat fd] else i_queue s k')
                    (i_connections s) (i_note s) notes
          end
      end
  | _ => ideal_step s c
  end.
Definition actual_run (capacity : kind -> nat) (h : list ecall) : ideal :=
  fold_left (actual_step capacity) h ideal_start.

(** System calls other than accept succeed, no socket is closed, and sockets are used as what
    they are. *)
Definition plain (s : ideal) (c : ecall) : Prop :=
  match c with
  | ECreate _ listen_ok => listen_ok = true
  | EClose _ => False
  | EAdd fd e1 e2 e3 | ERemove fd e1 e2 e3 =>
      fd < length (i_kinds s) /\ e1 = None /\ e2 = None /\ e3 = None
  | EData fd => exists k, nth_error (i_kinds s) fd = Some k /\ k <> TcpListener
  | EConnect fd => nth_error (i_kinds s) fd = Some TcpListener
  | EHandle _ | EPop _ | ENotificator _ => True
  end.
Fixpoint plain_history (capacity : kind -> nat) (s : ideal) (h : list ecall) : Prop :=
  match h with
  | [] => True
  | c :: h => plain s c /\ plain_history capacity (actual_step capacity s c) h
  end.

(** A prompt call: system calls succeed, no socket is closed, an event happens only when the
    event before it was delivered, and an event is delivered only when there is room. *)
Definition prompt (capacity : kind -> nat) (s : ideal) (c : ecall) : Prop :=
  match c with
  | ECreate _ listen_ok => listen_ok = true
  | EClose _ => False
  | EAdd fd e1 e2 e3 | ERemove fd e1 e2 e3 =>
      fd < length (i_kinds s) /\ e1 = None /\ e2 = None /\ e3 = None
  | EData fd =>
      (exists k, nth_error (i_kinds s) fd = Some k /\ k <> TcpListener)
      /\ (registered s fd = true -> i_wait s = [])
  | EConnect fd =>
      nth_error (i_kinds s) fd = Some TcpListener
      /\ (registered s fd = true -> i_wait s = [])
  | EHandle accept_ok => accept_ok = true /\ has_room capacity s
  | EPop _ | ENotificator _ => True
  end.
Fixpoint prompt_history (capacity : kind -> nat) (s : ideal) (h : list ecall) : Prop :=
  match h with
  | [] => True
  | c :: h => prompt capacity s c /\ prompt_history capacity (ideal_step s c) h
  end.

(** What pop returns. *)
Definition expected_pop (s : ideal) (k : kind) : popped :=
  match k with
  | TcpListener => Connection (hd accepted_default (i_connections s))
  | k => Descriptor (hd INVALID (i_queue s k))
  end.
