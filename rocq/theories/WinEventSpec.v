(** What a user of Registrar may expect on Windows: every event that was asked for goes to the
    queue for sockets of its class, in order, and the notificator is called for it. *)
From Coq Require Import List Arith ZArith Bool.
From Verif Require Import Base RegistrarModel EventModel EventSpec WinEventModel.
Import ListNotations.

(** The sockets by descriptor ([None]: closed), the registered ones, the messages that were not
    dispatched yet, the queues, the notificator and the notificators called. *)
Record wideal := WIdeal {
  v_kinds : list (option kind); v_on : list nat; v_wait : list (nat * sevent * bool);
  v_queue : kind -> list Z; v_connections : list accepted;
  v_note : option nat; v_notes : list nat
}.
Definition wideal_start : wideal := WIdeal [] [] [] (fun _ => []) [] None [].
Definition v_kind (s : wideal) (fd : nat) : option kind :=
  match nth_error (v_kinds s) fd with Some (Some k) => Some k | _ => None end.
Definition v_registered (s : wideal) (fd : nat) : bool := existsb (Nat.eqb fd) (v_on s).

(** The events that are asked for: connections of servers, and data and room of others. *)
Definition wanted (k : kind) (e : sevent) : bool :=
  match k, e with
  | TcpListener, Accept => true
  | TcpListener, _ => false
  | _, (Read | Write) => true
  | _, _ => false
  end.

(** What happens to events. One that reports an error is dropped. One that finds the queue full
    is dropped, and the notificator called; so it is for a socket that was closed meanwhile. *)
Definition wactual_step (capacity : kind -> nat) (s : wideal) (c : wcall) : wideal :=
  match c with
  | WCreate k _ =>
      WIdeal (v_kinds s ++ [Some k]) (v_on s) (v_wait s) (v_queue s) (v_connections s) (v_note s) (v_notes s)
  | WClose fd =>
      WIdeal (upd (v_kinds s) fd None) (v_on s) (v_wait s) (v_queue s) (v_connections s) (v_note s) (v_notes s)
  | WAdd fd error =>
      WIdeal (v_kinds s) (match error, v_kind s fd with None, Some _ => fd :: v_on s | _, _ => v_on s end)
             (v_wait s) (v_queue s) (v_connections s) (v_note s) (v_notes s)
  | WRemove fd error =>
      WIdeal (v_kinds s)
             (match error, v_kind s fd with
              | None, Some _ => filter (fun x => negb (Nat.eqb fd x)) (v_on s)
              | _, _ => v_on s
              end)
             (v_wait s) (v_queue s) (v_connections s) (v_note s) (v_notes s)
  | WMessage fd e error =>
      WIdeal (v_kinds s) (v_on s)
             (match v_kind s fd with
              | Some k => if v_registered s fd && wanted k e then v_wait s ++ [(fd, e, error)] else v_wait s
              | None => v_wait s
              end)
             (v_queue s) (v_connections s) (v_note s) (v_notes s)
  | WDispatch accept_ok =>
      match v_wait s with
      | [] => s
      | (fd, e, true) :: rest =>
          WIdeal (v_kinds s) (v_on s) rest (v_queue s) (v_connections s) (v_note s) (v_notes s)
      | (fd, e, false) :: rest =>
          let notes := v_notes s ++ match v_note s with Some n => [n] | None => [] end in
          match v_kind s fd with
          | None =>
              WIdeal (v_kinds s) (v_on s) rest (v_queue s) (v_connections s) (v_note s) notes
          | Some TcpListener =>
              if accept_ok then
                WIdeal (v_kinds s ++ [Some TcpAccepted]) (v_on s) rest (v_queue s)
                       (if length (v_connections s) <? capacity TcpListener
                        then v_connections s ++ [Accepted (Z.of_nat fd) (Z.of_nat (length (v_kinds s)))]
                        else v_connections s)
                       (v_note s) notes
              else
                WIdeal (v_kinds s) (v_on s) rest (v_queue s) (v_connections s) (v_note s) notes
          | Some k =>
              WIdeal (v_kinds s) (v_on s) rest
                     (fun k' => if kind_eqb k' k && (length (v_queue s k) <? capacity k)
                                then v_queue s k' ++ [Z.of_nat fd] else v_queue s k')
                     (v_connections s) (v_note s) notes
          end
      end
  | WPop TcpListener =>
      WIdeal (v_kinds s) (v_on s) (v_wait s) (v_queue s) (tl (v_connections s)) (v_note s) (v_notes s)
  | WPop k =>
      WIdeal (v_kinds s) (v_on s) (v_wait s)
             (fun k' => if kind_eqb k' k then tl (v_queue s k') else v_queue s k')
             (v_connections s) (v_note s) (v_notes s)
  | WNotificator n =>
      WIdeal (v_kinds s) (v_on s) (v_wait s) (v_queue s) (v_connections s) n (v_notes s)
  end.
Definition wactual_run (capacity : kind -> nat) (h : list wcall) : wideal :=
  fold_left (wactual_step capacity) h wideal_start.

(** The sockets of servers listen. *)
Definition listens (c : wcall) : Prop :=
  match c with WCreate _ ok => ok = true | _ => True end.

(** What pop returns. *)
Definition wexpected_pop (s : wideal) (k : kind) : popped :=
  match k with
  | TcpListener => Connection (hd accepted_default (v_connections s))
  | k => Descriptor (hd INVALID (v_queue s k))
  end.

(** ** Whether a program learns of data

    With the messages that winsock posts, and whether the program was told of a socket: it was
    popped since the program last received from it or registered it. *)
Record uideal := UIdeal { u_lib : wideal; u_sock : winsock; u_told : nat -> bool }.
Definition uideal_start : uideal := UIdeal wideal_start winsock_new (fun _ => false).
Definition uideal_step (capacity : kind -> nat) (s : uideal) (c : ucall) : uideal :=
  let (sock, l) := ustep (u_sock s) c in
  UIdeal (fold_left (wactual_step capacity) l (u_lib s)) sock
         (match c with
          | UPop k => match v_queue (u_lib s) k with
                      | d :: _ => put_flag (u_told s) (Z.to_nat d) true
                      | [] => u_told s
                      end
          | UReceive fd _ | UAdd fd => put_flag (u_told s) fd false
          | _ => u_told s
          end).
Definition uideal_run (capacity : kind -> nat) (h : list ucall) : uideal :=
  fold_left (uideal_step capacity) h uideal_start.

(** The calls are about sockets that exist, which are not listening ones, and there is room in
    the queue when an event is dispatched. *)
Definition uproper (capacity : kind -> nat) (s : uideal) (c : ucall) : Prop :=
  match c with
  | UCreate k | UPop k => k <> TcpListener
  | UAdd fd | URemove fd | UData fd | UReceive fd _ => fd < length (v_kinds (u_lib s))
  | UDispatch =>
      match v_wait (u_lib s) with
      | [] => True
      | (fd, _, _) :: _ =>
          match v_kind (u_lib s) fd with
          | Some k => length (v_queue (u_lib s) k) < capacity k
          | None => True
          end
      end
  end.
Fixpoint uproper_history (capacity : kind -> nat) (s : uideal) (h : list ucall) : Prop :=
  match h with
  | [] => True
  | c :: h => uproper capacity s c /\ uproper_history capacity (uideal_step capacity s c) h
  end.
