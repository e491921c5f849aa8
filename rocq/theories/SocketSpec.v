(** Who owns which descriptor, as the user of the network objects sees it. *)
From Coq Require Import List Arith ZArith Bool.
From Verif Require Import Base SocketModel.
Import ListNotations.
Local Open Scope Z_scope.

(** An object does not exist, was moved from, owns a descriptor, or owns none. *)
Inductive ownership := NGone | NMoved (k : okind) | NHas (k : okind) (fd : Z) | NNone (k : okind).

(** The objects, and the descriptors that none of them is responsible for: those opened by other parts of the
    process, and those that objects lost. *)
Record owners := Owners { s_objs : list ownership; s_foreign : list Z }.

Definition own (s : owners) (v : nat) : ownership := nth v (s_objs s) NGone.
Definition set_own (s : owners) (v : nat) (d : ownership) : owners :=
  Owners (upd (s_objs s) v d) (s_foreign s).

Definition live_kind (d : ownership) : option okind :=
  match d with NGone => None | NMoved k | NHas k _ | NNone k => Some k end.

(** The object [v] owns [fd]. *)
Definition owns (s : owners) (v : nat) (fd : Z) : Prop := exists k, own s v = NHas k fd.

(** What the system may return for a new descriptor. *)
Definition free_fd (s : owners) (fd : Z) : Prop :=
  0 <= fd /\ ~ In fd (s_foreign s) /\ forall v, ~ owns s v fd.

(** The descriptor that the constructor of a class ends up with. *)
Definition created (c : oclass) (e : env) : option Z :=
  match c with
  | CUdpServer | CTcpServer =>
      if (e_socket e =? -1) || (e_option e <? 0) || (e_bind e =? -1) then None
      else Some (e_socket e)
  | CUdpClient | CTcpClient => if e_socket e =? -1 then None else Some (e_socket e)
  end.
Definition with_socket (k : okind) (fd : option Z) : ownership :=
  match fd with Some fd => NHas k fd | None => NNone k end.

(** What [v] owns is lost. *)
Definition lose (s : owners) (v : nat) : owners :=
  match own s v with NHas _ fd => Owners (s_objs s) (fd :: s_foreign s) | _ => s end.
Definition without (fd : Z) (fds : list Z) : list Z := filter (fun x => negb (x =? fd)) fds.
(** An object that was moved from holds descriptor 0, whosever it is. *)
Definition close_zero (s : owners) (v : nat) : owners :=
  match own s v with NMoved OBase => Owners (s_objs s) (without 0 (s_foreign s)) | _ => s end.

(** What a call with the result [r] changes. *)
Definition own_step (s : owners) (c : ncall) (r : Z) : owners :=
  match c with
  | NCreate v c e => set_own s v (with_socket OBase (created c e))
  | NAccept p v fd err =>
      if 0 <=? r then
        if fd =? 0 then set_own (Owners (s_objs s) (0 :: s_foreign s)) v (NMoved OClient)
        else set_own s v (NHas OClient fd)
      else set_own s v (NNone OClient)
  | NMove v p =>
      match live_kind (own s p) with
      | Some k => set_own (set_own s v (own s p)) p (NMoved k)
      | None => s
      end
  | NMoveAssign v p =>
      match live_kind (own s p) with
      | Some k => set_own (set_own (lose s v) v (own s p)) p (NMoved k)
      | None => s
      end
  | NSetStatus v _ => s
  | NDisconnect v =>
      match own s v with
      | NMoved OBase =>
          if existsb (Z.eqb 0) (s_foreign s) then set_own (close_zero s v) v (NNone OBase) else s
      | _ => set_own s v (NNone OBase)
      end
  | NReconnect v e _ =>
      set_own s v (with_socket OBase (if e_socket e =? -1 then None else Some (e_socket e)))
  | NDestroy v => set_own (close_zero s v) v NGone
  | FOpen fd => Owners (s_objs s) (fd :: s_foreign s)
  | FClose fd => Owners (s_objs s) (without fd (s_foreign s))
  end.

(** The calls covered: an object that was moved from does not reconnect, and, unless it is a
    TcpServer::WithClient, is disconnected and destroyed only while no other object owns descriptor 0. The rest
    describes what the system calls can return. *)
Definition own_proper (s : owners) (c : ncall) : Prop :=
  match c with
  | NCreate v c e =>
      (v < length (s_objs s))%nat /\ own s v = NGone /\ (e_socket e = -1 \/ free_fd s (e_socket e))
  | NAccept p v fd err =>
      (v < length (s_objs s))%nat /\ own s v = NGone /\ live_kind (own s p) = Some OBase /\
      err > 0 /\ (fd = -1 \/ free_fd s fd)
  | NMove v p =>
      (v < length (s_objs s))%nat /\ own s v = NGone /\
      exists k, live_kind (own s p) = Some k
  | NMoveAssign v p =>
      exists k, live_kind (own s v) = Some k /\ live_kind (own s p) = Some k
  | NSetStatus v _ => exists k, live_kind (own s v) = Some k
  | NDisconnect v =>
      live_kind (own s v) = Some OBase /\ (own s v = NMoved OBase -> forall u, ~ owns s u 0)
  | NReconnect v e connected =>
      (own s v = NNone OBase \/ exists fd, own s v = NHas OBase fd) /\
      (e_socket e = -1 \/ free_fd (set_own s v (NNone OBase)) (e_socket e))
  | NDestroy v =>
      (exists k, live_kind (own s v) = Some k) /\
      (own s v = NMoved OBase -> forall u, ~ owns s u 0)
  | FOpen fd => free_fd s fd
  | FClose fd => In fd (s_foreign s)
  end.

(** Ownership is respected: nothing is assigned to an object that owns a descriptor, an object that was moved from
    is destroyed or disconnected only while descriptor 0 is not open, and accept does not yield descriptor 0. *)
Definition own_careful (s : owners) (c : ncall) : Prop :=
  match c with
  | NMoveAssign v p => forall fd, ~ owns s v fd
  | NAccept p v fd err => fd <> 0
  | NDisconnect v | NDestroy v => own s v = NMoved OBase -> ~ In 0 (s_foreign s)
  | _ => True
  end.

(** The descriptors of the other parts of the process. *)
Fixpoint others (fds : list Z) (h : list ncall) : list Z :=
  match h with
  | [] => fds
  | FOpen fd :: h => others (fd :: fds) h
  | FClose fd :: h => others (without fd fds) h
  | _ :: h => others fds h
  end.

Fixpoint own_run (s : owners) (h : list ncall) (rs : list Z) : owners :=
  match h, rs with
  | c :: h, r :: rs => own_run (own_step s c r) h rs
  | _, _ => s
  end.

Definition own_start (n : nat) (fds : list Z) : owners := Owners (repeat NGone n) fds.

(** Every call is proper, given the results of the calls before it. *)
Definition all_own_proper (n : nat) (fds : list Z) (h : list ncall) : Prop :=
  forall h1 c h2 w rs, h = h1 ++ c :: h2 -> nrun (n_start n fds) h1 = Ok (w, rs) ->
    own_proper (own_run (own_start n fds) h1 rs) c.
Definition all_own_careful (n : nat) (fds : list Z) (h : list ncall) : Prop :=
  forall h1 c h2 w rs, h = h1 ++ c :: h2 -> nrun (n_start n fds) h1 = Ok (w, rs) ->
    own_careful (own_run (own_start n fds) h1 rs) c.
