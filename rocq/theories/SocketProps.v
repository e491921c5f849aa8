(** C49: who closes a socket. C72: what a network object reports about its socket. *)
From Coq Require Import List Arith ZArith Lia Bool.
From Verif Require Import Base BaseLemmas SocketModel SocketSpec SocketProofs.
Import ListNotations.
Local Open Scope Z_scope.

(** * C49 *)

(** Over every proper history (SocketSpec.v, [own_proper]) nothing undefined happens; the open
    descriptors are exactly those without an owner and those owned by an object; no
    two objects own the same one. So a descriptor is open as long as it has an owner, and it is
    closed when the last owner goes. Those without an owner are those of the rest of the process, except that
    an object that was moved from closes descriptor 0, and those lost by assignments to owners, or accepted with
    the number 0. *)
Theorem C49_owned_partial : forall n fds h,
  (forall fd, In fd fds -> 0 <= fd) -> all_own_proper n fds h ->
  exists w rs, nrun (n_start n fds) h = Ok (w, rs) /\
    let s := own_run (own_start n fds) h rs in
    (forall fd, In fd (n_open w) <-> In fd (s_foreign s) \/ exists v, owns s v fd) /\
    (forall v u fd, owns s v fd -> owns s u fd -> v = u) /\
    (forall v fd, owns s v fd -> ~ In fd (s_foreign s)).
Proof.
  intros n fds h P A.
  destruct (nrun_ok h (n_start n fds) (own_start n fds) (n_start_inv n fds P)) as (w & rs & R & I).
  - intros h1 c h2 w rs E R. apply (A h1 c h2 w rs E R).
  - exists w, rs. split; [exact R|]. cbv zeta.
    split; [apply (v_open _ _ I)|]. split; [apply (v_once _ _ I)|apply (v_apart _ _ I)].
Qed.

(** When no object exists any more, the open descriptors are those without an owner. *)
Theorem C49_lost_partial : forall n fds h,
  (forall fd, In fd fds -> 0 <= fd) -> all_own_proper n fds h ->
  forall w rs, nrun (n_start n fds) h = Ok (w, rs) ->
  (forall v, nth_error (n_vars w) v = None \/ nth_error (n_vars w) v = Some None) ->
  forall fd, In fd (n_open w) <-> In fd (s_foreign (own_run (own_start n fds) h rs)).
Proof.
  intros n fds h P A w rs R G fd.
  destruct (nrun_ok h (n_start n fds) (own_start n fds) (n_start_inv n fds P)) as (w' & rs' & R' & I).
  { intros h1 c h2 w' rs' E R'. apply (A h1 c h2 w' rs' E R'). }
  rewrite R in R'. injection R' as <- <-. rewrite (v_open _ _ I fd). split; [|auto].
  intros [H|[v [k H]]]; [exact H|]. exfalso.
  destruct (v_objs _ _ I v) as (x & E & Rx); [apply own_out; rewrite H; discriminate|].
  rewrite H in Rx. cbn in Rx. destruct Rx as [[st ->] _].
  destruct (G v) as [G'|G']; rewrite E in G'; discriminate.
Qed.

(** If ownership is respected (SocketSpec.v, [own_careful]), the descriptors without an owner are those of the rest
    of the process. *)
Lemma careful_step s c r : own_careful s c ->
  s_foreign (own_step s c r) = others (s_foreign s) [c].
Proof.
  intros C. destruct c as [v c e|p v fd err|v p|v p|v st|v|v e st|v|fd|fd]; cbn [own_step own_careful others] in *; try reflexivity.
  - destruct (0 <=? r); [|reflexivity]. destruct (Z.eqb_spec fd 0); [contradiction|reflexivity].
  - destruct (live_kind (own s p)); reflexivity.
  - destruct (live_kind (own s p)); [|reflexivity]. unfold lose. destruct (own s v) as [| |k' fd|] eqn:O; try reflexivity.
    exfalso. apply (C fd). exists k'. exact O.
  - unfold close_zero. destruct (own s v) as [|[|]| |]; try reflexivity.
    destruct (existsb (Z.eqb 0) (s_foreign s)) eqn:B; [|reflexivity].
    apply existsb_exists in B. destruct B as (x & X & Y). apply Z.eqb_eq in Y. subst x. exfalso. apply (C eq_refl X).
  - unfold close_zero. destruct (own s v) as [|[|]| |]; try reflexivity.
    cbn [set_own s_foreign]. unfold without. apply filter_fresh. apply C. reflexivity.
Qed.
Lemma others_cons fds c h : others fds (c :: h) = others (others fds [c]) h.
Proof. destruct c; reflexivity. Qed.
Lemma careful_run : forall h w s rs w', nrun w h = Ok (w', rs) ->
  (forall h1 c h2 w' rs, h = h1 ++ c :: h2 -> nrun w h1 = Ok (w', rs) -> own_careful (own_run s h1 rs) c) ->
  s_foreign (own_run s h rs) = others (s_foreign s) h.
Proof.
  induction h as [|c h IH]; intros w s rs w' R C; cbn [nrun] in R.
  - injection R as <- <-. reflexivity.
  - destruct (nstep w c) as [[w1 r]| |] eqn:E; try discriminate. cbn [bind fst snd] in R.
    destruct (nrun w1 h) as [[w2 rs2]| |] eqn:E2; try discriminate. cbn [bind fst snd] in R. injection R as <- <-.
    cbn [own_run]. rewrite others_cons, <- (careful_step s c r); [|apply (C [] c h w []); reflexivity].
    apply (IH w1 _ _ w2); auto. intros h1 c1 h2 w3 rs3 -> R1.
    apply (C (c :: h1) c1 h2 w3 (r :: rs3)); [reflexivity|]. cbn [nrun]. rewrite E. cbn [bind fst snd]. rewrite R1. reflexivity.
Qed.

(** Destroying every object closes what was opened: if at the end no object exists, the open
    descriptors are those of the rest of the process. *)
Theorem C49_all_closed_partial : forall n fds h,
  (forall fd, In fd fds -> 0 <= fd) -> all_own_proper n fds h -> all_own_careful n fds h ->
  forall w rs, nrun (n_start n fds) h = Ok (w, rs) ->
  (forall v, nth_error (n_vars w) v = None \/ nth_error (n_vars w) v = Some None) ->
  forall fd, In fd (n_open w) <-> In fd (others fds h).
Proof.
  intros n fds h P A C w rs R G fd. rewrite (C49_lost_partial n fds h P A w rs R G fd).
  rewrite (careful_run h _ _ _ _ R C). reflexivity.
Qed.

Fixpoint all_proper (w : nworld) (s : owners) (h : list ncall) : Prop :=
  match h with
  | [] => True
  | c :: h => own_proper s c /\
      match nstep w c with
      | Ok (w', r) => all_proper w' (own_step s c r) h
      | _ => True
      end
  end.
Fixpoint all_careful (w : nworld) (s : owners) (h : list ncall) : Prop :=
  match h with
  | [] => True
  | c :: h => own_careful s c /\
      match nstep w c with
      | Ok (w', r) => all_careful w' (own_step s c r) h
      | _ => True
      end
  end.
Lemma all_careful_from : forall h w s, all_careful w s h ->
  forall h1 c h2 w' rs, h = h1 ++ c :: h2 -> nrun w h1 = Ok (w', rs) -> own_careful (own_run s h1 rs) c.
Proof.
  induction h as [|c h IH]; intros w s A h1 c1 h2 w1 rs E R.
  - destruct h1; discriminate.
  - cbn [all_careful] in A. destruct A as [A1 A2]. destruct h1 as [|c' h1].
    + cbn in R, E. injection E as <- <-. injection R as <- <-. exact A1.
    + cbn [app] in E. injection E as <- ->. cbn [nrun] in R.
      destruct (nstep w c) as [[w' r]| |]; try discriminate. cbn [bind fst snd] in R.
      destruct (nrun w' h1) as [[w2 rs2]| |] eqn:R2; try discriminate. cbn [bind fst snd] in R.
      injection R as <- <-. cbn [own_run]. apply (IH w' _ A2 h1 c1 h2 w2 rs2 eq_refl R2).
Qed.
Lemma all_proper_from : forall h w s, all_proper w s h -> own_proper_from w s h.
Proof.
  induction h as [|c h IH]; intros w s A h1 c1 h2 w1 rs E R.
  - destruct h1; discriminate.
  - cbn [all_proper] in A. destruct A as [A1 A2]. destruct h1 as [|c' h1].
    + cbn in R, E. injection E as <- <-. injection R as <- <-. exact A1.
    + cbn [app] in E. injection E as <- ->. cbn [nrun] in R.
      destruct (nstep w c) as [[w' r]| |]; try discriminate. cbn [bind fst snd] in R.
      destruct (nrun w' h1) as [[w2 rs2]| |] eqn:R2; try discriminate. cbn [bind fst snd] in R.
      injection R as <- <-. cbn [own_run]. apply (IH w' _ A2 h1 c1 h2 w2 rs2 eq_refl R2).
Qed.

(** A server accepts a client and is moved; a second server cannot bind its port and a client
    reconnects with the same descriptor; 1 and 2 belong to the process, which opens 7. *)
Definition c49_history : list ncall :=
  [ NCreate 0 CTcpServer (Env 3 0 0 0); NAccept 0 1 4 11; NMove 2 0; NMove 3 1;
    NCreate 4 CUdpServer (Env 5 0 (-1) 0); NCreate 5 CTcpClient (Env 5 0 0 0);
    NSetStatus 5 0; NReconnect 5 (Env 5 0 0 0) (-111); FOpen 7; NAccept 2 6 (-1) 11;
    NDisconnect 5; NDestroy 6; NDestroy 0; NDestroy 1; NDestroy 2; NDestroy 3; NDestroy 4 ].

Ltac c49_proper :=
  vm_compute; repeat match goal with |- _ /\ _ => split end;
  try lia; try discriminate; try reflexivity; eauto 6;
  repeat match goal with
  | |- _ \/ _ => first [ left; reflexivity | right ]
  | |- _ /\ _ => split
  | |- forall _, _ => intro
  | |- exists _, _ => eexists
  | H : exists _, _ |- _ => destruct H
  | H : _ \/ _ |- _ => destruct H
  | v : nat |- _ => destruct v; try discriminate
  end; try congruence; try lia; try reflexivity; try discriminate; auto.

Example C49_case :
  (forall fd, In fd [1; 2] -> 0 <= fd) /\ all_own_proper 7 [1; 2] c49_history /\ all_own_careful 7 [1; 2] c49_history /\
  match nrun (n_start 7 [1; 2]) c49_history with
  | Ok (w, rs) => n_open w = [7; 1; 2] /\ nth 9 rs 0 = -11
  | _ => False
  end.
Proof.
  split; [intros fd [<-|[<-|[]]]; lia|]. split; [|split].
  - apply all_proper_from. c49_proper.
  - unfold all_own_careful. apply all_careful_from. c49_proper.
  - vm_compute. auto.
Qed.

(** A client is assigned over another, one accepted gets the number 0, and one that was moved from closes it. *)
Definition c49_lost : list ncall :=
  [ NCreate 0 CTcpServer (Env 3 0 0 0); NCreate 1 CTcpClient (Env 4 0 0 0); NCreate 2 CTcpClient (Env 5 0 0 0);
    NMoveAssign 1 2; NAccept 0 3 0 11; NDestroy 3; NMoveAssign 0 0; NDestroy 1; NDestroy 2; NDestroy 0; FOpen 0 ].
Example C49_lost_case :
  (forall fd, In fd [1; 2] -> 0 <= fd) /\ all_own_proper 7 [1; 2] c49_lost /\  match nrun (n_start 7 [1; 2]) c49_lost with
  | Ok (w, rs) => n_open w = [0; 4; 3; 1; 2] /\ n_vars w = repeat None 7
      /\ s_foreign (own_run (own_start 7 [1; 2]) c49_lost rs) = [0; 3; 4; 1; 2]
  | _ => False
  end.
Proof.
  split; [intros fd [<-|[<-|[]]]; lia|]. split.
  - apply all_proper_from. c49_proper.
  - vm_compute. auto.
Qed.

(** * C49: refutations *)

Ltac ngo := repeat progress (unfold n_start, place, get_obj, put_obj, net_move_assign, net_destroy, tcp_accept, sys_open in *;
  cbn [nrun nstep n_vars nth_error repeat bind fst snd upd n_open o_kind o_fd o_status negb];
  unfold FD_INVALID, FD_INITIALIZER in *;
  try change (0 =? 0) with true; try change (0 =? -1) with false).

(** The constructor gets a descriptor. *)
Definition succeeds (e : env) (fd : Z) : Prop :=
  e_socket e = fd /\ 0 < fd /\ 0 <= e_option e /\ e_bind e <> -1.

Lemma created_succeeds c e fd : succeeds e fd -> created c e = Some fd.
Proof.
  intros (E & P & O & B). unfold created. rewrite E.
  destruct (Z.eqb_spec fd (-1)); [lia|]. destruct (Z.ltb_spec (e_option e) 0); [lia|].
  destruct (Z.eqb_spec (e_bind e) (-1)); [contradiction|]. destruct c; reflexivity.
Qed.

Lemma net_create_succeeds w c e fd : succeeds e fd ->
  exists st, net_create w c e = (sys_open w fd, Net OBase fd st).
Proof.
  intros (E & P & O & B). unfold net_create, create_server, create_client, sys_socket, STATUS_FAILED.
  rewrite E. destruct (Z.eqb_spec fd (-1)); [lia|]. destruct (Z.ltb_spec (e_option e) 0); [lia|].
  destruct (Z.eqb_spec (e_bind e) (-1)); [contradiction|].
  destruct c; destruct (Z.eqb_spec fd (-1)); try lia; rewrite net_of_socket_ok; eauto.
Qed.

Lemma net_bool_has k fd st : fd <> -1 -> net_bool (Net k fd st) = true.
Proof. intros N. unfold net_bool, FD_INVALID. cbn [o_fd]. destruct (Z.eqb_spec (-1) fd); [lia|reflexivity]. Qed.

Lemma closed_in w fd x : In x (n_open (fst (fst (sock_destroy w fd)))) <->
  In x (n_open w) /\ x <> fd.
Proof.
  unfold sock_destroy, sys_close. destruct (is_open w fd) eqn:E; cbn.
  - rewrite filter_In. destruct (Z.eqb_spec x fd); cbn; intuition congruence.
  - apply is_open_not in E. split; [|tauto]. intros H. split; [exact H|]. intros ->. auto.
Qed.

Lemma destroy_vars w fd : n_vars (fst (fst (sock_destroy w fd))) = n_vars w.
Proof. unfold sock_destroy, sys_close. destruct (is_open w fd); reflexivity. Qed.

(** An object that was moved from holds descriptor 0 and closes it when it is destroyed: an
    object of any of the four classes, moved once, makes the process lose its descriptor 0. *)
Theorem C49_moved_from_refuted : forall c e fd fds,
  succeeds e fd -> In 0 fds ->
  exists w rs, nrun (n_start 2 fds) [NCreate 0 c e; NMove 1 0; NDestroy 0] = Ok (w, rs) /\
    ~ In 0 (n_open w).
Proof.
  intros c e fd fds S I0. assert (P : 0 < fd) by apply S. ngo.
  destruct (net_create_succeeds (NWorld [None; None] fds) c e fd S) as (st & E). rewrite E. ngo.
  rewrite !net_of_socket_ok. ngo.
  rewrite net_bool_has by discriminate. ngo.
  eexists. eexists. split; [reflexivity|]. ngo.
  intros H. apply closed_in in H. tauto.
Qed.

(** Assigning over an object that owns a descriptor: the descriptor is never closed, although
    all objects are destroyed. *)
Theorem C49_assign_over_refuted : forall c e fd c' e' fd' fds,
  succeeds e fd -> succeeds e' fd' -> fd <> fd' ->
  exists w rs,
    nrun (n_start 2 fds) [NCreate 0 c e; NCreate 1 c' e'; NMoveAssign 0 1; NDestroy 1; NDestroy 0] =
      Ok (w, rs) /\
    n_vars w = [None; None] /\ In fd (n_open w).
Proof.
  intros c e fd c' e' fd' fds S S' N. assert (P : 0 < fd) by apply S. assert (P' : 0 < fd') by apply S'.
  ngo.
  destruct (net_create_succeeds (NWorld [None; None] fds) c e fd S) as (st & E). rewrite E. ngo.
  destruct (net_create_succeeds (NWorld [Some (Net OBase fd st); None] (fd :: fds)) c' e' fd' S')
    as (st' & E'). rewrite E'. ngo.
  rewrite net_bool_has by discriminate. ngo. rewrite destroy_vars. ngo.
  rewrite net_bool_has by lia. ngo.
  eexists. eexists. split; [reflexivity|]. split.
  - ngo. rewrite destroy_vars. reflexivity.
  - ngo. apply closed_in. split; [|exact N].
    ngo. apply closed_in. split; [|lia].
    cbn. auto.
Qed.

Lemma tcp_server_succeeds w e fd : succeeds e fd ->
  net_create w CTcpServer e = (sys_open w fd, Net OBase fd (e_listen e)).
Proof.
  intros (E & P & O & B). unfold net_create, create_server, sys_socket, STATUS_FAILED.
  rewrite E. destruct (Z.eqb_spec fd (-1)); [lia|]. destruct (Z.ltb_spec (e_option e) 0); [lia|].
  destruct (Z.eqb_spec (e_bind e) (-1)); [contradiction|].
  destruct (Z.eqb_spec fd (-1)); [lia|]. rewrite net_of_socket_ok.
  unfold FD_INVALID. destruct (Z.eqb_spec fd (-1)); [lia|]. reflexivity.
Qed.

(** A client connection that got descriptor 0 is never closed. *)
Theorem C49_accepted_zero_refuted : forall e fd fds err,
  succeeds e fd -> 0 <= e_listen e ->
  exists w rs,
    nrun (n_start 2 fds) [NCreate 0 CTcpServer e; NAccept 0 1 0 err; NDestroy 1; NDestroy 0] =
      Ok (w, rs) /\
    n_vars w = [None; None] /\ In 0 (n_open w).
Proof.
  intros e fd fds err S L. assert (P : 0 < fd) by apply S. ngo.
  rewrite (tcp_server_succeeds _ e fd S). ngo.
  destruct (Z.ltb_spec (e_listen e) 0); [lia|]. ngo.
  rewrite net_bool_has by lia. ngo.
  eexists. eexists. split; [reflexivity|]. split.
  - ngo. rewrite destroy_vars. reflexivity.
  - ngo. apply closed_in. split; [cbn; auto|lia].
Qed.

(** Assigning over a client connection leaks it. *)
Theorem C49_assign_over_client_refuted : forall e fd fds a b err,
  succeeds e fd -> 0 <= e_listen e -> 0 < a -> 0 < b -> a <> b -> a <> fd -> b <> fd ->
  exists w rs,
    nrun (n_start 3 fds) [NCreate 0 CTcpServer e; NAccept 0 1 a err; NAccept 0 2 b err;
        NMoveAssign 1 2; NDestroy 2; NDestroy 1; NDestroy 0] = Ok (w, rs) /\
    n_vars w = [None; None; None] /\ In a (n_open w).
Proof.
  intros e fd fds a b err S L Pa Pb Nab Na Nb. assert (P : 0 < fd) by apply S. ngo.
  rewrite (tcp_server_succeeds _ e fd S). ngo.
  destruct (Z.ltb_spec (e_listen e) 0); [lia|].
  destruct (Z.eqb_spec a (-1)); [lia|]. ngo.
  destruct (Z.ltb_spec (e_listen e) 0); [lia|].
  destruct (Z.eqb_spec b (-1)); [lia|]. ngo.
  destruct (Z.eqb_spec b 0); [lia|]. ngo. rewrite destroy_vars. ngo.
  rewrite net_bool_has by lia. ngo.
  eexists. eexists. split; [reflexivity|]. split.
  - ngo. rewrite destroy_vars. reflexivity.
  - ngo. apply closed_in. split; [|exact Na].
    ngo. apply closed_in. split; [|exact Nab]. cbn. auto.
Qed.

Example C49_refuted_case : succeeds (Env 5 0 0 0) 5 /\ 0 <= e_listen (Env 5 0 0 0) /\ In 0 [0; 1; 2].
Proof. unfold succeeds. cbn. repeat split; auto; lia. Qed.

(** * C72: what an object reports about its socket *)

Lemma create_server_fd w e :
  snd (create_server w e) = match created CUdpServer e with Some fd => fd | None => -1 end.
Proof.
  unfold create_server, sys_socket, created.
  destruct (Z.eqb_spec (e_socket e) (-1)) as [E|E]; cbn [orb]; [reflexivity|].
  unfold STATUS_FAILED. destruct (Z.eqb_spec (e_socket e) (-1)); [contradiction|].
  destruct (sock_destroy _ _) as [[w' a] b].
  destruct (e_option e <? 0); [reflexivity|]. destruct (e_bind e =? -1); reflexivity.
Qed.

(** A TcpServer after construction, whatever the system calls return: it converts to true
    exactly when it has a socket, and its status is negative when it has none. *)
Theorem C72_tcp_server_partial : forall w e w' o,
  net_create w CTcpServer e = (w', o) ->
  (net_bool o = true <->
     e_socket e <> -1 /\ 0 <= e_option e /\ e_bind e <> -1) /\
  (e_socket e = -1 \/ e_option e < 0 \/ e_bind e = -1 -> o_fd o = -1 /\ o_status o < 0) /\
  (e_socket e <> -1 -> 0 <= e_option e -> e_bind e <> -1 ->
     o_fd o = e_socket e /\ o_status o = e_listen e).
Proof.
  intros w e w' o E. cbn [net_create] in E.
  pose proof (create_server_fd w e) as K. destruct (create_server w e) as [w1 fd].
  cbn [snd] in K. rewrite net_of_socket_ok in E. cbn [o_kind o_fd] in E. injection E as <- <-.
  cbn [o_fd o_status]. unfold created in K.
  destruct (Z.eqb_spec (e_socket e) (-1)) as [N1|N1]; cbn [orb] in K.
  { subst fd. cbn. intuition (try congruence; try lia). }
  destruct (Z.ltb_spec (e_option e) 0) as [N2|N2]; cbn [orb] in K.
  { subst fd. cbn. intuition (try congruence; try lia). }
  destruct (Z.eqb_spec (e_bind e) (-1)) as [N3|N3].
  { subst fd. cbn. intuition (try congruence; try lia). }
  subst fd. rewrite net_bool_has by exact N1. unfold FD_INVALID.
  destruct (Z.eqb_spec (e_socket e) (-1)); [contradiction|].
  intuition (try congruence; try lia).
Qed.

(** The other classes: an object whose creation failed, because of whatever system call,
    converts to true and reports success. *)
Theorem C72_failed_creation_refuted : forall c w e w' o,
  (c = CUdpClient \/ c = CTcpClient) /\ e_socket e = -1 \/
  c = CUdpServer /\ (e_socket e = -1 \/ e_option e < 0 \/ e_bind e = -1) ->
  net_create w c e = (w', o) ->
  o_fd o = -1 /\ net_bool o = true /\ o_status o = STATUS_SUCCESS.
Proof.
  intros c w e w' o [[C E]|[-> C]] H.
  - unfold net_create, create_client, sys_socket in H. rewrite E in H.
    destruct C as [-> | ->]; cbn in H; injection H as <- <-; auto.
  - cbn [net_create] in H. pose proof (create_server_fd w e) as K.
    destruct (create_server w e) as [w1 fd]. cbn [snd] in K.
    assert (fd = -1) as ->.
    { rewrite K. unfold created.
      destruct (Z.eqb_spec (e_socket e) (-1)); cbn [orb]; [reflexivity|].
      destruct (Z.ltb_spec (e_option e) 0); cbn [orb]; [reflexivity|].
      destruct (Z.eqb_spec (e_bind e) (-1)); [reflexivity|]. exfalso. intuition lia. }
    injection H as <- <-. auto.
Qed.

(** Successful creation is reported by every class; for the TcpServer see above. *)
Theorem C72_successful_creation : forall c w e fd w' o,
  succeeds e fd -> c <> CTcpServer -> net_create w c e = (w', o) ->
  o_fd o = fd /\ net_bool o = true /\ o_status o = STATUS_SUCCESS.
Proof.
  intros c w e fd w' o S N E. assert (P : 0 < fd) by apply S.
  destruct S as (Es & _ & O & B).
  unfold net_create, create_server, create_client, sys_socket, STATUS_FAILED in E.
  rewrite Es in E. destruct (Z.eqb_spec fd (-1)); [lia|]. destruct (Z.ltb_spec (e_option e) 0); [lia|].
  destruct (Z.eqb_spec (e_bind e) (-1)); [contradiction|].
  destruct (Z.eqb_spec fd (-1)); [lia|].
  destruct c; try congruence; rewrite net_of_socket_ok in E; injection E as <- <-;
    (split; [reflexivity|split; [apply net_bool_has; lia|reflexivity]]).
Qed.

(** An object that was moved from converts to true and reports success, and so does every
    network object whose last operation did not fail, with or without a socket. *)
Theorem C72_moved_from_refuted : forall w v p w',
  net_move_assign w v p = Ok w' -> v <> p -> (p < length (n_vars w))%nat ->
  exists o, nth_error (n_vars w') p = Some (Some o) /\
    net_bool o = true /\ o_status o = STATUS_SUCCESS.
Proof.
  intros w v p w' E N L. unfold net_move_assign in E.
  destruct (get_obj w v) as [o| |]; cbn [bind] in E; try discriminate.
  destruct (get_obj w p) as [x| |]; cbn [bind] in E; try discriminate.
  injection E as <-. eexists. unfold put_obj. cbn [n_vars]. split.
  - apply nth_error_upd_eq. rewrite upd_length. exact L.
  - split; reflexivity.
Qed.

Example C72_case :
  net_create (n_start 3 [0; 1; 2]) CUdpServer (Env 3 0 (-1) 0) = (n_start 3 [0; 1; 2], Net OBase (-1) 0) /\
  net_create (n_start 3 [0; 1; 2]) CTcpServer (Env 3 0 (-1) 0) = (n_start 3 [0; 1; 2], Net OBase (-1) (-9)) /\
  (exists w', nrun (n_start 2 []) [NCreate 0 CTcpClient (Env 3 0 0 0); NMove 1 0] = Ok (w', [0; 0])).
Proof. repeat split. eexists. reflexivity. Qed.

Print Assumptions C49_owned_partial.
Print Assumptions C49_lost_partial.
Print Assumptions C49_all_closed_partial.
Print Assumptions C49_moved_from_refuted.
Print Assumptions C49_assign_over_refuted.
Print Assumptions C49_accepted_zero_refuted.
Print Assumptions C49_assign_over_client_refuted.
Print Assumptions C72_tcp_server_partial.
Print Assumptions C72_failed_creation_refuted.
Print Assumptions C72_successful_creation.
Print Assumptions C72_moved_from_refuted.
