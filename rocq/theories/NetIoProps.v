(** C73: the address a client socket gets. C74: the address read back from a socket, and
    reconnection. C75: waiting for bytes. C76: replies of the UDP server. *)
From Coq Require Import List Arith ZArith Lia Bool.
From Verif Require Import Base BaseLemmas UtilsModel Ipv4Model Ipv4Spec Ipv4Proofs NetIoModel.
Import ListNotations.
Local Open Scope Z_scope.

Lemma c_text_ok t rest : Forall (fun c => c <> 0) t -> c_text (t ++ 0 :: rest) = Ok t.
Proof.
  induction 1 as [|c t N _ IH]; [reflexivity|]. cbn [app c_text].
  destruct (Z.eqb_spec c 0); [contradiction|]. rewrite IH. reflexivity.
Qed.

Lemma inet_parts_split t : inet_parts t = split_dots t.
Proof. induction t as [|c t IH]; [reflexivity|]. cbn. rewrite IH. reflexivity. Qed.

Lemma inet_octets :
  forallb (fun n => match inet_number (chunk n) with Some v => v =? squash n | None => false end)
    (map Z.of_nat (seq 0 256)) = true.
Proof. vm_compute. reflexivity. Qed.

Lemma inet_octet n : octet n -> inet_number (chunk n) = Some (squash n).
Proof.
  intros H. pose proof inet_octets as C. rewrite forallb_forall in C.
  assert (I : In n (map Z.of_nat (seq 0 256))).
  { apply in_map_iff. exists (Z.to_nat n). unfold octet in H. split; [lia|]. apply in_seq. lia. }
  apply C in I. destruct (inet_number (chunk n)) as [v|]; [|discriminate].
  apply Z.eqb_eq in I. congruence.
Qed.

Lemma client_address_ok a b c d port :
  octet a -> octet b -> octet c -> octet d ->
  ip_address_client (Ip [a; b; c; d] port) =
    Ok (SockAddr [squash a; squash b; squash c; squash d] (htons port)).
Proof.
  intros Ha Hb Hc Hd. unfold ip_address_client, ip_to_address. cbn [ip_numbers ip_port].
  destruct (format_ok a b c d address_init eq_refl) as (rest & E & _). rewrite E.
  cbn [bind ad_text ad_port]. unfold inet_addr.
  destruct (chunk_octet a Ha) as (_ & Fa & _). destruct (chunk_octet b Hb) as (_ & Fb & _).
  destruct (chunk_octet c Hc) as (_ & Fc & _). destruct (chunk_octet d Hd) as (_ & Fd & _).
  rewrite c_text_ok by (apply joined_digits_nonzero; repeat constructor; auto). cbn [bind].
  rewrite inet_parts_split, split_joined; [|discriminate|repeat constructor; apply digit_clean; auto].
  cbn [map]. rewrite !inet_octet by assumption. reflexivity.
Qed.

(** * C73 *)

(** The network-order bytes of a port number. *)
Definition port_bytes (port : Z) (bytes : list Z) : Prop :=
  exists hi lo, bytes = [hi; lo] /\ 0 <= hi < 256 /\ 0 <= lo < 256 /\ port = 256 * hi + lo.

Lemma htons_bytes port : 0 <= port < 65536 -> port_bytes port (htons port).
Proof.
  intros H. unfold port_bytes, htons. rewrite Z.mod_small by exact H.
  exists (port / 256), (port mod 256). split; [reflexivity|].
  pose proof (Z.div_mod port 256 ltac:(lia)). pose proof (Z.mod_pos_bound port 256 ltac:(lia)).
  split; [|split; [assumption|lia]]. split; [apply Z.div_pos; lia|].
  apply Z.div_lt_upper_bound; lia.
Qed.

(** Without an octet 100..109 or 200..209: the socket gets this address and this port. *)
Theorem C73_client_address_partial : forall a b c d port,
  octet a -> octet b -> octet c -> octet d -> 0 <= port < 65536 ->
  ~ loses_zero a -> ~ loses_zero b -> ~ loses_zero c -> ~ loses_zero d ->
  exists s, ip_address_client (Ip [a; b; c; d] port) = Ok s /\
    sa_addr s = [a; b; c; d] /\ port_bytes port (sa_port s).
Proof.
  intros a b c d port Ha Hb Hc Hd P La Lb Lc Ld. rewrite client_address_ok by assumption.
  apply squash_same in La, Lb, Lc, Ld. rewrite La, Lb, Lc, Ld.
  eexists. split; [reflexivity|]. split; [reflexivity|]. apply htons_bytes, P.
Qed.

(** With such an octet the socket gets another address. *)
Theorem C73_client_address_refuted : forall a b c d port,
  octet a -> octet b -> octet c -> octet d ->
  loses_zero a \/ loses_zero b \/ loses_zero c \/ loses_zero d ->
  exists s, ip_address_client (Ip [a; b; c; d] port) = Ok s /\
    sa_addr s <> [a; b; c; d] /\ sa_addr s <> INADDR_NONE.
Proof.
  intros a b c d port Ha Hb Hc Hd L. rewrite client_address_ok by assumption.
  eexists. split; [reflexivity|]. cbn [sa_addr]. split.
  - intros [= Ea Eb Ec Ed]. apply squash_same in Ea, Eb, Ec, Ed. tauto.
  - unfold INADDR_NONE. intros [= Ea Eb Ec Ed].
    assert (K : forall n, octet n -> loses_zero n -> squash n <> 255).
    { intros n _ Ln. unfold squash, loses_zero in *.
      destruct (Z.leb_spec 100 n), (Z.leb_spec n 109), (Z.leb_spec 200 n), (Z.leb_spec n 209); cbn [andb]; lia. }
    destruct L as [L|[L|[L|L]]]; [apply (K a)|apply (K b)|apply (K c)|apply (K d)]; auto.
Qed.

(** Every port is reduced modulo 65536. *)
Theorem C73_port_wraps_refuted : forall a b c d port,
  octet a -> octet b -> octet c -> octet d -> 65536 <= port < 2147483648 ->
  exists s port', ip_address_client (Ip [a; b; c; d] port) = Ok s /\
    port_bytes port' (sa_port s) /\ port' <> port.
Proof.
  intros a b c d port Ha Hb Hc Hd P. rewrite client_address_ok by assumption.
  pose proof (Z.mod_pos_bound port 65536 ltac:(lia)) as M.
  eexists. exists (port mod 65536). split; [reflexivity|]. cbn [sa_port]. split; [|lia].
  pose proof (htons_bytes (port mod 65536) M) as H. unfold htons in *.
  rewrite Z.mod_mod in H by lia. exact H.
Qed.

Example C73_case :
  octet 192 /\ ~ loses_zero 192 /\ loses_zero 105 /\
  ip_address_client (Ip [192; 168; 0; 110] 8080) = Ok (SockAddr [192; 168; 0; 110] [31; 144]) /\
  ip_address_client (Ip [10; 0; 0; 105] 8080) = Ok (SockAddr [10; 0; 0; 15] [31; 144]).
Proof. unfold octet, loses_zero. repeat split; try lia; vm_compute; reflexivity. Qed.

(** * C74 *)

(** Only the port is right. *)
Theorem C74_port_partial : forall a b c d port hi lo g0 g1 g2 g3,
  port_bytes port [hi; lo] ->
  exists ip, get_ipv4 (SockAddr [a; b; c; d] [hi; lo]) [g0; g1; g2; g3] = Ok ip /\ ip_port ip = port.
Proof.
  intros a b c d port hi lo g0 g1 g2 g3 (h & l & E & _ & _ & ->). injection E as -> ->.
  eexists. split; [reflexivity|]. cbn [ip_port]. unfold ntohs. cbn [sa_port nth]. lia.
Qed.

(** The address read from a socket is not its address, whatever the unwritten bytes hold, for
    all addresses but those of the form a.0.0.0. *)
Theorem C74_address_refuted : forall a b c d p g0 g1 g2 g3,
  octet a -> octet b -> octet c -> octet d -> ~ (b = 0 /\ c = 0 /\ d = 0) ->
  exists ip, get_ipv4 (SockAddr [a; b; c; d] p) [g0; g1; g2; g3] = Ok ip /\
    ip_numbers ip <> [a; b; c; d].
Proof.
  intros a b c d p g0 g1 g2 g3 Ha Hb Hc Hd N.
  exists (Ip [short_at a b; short_at c d; short_at g0 g1; short_at g2 g3] (ntohs p)).
  split; [reflexivity|]. cbn [ip_numbers].
  intros E. assert (E1 : short_at a b = a) by congruence. assert (E2 : short_at c d = b) by congruence.
  clear E. unfold short_at, octet in *.
  assert (K : forall x y, 0 <= x <= 255 -> 0 <= y <= 255 ->
            to_short (x + 256 * y) = x + 256 * y \/ to_short (x + 256 * y) < 0).
  { intros x y Hx Hy. destruct (Z.lt_ge_cases (x + 256 * y) 32768) as [L|L].
    - left. apply to_short_small. lia.
    - right. unfold to_short. replace (x + 256 * y + 32768) with (x + 256 * y - 32768 + 1 * 65536) by lia.
      rewrite Z.mod_add by lia. rewrite Z.mod_small by lia. lia. }
  destruct (K a b Ha Hb) as [K1|K1]; destruct (K c d Hc Hd) as [K2|K2];
    rewrite E1 in K1; rewrite E2 in K2; try lia; apply N; repeat split; lia.
Qed.

(** ** Reconnecting *)

Definition plain (c : Z) : bool := negb (c =? 0) && negb (c =? 46).

Lemma bad_text n : forallb plain (chunk n) = true -> clean_part (chunk n).
Proof.
  intros H. rewrite forallb_forall in H. apply Forall_forall. intros x Hx. apply H in Hx.
  unfold plain in Hx. apply andb_prop in Hx as [H1 H2].
  destruct (Z.eqb_spec x 0); [discriminate|]. destruct (Z.eqb_spec x 46); [discriminate|].
  split; [exact n1|exact n0].
Qed.

Lemma c_text_app p t : Forall (fun c => c <> 0) p ->
  c_text (p ++ t) = let! r := c_text t in Ok (p ++ r).
Proof.
  induction 1 as [|c p N _ IH]; cbn [app].
  - destruct (c_text t); reflexivity.
  - cbn [c_text]. destruct (Z.eqb_spec c 0); [contradiction|]. rewrite IH.
    destruct (c_text t); reflexivity.
Qed.

Lemma c_text_total t rest : exists r, c_text (t ++ 0 :: rest) = Ok r.
Proof.
  induction t as [|c t [r IH]]; [exists []; reflexivity|]. cbn [app c_text].
  destruct (c =? 0); [eauto|]. rewrite IH. cbn. eauto.
Qed.

Lemma split_first p t : clean_part p -> split_dots (p ++ dot :: t) = p :: split_dots t.
Proof.
  induction 1 as [|c p [N1 _] _ IH]; cbn [app split_dots]; [rewrite Z.eqb_refl; reflexivity|].
  rewrite IH. destruct (Z.eqb_spec c dot); [contradiction|reflexivity].
Qed.

Definition bad (n : Z) : bool :=
  forallb plain (chunk n) && match inet_number (chunk n) with None => true | Some _ => false end.

Lemma bad_spec n : bad n = true -> clean_part (chunk n) /\ inet_number (chunk n) = None.
Proof.
  unfold bad. intros H. apply andb_prop in H as [H1 H2]. split; [apply bad_text, H1|].
  destruct (inet_number (chunk n)); [discriminate|reflexivity].
Qed.

Lemma clean_nonzero p : clean_part p -> Forall (fun c => c <> 0) p.
Proof. apply Forall_impl. intros c [_ H]. exact H. Qed.

Lemma client_none n0 n1 n2 n3 port :
  bad n0 = true \/ (bad n1 = true /\ forallb plain (chunk n0) = true) ->
  exists s, ip_address_client (Ip [n0; n1; n2; n3] port) = Ok s /\ sa_addr s = INADDR_NONE.
Proof.
  intros H. unfold ip_address_client, ip_to_address. cbn [ip_numbers ip_port].
  destruct (format_ok n0 n1 n2 n3 address_init eq_refl) as (rest & E & _). rewrite E.
  cbn [bind ad_text ad_port]. unfold inet_addr. clear E.
  cbn [joined]. rewrite <- !app_assoc. cbn [app]. rewrite <- !app_assoc. cbn [app].
  rewrite <- !app_assoc. cbn [app].
  destruct (c_text_total (chunk n2 ++ dot :: chunk n3) rest) as (r2 & E2).
  rewrite <- app_assoc in E2. cbn [app] in E2.
  destruct (c_text_total (chunk n1 ++ dot :: chunk n2 ++ dot :: chunk n3) rest) as (r1 & E1).
  rewrite <- app_assoc in E1. cbn [app] in E1. rewrite <- app_assoc in E1. cbn [app] in E1.
  destruct H as [H|[H C0]].
  - apply bad_spec in H. destruct H as [C0 B0].
    rewrite c_text_app by (apply clean_nonzero, C0). change (c_text (dot :: ?t)) with (let! r := c_text t in Ok (dot :: r)).
    rewrite E1. cbn [bind]. rewrite inet_parts_split, split_first by exact C0. cbn [map]. rewrite B0.
    eexists. split; [reflexivity|reflexivity].
  - apply bad_text in C0. apply bad_spec in H. destruct H as [C1 B1].
    rewrite c_text_app in E1 by (apply clean_nonzero, C1).
    change (c_text (dot :: ?t)) with (let! r := c_text t in Ok (dot :: r)) in E1.
    rewrite E2 in E1. cbn [bind] in E1. injection E1 as <-.
    rewrite c_text_app by (apply clean_nonzero, C0).
    change (c_text (dot :: ?t)) with (let! r := c_text t in Ok (dot :: r)).
    rewrite c_text_app by (apply clean_nonzero, C1).
    change (c_text (dot :: ?t)) with (let! r := c_text t in Ok (dot :: r)).
    rewrite E2. cbn [bind].
    rewrite inet_parts_split, split_first by exact C0. rewrite split_first by exact C1.
    cbn [map]. rewrite B1. eexists. split; [reflexivity|].
    destruct (inet_number (chunk n0)); reflexivity.
Qed.

Lemma bad_high : forallb (fun d => bad (short_at 0 d)) (map Z.of_nat (seq 1 99)) = true.
Proof. vm_compute. reflexivity. Qed.

Lemma plain_octets : forallb (fun n => forallb plain (chunk n)) (map Z.of_nat (seq 0 256)) = true.
Proof. vm_compute. reflexivity. Qed.

(** Reconnection of a client of a.0.0.d, 1 <= d <= 99 (the loopback address 127.0.0.1 and
    10.0.0.1 among them), and of every client of 192.168.c.d, goes to 255.255.255.255, whatever
    the unwritten bytes hold. *)
Theorem C74_reconnect_refuted :
  (forall a d p g0 g1 g2 g3, octet a -> 1 <= d <= 99 ->
     exists s, reconnect_address (SockAddr [a; 0; 0; d] p) [g0; g1; g2; g3] = Ok s /\
       sa_addr s = [255; 255; 255; 255]) /\
  (forall c d p g0 g1 g2 g3,
     exists s, reconnect_address (SockAddr [192; 168; c; d] p) [g0; g1; g2; g3] = Ok s /\
       sa_addr s = [255; 255; 255; 255]).
Proof.
  split.
  - intros a d p g0 g1 g2 g3 Ha Hd. unfold reconnect_address.
    change (get_ipv4 (SockAddr [a; 0; 0; d] p) [g0; g1; g2; g3]) with
      (Ok (Ip [short_at a 0; short_at 0 d; short_at g0 g1; short_at g2 g3] (ntohs p))).
    cbn [bind]. apply client_none. right. split.
    + pose proof bad_high as H. rewrite forallb_forall in H. apply H.
      apply in_map_iff. exists (Z.to_nat d). split; [lia|]. apply in_seq. lia.
    + replace (short_at a 0) with a.
      * pose proof plain_octets as H. rewrite forallb_forall in H. apply H.
        unfold octet in Ha. apply in_map_iff. exists (Z.to_nat a). split; [lia|]. apply in_seq. lia.
      * unfold short_at, octet in *. rewrite to_short_small; lia.
  - intros c d p g0 g1 g2 g3. unfold reconnect_address.
    change (get_ipv4 (SockAddr [192; 168; c; d] p) [g0; g1; g2; g3]) with
      (Ok (Ip [short_at 192 168; short_at c d; short_at g0 g1; short_at g2 g3] (ntohs p))).
    cbn [bind]. apply client_none. left. vm_compute. reflexivity.
Qed.

Example C74_case :
  octet 127 /\ port_bytes 8080 [31; 144] /\
  get_ipv4 (SockAddr [127; 0; 0; 1] [31; 144]) [0; 0; 0; 0] = Ok (Ip [127; 256; 0; 0] 8080) /\
  reconnect_address (SockAddr [127; 0; 0; 1] [31; 144]) [0; 0; 0; 0] =
    Ok (SockAddr [255; 255; 255; 255] [31; 144]).
Proof.
  split; [unfold octet; lia|]. split; [exists 31, 144; repeat split; lia|].
  split; vm_compute; reflexivity.
Qed.

(** * C75 *)

(** waitBytes returns at the first poll that finds exactly this number of bytes, or an error. *)
Theorem C75_exact_partial : forall polls number k fuel,
  0 < number < 2 ^ 64 ->
  (forall i, (i < k)%nat -> 0 <= polls i < 2 ^ 64 /\ polls i <> number) ->
  polls k = number \/ polls k < 0 -> (k + 2 <= fuel)%nat ->
  wait_bytes fuel polls number = Ok (polls k).
Proof.
  intros polls number k fuel P B K F. unfold wait_bytes.
  assert (G : forall m i result fuel, (i + m = k)%nat -> (m + 2 <= fuel)%nat ->
    0 <= result < 2 ^ 64 -> result <> number ->
    wait_loop fuel polls i result number = Ok (polls k)).
  { induction m as [|m IH]; intros i result f Ei Ef R N; destruct f as [|f]; try lia; cbn [wait_loop];
      unfold to_size; rewrite Z.mod_small by exact R;
      destruct (Z.eqb_spec result number); try contradiction.
    - replace i with k by lia. destruct K as [K|K].
      + rewrite K. destruct (Z.ltb_spec number 0); [lia|]. destruct f as [|f]; [lia|].
        cbn [wait_loop]. unfold to_size. rewrite Z.mod_small by lia. rewrite Z.eqb_refl. reflexivity.
      + destruct (Z.ltb_spec (polls k) 0); [reflexivity|lia].
    - destruct (B i ltac:(lia)) as [B1 B2]. destruct (Z.ltb_spec (polls i) 0); [lia|].
      apply IH; auto; lia. }
  apply (G k 0%nat); lia.
Qed.

(** If more bytes than asked for arrive at once and nobody else reads them, it never returns. *)
Theorem C75_more_bytes_refuted : forall polls number k,
  0 < number -> (forall i, (i < k)%nat -> 0 <= polls i < number) ->
  (forall i, (k <= i)%nat -> number < polls i < 2 ^ 64) ->
  forall fuel, wait_bytes fuel polls number = Diverge.
Proof.
  intros polls number k P B A fuel. unfold wait_bytes.
  assert (S : 2 ^ 64 > 0) by reflexivity.
  assert (NB : number < 2 ^ 64) by (specialize (A k (Nat.le_refl k)); lia).
  assert (G : forall fuel i result, 0 <= result < 2 ^ 64 -> result <> number ->
    wait_loop fuel polls i result number = Diverge).
  { induction fuel0 as [|f IH]; intros i result R N; [reflexivity|]. cbn [wait_loop].
    unfold to_size. rewrite Z.mod_small by exact R.
    destruct (Z.eqb_spec result number); [contradiction|].
    assert (Q : 0 <= polls i < 2 ^ 64 /\ polls i <> number).
    { destruct (Nat.lt_ge_cases i k) as [L|L]; [specialize (B i L)|specialize (A i L)]; lia. }
    destruct (Z.ltb_spec (polls i) 0); [lia|]. apply IH; apply Q. }
  apply G; lia.
Qed.

(** Three bytes, then five: waiting for three works, waiting for four does not. *)
Example C75_case :
  let polls := fun i => if (i <? 2)%nat then 0 else if (i <? 4)%nat then 3 else 5 in
  (forall i, (i < 2)%nat -> 0 <= polls i < 2 ^ 64 /\ polls i <> 3) /\ polls 2%nat = 3 /\
  (forall i, (i < 4)%nat -> 0 <= polls i < 4) /\
  (forall i, (4 <= i)%nat -> 4 < polls i < 2 ^ 64).
Proof.
  cbv zeta. split; [|split; [reflexivity|split]].
  - intros i H. destruct (Nat.ltb_spec i 2); [|lia]. split; [lia|discriminate].
  - intros i H. destruct (Nat.ltb_spec i 2), (Nat.ltb_spec i 4); lia.
  - intros i H. destruct (Nat.ltb_spec i 2), (Nat.ltb_spec i 4); lia.
Qed.

(** * C76 *)

(** What wait announces is what receive delivers, and after receive, as long as the server
    object stays where it is, every reply goes through its descriptor to the sender of that
    datagram, whatever has happened in between to the rest of the world. *)
Theorem C76_reply_partial : forall w p fd d ds,
  nth_error (u_servers w) p = Some (Some fd) -> u_queues w fd = d :: ds ->
  exists c, udp_wait w p = Ok c /\ wc_result c = Z.of_nat (length (d_data d)) /\
  forall size, exists w1 c1 data,
    udp_receive w c size = Ok (w1, c1, data) /\
    (exists rest, d_data d = data ++ rest /\ (rest = [] <-> (length (d_data d) <= size)%nat)) /\
    (length data <= size)%nat /\
    u_queues w1 fd = ds /\ (forall x, x <> fd -> u_queues w1 x = u_queues w x) /\
    forall w2 fd2 reply, nth_error (u_servers w2) p = Some (Some fd2) ->
      exists w3 c3, udp_send w2 c1 reply = Ok (w3, c3) /\
        u_sent w3 = (fd2, d_from d, reply) :: u_sent w2 /\
        wc_result c3 = Z.of_nat (length reply) /\
        (* and the next reply too *)
        wc_address c3 = d_from d /\ wc_descriptor c3 = Some p.
Proof.
  intros w p fd d ds S Q. unfold udp_wait, server_fd, sys_recvfrom, sys_fionread.
  rewrite S. cbn [bind]. rewrite Q. cbn [bind].
  eexists. split; [reflexivity|]. split; [reflexivity|].
  intros size. unfold udp_receive, server_fd, sys_recvfrom. cbn [wc_server].
  rewrite S. cbn [bind]. rewrite Q. cbn [bind].
  eexists _, _, _. split; [reflexivity|].
  split.
  { exists (skipn size (d_data d)). split; [symmetry; apply firstn_skipn|].
    split; intros H.
    - apply (f_equal (@length Z)) in H. rewrite skipn_length in H. cbn in H. lia.
    - apply skipn_all2. exact H. }
  split; [rewrite firstn_length; lia|].
  cbn [u_queues]. split; [rewrite Z.eqb_refl; reflexivity|].
  split; [intros x N; destruct (Z.eqb_spec x fd); [contradiction|reflexivity]|].
  intros w2 fd2 reply S2. unfold udp_send. cbn [wc_descriptor].
  unfold server_fd. rewrite S2. cbn [bind].
  eexists _, _. split; [reflexivity|]. cbn. repeat split; reflexivity.
Qed.

(** A reply before receive is undefined: the client that wait found is forgotten. *)
Theorem C76_reply_after_wait_refuted : forall w p c w2 reply,
  udp_wait w p = Ok c -> udp_send w2 c reply = UB.
Proof.
  intros w p c w2 reply H. unfold udp_wait in H.
  destruct (server_fd w p) as [fd| |]; cbn [bind] in H; try discriminate.
  destruct (sys_recvfrom w fd 1 true) as [r| |]; cbn [bind] in H; try discriminate.
  injection H as <-. reflexivity.
Qed.

(** When the server object was moved in between, replies go through descriptor 0; when it was
    destroyed, they are undefined. *)
Theorem C76_server_moved_refuted : forall w p c size w1 c1 data,
  udp_wait w p = Ok c -> udp_receive w c size = Ok (w1, c1, data) ->
  (forall q w2 reply, udp_move w1 q p = Ok w2 ->
     exists w3 c3, udp_send w2 c1 reply = Ok (w3, c3) /\
       u_sent w3 = (0, wc_address c1, reply) :: u_sent w1) /\
  (forall w2 reply, udp_destroy w1 p = Ok w2 -> udp_send w2 c1 reply = UB).
Proof.
  intros w p c size w1 c1 data W R. unfold udp_wait in W.
  destruct (server_fd w p) as [fd| |] eqn:S; cbn [bind] in W; try discriminate.
  destruct (sys_recvfrom w fd 1 true) as [r| |]; cbn [bind] in W; try discriminate.
  injection W as <-. unfold udp_receive in R. cbn [wc_server] in R. rewrite S in R. cbn [bind] in R.
  destruct (sys_recvfrom w fd size false) as [[[w' dt] fr]| |]; cbn [bind] in R; try discriminate.
  injection R as <- <- <-. split.
  - intros q w2 reply M. unfold udp_move in M.
    destruct (server_fd w' p) as [fd'| |] eqn:S'; cbn [bind] in M; try discriminate.
    injection M as <-. unfold udp_send. cbn [wc_descriptor]. unfold server_fd. cbn [u_servers].
    assert (L : (p < length (upd (u_servers w') q (Some fd')))%nat).
    { rewrite upd_length. unfold server_fd in S'. apply nth_error_Some. intros K. rewrite K in S'. discriminate. }
    rewrite nth_error_upd_eq by exact L. cbn [bind]. eexists _, _. split; [reflexivity|]. reflexivity.
  - intros w2 reply D. unfold udp_destroy in D.
    destruct (server_fd w' p) as [fd'| |] eqn:S'; cbn [bind] in D; try discriminate.
    injection D as <-. unfold udp_send. cbn [wc_descriptor]. unfold server_fd. cbn [u_servers].
    assert (L : (p < length (u_servers w'))%nat).
    { unfold server_fd in S'. apply nth_error_Some. intros K. rewrite K in S'. discriminate. }
    rewrite nth_error_upd_eq by exact L. reflexivity.
Qed.

Definition c76_client : sockaddr := SockAddr [10; 0; 0; 7] [31; 144].
Definition c76_world : udpworld :=
  UdpWorld (fun fd => if fd =? 4 then [Dgram c76_client [1; 2; 3]; Dgram ZERO_ADDRESS []] else [])
    [] [Some 4; None].
Example C76_case :
  nth_error (u_servers c76_world) 0 = Some (Some 4) /\
  u_queues c76_world 4 = Dgram c76_client [1; 2; 3] :: [Dgram ZERO_ADDRESS []] /\
  exists c w1 c1 w2,
    udp_wait c76_world 0 = Ok c /\ udp_receive c76_world c 2 = Ok (w1, c1, [1; 2]) /\
    udp_move w1 1 0 = Ok w2.
Proof.
  split; [reflexivity|]. split; [reflexivity|].
  eexists _, _, _, _. split; [reflexivity|]. split; reflexivity.
Qed.

Print Assumptions C73_client_address_partial.
Print Assumptions C73_client_address_refuted.
Print Assumptions C73_port_wraps_refuted.
Print Assumptions C74_port_partial.
Print Assumptions C74_address_refuted.
Print Assumptions C74_reconnect_refuted.
Print Assumptions C75_exact_partial.
Print Assumptions C75_more_bytes_refuted.
Print Assumptions C76_reply_partial.
Print Assumptions C76_reply_after_wait_refuted.
Print Assumptions C76_server_moved_refuted.
