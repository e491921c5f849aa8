(** C209 - C211: values that are serialised, sent and deserialised, end to end. *)
From Coq Require Import List Arith ZArith Bool Lia.
From Verif Require Import Base BaseLemmas ByteOrderModel ByteOrderSpec SerializationModel
  SerializationSpec SerializationProofs SerializationProps TcpStreamModel TcpStreamSpec TcpStreamProps
  MessageModel.
From Verif Require StreamModel StreamSpec StreamProps UdpClientModel UdpClientSpec UdpClientProps VectorModel.
Import ListNotations.
Local Open Scope Z_scope.

(** * Auxiliary *)

Lemma encode_app o a b : encode o (a ++ b) = encode o a ++ encode o b.
Proof. unfold encode. apply flat_map_app. Qed.

Lemma make_message_ok host o vs buffer :
  Forall typed vs -> length buffer = enc_size vs -> make_message host o vs buffer = Ok (encode o vs).
Proof.
  intros T L. unfold make_message. rewrite C04_layout by (auto; lia). cbn [bind s_data].
  cbn [firstn app Nat.add]. rewrite <- L, skipn_all, app_nil_r. reflexivity.
Qed.

Lemma take_values_ok host o vs rest :
  Forall typed vs -> take_values host o (map fst vs) (encode o vs ++ rest) = Ok (map snd vs).
Proof.
  intros T. unfold take_values.
  assert (E := deserialize_all_ok host o vs [] rest (encode o vs ++ rest) T eq_refl).
  cbn [length] in E. rewrite E. reflexivity.
Qed.

(** The bytes of the messages of a program, one after the other. *)
Lemma messages_bytes host o messages : forall buffers,
  Forall (Forall typed) messages ->
  Forall2 (fun vs buffer => exists fresh, length fresh = enc_size vs
                            /\ make_message host o vs fresh = Ok buffer) messages buffers ->
  concat buffers = encode o (concat messages).
Proof.
  induction messages as [ | vs messages IH ]; intros buffers T F; inversion F; subst; [ reflexivity | ].
  inversion T; subst. destruct H1 as (fresh & L & M). rewrite make_message_ok in M by assumption.
  injection M as <-. cbn [concat]. rewrite encode_app. f_equal. apply IH; assumption.
Qed.

(** Of the bytes of many values the first ones were received, at least those of [vs]. *)
Lemma prefix_values host o vs later bytes rest :
  Forall typed vs -> encode o (vs ++ later) = bytes ++ rest -> (enc_size vs <= length bytes)%nat ->
  take_values host o (map fst vs) bytes = Ok (map snd vs).
Proof.
  intros T E L. rewrite encode_app in E.
  assert (B : bytes = encode o vs ++ skipn (enc_size vs) bytes).
  { rewrite <- (firstn_skipn (enc_size vs) bytes) at 1. f_equal.
    assert (F := f_equal (firstn (enc_size vs)) E).
    rewrite !firstn_app in F. rewrite (encode_length o vs) in F.
    rewrite Nat.sub_diag in F. cbn [firstn] in F. rewrite app_nil_r in F.
    replace (enc_size vs - length bytes)%nat with 0%nat in F by lia. cbn [firstn] in F.
    rewrite app_nil_r in F. rewrite <- F. rewrite <- (encode_length o vs) at 1. apply firstn_all. }
  rewrite B. apply take_values_ok, T.
Qed.

(** * C209: values through a TCP connection *)

(** One end makes messages, on a computer of any byte order, and sends them in any pieces; the
    system may take and deliver any part at a time; calls of both ends and in both directions are
    mixed in any way; and the connection may break in the middle. When the other end has received
    as many bytes as the first values have, it deserialises just these values from them, whatever
    byte order its computer has. *)
Theorem C209_arrive : forall p ignoring h c trace s host host' o messages buffers cutoff values later,
  Forall proper h ->
  trun p (connected ignoring) h = Ran (c, trace) ->
  (* the messages, and what was sent of them *)
  Forall (Forall typed) messages ->
  Forall2 (fun vs buffer => exists fresh, length fresh = enc_size vs
                            /\ make_message host o vs fresh = Ok buffer) messages buffers ->
  said_sent s trace ++ cutoff = concat buffers ->
  (* the first values of all, of which all bytes were received *)
  concat messages = values ++ later ->
  (enc_size values <= length (stored (negb s) trace))%nat ->
  take_values host' o (map fst values) (stored (negb s) trace) = Ok (map snd values).
Proof.
  intros p ign h c trace s host host' o messages buffers cutoff values later P H T M E V L.
  destruct (C196_in_order p ign h c trace P H s) as (rest & W & _).
  rewrite (messages_bytes host o messages buffers T M), V, W, <- app_assoc in E.
  assert (TV : Forall typed values).
  { assert (X : Forall typed (concat messages)).
    { clear - T. induction T; cbn [concat]; [ constructor | apply Forall_app; auto ]. }
    rewrite V in X. apply Forall_app in X. tauto. }
  exact (prefix_values host' o values later _ _ TV (eq_sym E) L).
Qed.

Lemma receive_all_ok p s : forall answers data c,
  is_open (end_of c s) = true -> flight (from c (negb s)) = data -> fits p (length data) ->
  (length data <= length answers)%nat -> Forall (fun a => fails a = false) answers ->
  exists c', receive_all p c s (length data) answers = Ran (c', Some data)
    /\ flight (from c' (negb s)) = [] /\ end_of c' = end_of c /\ from c' s = from c s.
Proof.
  induction answers as [ | a answers IH ]; intros data c O D F L A.
  - destruct data; [ | cbn in L; lia ]. exists c. cbn [receive_all length]. auto.
  - destruct data as [ | b data ]; [ exists c; cbn [receive_all length]; auto | ].
    remember (b :: data) as l eqn:El. assert (Hl : (0 < length l)%nat) by (rewrite El; cbn; lia).
    inversion A as [ | ? ? A1 A2 ]; subst x l0.
    set (n := moved a (length l)). assert (Hn : (0 < n <= length l)%nat).
    { split; [ apply moved_pos; assumption | apply moved_le ]. }
    assert (R : tcp_receive p c s (length l) a
                = Ran (set_from c (negb s) (Dir (skipn n l) (ended (from c (negb s))) (refused (from c (negb s)))),
                       Z.of_nat n, firstn n l)).
    { unfold tcp_receive, sys_recv. rewrite O, A1, size_for_fits, D by assumption. cbn [negb].
      assert (Z.of_nat (length l) <? 0 = false) as -> by (apply Z.ltb_ge; lia). cbn [orb].
      rewrite Nat2Z.id. rewrite El. cbv iota beta. rewrite <- El, Nat.min_id. fold n. destruct (Z.ltb_spec (Z.of_nat n) 0); [ lia | ].
      reflexivity. }
    destruct (length l) as [ | m ] eqn:Q; [ lia | ]. cbn [receive_all]. rewrite R.
    destruct (Z.leb_spec (Z.of_nat n) 0); [ lia | ]. rewrite Nat2Z.id.
    set (c1 := set_from c (negb s) _).
    assert (N : (S m - n = length (skipn n l))%nat) by (rewrite skipn_length; lia).
    rewrite N.
    destruct (IH (skipn n l) c1) as (c' & E & E1 & E2 & E3).
    + exact O.
    + subst c1. rewrite from_set_from, eqb_reflx. reflexivity.
    + destruct p; cbn [fits] in *; [ exact I | ]. rewrite <- N. lia.
    + rewrite <- N. cbn [length] in L. lia.
    + exact A2.
    + exists c'. rewrite E, firstn_skipn. split; [ reflexivity | ]. split; [ exact E1 | ].
      rewrite E2, E3. subst c1. split; [ reflexivity | ]. rewrite from_set_from. destruct s; reflexivity.
Qed.

(** Without errors it works: the loops around send and receive end and the values come out, and
    nothing is left in the connection. *)
Theorem C209_progress : forall p ignoring s host host' o values fresh answers answers',
  Forall typed values -> length fresh = enc_size values -> fits p (enc_size values) ->
  (enc_size values <= length answers)%nat -> Forall (fun a => fails a = false) answers ->
  (enc_size values <= length answers')%nat -> Forall (fun a => fails a = false) answers' ->
  exists message c1 c2 received,
    make_message host o values fresh = Ok message
    /\ send_all p (connected ignoring) s message answers = Ran (c1, true)
    /\ receive_all p c1 (negb s) (enc_size values) answers' = Ran (c2, Some received)
    /\ take_values host' o (map fst values) received = Ok (map snd values)
    /\ bytes_to_read p c2 (negb s) = 0.
Proof.
  intros p ign s host host' o values fresh answers answers' T L F L1 A1 L2 A2.
  assert (N := encode_length o values).
  destruct (C197_send_all_partial p s (encode o values) answers (connected ign))
    as (c1 & E1 & D1 & _ & O1); try (rewrite N; assumption); auto.
  destruct (receive_all_ok p (negb s) answers' (encode o values) c1)
    as (c2 & E2 & D2 & O2 & _); try (rewrite N; assumption); auto.
  { rewrite O1. reflexivity. }
  { rewrite negb_involutive, D1. reflexivity. }
  rewrite N in E2. exists (encode o values), c1, c2, (encode o values).
  split; [ apply make_message_ok; assumption | ]. split; [ exact E1 | ]. split; [ exact E2 | ].
  split. { rewrite <- (app_nil_r (encode o values)). apply take_values_ok, T. }
  unfold bytes_to_read. rewrite O2, O1. cbn [connected end_of is_open negb].
  rewrite D2. reflexivity.
Qed.

(** A receive that is not repeated may get a part of a value, and the deserialiser reads behind the
    received bytes. *)
Theorem C209_single_receive : forall p ignoring s host host' o t v,
  typed (t, v) -> (1 < size_of (it_width t))%nat ->
  exists message c1 c2 bytes a,
    make_message host o [(t, v)] (repeat 0 (size_of (it_width t))) = Ok message
    /\ send_all p (connected ignoring) s message (repeat a (size_of (it_width t))) = Ran (c1, true)
    /\ tcp_receive p c1 (negb s) (length message) a = Ran (c2, 1, bytes)
    /\ fails a = false
    /\ take_values host' o [t] bytes = UB.
Proof.
  intros p ign s host host' o t v T N.
  assert (S1 : enc_size [(t, v)] = size_of (it_width t)).
  { rewrite enc_size_cons. unfold enc_size. cbn. lia. }
  assert (M : make_message host o [(t, v)] (repeat 0 (size_of (it_width t))) = Ok (encode o [(t, v)])).
  { apply make_message_ok; [ repeat constructor; exact T | ]. rewrite repeat_length. auto. }
  set (a := Answer false 1 1). set (l := encode o [(t, v)]) in *.
  assert (Hl : length l = size_of (it_width t)) by (subst l; rewrite encode_length; exact S1).
  assert (F : fits p (length l)).
  { rewrite Hl. destruct p; cbn [fits]; [ exact I | ]. destruct t as [w g]. destruct w; cbn; lia. }
  destruct (C197_send_all_partial p s l (repeat a (size_of (it_width t))) (connected ign))
    as (c1 & E1 & D1 & _ & O1); auto.
  { rewrite repeat_length. lia. }
  { apply Forall_forall. intros x I. apply repeat_spec in I. now subst x. }
  cbn [connected from flight app] in D1.
  destruct l as [ | b l' ] eqn:El; [ cbn in Hl; lia | ].
  exists (b :: l'), c1, (set_from c1 s (Dir (skipn 1 (b :: l')) false false)), [b], a.
  split; [ exact M | ]. split; [ exact E1 | ].
  split.
  { unfold tcp_receive, sys_recv. rewrite negb_involutive, O1, D1. cbn [connected end_of is_open negb].
    rewrite size_for_fits by assumption. subst a. cbn [fails].
    assert (Z.of_nat (length (b :: l')) <? 0 = false) as -> by (apply Z.ltb_ge; lia). cbn [orb flight].
    rewrite Nat2Z.id, Nat.min_id. unfold moved. cbn [amount].
    replace (Nat.min (length (b :: l')) (Nat.max 1 1)) with 1%nat by (cbn [length]; lia).
    cbn [ended refused]. reflexivity. }
  split; [ reflexivity | ].
  unfold take_values. cbn [deserialize_all]. unfold deserialize. cbn [s_data s_offset].
  destruct (size_of (it_width t)) as [ | [ | m ] ]; [ lia | lia | ].
  cbn [read_bytes bind]. unfold read at 1. cbn [nth_error bind].
  unfold read at 1. cbn [nth_error bind]. reflexivity.
Qed.

Definition sample : list (ity * Z) := [(IT W32 true, -5); (IT W16 false, 513)].

(** Two values sent as two messages, from a big endian computer to a little endian one, in pieces of
    two and four bytes, received in pieces of three bytes, with an answer in between. *)
Example C209_case :
  let m1 := [(IT W32 true, -5)] in let m2 := [(IT W16 false, 513)] in
  let a := Answer false 1 4 in
  let h := [Send true [255; 255] a; Receive false 3 a; Send true [255; 251; 2; 1] a;
            Send false [7] a; Receive false 3 a; Receive true 8 a; Receive false 3 a] in
  make_message BE BE m1 (repeat 0 4) = Ok [255; 255; 255; 251]
  /\ make_message BE BE m2 (repeat 0 2) = Ok [2; 1]
  /\ Forall (Forall typed) [m1; m2] /\ Forall proper h
  /\ match trun Posix (connected (fun _ => false)) h with
     | Ran (_, trace) => said_sent true trace = [255; 255; 255; 251; 2; 1]
         /\ stored false trace = [255; 255; 255; 251; 2; 1]
         /\ take_values LE BE [IT W32 true; IT W16 false] (stored false trace) = Ok [-5; 513]
     | _ => False
     end.
Proof.
  cbv zeta. split; [ reflexivity | ]. split; [ reflexivity | ].
  split. { repeat constructor; unfold typed, in_range; cbn; lia. }
  split. { repeat constructor. }
  vm_compute. auto.
Qed.

(** * C210: values through a RamStream *)

(** The same for a RamStream: messages written, from linear and circular ranges, and read in any
    pieces and any order. *)
Theorem C210_arrive : forall mem h s shown host host' o messages buffers cutoff values later,
  mem <> VectorModel.NoMemory -> Forall StreamSpec.call_in_memory h ->
  StreamModel.ram_run mem StreamModel.ram_new h = Ok (s, shown) ->
  Forall (Forall typed) messages ->
  Forall2 (fun vs buffer => exists fresh, length fresh = enc_size vs
                            /\ make_message host o vs fresh = Ok buffer) messages buffers ->
  StreamSpec.all_written h ++ cutoff = concat buffers ->
  concat messages = values ++ later ->
  (enc_size values <= length (StreamSpec.all_read h shown))%nat ->
  take_values host' o (map fst values) (StreamSpec.all_read h shown) = Ok (map snd values).
Proof.
  intros mem h s shown host host' o messages buffers cutoff values later Hm Hc H T M E V L.
  destruct (StreamProps.C53_prefix mem h s shown Hm Hc H) as (rest & W).
  rewrite (messages_bytes host o messages buffers T M), V, W, <- app_assoc in E.
  assert (TV : Forall typed values).
  { assert (X : Forall typed (concat messages)).
    { clear - T. induction T; cbn [concat]; [ constructor | apply Forall_app; auto ]. }
    rewrite V in X. apply Forall_app in X. tauto. }
  exact (prefix_values host' o values later _ _ TV (eq_sym E) L).
Qed.

(** A message written at once and read at once into a buffer: the buffer holds the values. *)
Theorem C210_at_once : forall mem host host' o values fresh buffer,
  mem <> VectorModel.NoMemory -> Forall typed values ->
  length fresh = enc_size values -> length buffer = enc_size values ->
  exists message s received,
    make_message host o values fresh = Ok message
    /\ StreamModel.ram_run mem StreamModel.ram_new
         [StreamModel.RWrite message (StreamModel.Linear 0 (enc_size values));
          StreamModel.RRead buffer (StreamModel.Linear 0 (enc_size values))]
       = Ok (s, [(message, enc_size values); (received, enc_size values)])
    /\ take_values host' o (map fst values) received = Ok (map snd values).
Proof.
  intros mem host host' o values fresh buffer Hm T L Lb.
  assert (N := encode_length o values). set (m := encode o values) in *. set (n := enc_size values) in *.
  set (h := [StreamModel.RWrite m (StreamModel.Linear 0 n); StreamModel.RRead buffer (StreamModel.Linear 0 n)]).
  assert (Hc : Forall StreamSpec.call_in_memory h) by (repeat constructor; cbn; lia).
  destruct (StreamProps.C53_fifo mem h Hm Hc) as (s & shown & E & R).
  subst h. destruct shown as [ | x1 [ | x2 [ | ? ? ] ] ]; cbn [StreamSpec.stream_run] in R.
  1,2,4: repeat match goal with H : exists _, _ |- _ => destruct H | H : _ /\ _ |- _ => destruct H end; contradiction.
  destruct R as (q1 & [R1 R2] & q2 & (R3 & R4 & R5) & _).
  assert (B : StreamSpec.bytes_of m (StreamModel.Linear 0 n) = m).
  { unfold StreamSpec.bytes_of. cbn [StreamSpec.places]. rewrite Nat.sub_0_r, <- N.
    apply (nth_ext _ _ 0 0); [ rewrite map_length, seq_length; reflexivity | ].
    intros i Hi. rewrite map_length, seq_length in Hi.
    rewrite (nth_indep _ 0 (nth 0 m 0)) by (rewrite map_length, seq_length; exact Hi).
    rewrite (map_nth (fun i => nth i m 0)), seq_nth by exact Hi. reflexivity. }
  rewrite B in R1, R2. cbn [app] in R1. subst q1.
  cbn [StreamSpec.places] in *. rewrite seq_length, Nat.sub_0_r, N, Nat.min_id in *.
  destruct x2 as [received k]. cbn [fst snd] in *. subst x1 k.
  exists m, s, received. split; [ apply make_message_ok; assumption | ]. split; [ exact E | ].
  assert (Q : received = m).
  { destruct R5 as (F1 & F2 & _). apply (nth_ext _ _ 0 0); [ lia | ]. intros i Hi. rewrite F1, Lb in Hi.
    cbn [StreamSpec.places] in F2. rewrite Nat.sub_0_r in F2.
    apply nth_error_nth. apply (F2 i i).
    - rewrite nth_error_nth' with (d := 0%nat) by (rewrite seq_length; lia). rewrite seq_nth by lia. reflexivity.
    - rewrite <- N, firstn_all. apply nth_error_nth'. lia. }
  rewrite Q. rewrite <- (app_nil_r m). apply take_values_ok, T.
Qed.

Example C210_case :
  let h := [StreamModel.RWrite [9; 255; 255; 9] (StreamModel.Linear 1 3);
            StreamModel.RWrite [1; 8; 255; 251; 2] (StreamModel.Circular 2 1);
            StreamModel.RRead [0; 0; 0; 0; 0; 0] (StreamModel.Linear 0 6)] in
  make_message BE BE sample (repeat 0 6) = Ok [255; 255; 255; 251; 2; 1]
  /\ Forall StreamSpec.call_in_memory h
  /\ match StreamModel.ram_run VectorModel.Realloc StreamModel.ram_new h with
     | Ok (_, shown) => StreamSpec.all_written h = [255; 255; 255; 251; 2; 1]
         /\ StreamSpec.all_read h shown = [255; 255; 255; 251; 2; 1]
         /\ take_values LE BE (map fst sample) (StreamSpec.all_read h shown) = Ok [-5; 513]
     | _ => False
     end.
Proof.
  cbv zeta. split; [ reflexivity | ]. split; [ repeat constructor; cbn; lia | ]. vm_compute. auto.
Qed.

(** * C211: values in datagrams *)

Lemma received_is_a_datagram (Q : list Z -> Prop) : forall h u u' trace,
  Forall UdpClientSpec.proper h ->
  UdpClientModel.urun u h = UdpClientModel.Ran (u', trace) ->
  (forall d, In d (UdpClientModel.queue u) -> Q (UdpClientModel.payload d)) ->
  (forall sender bytes, In (UdpClientModel.UArrive (UdpClientModel.Dgram sender bytes)) h -> Q bytes) ->
  forall size y r bytes,
    In (UdpClientModel.UReceive size y, r, bytes) trace -> 0 <= r ->
    exists d, Q d /\ bytes = firstn size d /\ r = Z.of_nat (length bytes).
Proof.
  induction h as [ | c h IH ]; cbn [UdpClientModel.urun]; intros u u' trace P H Hq Ha size y r bytes I R0.
  - injection H as <- <-. destruct I.
  - destruct (UdpClientModel.ustep u c) as [ [[u1 r1] bytes1] | ] eqn:E; [ | discriminate ].
    destruct (UdpClientModel.urun u1 h) as [ [u2 tr] | ] eqn:R; [ | discriminate ].
    injection H as <- <-. inversion P as [ | ? ? P1 P2 ]; subst.
    assert (K : (forall d, In d (UdpClientModel.queue u1) -> Q (UdpClientModel.payload d))
                /\ (forall size y, c = UdpClientModel.UReceive size y -> 0 <= r1 ->
                    exists d, Q d /\ bytes1 = firstn size d /\ r1 = Z.of_nat (length bytes1))).
    { destruct c as [ y1 y1' | data y1 | size1 y1 | [sender0 bytes0] ]; cbn [UdpClientModel.ustep] in E.
      - destruct (UdpClientModel.client_wait u y1 y1') as [ [u3 r3] | ] eqn:W; [ | discriminate ].
        injection E as <- <- <-. apply UdpClientProps.wait_keeps in W as (_ & W & _).
        rewrite W. split; [ exact Hq | intros ? ? [=] ].
      - unfold UdpClientModel.client_send, UdpClientModel.udp_send in E. destruct y1 as [ e | ].
        + destruct (- e <? 0); injection E as <- <- <-; (split; [ exact Hq | intros ? ? [=] ]).
        + destruct (Z.of_nat (length data) <? 0); injection E as <- <- <-; (split; [ exact Hq | intros ? ? [=] ]).
      - unfold UdpClientModel.client_receive, UdpClientModel.receive_client in E. destruct y1 as [ e | ].
        + cbn in P1. rewrite UdpClientProps.neg_ltb in E by assumption. injection E as <- <- <-.
          split; [ exact Hq | ]. intros ? ? _ X. lia.
        + destruct (UdpClientModel.queue u) as [ | d ds ] eqn:Qu; [ discriminate | ].
          rewrite UdpClientProps.nat_ltb in E. injection E as <- <- <-. cbn [UdpClientModel.queue].
          split; [ intros x Hx; apply Hq; right; exact Hx | ].
          intros size2 y2 [= <- <-] _. exists (UdpClientModel.payload d).
          split; [ apply Hq; left; reflexivity | auto ].
      - injection E as <- <- <-. split; [ | intros ? ? [=] ].
        destruct (UdpClientModel.bound u); [ | exact Hq ]. cbn [UdpClientModel.queue].
        intros x Hx. apply in_app_iff in Hx as [ Hx | [ <- | [] ] ]; [ apply Hq, Hx | ].
        cbn [UdpClientModel.payload]. apply (Ha sender0). left. reflexivity. }
    destruct K as [K1 K2]. destruct I as [ [= -> -> ->] | I ].
    + apply (K2 size y eq_refl R0).
    + apply (IH u1 u2 tr P2 R K1) with (size := size) (y := y); [ | exact I | exact R0 ].
      intros sender0 bytes0 X. apply (Ha sender0). right. exact X.
Qed.

Lemma read_bytes_short : forall n buf pos, (pos <= length buf < pos + n)%nat -> read_bytes buf pos n = UB.
Proof.
  induction n as [ | n IH ]; intros buf pos H; [ lia | ]. cbn [read_bytes]. unfold read.
  destruct (nth_error buf pos) as [ b | ] eqn:E; [ | reflexivity ]. cbn [bind].
  assert (pos < length buf)%nat by (apply nth_error_Some; congruence).
  rewrite IH by lia. reflexivity.
Qed.

(** A client that receives with a range as large as every message, from a server that sends one
    message in each datagram: the values of every datagram that is received are those of a
    message. *)
Theorem C211_arrive_partial : forall address h u trace host host' o ts messages,
  Forall UdpClientSpec.proper h ->
  UdpClientModel.urun (UdpClientModel.uclient_new address) h = UdpClientModel.Ran (u, trace) ->
  (* the messages all consist of values of the types [ts] *)
  Forall (fun vs => Forall typed vs /\ map fst vs = ts) messages ->
  (* every datagram that comes is one of the messages *)
  (forall sender bytes, In (UdpClientModel.UArrive (UdpClientModel.Dgram sender bytes)) h ->
     exists vs fresh, In vs messages /\ length fresh = enc_size vs
                      /\ make_message host o vs fresh = Ok bytes) ->
  forall size y r bytes,
    In (UdpClientModel.UReceive size y, r, bytes) trace -> 0 <= r ->
    (forall vs, In vs messages -> (enc_size vs <= size)%nat) ->
    exists vs, In vs messages /\ r = Z.of_nat (enc_size vs)
      /\ take_values host' o ts bytes = Ok (map snd vs).
Proof.
  intros address h u trace host host' o ts messages P H M A size y r bytes I R0 S0.
  destruct (received_is_a_datagram (fun d => exists vs fresh, In vs messages
    /\ length fresh = enc_size vs /\ make_message host o vs fresh = Ok d) h _ _ _ P H
    ltac:(intros d []) A size y r bytes I R0) as (d & (vs & fresh & V1 & V2 & V3) & E1 & E2).
  rewrite Forall_forall in M. destruct (M vs V1) as [T Ts].
  rewrite make_message_ok in V3 by assumption. injection V3 as <-.
  specialize (S0 vs V1). assert (N := encode_length o vs).
  rewrite firstn_all2 in E1 by lia. exists vs. split; [ exact V1 | ].
  split; [ rewrite E2, E1, N; reflexivity | ]. rewrite E1, <- Ts, <- (app_nil_r (encode o vs)).
  apply take_values_ok, T.
Qed.

(** In a range that is too small a message is cut, and the deserialiser reads behind the received
    bytes. *)
Theorem C211_small_range_refuted : forall u d ds size host host' o t v fresh,
  typed (t, v) -> (size < size_of (it_width t))%nat -> length fresh = size_of (it_width t) ->
  UdpClientModel.queue u = d :: ds ->
  make_message host o [(t, v)] fresh = Ok (UdpClientModel.payload d) ->
  exists u' bytes, UdpClientModel.client_receive u size None
                   = UdpClientModel.Ran (u', Z.of_nat size, bytes)
    /\ take_values host' o [t] bytes = UB.
Proof.
  intros u d ds size host host' o t v fresh T S0 L Q M.
  assert (S1 : enc_size [(t, v)] = size_of (it_width t)).
  { rewrite enc_size_cons. unfold enc_size. cbn. lia. }
  rewrite make_message_ok in M by (try rewrite S1; auto).
  assert (N := encode_length o [(t, v)]).
  replace (encode o [(t, v)]) with (UdpClientModel.payload d) in N by congruence. rewrite S1 in N.
  destruct (UdpClientProps.C200_cut_refuted u d ds size Q ltac:(lia)) as (u' & E & _).
  exists u', (firstn size (UdpClientModel.payload d)). split; [ exact E | ].
  unfold take_values. cbn [deserialize_all]. unfold deserialize. cbn [s_data s_offset].
  rewrite read_bytes_short; [ reflexivity | ]. rewrite firstn_length. lia.
Qed.

(** The values of a datagram of a stranger are taken for those of the server. *)
Theorem C211_stranger_refuted : forall address stranger request host host' o vs fresh message,
  stranger <> address -> Forall typed vs -> length fresh = enc_size vs ->
  make_message host o vs fresh = Ok message ->
  exists u bytes, UdpClientModel.urun (UdpClientModel.uclient_new address)
      [UdpClientModel.USend request None; UdpClientModel.UArrive (UdpClientModel.Dgram stranger message);
       UdpClientModel.UReceive (length message) None]
    = UdpClientModel.Ran (u, [(UdpClientModel.USend request None, Z.of_nat (length request), []);
        (UdpClientModel.UArrive (UdpClientModel.Dgram stranger message), 0, []);
        (UdpClientModel.UReceive (length message) None, Z.of_nat (length message), bytes)])
    /\ take_values host' o (map fst vs) bytes = Ok (map snd vs).
Proof.
  intros address stranger request host host' o vs fresh message D T L M.
  destruct (UdpClientProps.C200_stranger_refuted address stranger request message D) as (u & E).
  exists u, message. split; [ exact E | ]. rewrite make_message_ok in M by assumption. injection M as <-.
  rewrite <- (app_nil_r (encode o vs)). apply take_values_ok, T.
Qed.

Example C211_case :
  let m1 := [(IT W16 true, -2)] in let m2 := [(IT W16 true, 258)] in
  let h := [UdpClientModel.USend [1] None;
            UdpClientModel.UArrive (UdpClientModel.Dgram 5 [254; 255]);
            UdpClientModel.UArrive (UdpClientModel.Dgram 5 [2; 1]);
            UdpClientModel.UReceive 16 None; UdpClientModel.UReceive 2 None] in
  make_message LE LE m1 [0; 0] = Ok [254; 255] /\ make_message LE LE m2 [0; 0] = Ok [2; 1]
  /\ Forall UdpClientSpec.proper h
  /\ match UdpClientModel.urun (UdpClientModel.uclient_new 5) h with
     | UdpClientModel.Ran (_, trace) =>
         In (UdpClientModel.UReceive 16 None, 2, [254; 255]) trace
         /\ In (UdpClientModel.UReceive 2 None, 2, [2; 1]) trace
     | _ => False
     end
  /\ take_values BE LE [IT W16 true] [254; 255] = Ok [-2].
Proof.
  cbv zeta. split; [ reflexivity | ]. split; [ reflexivity | ]. split; [ repeat constructor | ].
  split; [ vm_compute; tauto | reflexivity ].
Qed.

Print Assumptions C209_arrive.
Print Assumptions C209_progress.
Print Assumptions C209_single_receive.
Print Assumptions C210_arrive.
Print Assumptions C210_at_once.
Print Assumptions C211_arrive_partial.
Print Assumptions C211_small_range_refuted.
Print Assumptions C211_stranger_refuted.
