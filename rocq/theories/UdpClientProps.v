(** C200, C201: datagrams of a UdpClient. *)
From Coq Require Import List Arith ZArith Bool Lia.
From Verif Require Import Base UdpClientModel UdpClientSpec.
Import ListNotations.
Local Open Scope Z_scope.

(** * Auxiliary *)

Lemma neg_ltb e : 0 < e -> (- e <? 0) = true.
Proof. intros H. apply Z.ltb_lt. lia. Qed.
Lemma nat_ltb n : (Z.of_nat n <? 0) = false.
Proof. apply Z.ltb_ge. lia. Qed.
Lemma neg_leb e : 0 < e -> (0 <=? - e) = false.
Proof. intros H. apply Z.leb_gt. lia. Qed.
Lemma nat_leb n : (0 <=? Z.of_nat n) = true.
Proof. apply Z.leb_le. lia. Qed.

Lemma wait_keeps u y y' u' r :
  client_wait u y y' = Ran (u', r) ->
  bound u' = bound u /\ queue u' = queue u /\ outbox u' = outbox u /\ server u' = server u.
Proof.
  unfold client_wait. destruct (wait_client u y y') as [ x | ]; [ | discriminate ].
  intros [= <- <-]. destruct (x <? 0); auto.
Qed.

(** * C200: datagrams are received in the order of arrival and sent to the server *)

(** From any state: what was waiting and what arrives is received in order, each datagram by one
    call, cut to the size of its range, and the rest is waiting. *)
Lemma run_datagrams : forall h u u' trace,
  Forall proper h -> urun u h = Ran (u', trace) ->
  exists taken,
    map payload (queue u) ++ arrived (bound u) trace = taken ++ map payload (queue u')
    /\ Forall2 cut (received trace) taken
    /\ outbox u' = outbox u ++ map (fun d => (server u, d)) (sent trace)
    /\ server u' = server u.
Proof.
  induction h as [ | c h IH ]; cbn [urun]; intros u u' trace P H.
  - injection H as <- <-. exists []. cbn. rewrite !app_nil_r. auto.
  - destruct (ustep u c) as [ [[u1 r] bytes] | ] eqn:E; [ | discriminate ].
    destruct (urun u1 h) as [ [u2 tr] | ] eqn:R; [ | discriminate ].
    injection H as <- <-. inversion P as [ | ? ? P1 P2 ]; subst.
    destruct (IH _ _ _ P2 R) as (taken & A & B & C & D). clear IH R P P2.
    destruct c as [ y y' | data y | size y | d ]; cbn [ustep proper arrived received sent] in *.
    + destruct (client_wait u y y') as [ [u3 r3] | ] eqn:W; [ | discriminate ].
      injection E as <- <- <-. apply wait_keeps in W as (W1 & W2 & W3 & W4).
      rewrite W1, W2 in A. rewrite W3, W4 in C. rewrite W4 in D. exists taken. auto.
    + unfold client_send, udp_send in E. destruct y as [ e | ].
      * rewrite neg_ltb in E by assumption. injection E as <- <- <-.
        rewrite neg_leb by assumption. rewrite orb_false_r. exists taken. auto.
      * rewrite nat_ltb in E. injection E as <- <- <-. cbn [bound queue outbox server] in *.
        rewrite nat_leb, orb_true_r. exists taken. rewrite <- app_assoc in C. auto.
    + unfold client_receive, receive_client in E. destruct y as [ e | ].
      * rewrite neg_ltb in E by assumption. injection E as <- <- <-.
        rewrite neg_leb by assumption. exists taken. auto.
      * destruct (queue u) as [ | d ds ] eqn:Q; [ discriminate | ].
        rewrite nat_ltb in E. injection E as <- <- <-. cbn [bound queue outbox server] in *.
        rewrite nat_leb. exists (payload d :: taken). cbn [map app]. rewrite A.
        split; [ reflexivity | ]. split; [ constructor; [ reflexivity | exact B ] | auto ].
    + injection E as <- <- <-. destruct (bound u) eqn:Bd; cbn [bound queue outbox server] in *.
      * exists taken. rewrite <- A, map_app, <- app_assoc. auto.
      * rewrite Bd in A. exists taken. auto.
Qed.

(** What arrived is what was received, in order, each datagram by one call and cut to the size of
    the range given, and what still waits; what was sent went to the server, whole and in order. *)
Theorem C200_in_order : forall address h u trace,
  Forall proper h ->
  urun (uclient_new address) h = Ran (u, trace) ->
  (exists taken, arrived false trace = taken ++ map payload (queue u)
                 /\ Forall2 cut (received trace) taken)
  /\ outbox u = map (fun d => (address, d)) (sent trace).
Proof.
  intros address h u trace P H. destruct (run_datagrams h _ _ _ P H) as (taken & A & B & C & _).
  cbn [uclient_new queue bound map app outbox server] in *. split; [ exists taken; auto | exact C ].
Qed.

(** A range as large as wait says takes the whole datagram, whatever arrives meanwhile. *)
Theorem C200_whole : forall u u1 n h u2 trace,
  client_wait u None None = Ran (u1, n) ->
  Forall (fun c => exists d, c = UArrive d) h ->
  urun u1 h = Ran (u2, trace) ->
  exists d ds u3, queue u = d :: ds
    /\ client_receive u2 (Z.to_nat n) None = Ran (u3, n, payload d)
    /\ queue u3 = tl (queue u2) /\ hd d (queue u2) = d.
Proof.
  intros u u1 n h u2 trace W A R. unfold client_wait, wait_client, receive_client in W.
  destruct (queue u) as [ | d ds ] eqn:Q; [ discriminate | ].
  rewrite nat_ltb in W. cbn [andb] in W. cbn [bytes_number] in W. rewrite Q, nat_ltb in W.
  injection W as <- <-.
  assert (G : exists rest, queue u2 = d :: rest).
  { clear - Q A R. revert u ds Q trace R. induction A as [ | c h [x ->] A IH ]; intros u ds Q trace R;
      cbn [urun ustep] in R.
    - injection R as <- <-. eauto.
    - destruct (urun _ h) as [ [u4 tr] | ] eqn:E in R; [ | discriminate ]. injection R as <- <-.
      destruct (bound u); [ eapply IH with (ds := ds ++ [x]); [ | eassumption ]; cbn [queue]; now rewrite Q | eauto ]. }
  destruct G as [rest G]. exists d, ds.
  unfold client_receive, receive_client. rewrite G, Nat2Z.id, firstn_all, nat_ltb.
  eexists. cbn [queue tl hd]. auto.
Qed.

(** A range that is smaller takes a part of the datagram; the rest of it is lost, and the result
    does not tell: it is the same as for a datagram of the size of the range. *)
Theorem C200_cut_refuted : forall u d ds size,
  queue u = d :: ds -> (size < length (payload d))%nat ->
  exists u', client_receive u size None = Ran (u', Z.of_nat size, firstn size (payload d))
    /\ queue u' = ds
    /\ forall d', payload d' = firstn size (payload d) ->
       client_receive (UClient (server u) (ustatus u) (bound u) (d' :: ds) (outbox u)) size None
       = client_receive u size None.
Proof.
  intros u d ds size Q L. unfold client_receive, receive_client. rewrite Q. cbn [queue].
  assert (E : length (firstn size (payload d)) = size) by (rewrite firstn_length; lia).
  rewrite E, nat_ltb. eexists. split; [ reflexivity | ]. split; [ reflexivity | ].
  intros d' ->. rewrite firstn_firstn, Nat.min_id, E, nat_ltb. reflexivity.
Qed.

(** A client takes datagrams from everyone: it does not matter who sent one. *)
Theorem C200_stranger_refuted : forall address stranger request bytes,
  stranger <> address ->
  exists u, urun (uclient_new address)
      [USend request None; UArrive (Dgram stranger bytes); UReceive (length bytes) None]
    = Ran (u, [(USend request None, Z.of_nat (length request), []);
               (UArrive (Dgram stranger bytes), 0, []);
               (UReceive (length bytes) None, Z.of_nat (length bytes), bytes)]).
Proof.
  intros address stranger request bytes _. cbn [urun ustep]. unfold client_send. cbn [udp_send].
  rewrite nat_ltb. cbn [bound queue app uclient_new]. unfold client_receive, receive_client.
  cbn [queue payload]. rewrite firstn_all, nat_ltb. eexists. reflexivity.
Qed.

(** A client that has not sent receives nothing: both calls wait, whatever arrives. *)
Theorem C200_first_refuted : forall address h u trace,
  Forall proper h ->
  urun (uclient_new address) h = Ran (u, trace) -> sent trace = [] ->
  forall size, client_receive u size None = Waits /\ forall y', client_wait u None y' = Waits.
Proof.
  intros address h u trace P H S0 size.
  assert (G : forall h u0 u trace, Forall proper h -> bound u0 = false -> queue u0 = [] ->
            urun u0 h = Ran (u, trace) -> sent trace = [] -> queue u = []).
  { clear. induction h as [ | c h IH ]; cbn [urun]; intros u0 u trace P B Q H S0.
    - injection H as <- <-. exact Q.
    - destruct (ustep u0 c) as [ [[u1 r] bytes] | ] eqn:E; [ | discriminate ].
      destruct (urun u1 h) as [ [u2 tr] | ] eqn:R; [ | discriminate ].
      injection H as <- <-. inversion P as [ | ? ? P1 P2 ]; subst.
      destruct c as [ y y' | data y | size y | d ]; cbn [ustep proper sent] in *.
      + destruct (client_wait u0 y y') as [ [u3 r3] | ] eqn:W; [ | discriminate ].
        injection E as <- <- <-. apply wait_keeps in W as (W1 & W2 & _).
        eapply IH; [ | | | exact R | exact S0 ]; congruence.
      + unfold client_send, udp_send in E. destruct y as [ e | ].
        * rewrite neg_ltb in E by assumption. injection E as <- <- <-.
          rewrite neg_leb in S0 by assumption. eapply IH; [ | | | exact R | exact S0 ]; auto.
        * rewrite nat_ltb in E. injection E as <- <- <-. rewrite nat_leb in S0. discriminate.
      + unfold client_receive, receive_client in E. destruct y as [ e | ]; [ | rewrite Q in E; discriminate ].
        rewrite neg_ltb in E by assumption. injection E as <- <- <-.
        eapply IH; [ | | | exact R | exact S0 ]; auto.
      + rewrite B in E. injection E as <- <- <-. eapply IH; [ | | | exact R | exact S0 ]; auto. }
  assert (Q := G _ _ _ _ P (eq_refl : bound (uclient_new address) = false) eq_refl H S0).
  unfold client_receive, client_wait, wait_client, receive_client. rewrite Q. auto.
Qed.

Example C200_case :
  match urun (uclient_new 5)
    [USend [1] None; UArrive (Dgram 5 [10; 11; 12]); UArrive (Dgram 5 []); UArrive (Dgram 6 [20; 21]);
     UWait None None; UReceive 3 None; UWait None None; UReceive 4 None; UReceive 1 None] with
  | Ran (u, trace) => map (fun x => snd (fst x)) trace = [1; 0; 0; 0; 3; 3; 0; 0; 1]
      /\ received trace = [(3%nat, [10; 11; 12]); (4%nat, []); (1%nat, [20])] /\ outbox u = [(5%nat, [1])]
  | _ => False
  end.
Proof. vm_compute. auto. Qed.

(** * C201: errors of a UdpClient *)

(** A call that fails returns the error with a minus sign, puts it in the status and does nothing
    else; one that succeeds leaves the status as it is. *)
Theorem C201_errors_partial : forall u c u' r bytes,
  proper c -> ustep u c = Ran (u', r, bytes) ->
  (r < 0 -> u' = set_status u r /\ bytes = [] /\ ustatus u' = r
            /\ (exists e, r = - e /\ match c with
                                     | UWait y y' => y = Some e \/ y' = Some e
                                     | USend _ y | UReceive _ y => y = Some e
                                     | UArrive _ => False
                                     end))
  /\ (0 <= r -> ustatus u' = ustatus u).
Proof.
  intros u c u' r bytes P E.
  destruct c as [ y y' | data y | size y | d ]; cbn [ustep proper] in *.
  - destruct (client_wait u y y') as [ [u3 r3] | ] eqn:W; [ | discriminate ].
    injection E as <- <- <-. unfold client_wait in W.
    destruct (wait_client u y y') as [ x | ] eqn:Q; [ | discriminate ]. injection W as <- <-.
    split.
    + intros L. apply Z.ltb_lt in L. rewrite L. split; [ reflexivity | ]. split; [ reflexivity | ].
      split; [ reflexivity | ]. unfold wait_client in Q.
      destruct (receive_client u 1 true y) as [ [[u4 r4] b4] | ] eqn:Rc; [ | discriminate ].
      destruct ((r4 <? 0) && negb (r4 =? - EMSGSIZE)) eqn:T.
      * injection Q as <-. unfold receive_client in Rc. destruct y as [ e | ].
        -- injection Rc as <- <- <-. exists e. auto.
        -- destruct (queue u); [ discriminate | ]. injection Rc as <- <- <-. rewrite nat_ltb in L. discriminate.
      * injection Q as <-. unfold bytes_number in L |- *. destruct y' as [ e | ]; [ exists e; auto | ].
        destruct (queue u); [ discriminate | rewrite nat_ltb in L; discriminate ].
    + intros L. assert (x <? 0 = false) as -> by (apply Z.ltb_ge; lia). reflexivity.
  - unfold client_send, udp_send in E. destruct y as [ e | ].
    + rewrite neg_ltb in E by assumption. injection E as <- <- <-. split; [ | lia ].
      intros _. repeat split. exists e. auto.
    + rewrite nat_ltb in E. injection E as <- <- <-. split; [ lia | reflexivity ].
  - unfold client_receive, receive_client in E. destruct y as [ e | ].
    + rewrite neg_ltb in E by assumption. injection E as <- <- <-. split; [ | lia ].
      intros _. repeat split. exists e. auto.
    + destruct (queue u); [ discriminate | ]. rewrite nat_ltb in E. injection E as <- <- <-.
      split; [ lia | reflexivity ].
  - injection E as <- <- <-. split; [ lia | ]. intros _. destruct (bound u); reflexivity.
Qed.

(** wait fails exactly if recvfrom or ioctl fails, except that EMSGSIZE, 90, of recvfrom is taken for a
    success. *)
Theorem C201_wait_partial : forall u y y',
  UdpClientSpec.proper (UWait y y') ->
  match y, y' with
  | Some e, _ =>
      if e =? 90 then exists u', client_wait u y y' = Ran (u', bytes_number u y')
      else client_wait u y y' = Ran (set_status u (- e), - e)
  | None, Some e' => queue u <> [] -> client_wait u y y' = Ran (set_status u (- e'), - e')
  | None, None => forall d ds, queue u = d :: ds ->
                  client_wait u y y' = Ran (u, Z.of_nat (length (payload d)))
  end.
Proof.
  intros u y y' [P P']. unfold client_wait, wait_client, receive_client. destruct y as [ e | ].
  - rewrite neg_ltb by assumption. cbn [andb]. unfold EMSGSIZE.
    destruct (Z.eqb_spec e 90) as [ -> | N ].
    + rewrite Z.eqb_refl. cbn [negb]. eexists. reflexivity.
    + rewrite (proj2 (Z.eqb_neq (- e) (Z.opp 90))) by lia. cbn [negb]. cbv iota beta. rewrite (neg_ltb e P). reflexivity.
  - destruct y' as [ e' | ].
    + intros N. destruct (queue u) as [ | d ds ]; [ now destruct N | ].
      rewrite nat_ltb. cbn [andb bytes_number]. cbv iota beta. rewrite (neg_ltb e' P'). reflexivity.
    + intros d ds Q. rewrite Q, nat_ltb. cbn [andb bytes_number]. rewrite Q, nat_ltb. reflexivity.
Qed.
Example C201_wait_case : let u := UClient 5 0 true [Dgram 5 [1; 2]] [] in
  client_wait u (Some 90) None = Ran (u, 2) /\ client_wait u (Some 11) None = Ran (set_status u (-11), -11).
Proof. split; reflexivity. Qed.

(** The status is not reset by calls that succeed: after an error it is negative for ever. *)
Theorem C201_stays_refuted : forall h u u' trace,
  Forall proper h -> urun u h = Ran (u', trace) -> ustatus u < 0 -> ustatus u' < 0.
Proof.
  induction h as [ | c h IH ]; cbn [urun]; intros u u' trace P H L.
  - injection H as <- <-. exact L.
  - destruct (ustep u c) as [ [[u1 r] bytes] | ] eqn:E; [ | discriminate ].
    destruct (urun u1 h) as [ [u2 tr] | ] eqn:R; [ | discriminate ].
    injection H as <- <-. inversion P as [ | ? ? P1 P2 ]; subst. apply (IH _ _ _ P2 R).
    destruct (C201_errors_partial _ _ _ _ _ P1 E) as [A B].
    destruct (Z_lt_le_dec r 0) as [N | N]; [ destruct (A N) as (_ & _ & -> & _); exact N | ].
    now rewrite (B N).
Qed.

Example C201_case :
  match urun (uclient_new 5) [USend [1] (Some 101); USend [2] None; UArrive (Dgram 5 [3]); UReceive 4 None] with
  | Ran (u, trace) => map (fun x => snd (fst x)) trace = [-101; 1; 0; 1] /\ ustatus u = -101
  | _ => False
  end.
Proof. vm_compute. auto. Qed.

Print Assumptions C200_in_order.
Print Assumptions C200_whole.
Print Assumptions C200_cut_refuted.
Print Assumptions C200_stranger_refuted.
Print Assumptions C200_first_refuted.
Print Assumptions C201_errors_partial.
Print Assumptions C201_wait_partial.
Print Assumptions C201_stays_refuted.
