(** C212: a TCP server and its clients. *)
From Coq Require Import List Arith ZArith Bool Lia.
From Verif Require Import Base BaseLemmas TcpStreamModel TcpStreamSpec TcpStreamProps TcpServerModel
  TcpServerSpec.
From Verif Require SerializationModel SerializationSpec SerializationProps MessageModel MessageProps.
Import ListNotations.
Local Open Scope Z_scope.

(** * Auxiliary *)

Definition mem (i : nat) (l : list nat) : bool := existsb (Nat.eqb i) l.
Lemma mem_in i l : mem i l = true <-> In i l.
Proof.
  unfold mem. rewrite existsb_exists. split.
  - intros (x & I & E). apply Nat.eqb_eq in E. now subst x.
  - intros I. exists i. split; [ exact I | apply Nat.eqb_refl ].
Qed.
Lemma mem_not i l : mem i l = false <-> ~ In i l.
Proof. rewrite <- mem_in. destruct (mem i l); split; congruence. Qed.
Lemma mem_app i l k : mem i (l ++ k) = mem i l || mem i k.
Proof. unfold mem. apply existsb_app. Qed.

Definition kept (gone : list nat) (l : list nat) : list nat := filter (fun i => negb (mem i gone)) l.

Lemma kept_cons_out gone i l : ~ In i l -> kept (gone ++ [i]) l = kept gone l.
Proof.
  intros H. unfold kept. apply filter_ext_in. intros x I. rewrite mem_app. cbn.
  rewrite orb_false_r. destruct (Nat.eqb_spec x i) as [ -> | N ]; [ contradiction | ].
  now rewrite orb_false_r.
Qed.
Lemma kept_one gone i l : kept (gone ++ [i]) l = filter (fun k => negb (Nat.eqb k i)) (kept gone l).
Proof.
  unfold kept. induction l as [ | x l IH ]; cbn [filter]; [ reflexivity | ].
  rewrite mem_app. cbn [mem existsb]. rewrite orb_false_r.
  change (existsb (Nat.eqb x) gone) with (mem x gone).
  destruct (mem x gone); cbn [orb negb filter]; [ exact IH | ].
  destruct (Nat.eqb x i); cbn [negb]; [ exact IH | now rewrite IH ].
Qed.
Lemma filter_not_in i l : ~ In i l -> filter (fun k => negb (Nat.eqb k i)) l = l.
Proof.
  induction l as [ | x l IH ]; cbn [filter]; [ reflexivity | ]. intros H.
  destruct (Nat.eqb_spec x i) as [ -> | N ]; cbn [negb].
  - exfalso. apply H. now left.
  - rewrite IH; [ reflexivity | ]. intros I. apply H. now right.
Qed.
Lemma kept_app gone l k : kept gone (l ++ k) = kept gone l ++ kept gone k.
Proof. apply filter_app. Qed.
Lemma kept_nodup gone l : NoDup l -> NoDup (kept gone l).
Proof. apply NoDup_filter. Qed.
Lemma nodup_app_l {A} (l k : list A) x : NoDup (l ++ k) -> In x k -> ~ In x l.
Proof.
  induction l as [ | y l IH ]; cbn [app]; intros H I; [ intros [] | ].
  inversion H as [ | ? ? N H' ]; subst. intros [ -> | J ].
  - apply N, in_or_app. now right.
  - exact (IH H' I J).
Qed.

Lemma accepts_app a b : accepts (a ++ b) = accepts a ++ accepts b.
Proof.
  induction a as [ | [ k [ [r [ i | ]] bs ] ] a IH ]; cbn [app accepts]; [ reflexivity | | ];
    destruct k; cbn [app accepts]; rewrite IH; reflexivity.
Qed.
Lemma connects_app a b : connects (a ++ b) = connects a ++ connects b.
Proof.
  induction a as [ | [ k [ [r [ i | ]] bs ] ] a IH ]; cbn [app connects]; [ reflexivity | | ];
    destruct k; cbn [app connects]; rewrite IH; reflexivity.
Qed.
Lemma gives_up_app a b : gives_up (a ++ b) = gives_up a ++ gives_up b.
Proof.
  induction a as [ | [ k x ] a IH ]; cbn [app gives_up]; [ reflexivity | ];
    destruct k; cbn [app gives_up]; rewrite IH; reflexivity.
Qed.
Lemma only_app i a b : only i (a ++ b) = only i a ++ only i b.
Proof.
  induction a as [ | [ k [ [r o] bs ] ] a IH ]; cbn [app only]; [ reflexivity | ];
    destruct k; try exact IH. destruct (Nat.eqb i0 i); cbn [app]; now rewrite IH.
Qed.
Lemma ignoring_app i a b :
  ignoring_of i (a ++ b) = if mem i (connects a) then ignoring_of i a else ignoring_of i b.
Proof.
  induction a as [ | [ k [ [r o] bs ] ] a IH ]; [ reflexivity | ].
  destruct k; try exact IH; cbn [app ignoring_of connects]; destruct o as [ n | ]; try exact IH.
  cbn [mem existsb]. rewrite (Nat.eqb_sym i n). destruct (Nat.eqb n i); [ reflexivity | exact IH ].
Qed.

Lemma trun_app p : forall h c c1 t1 k c2 t2,
  trun p c h = Ran (c1, t1) -> trun p c1 k = Ran (c2, t2) -> trun p c (h ++ k) = Ran (c2, t1 ++ t2).
Proof.
  induction h as [ | t h IH ]; intros c c1 t1 k c2 t2 H K; cbn [trun app] in *.
  - injection H as -> <-. exact K.
  - destruct (tstep p c t) as [ [ [c' r] bs ] | | ]; [ | discriminate | discriminate ].
    destruct (trun p c' h) as [ [c'' tr] | | ] eqn:E; [ | discriminate | discriminate ].
    injection H as -> <-. rewrite (IH _ _ _ _ _ _ E K). reflexivity.
Qed.

(** The calls of what happened. *)
Definition calls (l : list (tcall * Z * list Z)) : list tcall := map (fun x => fst (fst x)) l.

(** What holds of a server after what happened. *)
Record inv (p : platform) (w : server) (pre : list event) : Prop := Inv {
  i_made : connects pre = seq 0 (length (conns w));
  i_acc : accepted w = accepts pre;
  i_gone : given_up w = gives_up pre;
  i_order : accepted w ++ waiting w = kept (given_up w) (connects pre);
  i_less : forall i, In i (given_up w) -> (i < length (conns w))%nat;
  i_none : forall i, (length (conns w) <= i)%nat -> only i pre = [];
  i_runs : forall i c, nth_error (conns w) i = Some c ->
      trun p (connected (ignoring_of i pre)) (calls (only i pre)) = Ran (c, only i pre)
}.

Lemma inv_new p l : inv p (server_new l) [].
Proof.
  constructor; cbn; try reflexivity; try (intros; contradiction).
  intros i c. destruct i; discriminate.
Qed.

Lemma kept_len gone n : (forall i, In i gone -> (i < n)%nat) -> kept gone [n] = [n].
Proof.
  intros H. unfold kept. cbn [filter].
  destruct (mem n gone) eqn:E; [ | reflexivity ]. apply mem_in, H in E. lia.
Qed.

Lemma inv_step p w pre k w' x : inv p w pre -> kstep p w k = Ran (w', x) -> inv p w' (pre ++ [(k, x)]).
Proof.
  intros [I1 I2 I3 I4 I5 I6 I7] H. destruct k as [ g a | a | i | i t ]; cbn [kstep] in H.
  - unfold client_connect in H. destruct ((sv_status w <? 0) || fails a); injection H as <- <-.
    + constructor; try rewrite connects_app; try rewrite accepts_app; try rewrite gives_up_app;
        cbn [connects accepts gives_up]; rewrite ?app_nil_r; try assumption.
      * intros i L. rewrite only_app. cbn [only]. rewrite app_nil_r. auto.
      * intros i c E. rewrite only_app, ignoring_app. cbn [only]. rewrite app_nil_r.
        assert (M : mem i (connects pre) = true).
        { apply mem_in. rewrite I1. apply in_seq. split; [ lia | ].
          apply nth_error_Some. congruence. }
        rewrite M. auto.
    + constructor; cbn [conns accepted waiting given_up]; try rewrite connects_app;
        try rewrite accepts_app; try rewrite gives_up_app; cbn [connects accepts gives_up];
        rewrite ?app_nil_r, ?app_length; cbn [length]; try assumption.
      * rewrite I1, seq_app. reflexivity.
      * rewrite app_assoc, I4, kept_app, kept_len by exact I5. reflexivity.
      * intros i I. apply I5 in I. lia.
      * intros i L. rewrite only_app. cbn [only]. rewrite app_nil_r. apply I6. lia.
      * intros i c E. rewrite only_app, ignoring_app. cbn [only]. rewrite app_nil_r.
        destruct (Nat.lt_ge_cases i (length (conns w))) as [ L | L ].
        { rewrite nth_error_app1 in E by exact L.
          assert (M : mem i (connects pre) = true).
          { apply mem_in. rewrite I1. apply in_seq. lia. }
          rewrite M. auto. }
        { rewrite nth_error_app2 in E by exact L.
          assert (M : mem i (connects pre) = false).
          { apply mem_not. rewrite I1, in_seq. lia. }
          rewrite M. rewrite (I6 i L). cbn [ignoring_of].
          destruct (i - length (conns w))%nat as [ | d ] eqn:D; cbn in E; [ | now destruct d ].
          injection E as <-. replace i with (length (conns w)) by lia. rewrite Nat.eqb_refl.
          reflexivity. }
  - unfold server_accept in H.
    destruct (sv_status w <? 0); [ | destruct (fails a); [ | destruct (waiting w) as [ | j rest ] eqn:W ] ];
      try discriminate; injection H as <- <-;
      constructor; cbn [conns accepted waiting given_up]; try rewrite connects_app;
      try rewrite accepts_app; try rewrite gives_up_app; cbn [connects accepts gives_up];
      rewrite ?app_nil_r; try assumption;
      try (intros i L; rewrite only_app; cbn [only]; rewrite app_nil_r; auto; fail);
      try (intros i c E; rewrite only_app, ignoring_app; cbn [only]; rewrite app_nil_r;
           assert (M : mem i (connects pre) = true)
             by (apply mem_in; rewrite I1; apply in_seq; split; [ lia | ];
                 apply nth_error_Some; congruence);
           rewrite M; auto; fail).
    + now rewrite I2.
    + rewrite <- app_assoc. exact I4.
  - unfold give_up in H. destruct (nth_error (conns w) i) as [ c0 | ] eqn:N; [ | discriminate ].
    destruct (existsb (Nat.eqb i) (waiting w) && negb (is_open (end_of c0 true))) eqn:G; [ | discriminate ].
    apply andb_prop in G as [G _]. change (mem i (waiting w) = true) in G. apply mem_in in G.
    injection H as <- <-.
    assert (ND : NoDup (accepted w ++ waiting w)).
    { rewrite I4. apply kept_nodup. rewrite I1. apply seq_NoDup. }
    constructor; cbn [conns accepted waiting given_up]; try rewrite connects_app;
      try rewrite accepts_app; try rewrite gives_up_app; cbn [connects accepts gives_up];
      rewrite ?app_nil_r; try assumption.
    + now rewrite I3.
    + rewrite kept_one, <- I4, filter_app. f_equal. symmetry. apply filter_not_in.
      exact (nodup_app_l _ _ _ ND G).
    + intros k I. apply in_app_or in I as [ I | [ <- | [] ] ]; [ auto | ].
      apply nth_error_Some. congruence.
    + intros k L. rewrite only_app. cbn [only]. rewrite app_nil_r. auto.
    + intros k c E. rewrite only_app, ignoring_app. cbn [only]. rewrite app_nil_r.
      assert (M : mem k (connects pre) = true)
        by (apply mem_in; rewrite I1; apply in_seq; split; [ lia | ];
            apply nth_error_Some; congruence).
      rewrite M; auto.
  - destruct (nth_error (conns w) i) as [ c0 | ] eqn:N; [ | discriminate ].
    destruct (match caller t with Some false => existsb (Nat.eqb i) (accepted w) | _ => true end);
      [ | discriminate ].
    destruct (tstep p c0 t) as [ [ [c1 r] bytes ] | | ] eqn:T; [ | discriminate | discriminate ].
    injection H as <- <-.
    assert (Li : (i < length (conns w))%nat) by (apply nth_error_Some; congruence).
    constructor; cbn [conns accepted waiting given_up]; rewrite ?upd_length; try rewrite connects_app;
      try rewrite accepts_app; try rewrite gives_up_app; cbn [connects accepts gives_up];
      rewrite ?app_nil_r; try assumption.
    + intros k L. rewrite only_app. cbn [only]. destruct (Nat.eqb_spec i k); [ lia | ].
      rewrite app_nil_r. auto.
    + intros k c E. rewrite only_app, ignoring_app. cbn [only].
      assert (Lk : (k < length (conns w))%nat).
      { rewrite <- (upd_length (conns w) i c1). apply nth_error_Some. congruence. }
      assert (M : mem k (connects pre) = true) by (apply mem_in; rewrite I1; apply in_seq; lia).
      rewrite M. destruct (Nat.eqb_spec i k) as [ <- | D ].
      * rewrite nth_error_upd_eq in E by exact Li. injection E as <-.
        unfold calls. rewrite map_app. apply (trun_app p _ _ c0); [ exact (I7 i c0 N) | ].
        cbn [map fst trun]. rewrite T. reflexivity.
      * rewrite nth_error_upd_neq in E by auto. rewrite app_nil_r. auto.
Qed.

Lemma inv_run p : forall h w pre w' trace,
  inv p w pre -> krun p w h = Ran (w', trace) -> inv p w' (pre ++ trace).
Proof.
  induction h as [ | k h IH ]; intros w pre w' trace I H; cbn [krun] in H.
  - injection H as <- <-. now rewrite app_nil_r.
  - destruct (kstep p w k) as [ [w1 x] | | ] eqn:K; [ | discriminate | discriminate ].
    destruct (krun p w1 h) as [ [w2 tr] | | ] eqn:R; [ | discriminate | discriminate ].
    injection H as <- <-. change ((k, x) :: tr) with ([(k, x)] ++ tr). rewrite app_assoc.
    apply (IH w1); [ | exact R ]. exact (inv_step p w pre k w1 x I K).
Qed.
Lemma inv_all p l h w trace : krun p (server_new l) h = Ran (w, trace) -> inv p w trace.
Proof. intros H. exact (inv_run p h _ [] w trace (inv_new p l) H). Qed.

(** The calls of a history are those of its events. *)
Lemma krun_calls p : forall h w w' trace, krun p w h = Ran (w', trace) -> map fst trace = h.
Proof.
  induction h as [ | k h IH ]; intros w w' trace H; cbn [krun] in H.
  - injection H as _ <-. reflexivity.
  - destruct (kstep p w k) as [ [w1 x] | | ]; [ | discriminate | discriminate ].
    destruct (krun p w1 h) as [ [w2 tr] | | ] eqn:R; [ | discriminate | discriminate ].
    injection H as _ <-. cbn [map fst]. now rewrite (IH _ _ _ R).
Qed.
Lemma only_proper i : forall trace, Forall kproper (map fst trace) -> Forall proper (calls (only i trace)).
Proof.
  induction trace as [ | [ k [ [r o] bs ] ] trace IH ]; cbn [map fst only]; intros H;
    [ constructor | ].
  inversion H as [ | ? ? H1 H2 ]; subst. destruct k; auto.
  destruct (Nat.eqb i0 i); [ | auto ]. constructor; auto.
Qed.
Lemma status_step p w k w' x : kstep p w k = Ran (w', x) -> sv_status w' = sv_status w.
Proof.
  destruct k as [ g a | a | i | i t ]; cbn [kstep]; unfold client_connect, server_accept, give_up.
  - destruct (_ || _); intros H; injection H as <- _; reflexivity.
  - destruct (sv_status w <? 0); [ | destruct (fails a); [ | destruct (waiting w) ] ]; intros H;
      try discriminate; injection H as <- _; reflexivity.
  - destruct (nth_error (conns w) i); [ | discriminate ]. destruct (_ && _); [ | discriminate ].
    intros H. injection H as <- _. reflexivity.
  - destruct (nth_error (conns w) i); [ | discriminate ].
    destruct (match caller t with Some false => _ | _ => _ end); [ | discriminate ].
    destruct (tstep p c t) as [ [ [c1 r] bytes ] | | ]; [ | discriminate | discriminate ].
    intros H. injection H as <- _. reflexivity.
Qed.
Lemma status_run p : forall h w w' trace, krun p w h = Ran (w', trace) -> sv_status w' = sv_status w.
Proof.
  induction h as [ | k h IH ]; intros w w' trace H; cbn [krun] in H.
  - injection H as <- _. reflexivity.
  - destruct (kstep p w k) as [ [w1 x] | | ] eqn:K; [ | discriminate | discriminate ].
    destruct (krun p w1 h) as [ [w2 tr] | | ] eqn:R; [ | discriminate | discriminate ].
    injection H as <- _. rewrite (IH _ _ _ R). exact (status_step _ _ _ _ _ K).
Qed.

(** * C212 *)

(** Whatever the clients and the server do, and whichever calls fail: no connection is accepted
    twice, and the connections are accepted in the order in which they were made. Those accepted,
    followed by those that are not accepted yet, are all that were made, without those that the
    system gave up after their clients had closed them; and what accept does next is to give the
    first of those that wait, with the status 0, if the system does not report an error. *)
Theorem C212_order : forall p listen h w trace,
  fails listen = false ->
  krun p (server_new listen) h = Ran (w, trace) ->
  NoDup (connects trace)
  /\ NoDup (accepts trace)
  /\ exists later,
       filter (fun i => negb (existsb (Nat.eqb i) (gives_up trace))) (connects trace)
         = accepts trace ++ later
       /\ forall a, fails a = false ->
            match later with
            | [] => kstep p w (Accept a) = Waits
            | i :: _ => exists w', kstep p w (Accept a) = Ran (w', (0, Some i, []))
            end.
Proof.
  intros p l h w trace F H. destruct (inv_all p l h w trace H) as [I1 I2 I3 I4 _ _ _].
  assert (ND : NoDup (connects trace)) by (rewrite I1; apply seq_NoDup).
  split; [ exact ND | ].
  assert (NK : NoDup (kept (given_up w) (connects trace))) by (apply kept_nodup; exact ND).
  rewrite <- I4 in NK. split.
  { rewrite <- I2. clear - NK. induction (accepted w) as [ | x l IH ]; [ constructor | ].
    cbn [app] in NK. inversion NK as [ | ? ? N1 N2 ]; subst. constructor; [ | auto ].
    intros I. apply N1, in_or_app. now left. }
  exists (waiting w). split.
  { rewrite <- I2, I4, I3. reflexivity. }
  intros a A. cbn [kstep]. unfold server_accept.
  rewrite (status_run _ _ _ _ _ H). cbn [server_new sv_status]. rewrite F, A.
  change (0 <? 0) with false. cbv iota.
  destruct (waiting w) as [ | i rest ]; [ reflexivity | eexists; reflexivity ].
Qed.

(** The calls of one connection have the results they would have if it were the only one: what
    happened at a connection that was made is a history of a new connection by itself. *)
Theorem C212_independent : forall p listen h w trace i,
  krun p (server_new listen) h = Ran (w, trace) ->
  In i (connects trace) ->
  exists c, trun p (connected (ignoring_of i trace)) (map (fun x => fst (fst x)) (only i trace))
            = Ran (c, only i trace).
Proof.
  intros p l h w trace i H I. destruct (inv_all p l h w trace H) as [I1 _ _ _ _ _ I7].
  rewrite I1 in I. apply in_seq in I.
  destruct (nth_error (conns w) i) as [ c | ] eqn:N.
  - exists c. exact (I7 i c N).
  - apply nth_error_None in N. lia.
Qed.

(** So what an accepted object receives is what the client of its connection sent, in order and
    nothing of the others, and the other way round. *)
Theorem C212_bytes : forall p listen h w trace i s,
  Forall kproper h ->
  krun p (server_new listen) h = Ran (w, trace) ->
  exists rest, said_sent s (only i trace) = stored (negb s) (only i trace) ++ rest.
Proof.
  intros p l h w trace i s P H. assert (K := inv_all p l h w trace H). destruct K as [I1 _ _ _ _ I6 I7].
  destruct (nth_error (conns w) i) as [ c | ] eqn:N.
  - assert (Q : Forall proper (calls (only i trace))).
    { apply only_proper. now rewrite (krun_calls _ _ _ _ _ H). }
    destruct (C196_in_order p _ _ c _ Q (I7 i c N) s) as (rest & E & _). eauto.
  - apply nth_error_None in N. rewrite (I6 i N). exists []. reflexivity.
Qed.

(** Values serialised by the clients: from every connection the first values can be taken of which all
    bytes were received, whatever the other clients sent. *)
Theorem C212_values : forall p listen h w trace i s host host' o messages buffers cutoff values later,
  Forall kproper h ->
  krun p (server_new listen) h = Ran (w, trace) ->
  In i (connects trace) ->
  Forall (Forall SerializationProps.typed) messages ->
  Forall2 (fun vs buffer => exists fresh, length fresh = SerializationSpec.enc_size vs
                            /\ MessageModel.make_message host o vs fresh = Ok buffer) messages buffers ->
  said_sent s (only i trace) ++ cutoff = concat buffers ->
  concat messages = values ++ later ->
  (SerializationSpec.enc_size values <= length (stored (negb s) (only i trace)))%nat ->
  MessageModel.take_values host' o (map fst values) (stored (negb s) (only i trace))
    = Ok (map snd values).
Proof.
  intros p l h w trace i s host host' o messages buffers cutoff values later P H I.
  destruct (C212_independent _ _ _ _ _ _ H I) as (c & R).
  apply (MessageProps.C209_arrive p (ignoring_of i trace) (calls (only i trace)) c).
  - apply only_proper. now rewrite (krun_calls _ _ _ _ _ H).
  - exact R.
Qed.

(** An error is told and costs nothing: a connect or accept that fails gives no connection, tells the
    error of the system, and changes nothing for the others. *)
Theorem C212_errors : forall p listen h w trace,
  fails listen = false ->
  krun p (server_new listen) h = Ran (w, trace) ->
  forall a, fails a = true ->
    kstep p w (Accept a) = Ran (w, (- error a, None, []))
    /\ forall ignoring, kstep p w (Connect ignoring a) = Ran (w, (- error a, None, [])).
Proof.
  intros p l h w trace F H a A. cbn [kstep]. unfold server_accept, client_connect.
  rewrite (status_run _ _ _ _ _ H). cbn [server_new sv_status]. rewrite F, A.
  split; [ reflexivity | intros g; reflexivity ].
Qed.

(** When listen failed in the constructor: the status tells it, every accept gives an object without
    a connection and with this status, and does not wait; and no client connects. *)
Theorem C212_not_listening : forall p listen h w trace,
  fails listen = true -> 0 < error listen ->
  krun p (server_new listen) h = Ran (w, trace) ->
  sv_status w = - error listen
  /\ connects trace = []
  /\ forall a, kstep p w (Accept a) = Ran (w, (- error listen, None, [])).
Proof.
  intros p l h w trace F E H.
  assert (St : sv_status w = - error l).
  { rewrite (status_run _ _ _ _ _ H). cbn. now rewrite F. }
  assert (N : (- error l <? 0) = true) by (apply Z.ltb_lt; lia).
  split; [ exact St | ]. split.
  - assert (S0 : sv_status (server_new l) = - error l) by (cbn; now rewrite F).
    revert H S0. generalize (server_new l) as w0. clear St. revert w trace.
    induction h as [ | k h IH ]; intros w trace w0 H S0; cbn [krun] in H.
    + injection H as _ <-. reflexivity.
    + destruct (kstep p w0 k) as [ [w1 x] | | ] eqn:K; [ | discriminate | discriminate ].
      destruct (krun p w1 h) as [ [w2 tr] | | ] eqn:R; [ | discriminate | discriminate ].
      injection H as _ <-. assert (S1 := status_step _ _ _ _ _ K). rewrite S0 in S1.
      specialize (IH _ _ _ R S1). destruct k; cbn [connects]; try exact IH; destruct x as [ [r o] bs ].
      cbn [kstep] in K. unfold client_connect in K. rewrite S0, N in K. cbn [orb] in K.
      injection K as _ _ <- _. exact IH.
  - intros a. cbn [kstep]. unfold server_accept. rewrite St, N. reflexivity.
Qed.

(** Two clients, of which the second sends before it is accepted; a failed accept between. *)
Example C212_case :
  let ok := Answer false 1 9 in
  let g := fun _ : bool => true in
  match krun Posix (server_new ok)
    [Connect g ok; Connect g ok; At 1 (Send true [7; 8] ok); Accept (Answer true 24 0); Accept ok;
     At 0 (Send true [1; 2; 3] ok); Accept ok; At 1 (Receive false 4 ok); At 0 (Receive false 4 ok);
     At 1 (Send false [5] ok); At 1 (Receive true 1 ok)]
  with
  | Ran (w, trace) =>
      accepts trace = [0; 1]%nat /\ stored false (only 0 trace) = [1; 2; 3]
      /\ stored false (only 1 trace) = [7; 8] /\ stored true (only 1 trace) = [5]
      /\ In (Accept (Answer true 24 0), (-24, None, [])) trace
  | _ => False
  end.
Proof. vm_compute. auto 10. Qed.
(** A client that connects and closes is given up; the next one is accepted. *)
Example C212_given_up_case :
  let ok := Answer false 1 9 in
  let g := fun _ : bool => true in
  match krun Posix (server_new ok)
    [Connect g ok; Connect g ok; At 0 (Close true); GiveUp 0; Accept ok]
  with
  | Ran (w, trace) => accepts trace = [1]%nat /\ connects trace = [0; 1]%nat
  | _ => False
  end.
Proof. vm_compute. auto. Qed.
Example C212_not_listening_case :
  match krun Posix (server_new (Answer true 98 0))
    [Connect (fun _ => true) (Answer false 111 9); Accept (Answer false 1 9)]
  with
  | Ran (w, trace) => map snd trace = [(-111, None, []); (-98, None, [])]
  | _ => False
  end.
Proof. reflexivity. Qed.

Print Assumptions C212_order.
Print Assumptions C212_independent.
Print Assumptions C212_bytes.
Print Assumptions C212_values.
Print Assumptions C212_errors.
Print Assumptions C212_not_listening.
