(** Socket events on Windows: the model follows the specification; lemmas. *)
From Coq Require Import List Arith ZArith Bool Lia.
From Verif Require Import Base BaseLemmas RegistrarModel EventModel EventSpec EventProofs
  WinEventModel WinEventSpec.
Import ListNotations.

Section Inv.
  Variable capacity : kind -> nat.
  Hypothesis CAP : forall k, capacity k <> 0.

  (** A socket of a class. *)
  Definition wlive (k : kind) (mask : list sevent) (nonblock : bool) : wsock :=
    let c := created k true in WS k (k_stream c) (k_reuse c) (k_listen c) mask nonblock.
  Definition mask_ok (k : kind) (on : bool) (mask : list sevent) : Prop :=
    if on then mask = requested (wlive k [] false)
    else mask = [] \/ (k = TcpAccepted /\ mask = [Accept]).

  Record winv (w : wworld) (s : wideal) (ready : kind -> bool) : Prop := {
    WI_len : length (ww_table w) = length (v_kinds s);
    WI_sock : forall fd k, nth_error (v_kinds s) fd = Some (Some k) ->
      exists m nb, nth_error (ww_table w) fd = Some (Some (wlive k m nb)) /\ mask_ok k (v_registered s fd) m;
    WI_closed : forall fd, nth_error (v_kinds s) fd = Some None -> nth_error (ww_table w) fd = Some None;
    WI_on : forall fd, v_registered s fd = true -> fd < length (v_kinds s);
    WI_ready : forall fd k, v_registered s fd = true -> v_kind s fd = Some k -> ready k = true;
    WI_messages : ww_messages w = v_wait s;
    WI_asked : forall fd e b, In (fd, e, b) (v_wait s) -> e = Read \/ e = Write \/ e = Accept;
    WI_wait : forall fd e b, In (fd, e, b) (v_wait s) -> fd < length (v_kinds s)
      /\ forall k, v_kind s fd = Some k -> wanted k e = true /\ ready k = true;
    WI_queues : queues_hold capacity (e_queues (ww_common w)) ready (v_queue s) (v_connections s);
    WI_note : e_note (ww_common w) = v_note s;
    WI_notes : e_notes (ww_common w) = v_notes s;
    WI_window : ww_window w = true
  }.

  Lemma winv_start : winv (wworld_new true) wideal_start (fun _ => false).
  Proof.
    constructor; cbn; try reflexivity; try (intros; discriminate); try contradiction.
    - intros [|fd] k H; discriminate H.
    - intros [|fd] H; discriminate H.
    - unfold queues_hold, holds, queues_new. cbn. auto 10.
  Qed.

  Lemma wsock_kind w s ready fd : winv w s ready ->
    match v_kind s fd with
    | Some k => exists m nb, wsock_at w fd = Some (wlive k m nb) /\ mask_ok k (v_registered s fd) m
                             /\ nth_error (v_kinds s) fd = Some (Some k)
    | None => wsock_at w fd = None
    end.
  Proof.
    intros I. unfold v_kind, wsock_at.
    destruct (nth_error (v_kinds s) fd) as [[k|]|] eqn:E.
    - destruct (WI_sock _ _ _ I _ _ E) as (m & nb & T & M). rewrite T. eauto.
    - rewrite (WI_closed _ _ _ I _ E). reflexivity.
    - apply nth_error_None in E. rewrite <- (WI_len _ _ _ I) in E. apply nth_error_None in E. rewrite E. reflexivity.
  Qed.

  Lemma masked k m (on : bool) nb e : mask_ok k on m ->
    existsb (sevent_eqb e) (ws_mask (wlive k m nb)) && (ws_listen (wlive k m nb) || negb (sevent_eqb e Accept))
    = on && wanted k e.
  Proof.
    unfold mask_ok. destruct on.
    - intros ->. destruct k, e; reflexivity.
    - intros [-> | [-> ->]]; [destruct k, e; reflexivity|]. destruct e; reflexivity.
  Qed.

  Lemma v_registered_add s fd x l : v_on l = fd :: v_on s -> v_registered l x = (x =? fd) || v_registered s x.
  Proof. intros E. unfold v_registered. rewrite E. reflexivity. Qed.
  Lemma v_registered_remove s fd x l : v_on l = filter (fun x => negb (Nat.eqb fd x)) (v_on s) ->
    v_registered l x = negb (x =? fd) && v_registered s x.
  Proof.
    intros E. unfold v_registered. rewrite E. clear E. induction (v_on s) as [|y l' IH]; cbn [filter existsb].
    - rewrite andb_false_r. reflexivity.
    - destruct (Nat.eqb_spec fd y) as [<-|N]; cbn [negb existsb].
      + rewrite IH. destruct (x =? fd); reflexivity.
      + rewrite IH. destruct (Nat.eqb_spec x fd) as [->|M]; cbn [negb andb]; [|reflexivity].
        destruct (Nat.eqb_spec fd y); [contradiction|reflexivity].
  Qed.
  Lemma v_kind_kinds s s' fd : v_kinds s' = v_kinds s -> v_kind s' fd = v_kind s fd.
  Proof. intros E. unfold v_kind. rewrite E. reflexivity. Qed.
  Lemma v_kind_app s s' k fd : v_kinds s' = v_kinds s ++ [k] -> fd < length (v_kinds s) ->
    v_kind s' fd = v_kind s fd.
  Proof. intros E L. unfold v_kind. rewrite E, nth_error_app1 by exact L. reflexivity. Qed.
  Lemma not_registered w s ready : winv w s ready -> v_registered s (length (v_kinds s)) = false.
  Proof.
    intros I. destruct (v_registered s (length (v_kinds s))) eqn:E; [|reflexivity].
    apply (WI_on _ _ _ I) in E. lia.
  Qed.

  (** A socket is appended. *)
  Lemma winv_append w s ready k m nb : winv w s ready ->
    (m = [] \/ (k = TcpAccepted /\ m = [Accept])) ->
    winv (set_wtable w (ww_table w ++ [Some (wlive k m nb)]))
         (WIdeal (v_kinds s ++ [Some k]) (v_on s) (v_wait s) (v_queue s) (v_connections s) (v_note s) (v_notes s)) ready.
  Proof.
    intros I MO. pose proof I as [Len Sock Cl On Rdy Msg Ask Wt Qs Note Notes Win].
    pose proof (not_registered _ _ _ I) as NR.
    set (s' := WIdeal _ _ _ _ _ _ _).
    constructor; cbn [set_wtable ww_table ww_messages ww_common ww_window]; auto.
    - unfold s'. cbn [v_kinds]. rewrite !app_length, Len. reflexivity.
    - unfold s'. cbn [v_kinds]. intros fd k' E. apply nth_app_inv in E as [[L E]|[-> E]].
      + destruct (Sock _ _ E) as (m' & nb' & T & M). exists m', nb'. rewrite nth_error_app1 by lia. auto.
      + injection E as ->. exists m, nb. rewrite <- Len, nth_last. split; [reflexivity|].
        change (v_registered _ (length (ww_table w))) with (v_registered s (length (ww_table w))).
        rewrite Len, NR. exact MO.
    - unfold s'. cbn [v_kinds]. intros fd E. apply nth_app_inv in E as [[L E]|[-> E]]; [|discriminate E].
      rewrite nth_error_app1 by lia. auto.
    - unfold s'. cbn [v_kinds]. intros fd R. rewrite app_length. apply On in R. cbn. lia.
    - intros fd k' R E. rewrite (v_kind_app s) with (k := Some k) in E; [eauto|reflexivity|]. apply On, R.
    - intros fd e b H. destruct (Wt _ _ _ H) as [L X]. split; [unfold s'; cbn [v_kinds]; rewrite app_length; lia|].
      intros k' E. rewrite (v_kind_app s) with (k := Some k) in E; auto.
  Qed.

  Lemma wanted_reuse k e : wanted k e = true -> k <> TcpListener -> e = Read \/ e = Write.
  Proof. destruct k, e; cbn; intros; try discriminate; try contradiction; auto. Qed.

  (** What dispatching a message of an open socket, not a listening one, does. *)
  Lemma wdispatch_descriptor w s ready fd e rest k ok : winv w s ready ->
    v_wait s = (fd, e, false) :: rest -> v_kind s fd = Some k -> k <> TcpListener ->
    exists q, wdispatch capacity w ok
      = Ok (WW (ww_table w) rest (notify (set_queues (ww_common w) q)) (ww_window w))
      /\ queues_hold capacity q ready
           (if length (v_queue s k) <? capacity k then pushed_to (v_queue s) k fd else v_queue s) (v_connections s).
  Proof.
    intros I W K N. pose proof (wsock_kind _ _ _ fd I) as SK. rewrite K in SK.
    destruct SK as (m & nb & T & M & _).
    destruct (WI_wait _ _ _ I fd e false) as [L X]; [rewrite W; left; reflexivity|].
    destruct (X _ K) as [WA R]. pose proof (wanted_reuse _ _ WA N) as RW.
    destruct (push_descriptor_ok capacity CAP (ww_common w) ready (v_queue s) (v_connections s) k fd
                (WI_queues _ _ _ I) N R) as (q & E & H).
    exists q. split; [|exact H]. unfold wdispatch. rewrite (WI_messages _ _ _ I), W.
    assert (T' : wsock_at (set_messages w rest) fd = Some (wlive k m nb)) by exact T. cbv zeta. rewrite T'.
    destruct k; try contradiction; cbn [wlive created k_stream ws_stream]; unfold whandle_tcp, whandle_udp;
      cbn [wlive created k_reuse ws_reuse]; destruct RW as [-> | ->];
      cbn [set_messages ww_common]; rewrite E; reflexivity.
  Qed.

  Lemma wdispatch_listener w s ready fd rest e : winv w s ready ->
    v_wait s = (fd, e, false) :: rest -> v_kind s fd = Some TcpListener ->
    exists q m nb, wdispatch capacity w true
      = Ok (WW (ww_table w ++ [Some (wlive TcpAccepted m nb)]) rest (notify (set_queues (ww_common w) q)) (ww_window w))
      /\ (m = [] \/ (TcpAccepted = TcpAccepted /\ m = [Accept]))
      /\ queues_hold capacity q ready (v_queue s)
           (if length (v_connections s) <? capacity TcpListener
            then v_connections s ++ [Accepted (Z.of_nat fd) (Z.of_nat (length (v_kinds s)))] else v_connections s).
  Proof.
    intros I W K. pose proof (wsock_kind _ _ _ fd I) as SK. rewrite K in SK.
    destruct SK as (m & nb & T & M & _).
    destruct (WI_wait _ _ _ I fd e false) as [L X]; [rewrite W; left; reflexivity|].
    destruct (X _ K) as [WA R].
    assert (e = Accept) as -> by (destruct e; try discriminate WA; reflexivity).
    destruct (push_accepted_ok capacity CAP (ww_common w) ready (v_queue s) (v_connections s) fd (length (ww_table w))
                (WI_queues _ _ _ I) R) as (q & E & H).
    exists q, m, nb. rewrite <- (WI_len _ _ _ I). split; [|split; [|exact H]].
    - unfold wdispatch. rewrite (WI_messages _ _ _ I), W.
      assert (T' : wsock_at (set_messages w rest) fd = Some (wlive TcpListener m nb)) by exact T. cbv zeta. rewrite T'.
      cbn [wlive created k_stream ws_stream]. unfold whandle_tcp.
      cbn [set_messages set_wtable ww_common ww_table]. rewrite E. reflexivity.
    - unfold mask_ok in M. destruct (v_registered s fd); [right; split; [reflexivity|exact M]|].
      destruct M as [M|[M _]]; [left; exact M|discriminate M].
  Qed.
  Lemma wdispatch_refused w s ready fd rest e : winv w s ready ->
    v_wait s = (fd, e, false) :: rest -> v_kind s fd = Some TcpListener ->
    wdispatch capacity w false = Ok (WW (ww_table w) rest (notify (ww_common w)) (ww_window w)).
  Proof.
    intros I W K. pose proof (wsock_kind _ _ _ fd I) as SK. rewrite K in SK.
    destruct SK as (m & nb & T & M & _).
    destruct (WI_wait _ _ _ I fd e false) as [L X]; [rewrite W; left; reflexivity|].
    destruct (X _ K) as [WA R].
    assert (e = Accept) as -> by (destruct e; try discriminate WA; reflexivity).
    unfold wdispatch. rewrite (WI_messages _ _ _ I), W.
    assert (T' : wsock_at (set_messages w rest) fd = Some (wlive TcpListener m nb)) by exact T. cbv zeta. rewrite T'.
    reflexivity.
  Qed.

  Lemma notify_parts w : e_queues (notify w) = e_queues w /\ e_note (notify w) = e_note w
    /\ e_notes (notify w) = e_notes w ++ match e_note w with Some n => [n] | None => [] end.
  Proof. unfold notify. destruct (e_note w) eqn:E; cbn; rewrite ?E, ?app_nil_r; auto. Qed.

  (** The state after a message was dispatched. *)
  Lemma winv_dispatched w s ready fd e b rest q f l : winv w s ready ->
    v_wait s = (fd, e, b) :: rest -> queues_hold capacity q ready f l ->
    winv (WW (ww_table w) rest (notify (set_queues (ww_common w) q)) (ww_window w))
         (WIdeal (v_kinds s) (v_on s) rest f l (v_note s)
                 (v_notes s ++ match v_note s with Some n => [n] | None => [] end)) ready.
  Proof.
    intros I W H. pose proof I as [Len Sock Cl On Rdy Msg Ask Wt Qs Note Notes Win].
    destruct (notify_parts (set_queues (ww_common w) q)) as (N1 & N2 & N3). cbn [set_queues e_queues e_note e_notes] in N1, N2, N3.
    constructor; cbn [ww_table ww_messages ww_common ww_window v_wait v_queue v_connections v_note v_notes v_kinds]; auto.
    - intros fd' e' b' X. apply (Ask fd' e' b'). rewrite W. right. exact X.
    - intros fd' e' b' X. destruct (Wt fd' e' b') as [L Y]; [rewrite W; right; exact X|]. split; auto.
    - rewrite N1. exact H.
    - rewrite N2. exact Note.
    - rewrite N3, Note, Notes. reflexivity.
  Qed.

  Lemma wstep_ok w s ready c : winv w s ready -> listens c ->
    exists w' ready', wstep capacity w c = Ok w' /\ winv w' (wactual_step capacity s c) ready'.
  Proof.
    intros I P. pose proof I as [Len Sock Cl On Rdy Msg Ask Wt Qs Note Notes Win].
    destruct c as [k ok|fd|fd er|fd er|fd e er|ok|k|n]; cbn [listens] in P; cbn [wstep].
    - (* create *)
      subst ok. eexists _, ready. split; [reflexivity|]. cbn [wactual_step].
      replace (wcreated k true) with (wlive k [] false) by (destruct k; reflexivity).
      apply winv_append; auto.
    - (* close *)
      eexists _, ready. split; [reflexivity|]. cbn [wactual_step].
      assert (VK : forall s' x k', v_kinds s' = upd (v_kinds s) fd None -> v_kind s' x = Some k' -> v_kind s x = Some k' /\ x <> fd).
      { intros s' x k' E. unfold v_kind. rewrite E.
        destruct (Nat.eq_dec x fd) as [->|N].
        - destruct (Nat.lt_ge_cases fd (length (v_kinds s))) as [L|L].
          + rewrite nth_error_upd_eq by exact L. discriminate.
          + rewrite (proj2 (nth_error_None _ _)); [discriminate|]. rewrite upd_length. exact L.
        - rewrite nth_error_upd_neq by auto. auto. }
      constructor; cbn [set_wtable ww_table ww_messages ww_common ww_window v_wait v_queue v_connections v_note v_notes v_kinds]; auto.
      + rewrite !upd_length. exact Len.
      + intros x k' E. destruct (Nat.eq_dec x fd) as [->|N].
        * destruct (Nat.lt_ge_cases fd (length (v_kinds s))) as [L|L].
          -- rewrite nth_error_upd_eq in E by exact L. discriminate E.
          -- rewrite (proj2 (nth_error_None _ _)) in E; [discriminate E|]. rewrite upd_length. exact L.
        * rewrite nth_error_upd_neq in E by auto. rewrite nth_error_upd_neq by auto. apply Sock. exact E.
      + intros x E. destruct (Nat.eq_dec x fd) as [->|N].
        * destruct (Nat.lt_ge_cases fd (length (v_kinds s))) as [L|L].
          -- rewrite nth_error_upd_eq by lia. reflexivity.
          -- rewrite (proj2 (nth_error_None _ _)) in E; [discriminate E|]. rewrite upd_length. exact L.
        * rewrite nth_error_upd_neq in E by auto. rewrite nth_error_upd_neq by auto. auto.
      + intros x R. rewrite upd_length. apply On. exact R.
      + intros x k' R E. eapply VK in E as [E _]; [|reflexivity]. eauto.
      + intros x e b X. destruct (Wt _ _ _ X) as [L Y]. rewrite upd_length. split; [exact L|].
        intros k' E. eapply VK in E as [E _]; [|reflexivity]. auto.
    - (* add *)
      unfold wadd. pose proof (wsock_kind _ _ _ fd I) as SK. cbn [wactual_step].
      destruct (v_kind s fd) as [k|] eqn:K.
      2:{ rewrite SK. eexists _, ready. split; [reflexivity|]. cbn [fst].
          destruct er; (constructor; cbn [v_wait v_queue v_connections v_note v_notes v_kinds]; auto). }
      destruct SK as (m & nb & T & M & KN). rewrite T.
      assert (LT : fd < length (v_kinds s)) by (apply nth_error_Some; congruence).
      change (ws_kind (wlive k m nb)) with k.
      destruct (ensure_queue_ok capacity CAP _ _ _ _ k Qs) as (q & E & H). rewrite E. cbn [bind].
      cbn [set_common ww_window]. rewrite Win. cbn [negb].
      destruct er as [er|].
      + eexists _, (set_ready ready k). split; [reflexivity|]. cbn [fst].
        constructor; cbn [set_common set_queues ww_table ww_messages ww_common ww_window e_queues e_note e_notes v_wait v_queue v_connections v_note v_notes v_kinds]; auto.
        * intros x k' R E'. apply set_ready_mono. eapply Rdy; [exact R|]. exact E'.
        * intros x e b X. destruct (Wt _ _ _ X) as [L Y]. split; [exact L|]. intros k' E'.
          destruct (Y k' E') as [A B]. split; [exact A|]. apply set_ready_mono. exact B.
      + eexists _, (set_ready ready k). split; [reflexivity|]. cbn [fst].
        change (set_mask (wlive k m nb) (requested (wlive k m nb)) true) with (wlive k (requested (wlive k [] false)) true).
        set (s' := WIdeal _ _ _ _ _ _ _).
        assert (RG : forall x, v_registered s' x = (x =? fd) || v_registered s x) by (intros; apply v_registered_add; reflexivity).
        constructor; cbn [set_common set_queues set_wtable ww_table ww_messages ww_common ww_window e_queues e_note e_notes v_wait v_queue v_connections v_note v_notes v_kinds s']; auto.
        * rewrite upd_length. exact Len.
        * intros x k' E'. rewrite RG. destruct (Nat.eqb_spec x fd) as [->|N].
          -- rewrite KN in E'. injection E' as <-. exists (requested (wlive k [] false)), true.
             rewrite nth_error_upd_eq by lia. split; reflexivity.
          -- destruct (Sock _ _ E') as (m' & nb' & T2 & M2). exists m', nb'. rewrite nth_error_upd_neq by auto. auto.
        * intros x E'. rewrite nth_error_upd_neq; [auto|]. intros <-. rewrite KN in E'. discriminate E'.
        * intros x R. rewrite RG in R. destruct (Nat.eqb_spec x fd) as [E0|N]; [rewrite E0; exact LT|]. auto.
        * intros x k' R E'. rewrite RG in R. rewrite (v_kind_kinds s s') in E' by reflexivity.
          destruct (Nat.eqb_spec x fd) as [->|N].
          -- rewrite K in E'. injection E' as <-. apply set_ready_same.
          -- cbn [orb] in R. apply set_ready_mono. eauto.
        * intros x e b X. destruct (Wt _ _ _ X) as [L Y]. split; [exact L|]. intros k' E'.
          rewrite (v_kind_kinds s s') in E' by reflexivity.
          destruct (Y k' E') as [A B]. split; [exact A|]. apply set_ready_mono. exact B.
    - (* remove *)
      unfold wremove. pose proof (wsock_kind _ _ _ fd I) as SK. cbn [wactual_step].
      destruct (v_kind s fd) as [k|] eqn:K.
      2:{ rewrite SK. eexists _, ready. split; [reflexivity|]. cbn [fst].
          destruct er; (constructor; cbn [v_wait v_queue v_connections v_note v_notes v_kinds]; auto). }
      destruct SK as (m & nb & T & M & KN). rewrite T, Win. cbn [negb].
      assert (LT : fd < length (v_kinds s)) by (apply nth_error_Some; congruence).
      destruct er as [er|].
      + eexists _, ready. split; [reflexivity|]. cbn [fst].
        constructor; cbn [v_wait v_queue v_connections v_note v_notes v_kinds]; auto.
      + eexists _, ready. split; [reflexivity|]. cbn [fst].
        change (set_mask (wlive k m nb) [] (ws_nonblock (wlive k m nb))) with (wlive k [] nb).
        set (s' := WIdeal _ _ _ _ _ _ _).
        assert (RG : forall x, v_registered s' x = negb (x =? fd) && v_registered s x) by (intros; apply v_registered_remove; reflexivity).
        constructor; cbn [set_wtable ww_table ww_messages ww_common ww_window v_wait v_queue v_connections v_note v_notes v_kinds s']; auto.
        * rewrite upd_length. exact Len.
        * intros x k' E'. rewrite RG. destruct (Nat.eqb_spec x fd) as [->|N].
          -- rewrite KN in E'. injection E' as <-. exists [], nb.
             rewrite nth_error_upd_eq by lia. split; [reflexivity|]. left. reflexivity.
          -- destruct (Sock _ _ E') as (m' & nb' & T2 & M2). exists m', nb'. rewrite nth_error_upd_neq by auto. auto.
        * intros x E'. rewrite nth_error_upd_neq; [auto|]. intros <-. rewrite KN in E'. discriminate E'.
        * intros x R. rewrite RG in R. apply andb_true_iff in R as [_ R]. auto.
        * intros x k' R E'. rewrite RG in R. apply andb_true_iff in R as [_ R].
          rewrite (v_kind_kinds s s') in E' by reflexivity. eauto.
    - (* message *)
      eexists _, ready. split; [reflexivity|]. unfold wmessage. cbn [wactual_step].
      pose proof (wsock_kind _ _ _ fd I) as SK. destruct (v_kind s fd) as [k|] eqn:K.
      2:{ rewrite SK. constructor; cbn [v_wait v_queue v_connections v_note v_notes v_kinds]; auto. }
      destruct SK as (m & nb & T & M & KN). rewrite T, (masked k m _ nb e M).
      destruct (v_registered s fd && wanted k e) eqn:G.
      + apply andb_true_iff in G as [G1 G2].
        constructor; cbn [set_messages ww_table ww_messages ww_common ww_window v_wait v_queue v_connections v_note v_notes v_kinds]; auto.
        * rewrite Msg. reflexivity.
        * intros x e' b X. apply in_app_or in X as [X|[X|[]]]; [eauto|]. injection X as <- <- <-.
          destruct k, e; try discriminate G2; auto.
        * intros x e' b X. apply in_app_or in X as [X|[X|[]]].
          -- destruct (Wt _ _ _ X) as [L Y]. split; auto.
          -- injection X as <- <- <-. split; [apply On; exact G1|]. intros k' E'.
             rewrite (v_kind_kinds s) in E' by reflexivity. rewrite K in E'. injection E' as <-.
             split; [exact G2|]. eapply Rdy; eauto.
      + constructor; cbn [v_wait v_queue v_connections v_note v_notes v_kinds]; auto.
    - (* dispatch *)
      cbn [wactual_step]. destruct (v_wait s) as [|[[fd e] b] rest] eqn:W.
      { unfold wdispatch. rewrite Msg. eexists _, ready. split; [reflexivity|]. exact I. }
      destruct b.
      { unfold wdispatch. rewrite Msg. eexists _, ready. split; [reflexivity|].
        constructor; cbn [set_messages ww_table ww_messages ww_common ww_window v_wait v_queue v_connections v_note v_notes v_kinds]; auto.
        - intros x e' b X. apply (Ask x e' b). right. exact X.
        - intros x e' b X. destruct (Wt x e' b) as [L Y]; [right; exact X|]. split; auto. }
      destruct (v_kind s fd) as [k|] eqn:K.
      2:{ pose proof (wsock_kind _ _ _ fd I) as SK. rewrite K in SK.
          unfold wdispatch. rewrite Msg. cbv zeta. change (wsock_at (set_messages w rest) fd) with (wsock_at w fd).
          rewrite SK. cbn [bind].
          eexists _, ready. split; [reflexivity|].
          assert (set_common (set_messages w rest) (notify (ww_common (set_messages w rest)))
             = WW (ww_table w) rest (notify (set_queues (ww_common w) (e_queues (ww_common w)))) (ww_window w)) as ->.
          { destruct w as [t ms [] wn]. reflexivity. }
          eapply winv_dispatched; eauto. }
      destruct (kind_eqb k TcpListener) eqn:KL.
      + assert (k = TcpListener) as -> by (destruct k; try discriminate KL; reflexivity).
        destruct ok.
        * destruct (wdispatch_listener w s ready fd rest e I W K) as (q & m & nb & E & MO & H). rewrite E.
          eexists _, ready. split; [reflexivity|].
          pose proof (winv_dispatched w s ready fd e false rest q _ _ I W H) as I1.
          pose proof (winv_append _ _ _ TcpAccepted m nb I1 MO) as I2. exact I2.
        * rewrite (wdispatch_refused w s ready fd rest e I W K). eexists _, ready. split; [reflexivity|].
          assert (notify (ww_common w) = notify (set_queues (ww_common w) (e_queues (ww_common w)))) as ->
            by (destruct (ww_common w); reflexivity).
          eapply winv_dispatched; eauto.
      + assert (NL : k <> TcpListener) by (intros ->; discriminate KL).
        destruct (wdispatch_descriptor w s ready fd e rest k ok I W K NL) as (q & E & H). rewrite E.
        eexists _, ready. split; [reflexivity|].
        set (g := fun k' => if kind_eqb k' k && (length (v_queue s k) <? capacity k)
                            then v_queue s k' ++ [Z.of_nat fd] else v_queue s k').
        assert (H' : queues_hold capacity q ready g (v_connections s)).
        { eapply queues_ext; [|exact H]. intros k'. unfold g, pushed_to.
          destruct (length (v_queue s k) <? capacity k); destruct (kind_eqb k' k); reflexivity. }
        pose proof (winv_dispatched w s ready fd e false rest q _ _ I W H') as I1.
        destruct k; try contradiction; exact I1.
    - (* pop *)
      destruct (registrar_pop_ok capacity CAP (ww_common w) ready _ _ k Qs) as (q & E & H). rewrite E. cbn [bind fst].
      eexists _, ready. split; [reflexivity|].
      destruct k; (constructor; cbn [wactual_step set_common set_queues ww_table ww_messages ww_common ww_window e_queues e_note e_notes v_wait v_queue v_connections v_note v_notes v_kinds]; auto).
    - (* notificator *)
      eexists _, ready. split; [reflexivity|].
      constructor; cbn [wactual_step set_common ww_table ww_messages ww_common ww_window e_queues e_note e_notes v_wait v_queue v_connections v_note v_notes v_kinds]; auto.
  Qed.

  Lemma wrun_ok h : forall w s ready, winv w s ready -> Forall listens h ->
    exists w' ready', wrun capacity w h = Ok w' /\ winv w' (fold_left (wactual_step capacity) h s) ready'.
  Proof.
    induction h as [|c h IH]; intros w s ready I P; cbn [wrun fold_left].
    - eauto.
    - inversion P; subst. destruct (wstep_ok w s ready c I) as (w1 & r1 & E & I1); [assumption|].
      rewrite E. cbn [bind]. eapply IH; eauto.
  Qed.
  Lemma wrun_start h : Forall listens h ->
    exists w ready, wrun capacity (wworld_new true) h = Ok w /\ winv w (wactual_run capacity h) ready.
  Proof. intros P. exact (wrun_ok h _ _ _ winv_start P). Qed.
  Lemma wrun_app h1 : forall h2 w, wrun capacity w (h1 ++ h2)
    = let! w := wrun capacity w h1 in wrun capacity w h2.
  Proof.
    induction h1 as [|c h1 IH]; intros h2 w; [reflexivity|]. cbn [app wrun].
    destruct (wstep capacity w c); cbn [bind]; auto.
  Qed.
End Inv.
