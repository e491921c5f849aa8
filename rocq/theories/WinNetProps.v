(** Ownership of sockets on Windows (C237). *)
From Coq Require Import List Arith ZArith Bool Lia.
From Verif Require Import Base BaseLemmas WinNetModel WinNetSpec.
Import ListNotations.
Local Open Scope Z_scope.

Lemma nth_upd : forall {A} (l : list A) v x d p,
  (v < length l)%nat -> nth p (upd l v x) d = if Nat.eqb p v then x else nth p l d.
Proof.
  induction l as [|a l IH]; intros v x d p L; cbn in L; [lia|].
  destruct v as [|v], p as [|p]; cbn; auto. apply IH. lia.
Qed.

Record inv (w : nworld) (s : owners) : Prop := {
  i_len : length (nw_vars w) = length (s_objs s);
  i_init : nw_inited w = s_started s;
  i_acc : accounted w s;
  i_pos : forall v h, who s v = Owner h -> 0 < h;
  i_posl : forall h, In h (s_lost s) -> 0 < h }.

Lemma who_lt : forall s v, exists_at s v -> (v < length (s_objs s))%nat.
Proof.
  intros s v H. destruct (Nat.lt_ge_cases v (length (s_objs s))) as [L|L]; auto.
  exfalso. apply H. unfold who. apply nth_overflow; lia.
Qed.
Lemma who_set : forall s v d p, (v < length (s_objs s))%nat ->
  who (set_who s v d) p = if Nat.eqb p v then d else who s p.
Proof. intros. unfold who, set_who; cbn. apply nth_upd; auto. Qed.

Lemma len_set : forall s v d, length (s_objs (set_who s v d)) = length (s_objs s).
Proof. intros. cbn. apply upd_length. Qed.
Lemma lost_set : forall s v d, s_lost (set_who s v d) = s_lost s.
Proof. reflexivity. Qed.
Lemma started_set : forall s v d, s_started (set_who s v d) = s_started s.
Proof. reflexivity. Qed.
Arguments who : simpl never.
Arguments set_who : simpl never.
Ltac fields := cbn; rewrite ?len_set, ?lost_set, ?started_set, ?upd_length; cbn; auto.

Lemma get_native : forall w s v, inv w s -> exists_at s v ->
  exists o, get_obj w v = Ok o /\ nth v (nw_vars w) None = Some o /\ Some (wo_handle o) = shown (who s v).
Proof.
  intros w s v I E. destruct (i_acc _ _ I) as (N & _). specialize (N v). unfold native in N.
  unfold get_obj. destruct (nth v (nw_vars w) None) as [o|] eqn:X.
  - exists o. split; [|split]; auto.
    rewrite (nth_error_nth' (nw_vars w) None), X; auto.
    rewrite (i_len _ _ I). now apply who_lt.
  - cbn in N. destruct (who s v) eqn:Y; cbn in N; try discriminate. now elim E.
Qed.
Lemma place_ok : forall w s v, inv w s -> free_at s v -> place w v = Ok tt.
Proof.
  intros w s v I (L & E). destruct (i_acc _ _ I) as (N & _). specialize (N v). unfold native in N.
  unfold place. rewrite (nth_error_nth' (nw_vars w) None) by (rewrite (i_len _ _ I); auto).
  rewrite E in N. cbn in N. destruct (nth v (nw_vars w) None); [discriminate|auto].
Qed.

Lemma native_put : forall w v o p, (v < length (nw_vars w))%nat ->
  native (put_obj w v o) p = if Nat.eqb p v then option_map wo_handle o else native w p.
Proof. intros. unfold native, put_obj; cbn. rewrite nth_upd by auto. destruct (Nat.eqb p v); auto. Qed.

(* A variable that owns nothing gets something else that owns nothing. *)
Lemma inv_put : forall w s v o d,
  inv w s -> (v < length (s_objs s))%nat -> sockets (who s v) = [] -> sockets d = [] ->
  option_map wo_handle o = shown d -> inv (put_obj w v o) (set_who s v d).
Proof.
  intros w s v o d [L I (N & O & U1 & U2 & U3 & U4) P P'] V S D E.
  assert (Q : forall p h, who (set_who s v d) p = Owner h <-> who s p = Owner h).
  { intros p h. rewrite who_set by auto. destruct (Nat.eqb_spec p v) as [->|_]; [|tauto].
    destruct d; cbn in D; try discriminate; destruct (who s v); cbn in S; try discriminate; split; discriminate. }
  split; fields.
  - split; [|split; [|split; [|split; [|split]]]]; fields.
    + intros p. rewrite native_put by (rewrite L; auto). rewrite who_set by auto. destruct (Nat.eqb p v); auto.
    + intros h. rewrite O. split; (intros [A|(p & A)]; [left; auto|right; exists p; now apply Q]).
    + intros p q h A B. apply Q in A, B. eauto.
    + intros p h A. apply Q in A. eauto.
  - intros p h A. apply Q in A. eauto.
Qed.

(* A variable that owns nothing gets a new socket. *)
Lemma inv_new : forall w s v k h st,
  inv w s -> (v < length (s_objs s))%nat -> sockets (who s v) = [] -> new_handle s h ->
  inv (put_obj (NW (nw_vars w) (h :: nw_open w) (nw_inited w)) v (Some (WObj k h st))) (set_who s v (Owner h)).
Proof.
  intros w s v k h st [L I (N & O & U1 & U2 & U3 & U4) P P'] V S (F1 & F2 & F3).
  split; fields.
  - split; [|split; [|split; [|split; [|split]]]]; fields.
    + intros p. rewrite native_put by (cbn; rewrite L; auto). rewrite who_set by auto.
      destruct (Nat.eqb p v); auto. apply N.
    + intros x. rewrite O. split.
      * intros [<-|[A|(p & A)]]; [right; exists v; rewrite who_set, Nat.eqb_refl; auto|left; auto|].
        right. exists p. rewrite who_set by auto. destruct (Nat.eqb_spec p v) as [->|_]; auto.
        rewrite A in S. discriminate.
      * intros [A|(p & A)]; [auto|]. rewrite who_set in A by auto. destruct (Nat.eqb_spec p v) as [E|E]; [subst p|].
        -- left. congruence.
        -- right. right. eauto.
    + constructor; auto. rewrite O. intros [A|(p & A)]; [auto|exact (F3 p A)].
    + intros p q x A B. rewrite who_set in A, B by auto.
      destruct (Nat.eqb_spec p v) as [E|E], (Nat.eqb_spec q v) as [E'|E']; try subst p; try subst q; eauto.
      * injection A as <-. elim (F3 q B).
      * injection B as <-. elim (F3 p A).
    + intros p x A. rewrite who_set in A by auto. destruct (Nat.eqb_spec p v) as [E|E]; [subst p|]; eauto.
      injection A as <-. auto.
  - intros p x A. rewrite who_set in A by auto. destruct (Nat.eqb_spec p v) as [E|E]; [subst p|]; eauto.
    injection A as <-. auto.
Qed.

(* A socket is opened and lost. *)
Lemma inv_lost : forall w s h, inv w s -> new_handle s h ->
  inv (NW (nw_vars w) (h :: nw_open w) (nw_inited w)) (lose s [h]).
Proof.
  intros w s h [L I (N & O & U1 & U2 & U3 & U4) P P'] (F1 & F2 & F3).
  assert (W : forall v, who (lose s [h]) v = who s v) by reflexivity.
  split; cbn; auto.
  - split; [|split; [|split; [|split; [|split]]]]; fields.
    + intros x. rewrite O. split; [intros [A|[A|A]]|intros [[A|A]|A]]; auto.
    + constructor; auto. rewrite O. intros [A|(p & A)]; [auto|exact (F3 p A)].
    + constructor; auto.
    + intros v x A [<-|B]; [elim (F3 v A)|elim (U4 v x A B)].
  - intros x [<-|A]; auto.
Qed.

Lemma is_open_in : forall w h, is_open w h = true <-> In h (nw_open w).
Proof.
  intros w h. unfold is_open. rewrite existsb_exists. split.
  - intros (x & A & B). apply Z.eqb_eq in B. now subst.
  - intros A. exists h. split; auto. apply Z.eqb_refl.
Qed.
Lemma not_open : forall w s h, inv w s -> h <= 0 -> is_open w h = false.
Proof.
  intros w s h [L I (N & O & _) P P'] H. destruct (is_open w h) eqn:E; auto.
  apply is_open_in, O in E. destruct E as [E|(v & E)]; [apply P' in E|apply P in E]; lia.
Qed.

(* An owner's socket is closed. *)
Lemma inv_close : forall w s v h o d,
  inv w s -> who s v = Owner h -> sockets d = [] -> option_map wo_handle o = shown d ->
  inv (put_obj (NW (nw_vars w) (filter (fun x => negb (x =? h)) (nw_open w)) (nw_inited w)) v o) (set_who s v d).
Proof.
  intros w s v h o d [L I (N & O & U1 & U2 & U3 & U4) P P'] W D E.
  assert (V : (v < length (s_objs s))%nat) by (apply who_lt; intros C; congruence).
  assert (Q : forall p x, who (set_who s v d) p = Owner x <-> who s p = Owner x /\ p <> v).
  { intros p x. rewrite who_set by auto. destruct (Nat.eqb_spec p v) as [->|A]; [|tauto].
    split; [intros B; rewrite B in D; discriminate|intros (_ & B); now elim B]. }
  split; fields.
  - split; [|split; [|split; [|split; [|split]]]]; fields.
    + intros p. rewrite native_put by (cbn; rewrite L; auto). rewrite who_set by auto.
      destruct (Nat.eqb p v); auto. apply N.
    + intros x. rewrite filter_In, O, negb_true_iff, Z.eqb_neq. split.
      * intros ([A|(p & A)] & B); [auto|]. right. exists p. apply Q. split; auto. intros ->. congruence.
      * intros [A|(p & A)].
        -- split; auto. intros ->. elim (U4 v h W A).
        -- apply Q in A. destruct A as (A & B). split; [right; eauto|]. intros ->. apply B. eauto.
    + now apply NoDup_filter.
    + intros p q x A B. apply Q in A, B. destruct A, B. eauto.
    + intros p x A. apply Q in A. destruct A. eauto.
  - intros p x A. apply Q in A. destruct A. eauto.
Qed.

(* closesocket by whoever holds a handle, with the variable that results. *)
Lemma destroy_cases : forall w s v o, inv w s -> exists_at s v -> nth v (nw_vars w) None = Some o ->
  Some (wo_handle o) = shown (who s v) ->
  match who s v with
  | Owner h => destroy w (wo_handle o)
               = (NW (nw_vars w) (filter (fun x => negb (x =? h)) (nw_open w)) (nw_inited w), HANDLE_INVALID, 0)
  | _ => destroy w (wo_handle o) = (w, wo_handle o, - WSAENOTSOCK)
  end.
Proof.
  intros w s v o I E X Y. pose proof (i_acc _ _ I) as (N & O & _).
  destruct (who s v) as [| | |h] eqn:W; cbn in Y; try discriminate; injection Y as Y; rewrite Y; unfold destroy.
  - rewrite (not_open w s) by (auto; lia). auto.
  - rewrite (not_open w s) by (auto; lia). auto.
  - rewrite (proj2 (is_open_in w h)); auto. apply O. eauto.
Qed.

Lemma inv_start : forall w s a, inv w s -> inv (winsock_init w a) (start s a).
Proof. intros w s a [L I A P P']. split; cbn; auto. now rewrite I. Qed.

(* The socket of a new object. *)
Lemma made_ok : forall w s server a v k st,
  inv w s -> (v < length (s_objs s))%nat -> sockets (who s v) = [] ->
  (forall h, a_socket a = Some h -> new_handle s h) ->
  let (w', h) := if (server : bool) then create_server w a else create_client w a in
  let (d, l) := made server (s_started (start s a)) a in
  inv (put_obj w' v (Some (WObj k h st))) (set_who (lose (start s a) l) v d).
Proof.
  intros w s server a v k st I V S F.
  pose proof (inv_start w s a I) as I'. pose proof (i_init _ _ I') as J.
  assert (S' : sockets (who (start s a) v) = []) by exact S.
  assert (V' : (v < length (s_objs (start s a)))%nat) by exact V.
  assert (F' : forall h, a_socket a = Some h -> new_handle (start s a) h) by exact F.
  unfold made, create_server, create_client, wsa_socket. cbv zeta.
  pose proof (f_equal negb J) as J'. rewrite J'. clear J'. destruct (s_started (start s a)) eqn:ST.
  2:{ destruct server; cbn [negb]; apply (inv_put (winsock_init w a) (start s a) v _ Without); auto. }
  cbn [negb]. destruct (a_socket a) as [h|] eqn:H.
  - assert (Hp : 0 < h) by (destruct (F' h eq_refl); auto).
    assert (NI : (h =? HANDLE_INVALID) = false) by (apply Z.eqb_neq; unfold HANDLE_INVALID; lia).
    destruct server.
    + rewrite NI. destruct (a_option a); cbn [negb].
      * destruct (a_bind a); cbn [negb].
        -- apply (inv_new (winsock_init w a) (start s a)); auto.
        -- apply (inv_put _ (lose (start s a) [h]) v _ Without); auto.
           apply (inv_lost (winsock_init w a)); auto.
      * unfold destroy, is_open. cbn [nw_open existsb]. rewrite Z.eqb_refl. cbn [orb fst].
        assert (NO : filter (fun x => negb (x =? h)) (h :: nw_open (winsock_init w a)) = nw_open (winsock_init w a)).
        { cbn [filter]. rewrite Z.eqb_refl. cbn [negb].
          assert (A : ~ In h (nw_open (winsock_init w a))).
          { destruct I' as [_ _ (_ & O & _) _ _]. rewrite O. destruct (F' h eq_refl) as (_ & A & B).
            intros [C|(p & C)]; [auto|exact (B p C)]. }
          induction (nw_open (winsock_init w a)) as [|x l IH]; auto. cbn [filter].
          destruct (Z.eqb_spec x h) as [->|B]; [elim A; now left|]. cbn [negb]. f_equal.
          apply IH. intros C. apply A. now right. }
        cbn [nw_vars nw_inited]. rewrite NO.
        apply (inv_put (winsock_init w a) (start s a) v _ Without); auto.
    + apply (inv_new (winsock_init w a) (start s a)); auto.
  - destruct server; cbn [negb]; rewrite ?Z.eqb_refl;
      apply (inv_put (winsock_init w a) (start s a) v _ Without); auto.
Qed.

Lemma set_who_same : forall s v, set_who s v (who s v) = s.
Proof.
  intros [l x b] v. unfold set_who, who. cbn. f_equal.
  revert v. induction l as [|a l IH]; intros [|v]; cbn; auto. now rewrite IH.
Qed.
Lemma upd_upd : forall {A} (l : list A) v x y, upd (upd l v x) v y = upd l v y.
Proof. induction l as [|a l IH]; intros [|v] x y; cbn; auto. now rewrite IH. Qed.
Lemma put_put : forall w v a b, put_obj (put_obj w v a) v b = put_obj w v b.
Proof. intros. unfold put_obj; cbn. now rewrite upd_upd. Qed.
Lemma set_set : forall s v a b, set_who (set_who s v a) v b = set_who s v b.
Proof. intros. unfold set_who; cbn. now rewrite upd_upd. Qed.

(* A move assignment, also to itself. *)
Lemma inv_assign : forall w s v p, inv w s -> exists_at s v -> exists_at s p ->
  exists w', move_assign w v p = Ok w' /\
    inv w' (set_who (set_who (lose s (sockets (who s v))) v (who s p)) p Moved).
Proof.
  intros w s v p I Ev Ep.
  destruct (get_native w s v I Ev) as (o & G & X & Y). destruct (get_native w s p I Ep) as (o' & G' & X' & Y').
  pose proof (who_lt _ _ Ev) as Lv. pose proof (who_lt _ _ Ep) as Lp.
  unfold move_assign. rewrite G, G'. cbn [bind]. eexists. split; [reflexivity|].
  destruct I as [L J (N & O & U1 & U2 & U3 & U4) P P'].
  set (s' := set_who (set_who (lose s (sockets (who s v))) v (who s p)) p Moved).
  assert (W : forall q, who s' q = if Nat.eqb q p then Moved else if Nat.eqb q v then who s p else who s q).
  { intros q. unfold s'. rewrite who_set by (rewrite len_set; auto). destruct (Nat.eqb q p); auto.
    rewrite who_set by auto. destruct (Nat.eqb q v); auto. }
  assert (SK : forall q x, who s q = Owner x -> In x (s_lost s') \/ exists r, who s' r = Owner x).
  { intros q x A. destruct (Nat.eqb_spec q v) as [->|B].
    - left. unfold s'. rewrite !lost_set. cbn. rewrite A. now left.
    - right. destruct (Nat.eqb_spec q p) as [->|C].
      + exists v. rewrite W. destruct (Nat.eqb_spec v p); [congruence|]. now rewrite Nat.eqb_refl.
      + exists q. rewrite W. destruct (Nat.eqb_spec q p); [congruence|]. destruct (Nat.eqb_spec q v); [congruence|auto]. }
  assert (BK : forall q x, who s' q = Owner x -> exists r, who s r = Owner x /\ r <> v /\ ((q = v /\ r = p) \/ (q = r /\ r <> p))).
  { intros q x A. rewrite W in A. destruct (Nat.eqb_spec q p) as [|B]; [discriminate|].
    destruct (Nat.eqb_spec q v) as [->|C]; [exists p; auto 6|exists q; auto 6]. }
  assert (Ls : length (s_objs s') = length (s_objs s)) by (unfold s'; now rewrite !len_set).
  assert (Ll : s_lost s' = sockets (who s v) ++ s_lost s) by reflexivity.
  assert (Li : s_started s' = s_started s) by reflexivity.
  clearbody s'.
  split; fields; rewrite ?Ls, ?Ll, ?Li; auto.
  - split; [|split; [|split; [|split; [|split]]]]; fields; rewrite ?Ll; auto; try (intros x; rewrite Ll).
    + intros q. rewrite native_put by (cbn; rewrite upd_length, L; auto).
      rewrite native_put by (rewrite L; auto). rewrite W. destruct (Nat.eqb q p); [reflexivity|].
      destruct (Nat.eqb q v); [exact Y'|apply N].
    + intros x. rewrite O. split.
      * intros [A|(q & A)]; [left; apply in_or_app; now right|]. rewrite <- Ll. eauto.
      * intros [A|(q & A)].
        -- apply in_app_or in A. destruct A as [A|A]; [|now left].
           right. exists v. destruct (who s v); cbn in A; try tauto. destruct A as [->|[]]. auto.
        -- destruct (BK q x A) as (r & B & _). right. eauto.
    + destruct (who s v) eqn:A; cbn; auto. constructor; auto. eauto.
    + intros a b x A B. destruct (BK a x A) as (r & R1 & R2 & R3), (BK b x B) as (r' & R1' & R2' & R3').
      assert (r = r') by eauto. subst r'. destruct R3 as [(? & ?)|(? & ?)], R3' as [(? & ?)|(? & ?)]; congruence.
    + intros a x A B. destruct (BK a x A) as (r & R1 & R2 & R3). apply in_app_or in B. destruct B as [B|B].
      * destruct (who s v) eqn:C; cbn in B; try tauto. destruct B as [->|[]]. apply R2. eauto.
      * exact (U4 r x R1 B).
  - intros q x A. destruct (BK q x A) as (r & B & _). eauto.
  - intros x A. apply in_app_or in A. destruct A as [A|A]; auto.
    destruct (who s v) eqn:B; cbn in A; try tauto. destruct A as [->|[]]. eauto.
Qed.

(* Every proper call is defined and changes exactly what it should. *)
Lemma step_ok : forall w s c, inv w s -> proper s c ->
  exists w' r, nstep w c = Ok (w', r) /\ inv w' (own_step s c r).
Proof.
  intros w s c I Pr. destruct c as [v c a|p v c|v p|v p|v x|v|v a x|v]; cbn [proper] in Pr; cbn [nstep].
  - destruct Pr as (F & H). rewrite (place_ok w s v I F). cbn [bind]. destruct F as (L & E).
    assert (S : sockets (who s v) = []) by now rewrite E.
    assert (X : forall k st, let (w', h) := if is_server c then create_server w a else create_client w a in
                let (d, l) := made (is_server c) (s_started (start s a)) a in
                inv (put_obj w' v (Some (WObj k h st))) (set_who (lose (start s a) l) v d))
      by (intros; now apply made_ok).
    unfold net_create, net_of_socket. cbn [own_step].
    destruct c; cbn [is_server] in *;
      [destruct (create_server w a) as (w', h)|destruct (create_server w a) as (w', h)
      |destruct (create_client w a) as (w', h)|destruct (create_client w a) as (w', h)];
      destruct (made _ _ a) as (d, l);
      try (destruct (net_bool _)); eexists; eexists; (split; [reflexivity|]); apply X.
  - destruct Pr as (F & Ep & H). unfold accept. rewrite (place_ok w s v I F). cbn [bind]. destruct F as (L & E).
    destruct (get_native w s p I Ep) as (o & G & X & Y). rewrite G. cbn [bind].
    assert (S : sockets (who s v) = []) by now rewrite E.
    destruct (Z.ltb_spec (wo_status o) 0) as [A|A].
    + eexists; eexists; split; [reflexivity|]. cbn [own_step].
      assert (Z.leb 0 (wo_status o) = false) as -> by (apply Z.leb_gt; lia).
      replace (match c with inl _ => Without | inr _ => Without end) with Without by now destruct c.
      apply inv_put; auto.
    + destruct c as [h|e]; eexists; eexists; (split; [reflexivity|]); cbn [own_step].
      * change (0 <=? 0) with true. cbn iota. apply inv_new; auto.
      * apply inv_put; auto.
  - destruct Pr as ((L & E) & Ep). rewrite (place_ok w s v I (conj L E)). cbn [bind].
    destruct (get_native w s p I Ep) as (o & G & X & Y). rewrite G. cbn [bind].
    assert (Nvp : p <> v) by (intros ->; now elim Ep).
    assert (S : sockets (who s v) = []) by now rewrite E.
    (* the first value of the new object is overwritten *)
    assert (Q : forall m, move_assign (put_obj w v (Some m)) v p
                = move_assign (put_obj w v (Some (WObj (wo_kind m) HANDLE_INVALID 0))) v p).
    { intros m. unfold move_assign.
      assert (GG : forall m', get_obj (put_obj w v (Some m')) v = Ok m').
      { intros m'. unfold get_obj, put_obj; cbn. rewrite nth_error_upd_eq by (rewrite (i_len _ _ I); auto). auto. }
      rewrite !GG. cbn [bind].
      assert (GP : forall m', get_obj (put_obj w v (Some m')) p = Ok o).
      { intros m'. unfold get_obj, put_obj; cbn. rewrite nth_error_upd_neq by auto. exact G. }
      rewrite !GP. cbn [bind]. now rewrite !put_put. }
    rewrite Q.
    match goal with |- context [put_obj w v (Some ?m)] =>
      assert (I1 : inv (put_obj w v (Some m)) (set_who s v Without)) by (apply inv_put; auto) end.
    destruct (inv_assign _ _ v p I1) as (w' & R & I2).
    + unfold exists_at. rewrite who_set, Nat.eqb_refl by auto. discriminate.
    + unfold exists_at. rewrite who_set by auto. destruct (Nat.eqb_spec p v); [congruence|auto].
    + rewrite R. cbn [bind]. eexists; eexists; split; [reflexivity|]. cbn [own_step].
      rewrite !who_set, Nat.eqb_refl in I2 by auto. destruct (Nat.eqb_spec p v); [congruence|].
      cbn [sockets] in I2. unfold lose in I2. cbn in I2. unfold set_who in I2 |- *. cbn in I2 |- *.
      rewrite upd_upd in I2. exact I2.
  - destruct Pr as (Ev & Ep). destruct (inv_assign w s v p I Ev Ep) as (w' & R & I2).
    rewrite R. cbn [bind]. eauto.
  - destruct (get_native w s v I Pr) as (o & G & X & Y). rewrite G. cbn [bind].
    eexists; eexists; split; [reflexivity|]. cbn [own_step].
    destruct I as [L J (N & O & U) P P']. pose proof (who_lt _ _ Pr) as V.
    split; fields.
    split; [|split]; cbn; auto.
    intros q. rewrite native_put by (rewrite L; auto). destruct (Nat.eqb_spec q v) as [->|_]; [exact Y|apply N].
  - destruct (get_native w s v I Pr) as (o & G & X & Y). unfold disconnect. rewrite G. cbn [bind].
    pose proof (destroy_cases w s v o I Pr X Y) as D. pose proof (who_lt _ _ Pr) as V. cbn [own_step].
    destruct (who s v) as [| | |h] eqn:W; rewrite D; eexists; eexists; (split; [reflexivity|]).
    + now elim Pr.
    + rewrite <- (set_who_same s v), W. apply inv_put; rewrite ?W; auto.
    + rewrite <- (set_who_same s v), W. apply inv_put; rewrite ?W; auto.
    + apply inv_close; auto.
  - destruct Pr as (Ev & H). destruct (get_native w s v I Ev) as (o & G & X & Y). unfold reconnect. rewrite G. cbn [bind].
    pose proof (destroy_cases w s v o I Ev X Y) as D. pose proof (who_lt _ _ Ev) as V. cbn [own_step].
    assert (C : forall w1 k, inv w1 (set_who s v Without) ->
              exists w' r, (let (w0, h) := create_client w1 a in Ok (put_obj w0 v (Some (WObj k h x)), x)) = Ok (w', r) /\
                inv w' (set_who (start s a) v (fst (made false (s_started (start s a)) a)))).
    { intros w1 k I1.
      assert (V1 : (v < length (s_objs (set_who s v Without)))%nat) by (rewrite len_set; auto).
      assert (S1 : sockets (who (set_who s v Without) v) = []) by (rewrite who_set, Nat.eqb_refl; auto).
      pose proof (made_ok w1 (set_who s v Without) false a v k x I1 V1 S1 H) as M. cbn iota in M.
      destruct (create_client w1 a) as (w0, h). eexists; eexists; split; [reflexivity|].
      change (s_started (start (set_who s v Without) a)) with (s_started (start s a)) in M.
      assert (B : snd (made false (s_started (start s a)) a) = []).
      { unfold made. destruct (s_started _), (a_socket a); auto. }
      destruct (made false (s_started (start s a)) a) as (d, l). cbn in B |- *. subst l.
      unfold lose, start, set_who in M |- *. cbn in M |- *. rewrite upd_upd in M. exact M. }
    destruct (who s v) as [| | |h] eqn:W.
    + now elim Ev.
    + cbn [shown] in Y. injection Y as Y. rewrite Y. change (0 =? HANDLE_INVALID) with false. cbn iota.
      unfold disconnect. rewrite G. cbn [bind]. rewrite D. cbn [bind].
      change (- WSAENOTSOCK <? 0) with true. cbn iota. eexists; eexists; split; [reflexivity|].
      rewrite <- (set_who_same s v), W. apply inv_put; rewrite ?W; auto. cbn. now rewrite Y.
    + cbn [shown] in Y. injection Y as Y. rewrite Y. change (-1 =? HANDLE_INVALID) with true. cbn iota. cbn [bind].
      change (0 <? 0) with false. cbn iota. apply C. rewrite <- W, set_who_same. auto.
    + assert (Hp : 0 < h) by exact (i_pos _ _ I v h W).
      cbn [shown] in Y. injection Y as Y. rewrite Y.
      assert ((h =? HANDLE_INVALID) = false) as -> by (apply Z.eqb_neq; unfold HANDLE_INVALID; lia).
      unfold disconnect. rewrite G. cbn [bind]. rewrite D. cbn [bind]. change (0 <? 0) with false. cbn iota.
      apply C. apply inv_close; auto.
  - destruct (get_native w s v I Pr) as (o & G & X & Y). unfold destructor. rewrite G. cbn [bind].
    eexists; eexists; split; [reflexivity|]. cbn [own_step].
    pose proof (destroy_cases w s v o I Pr X Y) as D. pose proof (who_lt _ _ Pr) as V.
    assert (NO : sockets (who s v) = [] -> destroy w (wo_handle o) = (w, wo_handle o, - WSAENOTSOCK))
      by (intros Z; destruct (who s v); auto; discriminate).
    destruct (sockets (who s v)) eqn:Z.
    + rewrite (NO eq_refl). cbn [fst].
      replace (match wo_kind o with WBase => if negb (net_bool o) then w else w | WClient => if wo_handle o =? HANDLE_INITIALIZER then w else w end) with w
        by (destruct (wo_kind o); [destruct (net_bool o)|destruct (wo_handle o =? HANDLE_INITIALIZER)]; auto).
      apply inv_put; auto.
    + destruct (who s v) as [| | |h] eqn:W; cbn in Z; try discriminate.
      cbn [shown] in Y. injection Y as Y. assert (Hp : 0 < h) by exact (i_pos _ _ I v h W).
      assert (B : net_bool o = true).
      { unfold net_bool. rewrite Y. unfold HANDLE_INVALID. destruct (Z.eqb_spec (-1) h); [lia|auto]. }
      assert (B' : (wo_handle o =? HANDLE_INITIALIZER) = false) by (apply Z.eqb_neq; unfold HANDLE_INITIALIZER; lia).
      rewrite B, B', D. cbn [negb fst]. destruct (wo_kind o); apply inv_close; auto.
Qed.

Lemma run_ok : forall h w s, inv w s -> all_proper w s h ->
  exists w' rs, nrun w h = Ok (w', rs) /\ inv w' (own_run s h rs).
Proof.
  induction h as [|c h IH]; intros w s I P.
  - exists w, []. split; auto.
  - destruct P as (P & P'). destruct (step_ok w s c I P) as (w1 & r & R & I1).
    destruct (IH w1 (own_step s c r) I1 (P' _ _ R)) as (w2 & rs & R2 & I2).
    exists w2, (r :: rs). cbn [nrun]. rewrite R. cbn [bind fst snd]. rewrite R2. cbn [bind fst snd]. auto.
Qed.
Lemma nth_rep : forall {A} n v (d : A), nth v (repeat d n) d = d.
Proof. induction n; intros [|v] d; cbn; auto. Qed.
Lemma inv_n_start : forall n, inv (n_start n) (own_start n).
Proof.
  intros n.
  assert (W : forall v, who (own_start n) v = Gone) by (intros v; unfold who; cbn; apply nth_rep).
  split; cbn; rewrite ?repeat_length; auto; try tauto.
  - split; [|split; [|split; [|split; [|split]]]]; cbn; auto; try constructor.
    + intros v. rewrite W. unfold native. cbn. now rewrite nth_rep.
    + tauto.
    + intros [[]|(v & A)]. rewrite W in A. discriminate.
    + intros v p h A. rewrite W in A. discriminate.
  - intros v h A. rewrite W in A. discriminate.
Qed.

(** C237. Any proper program is defined, and the open sockets are exactly those of the objects and the lost ones. *)
Theorem C237_exact_partial : forall n h,
  all_proper (n_start n) (own_start n) h ->
  exists w rs, nrun (n_start n) h = Ok (w, rs) /\ accounted w (own_run (own_start n) h rs).
Proof.
  intros n h P. destruct (run_ok h _ _ (inv_n_start n) P) as (w & rs & R & I).
  exists w, rs. split; auto. exact (i_acc _ _ I).
Qed.

Lemma careful_lost : forall s c r, careful s c -> s_lost s = [] -> s_lost (own_step s c r) = [].
Proof.
  intros s c r C L. destruct c as [v c a|p v c|v p|v p|v x|v|v a x|v]; cbn [own_step careful] in *; rewrite ?lost_set; cbn; auto.
  - destruct (made _ _ a) as (d, l) eqn:M. rewrite lost_set. cbn. rewrite L, app_nil_r. unfold made in M.
    destruct (s_started s || a_startup a); [|now injection M].
    destruct (a_socket a); [|now injection M]. destruct (is_server c); [|now injection M].
    destruct (a_option a); [|now injection M]. rewrite C in M by auto. now injection M.
  - rewrite L, app_nil_r. destruct (who s v) as [| | |h] eqn:W; auto. elim (C h). auto.
  - destruct (who s v); auto.
  - destruct (who s v); auto.
Qed.

(** C237. If servers are bound and owners are not assigned to, nothing is lost; when all objects are destroyed, no
    socket is open. *)
Theorem C237_all_closed_partial : forall n h,
  all_proper (n_start n) (own_start n) h -> all_careful (n_start n) (own_start n) h ->
  exists w rs, nrun (n_start n) h = Ok (w, rs) /\
    s_lost (own_run (own_start n) h rs) = [] /\
    ((forall v, who (own_run (own_start n) h rs) v = Gone) -> nw_open w = []).
Proof.
  intros n h P C. destruct (run_ok h _ _ (inv_n_start n) P) as (w & rs & R & I).
  exists w, rs. split; auto.
  assert (L : s_lost (own_run (own_start n) h rs) = []).
  { assert (G : forall h w0 s w rs, s_lost s = [] -> all_careful w0 s h -> nrun w0 h = Ok (w, rs) -> s_lost (own_run s h rs) = []).
    { clear. induction h as [|c h IH]; intros w0 s w rs L C R; cbn [nrun] in R.
      - now injection R as <- <-.
      - destruct C as (C & C'). destruct (nstep w0 c) as [(w1, r)| |] eqn:E; try discriminate. cbn [bind fst snd] in R.
        destruct (nrun w1 h) as [(w2, rs2)| |] eqn:E2; try discriminate. cbn [bind fst snd] in R.
        injection R as <- <-. cbn [own_run]. eapply IH; eauto. now apply careful_lost. }
    apply (G h (n_start n) (own_start n) w rs); auto. }
  split; auto. intros A. destruct I as [_ _ (_ & O & _) _ _].
  destruct (nw_open w) as [|x l]; auto. exfalso.
  destruct (proj1 (O x) (or_introl eq_refl)) as [B|(v & B)]; [rewrite L in B; destruct B|rewrite A in B; discriminate].
Qed.

(** C237 fails: the socket of an object that is assigned to stays open, whatever sockets the two objects have. *)
Theorem C237_assign_over_refuted : forall c a b x y,
  a_startup a = true -> a_socket a = Some x -> a_socket b = Some y -> 0 < x -> 0 < y -> x <> y ->
  a_option a = true -> a_bind a = true -> a_option b = true -> a_bind b = true ->
  exists w rs, nrun (n_start 2) [NCreate 0 c a; NCreate 1 c b; NMoveAssign 0 1; NDestroy 0; NDestroy 1] = Ok (w, rs) /\
    nw_vars w = [None; None] /\ nw_open w = [x].
Proof.
  intros c a b x y A1 A2 B2 X Y XY A3 A4 B3 B4.
  assert (Ex : (x =? -1) = false) by (apply Z.eqb_neq; lia).
  assert (Ey : (y =? -1) = false) by (apply Z.eqb_neq; lia).
  assert (Fx : (-1 =? x) = false) by (apply Z.eqb_neq; lia).
  assert (Fy : (-1 =? y) = false) by (apply Z.eqb_neq; lia).
  assert (Xy : (x =? y) = false) by (apply Z.eqb_neq; lia).
  destruct x as [|x|x]; try lia. destruct y as [|y|y]; try lia.
  destruct c; (eexists; eexists; split;
  [cbn -[Z.eqb Z.leb];
      unfold create_server, create_client, winsock_init, wsa_socket, net_of_socket, net_bool, HANDLE_INVALID;
      cbn -[Z.eqb Z.leb]; rewrite ?A1, ?A2, ?A3, ?A4; cbn -[Z.eqb Z.leb]; rewrite ?Ex, ?Fx; cbn -[Z.eqb Z.leb];
      rewrite ?B2, ?B3, ?B4; cbn -[Z.eqb Z.leb]; rewrite ?Ey, ?Fy; cbn -[Z.eqb Z.leb];
      unfold destructor, get_obj, destroy, is_open, net_bool, HANDLE_INVALID, HANDLE_INITIALIZER; cbn -[Z.eqb Z.leb];
      rewrite ?Fy; cbn -[Z.eqb Z.leb]; rewrite ?Z.eqb_refl; cbn -[Z.eqb Z.leb]; rewrite ?Xy, ?Z.eqb_refl; cbn -[Z.eqb Z.leb];
      change (-1 =? 0) with false; change (0 =? Z.pos x) with false; cbn -[Z.eqb Z.leb]; reflexivity|split; reflexivity]).
Qed.

(** C237 fails: a server whose address is taken leaves its socket open. *)
Theorem C237_bind_refuted : forall c a x,
  is_server c = true -> a_startup a = true -> a_socket a = Some x -> 0 < x -> a_option a = true -> a_bind a = false ->
  exists w rs, nrun (n_start 1) [NCreate 0 c a; NDestroy 0] = Ok (w, rs) /\
    nw_vars w = [None] /\ nw_open w = [x].
Proof.
  intros c a x C A1 A2 X A3 A4.
  assert (Ex : (x =? -1) = false) by (apply Z.eqb_neq; lia).
  destruct x as [|x|x]; try lia.
  destruct c; try discriminate C; (eexists; eexists; split;
  [cbn -[Z.eqb Z.leb];
      unfold create_server, winsock_init, wsa_socket, net_of_socket, net_bool, HANDLE_INVALID;
      cbn -[Z.eqb Z.leb]; rewrite ?A1, ?A2, ?A3, ?A4; cbn -[Z.eqb Z.leb]; rewrite ?Ex; cbn -[Z.eqb Z.leb];
      unfold destructor, get_obj, destroy, is_open, net_bool, HANDLE_INVALID, HANDLE_INITIALIZER; cbn -[Z.eqb Z.leb];
      rewrite ?A3, ?A4; cbn -[Z.eqb Z.leb]; reflexivity|split; reflexivity]).
Qed.

Ltac show_proper :=
  cbn [all_proper];
  repeat match goal with
  | |- proper _ _ /\ _ => split; [|intros w' r E; vm_compute in E; injection E as <- <-]
  | |- True => exact I
  end; unfold proper, free_at, exists_at, new_handle; cbn;
  repeat match goal with
  | |- _ /\ _ => split
  | |- forall h, Some _ = Some h -> _ => intros h' H'; injection H' as <-
  | |- forall v, who _ v <> Owner _ => intros v; repeat (destruct v as [|v]; try (cbn; discriminate))
  | |- ~ _ => intro
  end; try lia; try reflexivity; try discriminate; try tauto; rewrite ?len_set; cbn; lia.
(* The hypotheses are met: clients and servers that are made, moved, accepted, reconnected, assigned over and destroyed. *)
Definition yes (x : Z) : answers := Answers true (Some x) true true 0.
Definition demo : list ncall :=
  [NCreate 0 CTcpServer (yes 10); NAccept 0 1 (inl 11); NMove 2 0; NCreate 3 CTcpClient (yes 12);
   NReconnect 3 (yes 13) 0; NDisconnect 0; NReconnect 0 (yes 14) 0; NMoveAssign 0 3; NMoveAssign 2 0; NDestroy 1].
Example C237_demo_case :
  all_proper (n_start 4) (own_start 4) demo /\
  exists w, nrun (n_start 4) demo = Ok (w, [0; 0; 0; 0; 0; - WSAENOTSOCK; - WSAENOTSOCK; 0; 0; 0]) /\
    own_run (own_start 4) demo [0; 0; 0; 0; 0; - WSAENOTSOCK; - WSAENOTSOCK; 0; 0; 0]
      = Owners [Moved; Gone; Owner 13; Moved] [10] true.
Proof.
  split.
  - unfold demo. show_proper.
  - eexists. split; vm_compute; reflexivity.
Qed.
Example C237_closed_case :
  let h := [NCreate 0 CTcpServer (yes 10); NAccept 0 1 (inl 11); NMove 2 0; NMoveAssign 0 2; NDestroy 1; NDestroy 0; NDestroy 2] in
  all_proper (n_start 3) (own_start 3) h /\ all_careful (n_start 3) (own_start 3) h /\
  exists w, nrun (n_start 3) h = Ok (w, [0; 0; 0; 0; 0; 0; 0]) /\ nw_open w = [].
Proof.
  cbv zeta. split; [|split].
  - show_proper.
  - cbn [all_careful].
    repeat match goal with
    | |- careful _ _ /\ _ => split; [|intros w' r E; vm_compute in E; injection E as <- <-]
    | |- True => exact I
    end; cbn; auto; intros; discriminate.
  - eexists. split; vm_compute; reflexivity.
Qed.

Print Assumptions C237_exact_partial.
Print Assumptions C237_all_closed_partial.
Print Assumptions C237_assign_over_refuted.
Print Assumptions C237_bind_refuted.
