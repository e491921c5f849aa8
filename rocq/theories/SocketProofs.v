(** The invariant of socket ownership. *)
From Coq Require Import List Arith ZArith Lia Bool.
From Verif Require Import Base BaseLemmas PointersProofs VariantProofs SocketModel SocketSpec.
Import ListNotations.
Local Open Scope Z_scope.

(** How an object represents its ownership. *)
Definition obj_rel (d : ownership) (x : option netobj) : Prop :=
  match d with
  | NGone => x = None
  | NMoved k => exists st, x = Some (Net k 0 st)
  | NHas k fd => (exists st, x = Some (Net k fd st)) /\ 0 <= fd /\ (k = OClient -> fd <> 0)
  | NNone k => exists st, x = Some (Net k (-1) st)
  end.

Record ninv (w : nworld) (s : owners) : Prop := {
  v_len : length (n_vars w) = length (s_objs s);
  v_objs : forall v, (v < length (s_objs s))%nat ->
             exists x, nth_error (n_vars w) v = Some x /\ obj_rel (own s v) x;
  v_open : forall fd, In fd (n_open w) <-> In fd (s_foreign s) \/ exists v, owns s v fd;
  v_once : forall v u fd, owns s v fd -> owns s u fd -> v = u;
  v_apart : forall v fd, owns s v fd -> ~ In fd (s_foreign s);
  v_pos : forall fd, In fd (n_open w) -> 0 <= fd
}.

Lemma own_set_eq s v d : (v < length (s_objs s))%nat -> own (set_own s v d) v = d.
Proof.
  intros L. unfold own, set_own. cbn [s_objs].
  apply (nth_error_nth _ _ NGone). apply nth_error_upd_eq. exact L.
Qed.

Lemma own_set_neq s v d u : u <> v -> own (set_own s v d) u = own s u.
Proof.
  intros N. unfold own, set_own. cbn [s_objs]. destruct (nth_error (s_objs s) u) as [x|] eqn:E.
  - rewrite (nth_error_nth _ _ NGone E). apply (nth_error_nth _ _ NGone).
    rewrite nth_error_upd_neq by auto. exact E.
  - apply nth_error_None in E. rewrite !nth_overflow; auto. rewrite upd_length. exact E.
Qed.

Lemma own_out s v : own s v <> NGone -> (v < length (s_objs s))%nat.
Proof.
  intros N. destruct (Nat.lt_ge_cases v (length (s_objs s))) as [L|L]; [exact L|].
  exfalso. apply N. unfold own. apply nth_overflow. exact L.
Qed.

Lemma live_lt s v k : live_kind (own s v) = Some k -> (v < length (s_objs s))%nat.
Proof. intros H. apply own_out. intros E. rewrite E in H. discriminate. Qed.

Lemma is_open_In w fd : is_open w fd = true <-> In fd (n_open w).
Proof.
  unfold is_open. rewrite existsb_exists. split.
  - intros (x & Hx & E). apply Z.eqb_eq in E. subst. exact Hx.
  - intros H. exists fd. split; [exact H|apply Z.eqb_refl].
Qed.

Lemma is_open_not w fd : is_open w fd = false <-> ~ In fd (n_open w).
Proof. rewrite <- is_open_In. destruct (is_open w fd); intuition congruence. Qed.

(** Changing one object; its ownership changes from [d0] to [d]. *)
Lemma put_ok w s v d x : ninv w s -> (v < length (s_objs s))%nat -> obj_rel d x ->
  (forall fd, In fd (n_open w) <-> In fd (s_foreign s) \/ exists u, owns (set_own s v d) u fd) ->
  (forall k fd, d = NHas k fd -> ~ In fd (s_foreign s) /\ forall u, u <> v -> ~ owns s u fd) ->
  ninv (put_obj w v x) (set_own s v d).
Proof.
  intros I L R O A. constructor.
  - unfold put_obj, set_own. cbn. rewrite !upd_length. apply (v_len _ _ I).
  - intros u Hu. unfold set_own in Hu. cbn [s_objs] in Hu. rewrite upd_length in Hu.
    unfold put_obj. cbn [n_vars]. destruct (Nat.eq_dec u v) as [->|N].
    + exists x. rewrite own_set_eq by exact L. split; [|exact R].
      apply nth_error_upd_eq. rewrite (v_len _ _ I). exact L.
    + rewrite own_set_neq by exact N. destruct (v_objs _ _ I u Hu) as (y & E & Ry).
      exists y. rewrite nth_error_upd_neq by auto. auto.
  - exact O.
  - intros a b fd [ka Ha] [kb Hb].
    destruct (Nat.eq_dec a v) as [->|Na]; destruct (Nat.eq_dec b v) as [->|Nb]; auto.
    + rewrite own_set_eq in Ha by exact L. rewrite own_set_neq in Hb by exact Nb.
      exfalso. apply (proj2 (A _ _ Ha) b Nb). exists kb. exact Hb.
    + rewrite own_set_eq in Hb by exact L. rewrite own_set_neq in Ha by exact Na.
      exfalso. apply (proj2 (A _ _ Hb) a Na). exists ka. exact Ha.
    + rewrite own_set_neq in Ha, Hb by auto. apply (v_once _ _ I a b fd); eexists; eauto.
  - intros a fd [k Ha]. destruct (Nat.eq_dec a v) as [->|Na].
    + rewrite own_set_eq in Ha by exact L. apply (proj1 (A _ _ Ha)).
    + rewrite own_set_neq in Ha by auto. apply (v_apart _ _ I a). exists k. exact Ha.
  - apply (v_pos _ _ I).
Qed.

(** Ownership does not change hands. *)
Lemma put_same w s v d x : ninv w s -> (v < length (s_objs s))%nat -> obj_rel d x ->
  (forall k fd, d <> NHas k fd) -> (forall k fd, own s v <> NHas k fd) ->
  ninv (put_obj w v x) (set_own s v d).
Proof.
  intros I L R N1 N2. apply put_ok; auto.
  - intros fd. rewrite (v_open _ _ I fd). split; (intros [H|[u [k H]]]; [left; exact H|right; exists u]).
    + destruct (Nat.eq_dec u v) as [->|N]; [exfalso; apply (N2 k fd H)|].
      exists k. rewrite own_set_neq by exact N. exact H.
    + destruct (Nat.eq_dec u v) as [->|N].
      * rewrite own_set_eq in H by exact L. exfalso. apply (N1 k fd H).
      * rewrite own_set_neq in H by exact N. exists k. exact H.
  - intros k fd E. exfalso. apply (N1 k fd E).
Qed.

(** A descriptor is opened and given to the object [v]. *)
Lemma open_ok w s v k fd st : ninv w s -> (v < length (s_objs s))%nat ->
  (forall k' fd', own s v <> NHas k' fd') -> free_fd s fd -> (k = OClient -> fd <> 0) ->
  ninv (put_obj (sys_open w fd) v (Some (Net k fd st))) (set_own s v (NHas k fd)).
Proof.
  intros I L NH (P & NF & NO) NC.
  assert (I' : ninv (sys_open w fd) (Owners (s_objs s) (s_foreign s)) -> False \/ True) by auto.
  constructor.
  - unfold put_obj, set_own. cbn. rewrite !upd_length. apply (v_len _ _ I).
  - intros u Hu. unfold set_own in Hu. cbn [s_objs] in Hu. rewrite upd_length in Hu.
    unfold put_obj. cbn [n_vars sys_open]. destruct (Nat.eq_dec u v) as [->|N].
    + eexists. rewrite own_set_eq by exact L. split.
      * apply nth_error_upd_eq. rewrite (v_len _ _ I). exact L.
      * cbn. split; [eauto|split; auto].
    + rewrite own_set_neq by exact N. destruct (v_objs _ _ I u Hu) as (y & E & Ry).
      exists y. rewrite nth_error_upd_neq by auto. auto.
  - intros fd'. cbn [put_obj n_open sys_open set_own s_foreign In]. rewrite (v_open _ _ I fd'). split.
    + intros [<-|[H|[u [k' H]]]].
      * right. exists v. exists k. apply own_set_eq. exact L.
      * left. exact H.
      * right. exists u, k'. rewrite own_set_neq; [exact H|]. intros ->. apply (NH k' fd' H).
    + intros [H|[u [k' H]]]; [auto|]. destruct (Nat.eq_dec u v) as [->|N].
      * rewrite own_set_eq in H by exact L. left. congruence.
      * rewrite own_set_neq in H by exact N. right. right. exists u, k'. exact H.
  - intros a b fd' [ka Ha] [kb Hb].
    destruct (Nat.eq_dec a v) as [->|Na]; destruct (Nat.eq_dec b v) as [->|Nb]; auto.
    + rewrite own_set_eq in Ha by exact L. rewrite own_set_neq in Hb by exact Nb.
      injection Ha as -> ->. exfalso. apply (NO b). exists kb. exact Hb.
    + rewrite own_set_eq in Hb by exact L. rewrite own_set_neq in Ha by exact Na.
      injection Hb as -> ->. exfalso. apply (NO a). exists ka. exact Ha.
    + rewrite own_set_neq in Ha, Hb by auto. apply (v_once _ _ I a b fd'); eexists; eauto.
  - intros a fd' [k' Ha]. cbn [set_own s_foreign]. destruct (Nat.eq_dec a v) as [->|Na].
    + rewrite own_set_eq in Ha by exact L. injection Ha as -> ->. exact NF.
    + rewrite own_set_neq in Ha by auto. apply (v_apart _ _ I a). exists k'. exact Ha.
  - intros fd'. cbn [put_obj n_open sys_open In]. intros [<-|H]; [exact P|apply (v_pos _ _ I _ H)].
Qed.

(** The descriptor of the object [v] is closed. *)
Lemma close_ok w s v k fd d x : ninv w s -> own s v = NHas k fd -> obj_rel d x ->
  (forall k fd, d <> NHas k fd) ->
  exists w', sock_destroy w fd = (w', -1, 0) /\ n_vars w' = n_vars w /\
    ninv (put_obj w' v x) (set_own s v d).
Proof.
  intros I E R N1.
  assert (L : (v < length (s_objs s))%nat) by (apply own_out; rewrite E; discriminate).
  assert (Ow : owns s v fd) by (exists k; exact E).
  assert (Op : is_open w fd = true).
  { apply is_open_In. apply (v_open _ _ I). right. exists v. exact Ow. }
  unfold sock_destroy, sys_close. rewrite Op. cbn.
  eexists. split; [reflexivity|]. split; [reflexivity|].
  assert (F : forall fd', In fd' (filter (fun y => negb (y =? fd)) (n_open w)) <->
                In fd' (n_open w) /\ fd' <> fd).
  { intros fd'. rewrite filter_In. destruct (Z.eqb_spec fd' fd); cbn; intuition congruence. }
  constructor.
  - unfold put_obj, set_own. cbn. rewrite !upd_length. apply (v_len _ _ I).
  - intros u Hu. unfold set_own in Hu. cbn [s_objs] in Hu. rewrite upd_length in Hu.
    unfold put_obj. cbn [n_vars]. destruct (Nat.eq_dec u v) as [->|N].
    + exists x. rewrite own_set_eq by exact L. split; [|exact R].
      apply nth_error_upd_eq. rewrite (v_len _ _ I). exact L.
    + rewrite own_set_neq by exact N. destruct (v_objs _ _ I u Hu) as (y & Ey & Ry).
      exists y. rewrite nth_error_upd_neq by auto. auto.
  - intros fd'. cbn [put_obj n_open set_own s_foreign]. rewrite F, (v_open _ _ I fd'). split.
    + intros [[H|[u [k' H]]] N]; [left; exact H|]. right. exists u, k'.
      rewrite own_set_neq; [exact H|]. intros ->. rewrite E in H. congruence.
    + intros [H|[u [k' H]]].
      * split; [left; exact H|]. intros ->. apply (v_apart _ _ I v fd Ow H).
      * destruct (Nat.eq_dec u v) as [->|N].
        -- rewrite own_set_eq in H by exact L. exfalso. apply (N1 _ _ H).
        -- rewrite own_set_neq in H by exact N. split; [right; exists u, k'; exact H|].
           intros ->. apply N. apply (v_once _ _ I u v fd); [exists k'; exact H|exact Ow].
  - intros a b fd' [ka Ha] [kb Hb].
    destruct (Nat.eq_dec a v) as [->|Na].
    { rewrite own_set_eq in Ha by exact L. exfalso. apply (N1 _ _ Ha). }
    destruct (Nat.eq_dec b v) as [->|Nb].
    { rewrite own_set_eq in Hb by exact L. exfalso. apply (N1 _ _ Hb). }
    rewrite own_set_neq in Ha, Hb by auto. apply (v_once _ _ I a b fd'); eexists; eauto.
  - intros a fd' [k' Ha]. destruct (Nat.eq_dec a v) as [->|Na].
    + rewrite own_set_eq in Ha by exact L. exfalso. apply (N1 _ _ Ha).
    + rewrite own_set_neq in Ha by auto. apply (v_apart _ _ I a). exists k'. exact Ha.
  - intros fd'. cbn [put_obj n_open]. intros H. apply (v_pos _ _ I). apply F in H. apply H.
Qed.

Lemma close_none w s : ninv w s -> sock_destroy w (-1) = (w, -1, -9).
Proof.
  intros I. unfold sock_destroy, sys_close.
  assert (E : is_open w (-1) = false).
  { apply is_open_not. intros H. apply (v_pos _ _ I) in H. lia. }
  rewrite E. reflexivity.
Qed.

Lemma place_ok w s v : ninv w s -> (v < length (s_objs s))%nat -> own s v = NGone -> place w v = Ok tt.
Proof.
  intros I L G. destruct (v_objs _ _ I v L) as (x & E & R). rewrite G in R. cbn in R. subst x.
  unfold place. rewrite E. reflexivity.
Qed.

Lemma get_obj_ok w s v k : ninv w s -> live_kind (own s v) = Some k ->
  exists o, get_obj w v = Ok o /\ o_kind o = k /\ obj_rel (own s v) (Some o).
Proof.
  intros I H. destruct (v_objs _ _ I v (live_lt _ _ _ H)) as (x & E & R).
  unfold get_obj. rewrite E.
  destruct (own s v) as [|k'|k' fd|k'] eqn:Eo; cbn in H; try discriminate; injection H as ->; cbn in R.
  - destruct R as [st ->]. eexists. split; [reflexivity|]. cbn. eauto.
  - destruct R as [[st ->] R]. eexists. split; [reflexivity|]. cbn. eauto.
  - destruct R as [st ->]. eexists. split; [reflexivity|]. cbn. eauto.
Qed.

Lemma set_own_again s v d d' : set_own (set_own s v d) v d' = set_own s v d'.
Proof. unfold set_own. cbn [s_objs s_foreign]. rewrite upd_upd_eq. reflexivity. Qed.

Lemma set_own_self s v : set_own s v (own s v) = s.
Proof.
  unfold set_own, own. destruct s as [l f]. cbn [s_objs s_foreign]. f_equal.
  revert v. induction l as [|a l IH]; intros [|v]; cbn; auto. f_equal. apply IH.
Qed.

Lemma put_put w v x y : put_obj (put_obj w v x) v y = put_obj w v y.
Proof. unfold put_obj. cbn [n_vars n_open]. rewrite upd_upd_eq. reflexivity. Qed.

(** Moving from [p] to [v], which exists and owns nothing. *)
Lemma move_ok w s v p k : ninv w s -> v <> p ->
  live_kind (own s v) = Some k -> live_kind (own s p) = Some k ->
  (forall fd, ~ owns s v fd) ->
  exists w', net_move_assign w v p = Ok w' /\
    ninv w' (set_own (set_own s v (own s p)) p (NMoved k)).
Proof.
  intros I N Kv Kp NO. assert (Lv := live_lt _ _ _ Kv). assert (Lp := live_lt _ _ _ Kp).
  destruct (get_obj_ok w s v k I Kv) as (o & Eo & Ko & Ro).
  destruct (get_obj_ok w s p k I Kp) as (x & Ex & Kx & Rx).
  unfold net_move_assign. rewrite Eo. cbn [bind]. rewrite Ex. cbn [bind]. rewrite Ko, Kx.
  eexists. split; [reflexivity|].
  assert (NHv : forall k' fd, own s v <> NHas k' fd).
  { intros k' fd E. apply (NO fd). exists k'. exact E. }
  assert (Rv : obj_rel (own s p) (Some (Net k (o_fd x) (o_status x)))).
  { destruct x as [kx fx sx]. cbn in Kx. subst kx. exact Rx. }
  set (s1 := set_own (set_own s v (own s p)) p (NMoved k)).
  assert (O1 : forall u fd, owns s1 u fd <-> (u = v /\ owns s p fd) \/ (u <> v /\ u <> p /\ owns s u fd)).
  { intros u fd. unfold s1, owns. destruct (Nat.eq_dec u p) as [->|Np].
    - rewrite own_set_eq; [|unfold set_own; cbn; rewrite upd_length; exact Lp]. split.
      + intros [k' H]. discriminate.
      + intros [[H _]|[_ [H _]]]; congruence.
    - rewrite own_set_neq by exact Np. destruct (Nat.eq_dec u v) as [->|Nv].
      + rewrite own_set_eq by exact Lv. intuition congruence.
      + rewrite own_set_neq by exact Nv. intuition congruence. }
  constructor.
  - unfold put_obj, s1, set_own. cbn. rewrite !upd_length. apply (v_len _ _ I).
  - intros u Hu. unfold s1, set_own in Hu. cbn [s_objs] in Hu. rewrite !upd_length in Hu.
    unfold put_obj. cbn [n_vars]. destruct (Nat.eq_dec u p) as [->|Np].
    + eexists. split.
      * apply nth_error_upd_eq. rewrite upd_length, (v_len _ _ I). exact Lp.
      * unfold s1. rewrite own_set_eq; [|unfold set_own; cbn; rewrite upd_length; exact Lp].
        cbn. eauto.
    + unfold s1. rewrite own_set_neq by exact Np. rewrite nth_error_upd_neq by auto.
      destruct (Nat.eq_dec u v) as [->|Nv].
      * eexists. split; [apply nth_error_upd_eq; rewrite (v_len _ _ I); exact Lv|].
        rewrite own_set_eq by exact Lv. exact Rv.
      * rewrite own_set_neq by exact Nv. rewrite nth_error_upd_neq by auto. apply (v_objs _ _ I u Hu).
  - intros fd. cbn [put_obj n_open]. rewrite (v_open _ _ I fd).
    change (s_foreign s1) with (s_foreign s).
    split; (intros [H|[u H]]; [left; exact H|right]).
    + destruct (Nat.eq_dec u p) as [->|Np]; [exists v; apply O1; auto|].
      exists u. apply O1. right. repeat split; auto. intros ->. apply (NO fd H).
    + apply O1 in H. destruct H as [[-> H]|[_ [_ H]]]; eauto.
  - intros a b fd Ha Hb. apply O1 in Ha, Hb.
    destruct Ha as [[-> Ha]|[A1 [A2 Ha]]]; destruct Hb as [[-> Hb]|[B1 [B2 Hb]]]; auto.
    + exfalso. apply B2. apply (v_once _ _ I b p fd); auto.
    + exfalso. apply A2. apply (v_once _ _ I a p fd); auto.
    + apply (v_once _ _ I a b fd); auto.
  - intros a fd Ha. change (s_foreign s1) with (s_foreign s). apply O1 in Ha.
    destruct Ha as [[-> Ha]|[_ [_ Ha]]]; eapply (v_apart _ _ I); eauto.
  - apply (v_pos _ _ I).
Qed.

(** Creating a descriptor in the system. *)
Lemma free_open w s fd : ninv w s -> free_fd s fd -> is_open w fd = false.
Proof.
  intros I (P & NF & NO). apply is_open_not. intros H. apply (v_open _ _ I) in H.
  destruct H as [H|[u H]]; [auto|apply (NO u H)].
Qed.

Lemma filter_fresh fd l : ~ In fd l -> filter (fun x => negb (x =? fd)) l = l.
Proof.
  induction l as [|a l IH]; intros N; [reflexivity|]. cbn.
  destruct (Z.eqb_spec a fd) as [->|Na]; cbn.
  - exfalso. apply N. left. reflexivity.
  - rewrite IH; [reflexivity|]. intros H. apply N. right. exact H.
Qed.

Lemma open_close w s fd : ninv w s -> free_fd s fd -> sock_destroy (sys_open w fd) fd = (w, -1, 0).
Proof.
  intros I F. unfold sock_destroy, sys_close.
  assert (E : is_open (sys_open w fd) fd = true).
  { apply is_open_In. left. reflexivity. }
  rewrite E. cbn. rewrite Z.eqb_refl. cbn [negb].
  rewrite filter_fresh; [destruct w; reflexivity|]. apply is_open_not. apply (free_open w s fd I F).
Qed.

Lemma create_server_ok w s e : ninv w s -> e_socket e = -1 \/ free_fd s (e_socket e) ->
  create_server w e =
    match created CUdpServer e with Some fd => (sys_open w fd, fd) | None => (w, -1) end.
Proof.
  intros I F. unfold create_server, sys_socket, created.
  destruct (Z.eqb_spec (e_socket e) (-1)) as [E|E]; cbn [orb]; [reflexivity|].
  destruct F as [F|F]; [congruence|].
  unfold STATUS_FAILED, FD_INVALID. destruct (Z.eqb_spec (e_socket e) (-1)) as [?|_]; [congruence|].
  rewrite (open_close w s _ I F).
  destruct (e_option e <? 0); cbn [orb]; [reflexivity|].
  destruct (e_bind e =? -1); reflexivity.
Qed.

Lemma create_client_ok w e :
  create_client w e =
    if e_socket e =? -1 then (w, -1) else (sys_open w (e_socket e), e_socket e).
Proof.
  unfold create_client, sys_socket, STATUS_FAILED.
  destruct (e_socket e =? -1) eqn:E; [reflexivity|]. rewrite E. reflexivity.
Qed.

Lemma net_of_socket_ok fd : net_of_socket fd = Net OBase fd 0.
Proof.
  unfold net_of_socket, net_bool. cbn [o_fd o_status]. rewrite orb_true_r. reflexivity.
Qed.

Lemma net_create_ok w s c e : ninv w s -> e_socket e = -1 \/ free_fd s (e_socket e) ->
  exists st,
  net_create w c e =
    match created c e with
    | Some fd => (sys_open w fd, Net OBase fd st)
    | None => (w, Net OBase (-1) st)
    end.
Proof.
  intros I F. destruct c; cbn [net_create].
  - rewrite (create_server_ok w s e I F). destruct (created CUdpServer e);
      rewrite net_of_socket_ok; eauto.
  - rewrite create_client_ok. cbn [created]. destruct (e_socket e =? -1);
      rewrite net_of_socket_ok; eauto.
  - rewrite (create_server_ok w s e I F). change (created CTcpServer e) with (created CUdpServer e).
    destruct (created CUdpServer e); rewrite net_of_socket_ok; cbn [o_kind o_fd]; eauto.
  - rewrite create_client_ok. cbn [created]. destruct (e_socket e =? -1);
      rewrite net_of_socket_ok; eauto.
Qed.

Lemma created_free c e s fd : e_socket e = -1 \/ free_fd s (e_socket e) -> created c e = Some fd ->
  free_fd s fd.
Proof.
  intros F H. destruct c; cbn in H.
  - destruct (Z.eqb_spec (e_socket e) (-1)); cbn [orb] in H; [discriminate|].
    destruct ((e_option e <? 0) || (e_bind e =? -1)); [discriminate|].
    injection H as <-. destruct F; [contradiction|exact H].
  - destruct (Z.eqb_spec (e_socket e) (-1)); [discriminate|]. injection H as <-.
    destruct F; [contradiction|exact H].
  - destruct (Z.eqb_spec (e_socket e) (-1)); cbn [orb] in H; [discriminate|].
    destruct ((e_option e <? 0) || (e_bind e =? -1)); [discriminate|].
    injection H as <-. destruct F; [contradiction|exact H].
  - destruct (Z.eqb_spec (e_socket e) (-1)); [discriminate|]. injection H as <-.
    destruct F; [contradiction|exact H].
Qed.

Lemma disconnect_ok w s v : ninv w s ->
  own s v = NNone OBase \/ (exists fd, own s v = NHas OBase fd) ->
  exists w' st, tcp_disconnect w v = Ok (w', st) /\ ninv w' (set_own s v (NNone OBase)) /\
    (st = 0 <-> exists fd, own s v = NHas OBase fd).
Proof.
  intros I H. unfold tcp_disconnect.
  destruct (get_obj_ok w s v OBase I) as (o & Eo & Ko & Ro).
  { destruct H as [->|[fd ->]]; reflexivity. }
  rewrite Eo. cbn [bind]. destruct H as [H|[fd H]]; rewrite H in Ro; cbn [obj_rel] in Ro.
  - destruct Ro as [st Ro]. injection Ro as ->. cbn [o_fd o_kind]. rewrite (close_none w s I).
    eexists. eexists. split; [reflexivity|]. split.
    + apply put_same; auto; try (rewrite H); try discriminate; [|cbn; eauto].
      apply own_out. rewrite H. discriminate.
    + rewrite H. split; [discriminate|]. intros [fd E]. discriminate.
  - destruct Ro as [[st Ro] _]. injection Ro as ->. cbn [o_fd o_kind].
    destruct (close_ok w s v OBase fd (NNone OBase) (Some (Net OBase (-1) 0)) I H) as (w' & E & EV & I').
    { cbn. eauto. } { discriminate. }
    rewrite E. eexists. eexists. split; [reflexivity|]. split; [exact I'|].
    split; [eauto|reflexivity].
Qed.

(** The process opens and closes a descriptor of its own. *)
Lemma foreign_open w s fd : ninv w s -> free_fd s fd ->
  ninv (sys_open w fd) (Owners (s_objs s) (fd :: s_foreign s)).
Proof.
  intros I (Pos & NF & NO).
  constructor; cbn [sys_open n_vars n_open s_objs s_foreign].
  - apply (v_len _ _ I).
  - apply (v_objs _ _ I).
  - intros fd'. cbn [In]. rewrite (v_open _ _ I fd').
    change (exists v, owns {| s_objs := s_objs s; s_foreign := fd :: s_foreign s |} v fd')
      with (exists v, owns s v fd'). tauto.
  - apply (v_once _ _ I).
  - intros v fd' O. cbn [In]. intros [->|H]; [apply (NO v O)|apply (v_apart _ _ I v fd' O H)].
  - intros fd' [<-|H]; [exact Pos|apply (v_pos _ _ I _ H)].
Qed.

Lemma foreign_close w s fd : ninv w s -> In fd (s_foreign s) ->
  ninv (fst (sys_close w fd)) (Owners (s_objs s) (without fd (s_foreign s))).
Proof.
  intros I P. unfold sys_close, without.
  assert (Op : is_open w fd = true) by (apply is_open_In; apply (v_open _ _ I); left; exact P).
  rewrite Op. cbn [fst].
  assert (F : forall l fd', In fd' (filter (fun y => negb (y =? fd)) l) <-> In fd' l /\ fd' <> fd).
  { intros l fd'. rewrite filter_In. destruct (Z.eqb_spec fd' fd); cbn; intuition congruence. }
  constructor; cbn [n_vars n_open s_objs s_foreign].
  - apply (v_len _ _ I).
  - apply (v_objs _ _ I).
  - intros fd'. rewrite !F, (v_open _ _ I fd').
    change (exists v, owns {| s_objs := s_objs s; s_foreign := filter (fun x => negb (x =? fd)) (s_foreign s) |} v fd')
      with (exists v, owns s v fd'). split.
    + intros [[H|H] N]; auto.
    + intros [[H N]|[v H]]; [auto|]. split; [right; eauto|]. intros ->.
      apply (v_apart _ _ I v fd H P).
  - apply (v_once _ _ I).
  - intros v fd' O H. apply F in H. apply (v_apart _ _ I v fd' O). apply H.
  - intros fd' H. apply F in H. apply (v_pos _ _ I). apply H.
Qed.

(** Closing descriptor 0, which no object owns. *)
Lemma zero_ok w s : ninv w s -> (forall u, ~ owns s u 0) ->
  exists w' st, sock_destroy w 0 = (w', if existsb (Z.eqb 0) (s_foreign s) then -1 else 0, st) /\ n_vars w' = n_vars w
    /\ ninv w' (Owners (s_objs s) (without 0 (s_foreign s)))
    /\ (existsb (Z.eqb 0) (s_foreign s) = false -> w' = w).
Proof.
  intros I N. unfold sock_destroy. destruct (is_open w 0) eqn:O.
  - assert (F : In 0 (s_foreign s)).
    { apply is_open_In, (v_open _ _ I) in O. destruct O as [O|[u O]]; [exact O|exfalso; apply (N u O)]. }
    assert (B : existsb (Z.eqb 0) (s_foreign s) = true) by (apply existsb_exists; exists 0; auto).
    pose proof (foreign_close w s 0 I F) as C. unfold sys_close in *. rewrite O in *. rewrite B. cbn in *.
    do 2 eexists. split; [reflexivity|]. split; [reflexivity|]. split; [exact C|discriminate].
  - assert (F : ~ In 0 (s_foreign s)) by (intros H; apply is_open_not in O; apply O, (v_open _ _ I); auto).
    assert (B : existsb (Z.eqb 0) (s_foreign s) = false).
    { destruct (existsb _ _) eqn:B; auto. apply existsb_exists in B. destruct B as (x & X & Y). apply Z.eqb_eq in Y. subst x. contradiction. }
    unfold sys_close. rewrite O, B. cbn. do 2 eexists. split; [reflexivity|]. split; [reflexivity|]. split; [|reflexivity].
    unfold without. rewrite filter_fresh by exact F. destruct s; exact I.
Qed.

(** What [v] owns has no owner any more. *)
Lemma lose_ok w s v k st : ninv w s -> live_kind (own s v) = Some k ->
  ninv (put_obj w v (Some (Net k 0 st))) (set_own (lose s v) v (NMoved k)).
Proof.
  intros I K. assert (L := live_lt _ _ _ K). unfold lose.
  destruct (own s v) as [|k'|k' fd|k'] eqn:Ow; cbn in K; try discriminate; injection K as ->.
  - apply put_same; auto; try (rewrite Ow); try discriminate. cbn. eauto.
  - set (s1 := set_own {| s_objs := s_objs s; s_foreign := fd :: s_foreign s |} v (NMoved k)).
    assert (O1 : forall u fd', owns s1 u fd' <-> u <> v /\ owns s u fd').
    { intros u fd'. unfold s1, owns. destruct (Nat.eq_dec u v) as [->|N].
      - rewrite own_set_eq by exact L. split; [intros [k' H]; discriminate|intros [H _]; congruence].
      - rewrite own_set_neq by exact N. change (own {| s_objs := s_objs s; s_foreign := fd :: s_foreign s |} u) with (own s u). tauto. }
    assert (Ov : owns s v fd) by (exists k; exact Ow).
    constructor.
    + unfold put_obj, s1, set_own. cbn. rewrite !upd_length. apply (v_len _ _ I).
    + intros u Hu. unfold s1, set_own in Hu. cbn [s_objs] in Hu. rewrite upd_length in Hu.
      unfold put_obj. cbn [n_vars]. destruct (Nat.eq_dec u v) as [->|N].
      * eexists. split; [apply nth_error_upd_eq; rewrite (v_len _ _ I); exact L|].
        unfold s1. rewrite own_set_eq by exact L. cbn. eauto.
      * unfold s1. rewrite own_set_neq by exact N. rewrite nth_error_upd_neq by auto. apply (v_objs _ _ I u Hu).
    + intros fd'. cbn [put_obj n_open]. rewrite (v_open _ _ I fd'). change (s_foreign s1) with (fd :: s_foreign s). cbn [In]. split.
      * intros [H|[u H]]; [auto|]. destruct (Nat.eq_dec u v) as [->|N].
        -- left. left. destruct H as [k' H]. congruence.
        -- right. exists u. apply O1. auto.
      * intros [[<-|H]|[u H]]; [right; eauto|auto|]. apply O1 in H. destruct H. right. eauto.
    + intros a b fd' Ha Hb. apply O1 in Ha, Hb. apply (v_once _ _ I a b fd'); tauto.
    + intros a fd' Ha. apply O1 in Ha. destruct Ha as [Na Ha]. change (s_foreign s1) with (fd :: s_foreign s).
      intros [<-|H]; [apply Na, (v_once _ _ I a v fd); auto|apply (v_apart _ _ I a fd' Ha H)].
    + apply (v_pos _ _ I).
  - apply put_same; auto; try (rewrite Ow); try discriminate. cbn. eauto.
Qed.

Lemma own_lose s v u : own (lose s v) u = own s u.
Proof. unfold lose. destruct (own s v); reflexivity. Qed.

Lemma assign_ok w s v p k : ninv w s -> live_kind (own s v) = Some k -> live_kind (own s p) = Some k ->
  exists w', net_move_assign w v p = Ok w' /\
    ninv w' (set_own (set_own (lose s v) v (own s p)) p (NMoved k)).
Proof.
  intros I Kv Kp. assert (Lv := live_lt _ _ _ Kv).
  assert (Lw : (v < length (n_vars w))%nat) by (rewrite (v_len _ _ I); exact Lv).
  destruct (get_obj_ok w s v k I Kv) as (o & Eo & Ko & _).
  destruct (get_obj_ok w s p k I Kp) as (x & Ex & Kx & _).
  pose proof (lose_ok w s v k 0 I Kv) as I1.
  destruct (Nat.eq_dec v p) as [<-|N].
  - unfold net_move_assign. rewrite Eo. cbn [bind]. eexists. split; [reflexivity|].
    rewrite put_put, set_own_again, Ko. exact I1.
  - assert (L1 : (v < length (s_objs (lose s v)))%nat) by (unfold lose; destruct (own s v); exact Lv).
    assert (Ov : own (set_own (lose s v) v (NMoved k)) v = NMoved k) by (apply own_set_eq; exact L1).
    assert (Op : own (set_own (lose s v) v (NMoved k)) p = own s p) by (rewrite own_set_neq by auto; apply own_lose).
    destruct (move_ok _ _ v p k I1 N) as (w' & E' & I').
    { rewrite Ov. reflexivity. } { rewrite Op. exact Kp. }
    { intros fd [k' H]. rewrite Ov in H. discriminate. }
    unfold net_move_assign in *.
    replace (get_obj (put_obj w v (Some (Net k 0 0))) v) with (Ok (Net k 0 0)) in E'.
    2:{ unfold get_obj, put_obj. cbn [n_vars]. rewrite nth_error_upd_eq by exact Lw. reflexivity. }
    replace (get_obj (put_obj w v (Some (Net k 0 0))) p) with (Ok x) in E'.
    2:{ unfold get_obj, put_obj in *. cbn [n_vars]. rewrite nth_error_upd_neq by auto. auto. }
    cbn [bind o_kind] in E'. rewrite put_put in E'. injection E' as E'.
    rewrite Eo, Ex. cbn [bind]. rewrite Ko, E'. eexists. split; [reflexivity|].
    rewrite Op, set_own_again in I'. exact I'.
Qed.

Lemma nstep_ok w s c : ninv w s -> own_proper s c ->
  exists w' r, nstep w c = Ok (w', r) /\ ninv w' (own_step s c r).
Proof.
  intros I P. destruct c as [v c e|p v fd err|v p|v p|v st|v|v e st|v|fd|fd]; cbn [own_proper nstep own_step] in *.
  - destruct P as (L & G & F). rewrite (place_ok w s v I L G). cbn [bind].
    destruct (net_create_ok w s c e I F) as (st & E). rewrite E.
    destruct (created c e) as [fd|] eqn:C; (eexists; eexists; split; [reflexivity|]); cbn [with_socket].
    + apply open_ok; auto; try (rewrite G); try discriminate. eapply created_free; eauto.
    + apply put_same; auto; try (rewrite G); try discriminate. cbn. eauto.
  - destruct P as (L & G & Kp & Err & F). unfold tcp_accept. rewrite (place_ok w s v I L G). cbn [bind].
    destruct (get_obj_ok w s p OBase I Kp) as (o & Eo & _). rewrite Eo. cbn [bind].
    destruct (Z.ltb_spec (o_status o) 0) as [Lt|Ge].
    { eexists. eexists. split; [reflexivity|]. destruct (Z.leb_spec 0 (o_status o)); [lia|].
      cbn [with_socket]. apply put_same; auto; try (rewrite G); try discriminate. cbn. eauto. }
    unfold FD_INVALID. destruct (Z.eqb_spec fd (-1)) as [->|Nf].
    { eexists. eexists. split; [reflexivity|]. destruct (Z.leb_spec 0 (- err)); [lia|].
      cbn [with_socket]. apply put_same; auto; try (rewrite G); try discriminate. cbn. eauto. }
    destruct F as [F|F]; [contradiction|].
    eexists. eexists. split; [reflexivity|]. cbn [STATUS_SUCCESS Z.leb Z.compare].
    destruct (Z.eqb_spec fd 0) as [->|F0].
    + apply put_same; auto; try discriminate; [apply (foreign_open w s 0 I F)|cbn; eauto|].
      intros k fd. change (own {| s_objs := s_objs s; s_foreign := 0 :: s_foreign s |} v) with (own s v). rewrite G. discriminate.
    + apply open_ok; auto; rewrite G; discriminate.
  - destruct P as (L & G & k & Kp). rewrite (place_ok w s v I L G). cbn [bind].
    assert (N : v <> p) by (intros ->; rewrite G in Kp; discriminate).
    destruct (get_obj_ok w s p k I Kp) as (o & Eo & Ko & Ro). rewrite Eo. cbn [bind]. rewrite Kp.
    set (x := match o_kind o with OBase => net_of_socket (o_fd o) | OClient => Net OClient (-1) 0 end).
    (* while it is being constructed the target is an object that owns nothing *)
    unfold net_move_assign.
    assert (Lv : (v < length (n_vars w))%nat) by (rewrite (v_len _ _ I); exact L).
    assert (Gv : get_obj (put_obj w v (Some x)) v = Ok x).
    { unfold get_obj, put_obj. cbn [n_vars]. rewrite nth_error_upd_eq by exact Lv. reflexivity. }
    assert (Gp : get_obj (put_obj w v (Some x)) p = Ok o).
    { unfold get_obj, put_obj in *. cbn [n_vars]. rewrite nth_error_upd_neq by auto. exact Eo. }
    rewrite Gv. cbn [bind]. rewrite Gp. cbn [bind]. rewrite put_put.
    assert (Kx : o_kind x = k).
    { unfold x. destruct (o_kind o) eqn:E2; [rewrite net_of_socket_ok|]; cbn; congruence. }
    assert (I1 : ninv (put_obj w v (Some (Net k (-1) 0))) (set_own s v (NNone k))).
    { apply put_same; auto; try (rewrite G); try discriminate. cbn. eauto. }
    assert (N1 : own (set_own s v (NNone k)) v = NNone k) by (apply own_set_eq; exact L).
    assert (P1 : own (set_own s v (NNone k)) p = own s p) by (apply own_set_neq; auto).
    destruct (move_ok _ _ v p k I1 N) as (w' & E' & I').
    { rewrite N1. reflexivity. } { rewrite P1. exact Kp. }
    { intros fd [k' H]. rewrite N1 in H. discriminate. }
    unfold net_move_assign in E'.
    replace (get_obj (put_obj w v (Some (Net k (-1) 0))) v) with (Ok (Net k (-1) 0)) in E'.
    2:{ unfold get_obj, put_obj. cbn [n_vars]. rewrite nth_error_upd_eq by exact Lv. reflexivity. }
    replace (get_obj (put_obj w v (Some (Net k (-1) 0))) p) with (Ok o) in E'.
    2:{ unfold get_obj, put_obj in *. cbn [n_vars]. rewrite nth_error_upd_neq by auto. auto. }
    cbn [bind o_kind] in E'. rewrite put_put in E'. injection E' as E'.
    rewrite Kx. rewrite E'. eexists. eexists. split; [reflexivity|].
    rewrite P1, set_own_again in I'. exact I'.
  - destruct P as (k & Kv & Kp).
    destruct (assign_ok w s v p k I Kv Kp) as (w' & E & I'). rewrite E. cbn [bind].
    eexists. eexists. split; [reflexivity|]. rewrite Kp. exact I'.
  - destruct P as (k & K). destruct (get_obj_ok w s v k I K) as (o & Eo & Ko & Ro).
    rewrite Eo. cbn [bind]. eexists. eexists. split; [reflexivity|].
    assert (L := live_lt _ _ _ K).
    rewrite <- (set_own_self s v). apply put_ok; auto.
    + destruct o as [k' f st']. cbn [o_kind o_fd].
      destruct (own s v); cbn in *; try discriminate; firstorder; injection H as -> -> ->; eauto.
    + intros fd. rewrite set_own_self. apply (v_open _ _ I).
    + intros k' fd E. split; [apply (v_apart _ _ I v); exists k'; exact E|].
      intros u Nu Hu. apply Nu. apply (v_once _ _ I u v fd Hu). exists k'. exact E.
  - destruct P as [K M]. destruct (own s v) as [|k|k fd|k] eqn:Ow; cbn in K; try discriminate; injection K as ->.
    + unfold close_zero. rewrite Ow. destruct (get_obj_ok w s v OBase I) as (o & Eo & Ko & Ro); [rewrite Ow; reflexivity|].
      rewrite Ow in Ro. destruct Ro as [st Ro]. injection Ro as ->. unfold tcp_disconnect. rewrite Eo. cbn [bind o_fd o_kind].
      destruct (zero_ok w s I (M eq_refl)) as (w' & st' & E & V & I' & W). rewrite E. eexists. eexists. split; [reflexivity|].
      destruct (existsb (Z.eqb 0) (s_foreign s)).
      2:{ rewrite (W eq_refl). rewrite <- (set_own_self s v), Ow. apply put_same; auto; try (rewrite Ow); try discriminate; [|cbn; eauto].
          apply own_out. rewrite Ow. discriminate. }
      apply put_same; auto; try discriminate.
      * cbn [s_objs]. apply own_out. rewrite Ow. discriminate.
      * cbn. eauto.
      * intros k fd. change (own {| s_objs := s_objs s; s_foreign := without 0 (s_foreign s) |} v) with (own s v). rewrite Ow. discriminate.
    + destruct (disconnect_ok w s v I) as (w' & st & E & I' & _); eauto.
    + destruct (disconnect_ok w s v I) as (w' & st & E & I' & _); eauto.
  - destruct P as (H & F). unfold tcp_reconnect.
    destruct (get_obj_ok w s v OBase I) as (o & Eo & Ko & Ro).
    { destruct H as [->|[fd ->]]; reflexivity. }
    rewrite Eo. cbn [bind].
    assert (L : (v < length (s_objs s))%nat) by (apply own_out; destruct H as [->|[fd ->]]; discriminate).
    assert (D : exists w' , (if o_fd o =? FD_INVALID then Ok (w, 0) else tcp_disconnect w v) = Ok (w', 0) /\
              ninv w' (set_own s v (NNone OBase))).
    { destruct H as [H|[fd H]]; rewrite H in Ro; cbn [obj_rel] in Ro.
      - destruct Ro as [st' Ro]. injection Ro as ->. cbn. exists w. split; [reflexivity|].
        rewrite <- H, set_own_self. exact I.
      - destruct Ro as [[st' Ro] [Pos _]]. injection Ro as ->. cbn [o_fd].
        unfold FD_INVALID. destruct (Z.eqb_spec fd (-1)); [lia|].
        destruct (disconnect_ok w s v I) as (w' & st2 & E & I' & Z0); [eauto|].
        rewrite E. exists w'. split; [|exact I']. repeat f_equal. apply Z0. eauto. }
    destruct D as (w' & E & I'). rewrite E. cbn [bind fst snd Z.ltb Z.compare].
    rewrite create_client_ok. rewrite Ko.
    set (s' := set_own s v (NNone OBase)) in *.
    assert (L' : (v < length (s_objs s'))%nat) by (unfold s', set_own; cbn; rewrite upd_length; exact L).
    assert (O' : own s' v = NNone OBase) by (apply own_set_eq; exact L).
    destruct (Z.eqb_spec (e_socket e) (-1)) as [E1|E1]; (eexists; eexists; split; [reflexivity|]);
      cbn [with_socket].
    + rewrite <- (set_own_again s v (NNone OBase)). fold s'.
      apply put_same; auto; try (rewrite O'); try discriminate. cbn. eauto.
    + destruct F as [F|F]; [contradiction|].
      rewrite <- (set_own_again s v (NNone OBase)). fold s'.
      apply open_ok; auto; try (rewrite O'); discriminate.
  - destruct P as ((k & K) & M). destruct (get_obj_ok w s v k I K) as (o & Eo & Ko & Ro).
    unfold net_destroy, close_zero. rewrite Eo. cbn [bind]. assert (L := live_lt _ _ _ K).
    destruct (own s v) as [|k'|k' fd|k'] eqn:Ow; cbn in K; try discriminate; injection K as ->;
      cbn [obj_rel] in Ro.
    + destruct Ro as [st Ro]. injection Ro as ->. cbn [o_kind o_fd].
      assert (Put : ninv (put_obj w v None) (set_own s v NGone)).
      { apply put_same; auto; try (rewrite Ow); try discriminate. reflexivity. }
      destruct k; [|eauto].
      unfold net_bool. cbn [o_fd FD_INVALID Z.eqb negb orb].
      destruct (zero_ok w s I (M eq_refl)) as (w' & st' & E & V & I' & _). rewrite E. cbn [fst].
      eexists. eexists. split; [reflexivity|]. apply put_same; auto; try discriminate; [reflexivity|].
      intros k fd. change (own {| s_objs := s_objs s; s_foreign := without 0 (s_foreign s) |} v) with (own s v). rewrite Ow. discriminate.
    + destruct Ro as [[st Ro] [Pos NC]]. injection Ro as ->. cbn [o_kind o_fd].
      destruct (close_ok w s v k fd NGone None I Ow eq_refl) as (w' & E & EV & I'); [discriminate|].
      rewrite E. cbn [fst]. destruct k.
      * unfold net_bool, FD_INVALID. cbn [o_fd]. destruct (Z.eqb_spec (-1) fd); [lia|]. cbn [negb orb]. eauto.
      * unfold FD_INITIALIZER. destruct (Z.eqb_spec fd 0); [exfalso; apply NC; auto|]. eauto.
    + destruct Ro as [st Ro]. injection Ro as ->. cbn [o_kind o_fd]. rewrite (close_none w s I).
      assert (Put : ninv (put_obj w v None) (set_own s v NGone)).
      { apply put_same; auto; try (rewrite Ow); try discriminate. reflexivity. }
      cbn [fst FD_INITIALIZER Z.eqb]. destruct k; [destruct (negb _)|]; eauto.
  - eexists. eexists. split; [reflexivity|]. apply foreign_open; auto.
  - eexists. eexists. split; [reflexivity|]. apply foreign_close; auto.
Qed.

Definition own_proper_from (w : nworld) (s : owners) (h : list ncall) : Prop :=
  forall h1 c h2 w' rs, h = h1 ++ c :: h2 -> nrun w h1 = Ok (w', rs) -> own_proper (own_run s h1 rs) c.

Lemma nrun_ok : forall h w s, ninv w s -> own_proper_from w s h ->
  exists w' rs, nrun w h = Ok (w', rs) /\ ninv w' (own_run s h rs).
Proof.
  induction h as [|c h IH]; intros w s I P.
  - exists w, []. split; [reflexivity|exact I].
  - assert (Pc : own_proper s c) by (apply (P [] c h w []); reflexivity).
    destruct (nstep_ok w s c I Pc) as (w1 & r & E & I1).
    destruct (IH w1 (own_step s c r) I1) as (w2 & rs & R & I2).
    { intros h1 c1 h2 w' rs Eh R. apply (P (c :: h1) c1 h2 w' (r :: rs)); [rewrite Eh; reflexivity|].
      cbn [nrun]. rewrite E. cbn [bind fst snd]. rewrite R. reflexivity. }
    exists w2, (r :: rs). cbn [nrun]. rewrite E. cbn [bind fst snd]. rewrite R.
    split; [reflexivity|exact I2].
Qed.

Lemma n_start_inv n fds : (forall fd, In fd fds -> 0 <= fd) -> ninv (n_start n fds) (own_start n fds).
Proof.
  intros P.
  assert (G : forall v, own (own_start n fds) v = NGone).
  { intros v. unfold own, own_start. cbn [s_objs]. destruct (Nat.lt_ge_cases v n).
    - apply (nth_error_nth _ _ NGone). rewrite nth_error_repeat_lt. apply Nat.ltb_lt in H. rewrite H. reflexivity.
    - apply nth_overflow. rewrite repeat_length. exact H. }
  constructor; cbn [n_start own_start n_vars n_open s_objs s_foreign].
  - rewrite !repeat_length. reflexivity.
  - intros v L. rewrite repeat_length in L. exists None. split; [rewrite nth_error_repeat_lt; apply Nat.ltb_lt in L; rewrite L; reflexivity|].
    fold (own_start n fds). rewrite G. reflexivity.
  - intros fd. split; [auto|]. intros [H|[v [k H]]]; [exact H|].
    fold (own_start n fds) in H. rewrite G in H. discriminate.
  - intros v u fd [k H]. fold (own_start n fds) in H. rewrite G in H. discriminate.
  - intros v fd [k H]. fold (own_start n fds) in H. rewrite G in H. discriminate.
  - exact P.
Qed.
