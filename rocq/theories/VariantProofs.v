(** Proofs about Variant. *)
From Coq Require Import List Arith ZArith Lia Bool.
From Verif Require Import Base BaseLemmas VariantModel VariantSpec PointersProofs.
Import ListNotations.

Lemma countb_upd {B} (f : B -> bool) l p c c' :
  nth_error l p = Some c ->
  length (filter f (upd l p c')) + (if f c then 1 else 0) =
  length (filter f l) + (if f c' then 1 else 0).
Proof.
  revert p; induction l as [|h t IH]; intros [|p] H; cbn in *; try discriminate.
  - injection H as ->. destruct (f c), (f c'); cbn; lia.
  - specialize (IH _ H). destruct (f h); cbn; lia.
Qed.

Section Proofs.
  Context {V : Type}.
  Variable mv : V -> V.

  Lemma dec_ok i : (ssize_min < i)%Z -> dec i = Ok (i - 1)%Z.
  Proof. intros. unfold dec. destruct (Z.eqb_spec i ssize_min); [lia|reflexivity]. Qed.

  Lemma index_of_range us t :
    index_of us t = (-1)%Z \/ (0 <= index_of us t < Z.of_nat (length us))%Z.
  Proof.
    induction us as [|a r IH]; cbn [index_of length]; [left; reflexivity|].
    destruct (a =? t); [right; lia|].
    destruct (Z.ltb_spec (index_of r t) 0); lia.
  Qed.

  Lemma index_of_in us t : (0 <= index_of us t)%Z <-> In t us.
  Proof.
    induction us as [|a r IH]; cbn [index_of In]; [lia|].
    destruct (Nat.eqb_spec a t) as [->|N]; [split; [left; auto|lia]|].
    destruct (Z.ltb_spec (index_of r t) 0).
    - split; [lia|]. intros [E|I]; [congruence|]. apply IH in I. lia.
    - split; [intros _; right; apply IH; auto|lia].
  Qed.

  Lemma vs_set_eq us t (x : V) :
    vs_set us t x = (index_of us t, if in_dec Nat.eq_dec t us then Some (t, x) else None).
  Proof.
    destruct (in_dec Nat.eq_dec t us) as [I|I].
    - revert I. induction us as [|a r IH]; cbn [vs_set index_of In]; [tauto|].
      destruct (Nat.eqb_spec a t) as [->|N]; auto.
      intros [E|I]; [congruence|]. rewrite (IH I). apply index_of_in in I.
      destruct (Z.ltb_spec (index_of r t) 0); [lia|]. f_equal. lia.
    - revert I. induction us as [|a r IH]; cbn [vs_set index_of In]; auto.
      intros I. destruct (Nat.eqb_spec a t) as [->|N]; [tauto|].
      rewrite IH by tauto. destruct (index_of_range r t) as [->|B]; auto.
      exfalso. apply I. right. apply index_of_in. lia.
  Qed.

  Lemma vs_assign_at us t x m :
    (0 <= index_of us t)%Z ->
    vs_assign mv us (index_of us t) (Some (t, x)) m =
      Ok (Some (t, x), Some (t, if m then mv x else x)).
  Proof.
    induction us as [|a r IH]; cbn [index_of vs_assign]; [lia|].
    destruct (Nat.eqb_spec a t) as [->|N].
    - intros _. cbn. rewrite Nat.eqb_refl. cbn. destruct m; reflexivity.
    - destruct (Z.ltb_spec (index_of r t) 0); [lia|]. intros _.
      destruct (Z.eqb_spec (1 + index_of r t) 0); [lia|].
      rewrite dec_ok by (unfold ssize_min; lia). cbn [bind].
      replace (1 + index_of r t - 1)%Z with (index_of r t) by lia. apply IH; lia.
  Qed.

  Lemma vs_assign_neg us i src m :
    (i < 0)%Z -> (ssize_min <= i - Z.of_nat (length us))%Z ->
    vs_assign mv us i src m = Ok (None, src).
  Proof.
    revert i; induction us as [|a r IH]; intros i H B; cbn [vs_assign length] in *; auto.
    destruct (Z.eqb_spec i 0); [lia|]. rewrite dec_ok by lia. cbn [bind]. apply IH; lia.
  Qed.

  Lemma vs_reset_at us t (x : V) :
    (0 <= index_of us t)%Z -> vs_reset us (index_of us t) (Some (t, x)) = Ok None.
  Proof.
    induction us as [|a r IH]; cbn [index_of vs_reset]; [lia|].
    destruct (Nat.eqb_spec a t) as [->|N].
    - intros _. cbn. rewrite Nat.eqb_refl. reflexivity.
    - destruct (Z.ltb_spec (index_of r t) 0); [lia|]. intros _.
      destruct (Z.eqb_spec (1 + index_of r t) 0); [lia|].
      rewrite dec_ok by (unfold ssize_min; lia). cbn [bind].
      replace (1 + index_of r t - 1)%Z with (index_of r t) by lia. apply IH; lia.
  Qed.

  Lemma vs_equal_at eqv us t (x y : V) :
    (0 <= index_of us t)%Z ->
    vs_equal eqv us (index_of us t) (Some (t, x)) (Some (t, y)) = Ok (eqv t x y).
  Proof.
    induction us as [|a r IH]; cbn [index_of vs_equal]; [lia|].
    destruct (Nat.eqb_spec a t) as [->|N].
    - intros _. cbn. rewrite Nat.eqb_refl. reflexivity.
    - destruct (Z.ltb_spec (index_of r t) 0); [lia|]. intros _.
      destruct (Z.eqb_spec (1 + index_of r t) 0); [lia|].
      rewrite dec_ok by (unfold ssize_min; lia). cbn [bind].
      replace (1 + index_of r t - 1)%Z with (index_of r t) by lia. apply IH; lia.
  Qed.

  Lemma vs_get_in us t : vs_get us t = true <-> In t us.
  Proof.
    induction us as [|a r IH]; cbn [vs_get In]; [intuition discriminate|].
    destruct (Nat.eqb_spec a t) as [->|N]; [tauto|]. rewrite IH. tauto.
  Qed.

  Lemma index_of_inj us t u :
    (0 <= index_of us t)%Z -> index_of us t = index_of us u -> t = u.
  Proof.
    induction us as [|a r IH]; cbn [index_of]; [lia|].
    destruct (Nat.eqb_spec a t) as [->|N].
    - destruct (Nat.eqb_spec t u) as [->|M]; auto.
      destruct (Z.ltb_spec (index_of r u) 0); lia.
    - destruct (Nat.eqb_spec a u) as [->|N'].
      + destruct (Z.ltb_spec (index_of r t) 0); lia.
      + destruct (Z.ltb_spec (index_of r t) 0), (Z.ltb_spec (index_of r u) 0); try lia.
  Qed.

  Variable ts : list nat.
  Hypothesis small : (Z.of_nat (length ts) < 2 ^ 63)%Z.

  (** ** Well-formed variants *)
  Definition mk (c : option (nat * V)) : variant V :=
    VR (match c with Some (t, _) => index_of ts t | None => (-1)%Z end) c.
  Definition wfc (c : option (nat * V)) : Prop :=
    match c with Some (t, _) => In t ts | None => True end.
  Definition cset (c : option (option (nat * V))) : bool :=
    match c with Some (Some _) => true | _ => false end.

  (** The world described by the contents of its variables. *)
  Definition v_inv (w : world V) (s : vvars V) : Prop :=
    w_vars w = map (option_map mk) s /\
    (forall p c, nth_error s p = Some (Some c) -> wfc c) /\
    w_made w = w_gone w + length (filter cset s).

  Lemma is_set_mk c : wfc c -> v_is_set (mk c) = match c with Some _ => true | None => false end.
  Proof.
    destruct c as [[t x]|]; cbn; auto. intros I. unfold v_is_set. cbn.
    apply index_of_in in I. apply Z.leb_le; auto.
  Qed.

  Lemma var_at w s p c : v_inv w s -> nth_error s p = Some (Some c) -> var w p = Ok (mk c).
  Proof.
    intros (Hv & _) H. unfold var. rewrite Hv, nth_error_map, H. reflexivity.
  Qed.
  Lemma fresh_at w s p : v_inv w s -> nth_error s p = Some None -> fresh w p = Ok tt.
  Proof. intros (Hv & _) H. unfold fresh. rewrite Hv, nth_error_map, H. reflexivity. Qed.

  (** What one variable holds changes; the counters follow. *)
  Lemma v_inv_upd w s p c c' m g :
    v_inv w s -> nth_error s p = Some c ->
    (forall d, c' = Some d -> wfc d) ->
    m + (if cset c then 1 else 0) + w_gone w = w_made w + g + (if cset c' then 1 else 0) ->
    v_inv (World (upd (w_vars w) p (option_map mk c')) m g) (upd s p c').
  Proof.
    intros (Hv & Hw & Hc) Hp Hc' Hm. split; [|split]; cbn [w_vars w_made w_gone].
    - rewrite Hv. symmetry. apply map_upd.
    - intros q d. rewrite nth_error_updx. destruct (p =? q).
      + destruct (_ <? _); [|discriminate]. intros [= ->]. auto.
      + apply Hw.
    - assert (C := countb_upd cset s p c c' Hp). lia.
  Qed.

  Lemma upd_self {B} (l : list B) i x : nth_error l i = Some x -> upd l i x = l.
  Proof.
    revert i; induction l; intros [|i] H; cbn in *; try discriminate.
    - injection H as ->; auto.
    - f_equal; auto.
  Qed.

  Lemma v_reset_ok w s p c :
    v_inv w s -> nth_error s p = Some (Some c) ->
    exists w', v_reset ts w p = Ok w' /\ v_inv w' (upd s p (Some None)).
  Proof.
    intros H Hp. assert (Hw := proj1 (proj2 H) _ _ Hp).
    unfold v_reset. rewrite (var_at _ _ _ _ H Hp). cbn [bind].
    rewrite is_set_mk by auto. destruct c as [[t x]|].
    - cbn [mk v_index v_cell]. rewrite vs_reset_at by (apply index_of_in; exact Hw).
      cbn [bind]. eexists. split; [reflexivity|].
      apply (v_inv_upd w s p (Some (Some (t, x))) (Some None)); auto.
      + intros d [= <-]. exact I.
      + cbn. lia.
    - eexists. split; [reflexivity|]. rewrite upd_self; auto.
  Qed.

  Lemma assign_mk c m :
    wfc c ->
    vs_assign mv ts (v_index (mk c)) (v_cell (mk c)) m =
      Ok (c, if m then moved mv c else c).
  Proof.
    intros I. destruct c as [[t x]|]; cbn [mk v_index v_cell].
    - rewrite vs_assign_at by (apply index_of_in; exact I). destruct m; reflexivity.
    - rewrite vs_assign_neg; [destruct m; reflexivity|lia|unfold ssize_min; lia].
  Qed.

  Lemma store_ok w s p d c :
    v_inv w s -> nth_error s p = Some d -> (d = None \/ d = Some None) -> wfc c ->
    v_inv (store w p (v_index (mk c)) None c) (upd s p (Some c)).
  Proof.
    intros H Hp Hd I. destruct c as [[t x]|]; cbn [store].
    - apply (v_inv_upd w s p d (Some (Some (t, x)))); auto.
      + intros e [= <-]. exact I.
      + destruct Hd; subst; cbn; lia.
    - apply (v_inv_upd w s p d (Some None)); auto.
      + intros e [= <-]. exact I.
      + destruct Hd; subst; cbn; lia.
  Qed.

  Lemma put_source_ok w s q c :
    v_inv w s -> nth_error s q = Some (Some c) ->
    v_inv (put_source w q (mk c) (moved mv c)) (upd s q (Some (moved mv c))).
  Proof.
    intros H Hq. assert (Hw := proj1 (proj2 H) _ _ Hq).
    unfold put_source, put.
    assert (E : VR (v_index (mk c)) (moved mv c) = mk (moved mv c)).
    { destruct c as [[t x]|]; reflexivity. }
    rewrite E. apply (v_inv_upd w s q (Some c) (Some (moved mv c))); auto.
    - intros d [= <-]. destruct c as [[t x]|]; exact Hw.
    - destruct c as [[t x]|]; cbn; lia.
  Qed.

  Lemma set_stored t (x : V) :
    vs_set ts t x = (v_index (mk (stored ts t x)), stored ts t x).
  Proof.
    rewrite vs_set_eq. unfold stored. destruct (in_dec Nat.eq_dec t ts) as [I|I]; cbn; auto.
    destruct (index_of_range ts t) as [->|B]; auto. exfalso. apply I, index_of_in. lia.
  Qed.
  Lemma wfc_stored t (x : V) : wfc (stored ts t x).
  Proof. unfold stored. destruct (in_dec Nat.eq_dec t ts); cbn; auto. Qed.

  (** What the code really does (differs from the specification in the calls that are not
      covered). *)
  Definition act (s : vvars V) (o : v_op V) : vvars V :=
    match o with
    | VCopyNamed p q =>
        upd (upd s p (Some (content s q))) q (Some (moved mv (content s q)))
    | VAssign p q =>
        match content s q with Some _ => v_spec mv ts s o | None => s end
    | VMoveAssign p q =>
        match content s q with Some _ => v_spec mv ts s o | None => s end
    | _ => v_spec mv ts s o
    end.

  Definition doc (s : vvars V) (o : v_op V) : Prop :=
    match o with
    | VDefault p | VFrom p _ _ => no_var s p
    | VCopy p q | VMove p q => no_var s p /\ is_var s q
    | VCopyNamed p q => no_var s p /\ exists t x, holds_in s q (Some (t, x))
    | VAssign p q | VMoveAssign p q => is_var s p /\ is_var s q
    | VSet p _ _ | VReset p | VDestroy p => is_var s p
    end.

  Lemma v_step_act w s o :
    v_inv w s -> doc s o -> exists w', v_step mv ts w o = Ok w' /\ v_inv w' (act s o).
  Proof.
    intros H D.
    destruct o as [p|p t x|p q|p q|p q|p q|p q|p t x|p|p];
      cbn [doc act v_spec v_step] in *; unfold no_var, is_var, holds_in in *.
    - unfold v_default. rewrite (fresh_at _ _ _ H D). cbn [bind].
      eexists. split; [reflexivity|].
      apply (store_ok w s p None None); cbn; auto.
    - unfold v_from. rewrite (fresh_at _ _ _ H D). cbn [bind]. rewrite set_stored.
      eexists. split; [reflexivity|]. eapply store_ok; eauto. apply wfc_stored.
    - destruct D as (Dp & c & Dq). assert (Hw := proj1 (proj2 H) _ _ Dq).
      unfold v_copy. rewrite (fresh_at _ _ _ H Dp), (var_at _ _ _ _ H Dq). cbn [bind].
      rewrite assign_mk by auto. cbn [bind fst snd].
      unfold content. rewrite Dq. eexists. split; [reflexivity|]. eapply store_ok; eauto.
    - destruct D as (Dp & c & Dq). assert (Hw := proj1 (proj2 H) _ _ Dq).
      unfold v_move. rewrite (fresh_at _ _ _ H Dp), (var_at _ _ _ _ H Dq). cbn [bind].
      rewrite assign_mk by auto. cbn [bind fst snd].
      unfold content. rewrite Dq. eexists. split; [reflexivity|].
      apply put_source_ok; [eapply store_ok; eauto|].
      rewrite nth_error_upd_neq; auto. congruence.
    - destruct D as (Dp & t & x & Dq). assert (Hw := proj1 (proj2 H) _ _ Dq).
      unfold v_copy_named. rewrite (fresh_at _ _ _ H Dp), (var_at _ _ _ _ H Dq). cbn [bind].
      change (0 <=? v_index (mk (Some (t, x))))%Z with (v_is_set (mk (Some (t, x)))).
      rewrite is_set_mk by auto.
      rewrite assign_mk by auto. cbn [bind fst snd].
      unfold content. rewrite Dq. eexists. split; [reflexivity|].
      apply put_source_ok; [eapply store_ok; eauto|].
      rewrite nth_error_upd_neq; auto. congruence.
    - destruct D as ((c & Dp) & d & Dq). assert (Hw := proj1 (proj2 H) _ _ Dq).
      unfold v_assign. rewrite (var_at _ _ _ _ H Dp), (var_at _ _ _ _ H Dq). cbn [bind].
      rewrite is_set_mk by auto. unfold content. rewrite Dq.
      destruct d as [[t x]|]; [|rewrite andb_false_r; eauto].
      destruct (Nat.eqb_spec p q) as [<-|N]; cbn [negb andb].
      + rewrite upd_self; eauto.
      + destruct (v_reset_ok _ _ _ _ H Dp) as (w1 & E & H1). rewrite E. cbn [bind].
        assert (P1 : nth_error (upd s p (Some None)) p = Some (Some None)).
        { apply nth_error_upd_eq. apply nth_error_Some. congruence. }
        rewrite (var_at _ _ _ _ H1 P1). cbn [bind].
        rewrite assign_mk by auto. cbn [bind fst]. eexists. split; [reflexivity|].
        rewrite <- (upd_upd_eq s p (Some None) (Some (Some (t, x)))).
        eapply store_ok; eauto.
    - destruct D as ((c & Dp) & d & Dq). assert (Hw := proj1 (proj2 H) _ _ Dq).
      unfold v_move_assign. rewrite (var_at _ _ _ _ H Dp), (var_at _ _ _ _ H Dq). cbn [bind].
      rewrite is_set_mk by auto. unfold content. rewrite Dq.
      destruct d as [[t x]|]; [|rewrite andb_false_r; eauto].
      destruct (Nat.eqb_spec p q) as [<-|N]; cbn [negb andb].
      + eauto.
      + destruct (v_reset_ok _ _ _ _ H Dp) as (w1 & E & H1). rewrite E. cbn [bind].
        assert (P1 : nth_error (upd s p (Some None)) p = Some (Some None)).
        { apply nth_error_upd_eq. apply nth_error_Some. congruence. }
        rewrite (var_at _ _ _ _ H1 P1). cbn [bind].
        rewrite assign_mk by auto. cbn [bind fst snd]. eexists. split; [reflexivity|].
        rewrite <- (upd_upd_eq s p (Some None) (Some (Some (t, x)))).
        apply put_source_ok; [eapply store_ok; eauto|].
        rewrite !nth_error_upd_neq; auto.
    - destruct D as (c & Dp). unfold v_set.
      destruct (v_reset_ok _ _ _ _ H Dp) as (w1 & E & H1). rewrite E. cbn [bind].
      assert (P1 : nth_error (upd s p (Some None)) p = Some (Some None)).
      { apply nth_error_upd_eq. apply nth_error_Some. congruence. }
      rewrite (var_at _ _ _ _ H1 P1). cbn [bind]. rewrite set_stored.
      eexists. split; [reflexivity|].
      rewrite <- (upd_upd_eq s p (Some None) (Some (stored ts t x))).
      eapply store_ok; eauto. apply wfc_stored.
    - destruct D as (c & Dp). eapply v_reset_ok; eauto.
    - destruct D as (c & Dp). unfold v_destroy.
      destruct (v_reset_ok _ _ _ _ H Dp) as (w1 & E & H1). rewrite E. cbn [bind].
      eexists. split; [reflexivity|].
      rewrite <- (upd_upd_eq s p (Some None) None).
      apply (v_inv_upd w1 _ p (Some None) None); auto.
      + apply nth_error_upd_eq. apply nth_error_Some. congruence.
      + discriminate.
      + cbn. lia.
  Qed.

  Lemma covered_doc s o : v_covered mv s o -> doc s o /\ act s o = v_spec mv ts s o.
  Proof.
    destruct o as [p|p t x|p q|p q|p q|p q|p q|p t x|p|p]; cbn [v_covered doc act]; auto.
    - intros (Dp & t & x & Dq & E). split; [split; eauto|].
      cbn [v_spec]. unfold content. unfold holds_in in Dq. rewrite Dq. cbn [moved]. rewrite E.
      apply upd_self. rewrite nth_error_upd_neq; auto. unfold no_var in Dp. congruence.
    - intros ((c & Dp) & (d & Dq) & G). split; [split; eexists; eauto|].
      unfold holds_in in *. cbn [v_spec].
      destruct (content s q) as [[t x]|] eqn:Ec; auto.
      destruct G as [<-|[G|G]]; [|congruence|].
      + unfold content in Ec. rewrite Dp in Ec. subst c. symmetry. apply upd_self; auto.
      + unfold content in G. rewrite Dp in G. subst c. symmetry. apply upd_self; auto.
    - intros ((c & Dp) & (d & Dq) & G). split; [split; eexists; eauto|].
      unfold holds_in in *. cbn [v_spec].
      destruct (content s q) as [[t x]|] eqn:Ec; auto. cbn [moved].
      destruct (Nat.eqb_spec p q) as [<-|N]; auto.
      assert (d = None) by (unfold content in Ec; rewrite Dq in Ec; auto). subst d.
      destruct G as [->|[G|G]]; [congruence|congruence|].
      unfold content in G. rewrite Dp in G. subst c. symmetry.
      rewrite (upd_self s p) by auto. apply upd_self; auto.
  Qed.

  Lemma v_run_ok os : forall w s,
    v_inv w s -> v_ok mv ts s os ->
    exists w', v_run mv ts w os = Ok w' /\ v_inv w' (v_result mv ts s os).
  Proof.
    induction os as [|o os IH]; intros w s H D; cbn in *; eauto.
    destruct D as [D1 D2]. apply covered_doc in D1. destruct D1 as [D1 E1].
    destruct (v_step_act _ _ _ H D1) as (w1 & E & H1). rewrite E1 in H1.
    rewrite E. cbn [bind]. eauto.
  Qed.

  Lemma v_start_inv n : v_inv (@v_start V n) (repeat None n).
  Proof.
    split; [|split]; cbn.
    - induction n; cbn; f_equal; auto.
    - intros p c E. apply nth_error_repeat' in E. discriminate.
    - induction n; cbn; auto.
  Qed.

  Lemma fresh_inv w s p : v_inv w s -> fresh w p = Ok tt -> no_var s p.
  Proof.
    intros (Hv & _) H. unfold fresh in H. rewrite Hv, nth_error_map in H. unfold no_var.
    destruct (nth_error s p) as [[c|]|]; cbn in H; try discriminate. reflexivity.
  Qed.
  Lemma var_inv w s p v : v_inv w s -> var w p = Ok v -> exists c, holds_in s p c /\ v = mk c.
  Proof.
    intros (Hv & _) H. unfold var in H. rewrite Hv, nth_error_map in H. unfold holds_in.
    destruct (nth_error s p) as [[c|]|]; cbn in H; try discriminate.
    injection H as <-. eauto.
  Qed.

  Lemma valid_doc w s o : v_inv w s -> v_valid w o -> doc s o.
  Proof.
    intros H. assert (L : forall p, lives w p -> is_var s p).
    { intros p (v & Hv). destruct (var_inv _ _ _ _ H Hv) as (c & Hc & _). exists c; auto. }
    destruct o as [p|p t x|p q|p q|p q|p q|p q|p t x|p|p]; cbn [v_valid doc];
      try (intros D; eauto using fresh_inv; fail);
      try (intros (D1 & D2); split; eauto using fresh_inv; fail).
    intros (D & v & Dq & S). split; [eauto using fresh_inv|].
    destruct (var_inv _ _ _ _ H Dq) as (c & Hc & ->).
    assert (Hw := proj1 (proj2 H) _ _ Hc). rewrite is_set_mk in S by auto.
    destruct c as [[t x]|]; [eauto|discriminate].
  Qed.

  Lemma set_count_eq w s : v_inv w s -> set_count w = length (filter cset s).
  Proof.
    intros (Hv & Hw & _). unfold set_count. rewrite Hv. clear Hv.
    induction s as [|c s IH]; cbn [map filter]; auto.
    assert (IH' := IH (fun p d => Hw (S p) d)). destruct c as [c|]; cbn [option_map cset]; auto.
    rewrite is_set_mk by (apply (Hw 0 c); reflexivity).
    destruct c; cbn [length]; auto.
  Qed.

  Lemma v_valid_run_ok os : forall w s,
    v_inv w s -> v_valid_run mv ts w os ->
    exists w', v_run mv ts w os = Ok w' /\ w_made w' = w_gone w' + set_count w'.
  Proof.
    induction os as [|o os IH]; intros w s H D; cbn in *.
    - exists w. split; auto. rewrite (set_count_eq _ _ H). apply H.
    - destruct D as [D1 D2].
      destruct (v_step_act _ _ _ H (valid_doc _ _ _ H D1)) as (w1 & E & H1).
      rewrite E. cbn [bind]. eauto.
  Qed.
End Proofs.
