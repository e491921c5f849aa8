(** C30, C31: theorems about Optional. *)
From Coq Require Import List Arith Lia Bool.
From Verif Require Import Base BaseLemmas OptionalModel OptionalSpec PointersProofs VariantProofs
  OptionalProofs.
Import ListNotations.

(** * C30: state after a history *)

(** Any number of optionals and any covered history (OptionalSpec.v). Missing: assigning an
    empty optional to a filled one, init(), and moving an optional onto itself. *)
Theorem C30_optional_partial :
  forall (V : Type) (mv : V -> V) (dflt : V) (n : nat) (os : list (o_op V)),
  o_ok mv dflt (repeat None n) os ->
  exists w, o_run mv dflt (o_start n) os = Ok w /\
  forall p c, o_holds (o_result mv dflt (repeat None n) os) p c ->
  exists v, ovar w p = Ok v /\
    match c with
    | None => o_fill v = false
    | Some x => o_fill v = true /\ o_get w p = Ok x
    end.
Proof.
  intros V mv dflt n os D.
  destruct (o_run_ok mv dflt os _ _ (o_start_inv n) D) as (w & E & H).
  exists w. split; [exact E|]. intros p c Hp.
  exists (mko c). assert (Hv := ovar_at _ _ _ _ H Hp). split; [exact Hv|].
  destruct c as [x|]; [|reflexivity]. split; [reflexivity|].
  unfold o_get. rewrite Hv. reflexivity.
Qed.

Example C30_case :
  let os := [ODefault 0; OSet 0 10; OCopy 1 0; OFrom 2 20; OAssign 1 2; OMove 3 2; OUnset 0;
             OAssign 0 1; OMoveAssign 3 0; ODestroy 1] in
  o_ok (fun _ => 0) 7 (repeat None 4) os /\
  o_result (fun _ => 0) 7 (repeat None 4) os =
    [Some (Some 0); None; Some (Some 0); Some (Some 20)].
Proof.
  split; [|reflexivity]. cbn. unfold o_none, o_exists, o_holds, o_content; cbn.
  repeat (split; [repeat split; try reflexivity; try (eexists; reflexivity);
                  try (right; left; discriminate); try (left; discriminate); auto|]).
  exact I.
Qed.

(** Assigning an empty optional to a filled one does nothing: the old value stays. *)
Theorem C30_assign_empty_refuted :
  forall (V : Type) (mv : V -> V) (w : oworld V) p q u v m,
  ovar w p = Ok u -> o_fill u = true -> ovar w q = Ok v -> o_fill v = false ->
  o_assign mv m w p q = Ok w.
Proof.
  intros V mv w p q u v m Hp Fu Hq Fv. unfold o_assign. rewrite Hp, Hq. cbn [bind].
  rewrite Fv. reflexivity.
Qed.

Example C30_assign_empty_case :
  exists w u v, o_run (fun x => x) 0 (o_start 2) [OFrom 0 10; ODefault 1] = Ok w /\
    ovar w 0 = Ok u /\ o_fill u = true /\ ovar w 1 = Ok v /\ o_fill v = false.
Proof. do 3 eexists. split; [vm_compute; reflexivity|]. repeat split. Qed.

(** After init() the optional still says that it is empty. *)
Theorem C30_init_refuted :
  forall (V : Type) (dflt : V) (w : oworld V) p v,
  ovar w p = Ok v -> o_fill v = false ->
  exists w' v', o_init dflt w p = Ok w' /\ ovar w' p = Ok v' /\ o_fill v' = false.
Proof.
  intros V dflt w p v Hp F. unfold o_init. rewrite Hp. cbn [bind].
  do 2 eexists. split; [reflexivity|]. unfold ovar, o_construct in *. cbn [ow_vars].
  rewrite nth_error_upd_eq.
  - split; [reflexivity|]. exact F.
  - apply nth_error_Some. destruct (nth_error (ow_vars w) p); congruence.
Qed.

Example C30_init_case :
  exists w v, o_run (fun x => x) 0 (o_start 1) [ODefault 0] = Ok w /\
    ovar w 0 = Ok v /\ o_fill v = false.
Proof. do 2 eexists. split; [vm_compute; reflexivity|]. repeat split. Qed.

(** * C31: lifetimes *)

(** Every program without init() (and without moving an optional onto itself), also those
    not covered above: nothing is undefined, and the values constructed and not destroyed
    are exactly those in filled optionals. *)
Theorem C31_lifetimes_partial :
  forall (V : Type) (mv : V -> V) (dflt : V) (n : nat) (os : list (o_op V)),
  o_valid_run mv dflt (o_start n) os ->
  exists w, o_run mv dflt (o_start n) os = Ok w /\ ow_made w = ow_gone w + filled w.
Proof.
  intros V mv dflt n os D.
  destruct (o_valid_run_inv mv dflt os _ _ (o_start_inv n) D) as (w & s & E & H).
  exists w. split; [exact E|]. rewrite (filled_eq _ _ H). apply H.
Qed.

Example C31_case :
  let os := [ODefault 0; OSet 0 10; ODefault 1; OAssign 0 1; OSet 1 5; OMoveAssign 0 1;
             ODestroy 1] in
  o_valid_run (fun _ => 0) 7 (o_start 3) os.
Proof.
  unfold o_lives; cbn. repeat (split; [repeat split; eauto; try (eexists; reflexivity)|
    intros ? [= <-]; cbn]). exact I.
Qed.

(** A value constructed by init() in an empty optional is never destroyed, whether the
    optional is then unset, destroyed, or set: after any program without init(), one object
    more is made than is gone or held. *)
Theorem C31_init_refuted :
  forall (V : Type) (mv : V -> V) (dflt : V) (n : nat) (os : list (o_op V)) w p v x,
  o_valid_run mv dflt (o_start n) os -> o_run mv dflt (o_start n) os = Ok w ->
  ovar w p = Ok v -> o_fill v = false ->
  (exists w', o_run mv dflt w [OInit p; ODestroy p] = Ok w' /\
              ow_made w' = S (ow_gone w' + filled w')) /\
  (exists w', o_run mv dflt w [OInit p; OSet p x; ODestroy p] = Ok w' /\
              ow_made w' = S (ow_gone w' + filled w')).
Proof.
  intros V mv dflt n os w p v x D E Hv F.
  destruct (o_valid_run_inv mv dflt os _ _ (o_start_inv n) D) as (w0 & s & E0 & H).
  rewrite E in E0. injection E0 as <-.
  destruct (ovar_inv _ _ _ _ H Hv) as (c & Hc & ->).
  destruct c as [y|]; [discriminate|]. unfold o_holds in Hc.
  assert (Hlen : p < length (ow_vars w)).
  { apply nth_error_Some. unfold ovar in Hv. destruct (nth_error (ow_vars w) p); congruence. }
  assert (HD : o_inv (OW (upd (ow_vars w) p None) (ow_made w) (ow_gone w)) (upd s p None)).
  { apply (o_inv_upd w s p (Some None) None); auto. cbn. lia. }
  assert (HF := filled_eq _ _ HD). assert (HM := proj2 HD). cbn [ow_made ow_gone] in HM.
  unfold filled in HF. cbn [ow_vars] in HF.
  split.
  - cbn [o_run o_step]. unfold o_init. rewrite Hv. cbn [bind]. cbn [mko o_fill].
    unfold o_destroy, o_unset, ovar, o_construct. cbn [ow_vars].
    rewrite nth_error_upd_eq by auto. cbn [bind o_fill].
    eexists. split; [reflexivity|]. unfold filled, oput. cbn [ow_vars ow_made ow_gone].
    rewrite upd_upd_eq, HF. lia.
  - cbn [o_run o_step]. unfold o_init. rewrite Hv. cbn [bind]. cbn [mko o_fill].
    unfold o_set, o_destroy, o_unset, ovar, o_construct. cbn [ow_vars].
    rewrite nth_error_upd_eq by auto. cbn [bind o_fill ow_vars].
    rewrite nth_error_upd_eq by (rewrite upd_length; auto). cbn [bind o_fill o_object o_cell].
    eexists. split; [reflexivity|]. unfold filled, oput. cbn [ow_vars ow_made ow_gone].
    rewrite !upd_upd_eq, HF. lia.
Qed.

Example C31_init_case :
  exists w v, o_valid_run (fun x => x) 0 (o_start 1) [ODefault 0] /\
    o_run (fun x => x) 0 (o_start 1) [ODefault 0] = Ok w /\
    ovar w 0 = Ok v /\ o_fill v = false.
Proof.
  do 2 eexists. split; [cbn; split; [reflexivity|intros; exact I]|].
  split; [vm_compute; reflexivity|]. repeat split.
Qed.

(** ** The exact count, with init() *)

Section Exact.
  Context {V : Type}.
  Variable mv : V -> V.
  Variable dflt : V.

  Definition full (v : option (optional V)) : bool := match v with Some v => o_fill v | None => false end.
  Definition sound (v : option (optional V)) : Prop :=
    match v with Some v => o_fill v = true -> exists x, o_cell v = Some x | None => True end.
  Definition here (v : option (optional V)) : bool := match v with Some _ => true | None => false end.

  Record counts (a : list bool) (k : nat) (w : oworld V) : Prop := Counts
    { c_there : map here (ow_vars w) = a;
      c_sound : Forall sound (ow_vars w);
      c_count : ow_made w = ow_gone w + filled w + k }.

  Lemma filled_upd (l : list (option (optional V))) p old v : nth_error l p = Some old ->
    length (filter full (upd l p v)) + Nat.b2n (full old) = length (filter full l) + Nat.b2n (full v).
  Proof.
    revert p. induction l as [|x l IH]; intros [|p] E; cbn in E |- *; try discriminate.
    - injection E as ->. destruct (full v), (full old); cbn; lia.
    - specialize (IH p E). destruct (full x); cbn; lia.
  Qed.

  Lemma forall_upd {T} (P : T -> Prop) (l : list T) p v : Forall P l -> P v -> Forall P (upd l p v).
  Proof.
    intros F Hv. revert p. induction F; intros [|p]; cbn; constructor; auto.
  Qed.

  Lemma map_upd {T U} (f : T -> U) (l : list T) p v : map f (upd l p v) = upd (map f l) p (f v).
  Proof. revert p. induction l as [|x l IH]; intros [|p]; cbn; congruence. Qed.

  Lemma upd_id {T} (l : list T) p x : nth_error l p = Some x -> upd l p x = l.
  Proof. revert p. induction l as [|y l IH]; intros [|p] E; cbn in *; try congruence. f_equal. auto. Qed.

  (** A write to one variable. *)
  Lemma counts_upd a k k' w p old v made gone : counts a k w -> nth_error (ow_vars w) p = Some old -> sound v ->
    made + ow_gone w + Nat.b2n (full old) + k = gone + ow_made w + Nat.b2n (full v) + k' ->
    counts (upd a p (here v)) k' (OW (upd (ow_vars w) p v) made gone).
  Proof.
    intros [Ht Hs Hc] E Hv Hn. constructor; cbn [ow_vars ow_made ow_gone].
    - rewrite map_upd, Ht. reflexivity.
    - apply forall_upd; auto.
    - pose proof (filled_upd _ _ _ v E) as F. unfold filled in *. cbn [ow_vars].
      fold full in *. lia.
  Qed.

  Lemma var_at a k w p : counts a k w ->
    if is_there a p then exists v, ovar w p = Ok v /\ nth_error (ow_vars w) p = Some (Some v) /\ sound (Some v)
    else ovar w p = UB.
  Proof.
    intros [<- Hs _]. unfold is_there, ovar. destruct (nth_error (ow_vars w) p) as [[v|]|] eqn:E.
    - assert (nth p (map here (ow_vars w)) false = true) as ->.
      { apply nth_error_nth. rewrite nth_error_map, E. reflexivity. }
      exists v. split; auto. split; auto. rewrite Forall_forall in Hs. apply Hs. eapply nth_error_In; eauto.
    - rewrite (nth_error_nth (map here (ow_vars w)) p false (x := false)); auto. rewrite nth_error_map, E. reflexivity.
    - rewrite nth_overflow; auto. rewrite map_length. apply nth_error_None; auto.
  Qed.

  Lemma free_at a k w p : counts a k w ->
    if is_free a p then ofresh w p = Ok tt /\ nth_error (ow_vars w) p = Some None else ofresh w p = UB.
  Proof.
    intros [<- Hs _]. unfold is_free, ofresh. rewrite map_length.
    destruct (nth_error (ow_vars w) p) as [[v|]|] eqn:E.
    - rewrite (nth_error_nth (map here (ow_vars w)) p false (x := true)).
      + rewrite andb_false_r. auto.
      + rewrite nth_error_map, E. reflexivity.
    - rewrite (nth_error_nth (map here (ow_vars w)) p false (x := false)).
      + assert (p < length (ow_vars w)) as L by (apply nth_error_Some; congruence).
        apply Nat.ltb_lt in L. rewrite L. cbn. auto.
      + rewrite nth_error_map, E. reflexivity.
    - apply nth_error_None in E. destruct (Nat.ltb_spec p (length (ow_vars w))); [lia|]. reflexivity.
  Qed.

  Lemma there_upd a k w p v : counts a k w -> nth_error (ow_vars w) p = Some (Some v) -> upd a p true = a.
  Proof.
    intros [<- _ _] E. apply upd_id. rewrite nth_error_map, E. reflexivity.
  Qed.

  Lemma count_step a k w o : counts a k w ->
    match o_uses a o with
    | Some a' => exists w', o_step mv dflt w o = Ok w' /\ counts a' (k + inits [o]) w'
    | None => o_step mv dflt w o = UB
    end.
  Proof.
    intros C.
    assert (PUT : forall w0 p u v, counts a k w0 -> nth_error (ow_vars w0) p = Some (Some u) ->
              o_fill v = o_fill u -> sound (Some v) -> counts a k (oput w0 p (Some v))).
    { intros w0 p u v C0 E Hf Hv. unfold oput. rewrite <- (there_upd _ _ _ _ _ C0 E).
      change true with (here (Some v)). eapply counts_upd; eauto. cbn [full]. rewrite Hf. lia. }
    assert (COPY : forall moving p q,
      match (if is_free a p && is_there a q then Some (upd a p true) else None) with
      | Some a' => exists w', o_copy mv moving w p q = Ok w' /\ counts a' k w'
      | None => o_copy mv moving w p q = UB
      end).
    { intros moving p q. unfold o_copy. pose proof (free_at _ _ _ p C) as Fp. destruct (is_free a p).
      2:{ rewrite Fp. reflexivity. }
      destruct Fp as [-> Ep]. cbn [bind andb]. pose proof (var_at _ _ _ q C) as Vq. destruct (is_there a q).
      2:{ rewrite Vq. reflexivity. }
      destruct Vq as (v & -> & Eq & Sv). cbn [bind].
      destruct (o_fill v) eqn:Fv.
      - destruct (Sv Fv) as [x Hx]. unfold o_object. rewrite Hx. cbn [bind].
        assert (CC : counts (upd a p true) k (o_construct w p true x)).
        { unfold o_construct. change true with (here (Some (OR true (Some x)))) at 1.
          eapply counts_upd; eauto; cbn; [eauto|lia]. }
        eexists. split; [reflexivity|]. destruct moving; auto.
        assert (p <> q) by congruence.
        assert (E2 : nth_error (ow_vars (o_construct w p true x)) q = Some (Some v)).
        { unfold o_construct. cbn [ow_vars]. rewrite nth_error_upd_neq; auto. }
        unfold oput. rewrite <- (there_upd _ _ _ _ _ CC E2). change true with (here (Some (OR true (Some (mv x))))) at 2.
        eapply counts_upd; eauto; cbn; [eauto|]. rewrite Fv. cbn. lia.
      - eexists. split; [reflexivity|]. unfold oput. change true with (here (Some (OR (V := V) false None))).
        eapply counts_upd; eauto; cbn; [discriminate|lia]. }
    assert (SET : forall p x, match (if is_there a p then Some a else None) with
      | Some a' => exists w', o_set w p x = Ok w' /\ counts a' k w'
      | None => o_set w p x = UB end).
    { intros p x. unfold o_set. pose proof (var_at _ _ _ p C) as Vp. destruct (is_there a p).
      2:{ rewrite Vp. reflexivity. }
      destruct Vp as (u & -> & Ep & Su). cbn [bind]. destruct (o_fill u) eqn:Fu.
      - destruct (Su Fu) as [y Hy]. unfold o_object. rewrite Hy. cbn [bind]. eexists. split; [reflexivity|].
        eapply PUT; eauto. cbn. eauto.
      - eexists. split; [reflexivity|]. unfold o_construct. rewrite <- (there_upd _ _ _ _ _ C Ep).
        change true with (here (Some (OR true (Some x)))) at 1. eapply counts_upd; eauto; cbn; [eauto|].
        rewrite Fu. cbn. lia. }
    assert (ASSIGN : forall moving p q, match (if is_there a p && is_there a q then Some a else None) with
      | Some a' => exists w', o_assign mv moving w p q = Ok w' /\ counts a' k w'
      | None => o_assign mv moving w p q = UB end).
    { intros moving p q. specialize (SET p). unfold o_set in SET. unfold o_assign.
      pose proof (var_at _ _ _ p C) as Vp. destruct (is_there a p). 2:{ rewrite Vp. reflexivity. }
      destruct Vp as (u & Ou & Ep & Su). rewrite Ou in *. cbn [bind andb] in *.
      pose proof (var_at _ _ _ q C) as Vq. destruct (is_there a q). 2:{ rewrite Vq. reflexivity. }
      destruct Vq as (v & Ov & Eq & Sv). rewrite Ov. cbn [bind]. destruct (o_fill v) eqn:Fv; [|eauto].
      destruct (Sv Fv) as [x Hx]. unfold o_object at 1. rewrite Hx. cbn [bind].
      destruct (SET x) as (w1 & E1 & C1). rewrite E1. cbn [bind]. eexists. split; [reflexivity|].
      destruct moving; auto.
      assert (exists v1, nth_error (ow_vars w1) q = Some (Some v1) /\ o_fill v1 = true) as (v1 & Eq1 & Fv1).
      { destruct (o_fill u).
        - apply bind_Ok in E1 as (? & _ & E1). injection E1 as <-. unfold oput. cbn [ow_vars].
          rewrite nth_error_upd. destruct (Nat.eqb_spec p q) as [->|]; cbn [andb]; [|eauto].
          assert (q < length (ow_vars w)) as L by (apply nth_error_Some; congruence).
          apply Nat.ltb_lt in L. rewrite L. eauto.
        - injection E1 as <-. unfold o_construct. cbn [ow_vars].
          rewrite nth_error_upd. destruct (Nat.eqb_spec p q) as [->|]; cbn [andb]; [|eauto].
          assert (q < length (ow_vars w)) as L by (apply nth_error_Some; congruence).
          apply Nat.ltb_lt in L. rewrite L. eauto. }
      eapply PUT; eauto. cbn. eauto. }
    assert (UNSET : forall p, if is_there a p
      then exists w' v, o_unset w p = Ok w' /\ counts a k w' /\ nth_error (ow_vars w') p = Some (Some v)
                        /\ o_fill v = false
      else o_unset w p = UB).
    { intros p. unfold o_unset. pose proof (var_at _ _ _ p C) as Vp. destruct (is_there a p).
      2:{ rewrite Vp. reflexivity. }
      destruct Vp as (u & -> & Ep & Su). cbn [bind]. destruct (o_fill u) eqn:Fu.
      - destruct (Su Fu) as [y Hy]. unfold o_object. rewrite Hy. cbn [bind]. do 2 eexists. split; [reflexivity|].
        split; [|split; [cbn [ow_vars]; apply nth_error_upd_eq; apply nth_error_Some; congruence|reflexivity]].
        rewrite <- (there_upd _ _ _ _ _ C Ep). change true with (here (Some (OR (V := V) false None))) at 1.
        eapply counts_upd; eauto; cbn; [discriminate|]. rewrite Fu. cbn. lia.
      - do 2 eexists. eauto. }
    destruct o as [p|p x|p q|p q|p q|p q|p x|p|p|p]; cbn [o_uses o_step inits filter length]; auto;
      try (rewrite Nat.add_0_r).
    - unfold o_default. pose proof (free_at _ _ _ p C) as Fp. destruct (is_free a p); [|rewrite Fp; reflexivity].
      destruct Fp as [-> Ep]. cbn [bind]. eexists. split; [reflexivity|]. unfold oput.
      change true with (here (Some (OR (V := V) false None))). eapply counts_upd; eauto; cbn; [discriminate|lia].
    - unfold o_from. pose proof (free_at _ _ _ p C) as Fp. destruct (is_free a p); [|rewrite Fp; reflexivity].
      destruct Fp as [-> Ep]. cbn [bind]. eexists. split; [reflexivity|]. unfold o_construct.
      change true with (here (Some (OR true (Some x)))) at 1. eapply counts_upd; eauto; cbn; [eauto|lia].
    - apply (COPY false).
    - apply (COPY true).
    - apply (ASSIGN false).
    - apply (ASSIGN true).
    - apply SET.
    - specialize (UNSET p). destruct (is_there a p); auto. destruct UNSET as (w' & v & E & C' & _). eauto.
    - unfold o_init. pose proof (var_at _ _ _ p C) as Vp. destruct (is_there a p); [|rewrite Vp; reflexivity].
      destruct Vp as (u & -> & Ep & Su). cbn [bind]. eexists. split; [reflexivity|]. unfold o_construct.
      rewrite <- (there_upd _ _ _ _ _ C Ep). change true with (here (Some (OR (o_fill u) (Some dflt)))).
      eapply counts_upd; eauto; cbn; [eauto|lia].
    - unfold o_destroy. specialize (UNSET p). destruct (is_there a p); [|rewrite UNSET; reflexivity].
      destruct UNSET as (w' & v & -> & C' & E' & Fv). cbn [bind]. eexists. split; [reflexivity|]. unfold oput.
      change false with (here None). eapply counts_upd; eauto; cbn; [exact I|]. rewrite Fv. cbn. lia.
  Qed.

  Lemma count_run os : forall a k w, counts a k w ->
    match o_uses_all a os with
    | Some a' => exists w', o_run mv dflt w os = Ok w' /\ counts a' (k + inits os) w'
    | None => o_run mv dflt w os = UB
    end.
  Proof.
    induction os as [|o os IH]; intros a k w C; cbn [o_uses_all o_run].
    - rewrite Nat.add_0_r. eauto.
    - pose proof (count_step a k w o C) as S1. destruct (o_uses a o) as [a'|]; [|rewrite S1; reflexivity].
      destruct S1 as (w' & -> & C'). cbn [bind]. specialize (IH a' _ w' C').
      replace (k + inits [o] + inits os) with (k + inits (o :: os)) in IH; auto.
      unfold inits. destruct o; cbn; lia.
  Qed.

  Lemma counts_start n : counts (repeat false n) 0 (o_start n).
  Proof.
    constructor.
    - unfold o_start. cbn [ow_vars]. induction n; cbn; congruence.
    - unfold o_start. cbn [ow_vars]. apply Forall_forall. intros v Hv. apply repeat_spec in Hv as ->. exact I.
    - unfold o_start, filled. cbn. induction n; cbn; auto.
  Qed.

  (** What an optional is seen to hold. *)
  Definition see (v : option (optional V)) : option (option V) :=
    option_map (fun v => if o_fill v then o_cell v else None) v.

  Lemma see_var (w : oworld V) p u : ovar w p = Ok u -> nth_error (ow_vars w) p = Some (Some u).
  Proof. unfold ovar. destruct (nth_error (ow_vars w) p) as [[v|]|]; try discriminate. congruence. Qed.
  Lemma see_content (w : oworld V) p u : ovar w p = Ok u ->
    o_content (map see (ow_vars w)) p = if o_fill u then o_cell u else None.
  Proof. intros E. apply see_var in E. unfold o_content. rewrite nth_error_map, E. reflexivity. Qed.
  Lemma see_same (w : oworld V) p u : ovar w p = Ok u ->
    upd (map see (ow_vars w)) p (see (Some u)) = map see (ow_vars w).
  Proof. intros E. apply see_var in E. apply upd_id. rewrite nth_error_map, E. reflexivity. Qed.

  Lemma see_set (w : oworld V) p x w' : o_set w p x = Ok w' ->
    map see (ow_vars w') = upd (map see (ow_vars w)) p (Some (Some x)).
  Proof.
    unfold o_set. intros E. apply bind_Ok in E as (u & Eu & E). destruct (o_fill u).
    - apply bind_Ok in E as (y & Ey & E). injection E as <-. cbn [oput ow_vars]. rewrite map_upd. reflexivity.
    - injection E as <-. cbn [o_construct ow_vars]. rewrite map_upd. reflexivity.
  Qed.
  Lemma see_unset (w : oworld V) p w' : o_unset w p = Ok w' ->
    map see (ow_vars w') = upd (map see (ow_vars w)) p (Some None).
  Proof.
    unfold o_unset. intros E. apply bind_Ok in E as (u & Eu & E). destruct (o_fill u) eqn:F.
    - apply bind_Ok in E as (y & Ey & E). injection E as <-. cbn [ow_vars]. rewrite map_upd. reflexivity.
    - injection E as <-. rewrite <- (see_same _ _ _ Eu) at 1. cbn [see option_map]. rewrite F. reflexivity.
  Qed.

  Lemma see_step (w : oworld V) o w' : Forall sound (ow_vars w) -> o_step mv dflt w o = Ok w' ->
    map see (ow_vars w') = o_does mv dflt (map see (ow_vars w)) o.
  Proof.
    intros SO.
    assert (COPY : forall moving p q, o_copy mv moving w p q = Ok w' ->
      map see (ow_vars w') = (if moving then o_spec mv dflt (map see (ow_vars w)) (OMove p q)
                              else o_spec mv dflt (map see (ow_vars w)) (OCopy p q))).
    { intros moving p q E. unfold o_copy in E. apply bind_Ok in E as (e0 & Ef & E). apply bind_Ok in E as (v & Ev & E).
      assert (N : p <> q).
      { intros ->. apply see_var in Ev. unfold ofresh in Ef. rewrite Ev in Ef. discriminate. }
      cbn [o_spec]. rewrite (see_content _ _ _ Ev). destruct (o_fill v) eqn:F.
      - apply bind_Ok in E as (x & Ex & E). unfold o_object in Ex. destruct (o_cell v) as [y|]; try discriminate.
        injection Ex as ->. injection E as <-.
        destruct moving; cbn [oput o_construct ow_vars]; rewrite ?map_upd; try reflexivity.
      - injection E as <-. cbn [oput ow_vars]. rewrite map_upd. destruct moving; try reflexivity.
        cbn [see option_map o_fill]. rewrite (upd_id (upd _ p _) q); [reflexivity|].
        rewrite nth_error_upd_neq by auto. rewrite nth_error_map, (see_var _ _ _ Ev). cbn. rewrite F. reflexivity. }
    assert (ASSIGN : forall moving p q, o_assign mv moving w p q = Ok w' ->
      map see (ow_vars w') = match o_content (map see (ow_vars w)) q with
        | Some _ => if moving then o_spec mv dflt (map see (ow_vars w)) (OMoveAssign p q)
                    else o_spec mv dflt (map see (ow_vars w)) (OAssign p q)
        | None => map see (ow_vars w) end).
    { intros moving p q E. unfold o_assign in E. apply bind_Ok in E as (u & Eu & E). apply bind_Ok in E as (v & Ev & E).
      cbn [o_spec]. rewrite (see_content _ _ _ Ev). destruct (o_fill v) eqn:F.
      - apply bind_Ok in E as (x & Ex & E). unfold o_object in Ex. destruct (o_cell v) as [y|]; try discriminate.
        injection Ex as ->. apply bind_Ok in E as (w1 & E1 & E).
        assert (S1 : map see (ow_vars w1) = upd (map see (ow_vars w)) p (Some (Some x))).
        { apply see_set. unfold o_set. rewrite Eu. exact E1. }
        injection E as <-. destruct moving; auto. cbn [oput ow_vars]. rewrite map_upd, S1. reflexivity.
      - injection E as <-. reflexivity. }
    destruct o as [p|p x|p q|p q|p q|p q|p x|p|p|p]; cbn [o_step o_does]; intros E.
    - unfold o_default in E. apply bind_Ok in E as (? & _ & E). injection E as <-. cbn [oput ow_vars]. rewrite map_upd. reflexivity.
    - unfold o_from in E. apply bind_Ok in E as (? & _ & E). injection E as <-. cbn [o_construct ow_vars]. rewrite map_upd. reflexivity.
    - apply (COPY false); auto.
    - apply (COPY true); auto.
    - apply (ASSIGN false); auto.
    - apply (ASSIGN true); auto.
    - apply see_set; auto.
    - apply see_unset; auto.
    - unfold o_init in E. apply bind_Ok in E as (u & Eu & E). injection E as <-. cbn [o_construct ow_vars]. rewrite map_upd.
      rewrite (see_content _ _ _ Eu). cbn [see option_map o_fill o_cell]. destruct (o_fill u) eqn:F.
      + destruct (o_cell u) eqn:Cu; [reflexivity|]. exfalso. rewrite Forall_forall in SO.
        destruct (SO (Some u) (nth_error_In _ _ (see_var _ _ _ Eu)) F) as [x X]. congruence.
      + rewrite <- (see_same _ _ _ Eu) at 2. cbn. rewrite F. reflexivity.
    - unfold o_destroy in E. apply bind_Ok in E as (w1 & E1 & E). injection E as <-. cbn [oput ow_vars].
      rewrite map_upd, (see_unset _ _ _ E1), upd_upd_eq. reflexivity.
  Qed.

  Lemma see_run os : forall a k (w w' : oworld V), counts a k w -> o_uses_all a os <> None -> o_run mv dflt w os = Ok w' ->
    map see (ow_vars w') = o_outcome mv dflt (map see (ow_vars w)) os.
  Proof.
    induction os as [|o os IH]; intros a k w w' C N E; cbn [o_run o_uses_all] in *.
    - injection E as <-. reflexivity.
    - pose proof (count_step a k w o C) as S. destruct (o_uses a o) as [a1|]; [|congruence].
      destruct S as (w1 & E1 & C1). rewrite E1 in E. cbn [bind] in E.
      rewrite (IH _ _ _ _ C1 N E). unfold o_outcome. cbn [fold_left]. f_equal. apply see_step; auto. apply C.
  Qed.
End Exact.

(** Every program on any number of optionals that uses those that exist: each holds what the calls put there, where
    the assignment of an empty optional and init() of an empty one change nothing. *)
Theorem C30_exact_partial :
  forall (V : Type) (mv : V -> V) (dflt : V) (n : nat) (os : list (o_op V)),
  o_uses_all (repeat false n) os <> None ->
  exists w, o_run mv dflt (o_start n) os = Ok w /\
  forall p, match nth_error (o_outcome mv dflt (repeat None n) os) p with
            | Some (Some c) => exists v, ovar w p = Ok v /\
                match c with
                | None => o_fill v = false
                | Some x => o_fill v = true /\ o_get w p = Ok x
                end
            | _ => ovar w p = UB
            end.
Proof.
  intros V mv dflt n os N. pose proof (count_run mv dflt os _ _ _ (counts_start n)) as R.
  destruct (o_uses_all (repeat false n) os) as [a|] eqn:U; [|congruence]. destruct R as (w & E & C).
  exists w. split; [exact E|]. intros p.
  pose proof (see_run mv dflt os _ _ _ _ (counts_start n) ltac:(rewrite U; discriminate) E) as S.
  replace (map see (ow_vars (o_start n))) with (repeat (@None (option V)) n) in S
    by (clear; unfold o_start; cbn [ow_vars]; induction n; cbn; congruence).
  rewrite <- S, nth_error_map. pose proof (c_sound _ _ _ C) as SO. rewrite Forall_forall in SO.
  unfold o_get, ovar. destruct (nth_error (ow_vars w) p) as [[v|]|] eqn:Ev; cbn [option_map see]; try reflexivity.
  exists v. split; [reflexivity|]. cbn [bind]. unfold o_object. destruct (o_fill v) eqn:F; [|reflexivity].
  destruct (SO (Some v) (nth_error_In _ _ Ev) F) as [x ->]. auto.
Qed.

Example C30_exact_case :
  let os := [ODefault 0; OInit 0; OFrom 1 3; OAssign 1 0; OInit 1; OFrom 2 8; OMoveAssign 2 2; OCopy 3 1] in
  o_uses_all (repeat false 4) os = Some [true; true; true; true]
  /\ o_outcome (fun _ => 0) 7 (repeat None 4) os = [Some None; Some (Some 7); Some (Some 0); Some (Some 7)].
Proof. split; reflexivity. Qed.

(** Every program, with any number of optionals and init() anywhere: it is undefined exactly if it uses an optional
    that does not exist or constructs one where another is; otherwise exactly one object is lost for every call of
    init(). *)
Theorem C31_lost_partial :
  forall (V : Type) (mv : V -> V) (dflt : V) (n : nat) (os : list (o_op V)),
  match o_uses_all (repeat false n) os with
  | Some a => exists w, o_run mv dflt (o_start n) os = Ok w
      /\ ow_made w = ow_gone w + filled w + inits os
      /\ length (ow_vars w) = length a
      /\ (forall p, is_there a p = true <-> exists v, ovar w p = Ok v)
  | None => o_run mv dflt (o_start n) os = UB
  end.
Proof.
  intros V mv dflt n os. pose proof (count_run mv dflt os _ _ _ (counts_start n)) as R.
  destruct (o_uses_all (repeat false n) os) as [a|]; auto.
  destruct R as (w & E & C). exists w. split; auto. split; [apply (c_count _ _ _ C)|].
  split. { rewrite <- (c_there _ _ _ C). rewrite map_length. reflexivity. }
  intros p. pose proof (var_at _ _ _ p C) as Vp. destruct (is_there a p).
  - split; auto. intros _. destruct Vp as (v & Ev & _). eauto.
  - split; [discriminate|]. intros [v Ev]. congruence.
Qed.

Example C31_lost_case :
  let os := [ODefault 0; OInit 0; OSet 0 5; OFrom 1 3; OInit 1; OMoveAssign 1 1; OCopy 2 1; ODestroy 0; ODestroy 1] in
  o_uses_all (repeat false 3) os = Some [false; false; true] /\ inits os = 2
  /\ exists w, o_run (fun x => x) 7 (o_start 3) os = Ok w /\ ow_made w = 5 /\ ow_gone w = 2.
Proof. cbn zeta. split; [reflexivity|]. split; [reflexivity|]. eexists. split; [vm_compute; reflexivity|]. auto. Qed.

Print Assumptions C30_optional_partial.
Print Assumptions C30_exact_partial.
Print Assumptions C30_assign_empty_refuted.
Print Assumptions C30_init_refuted.
Print Assumptions C31_lifetimes_partial.
Print Assumptions C31_init_refuted.
Print Assumptions C31_lost_partial.
