(** C220: UBJSON values. C221: the table of the types of the format. *)
From Coq Require Import List Arith Bool ZArith Ascii Lia.
From Verif Require Import Base BaseLemmas PointersModel UbjsonModel UbjsonSpec.
Import ListNotations.

(** * C220 *)

Section Direct.
  Context {A : Type}.

  (** The variables exist where they should and hold what they should. *)
  Definition d_rep (w : @dworld A) (s : @vars A) : Prop :=
    length w = length s
    /\ forall p, match nth_error s p with
                 | Some None => nth_error w p = Some None
                 | Some (Some None) => exists c, nth_error w p = Some (Some c)
                 | Some (Some (Some x)) => nth_error w p = Some (Some (Some x))
                 | None => True
                 end.

  Lemma d_rep_upd w s p c d : d_rep w s ->
    (d = None -> c = None) -> (d = Some None -> exists x, c = Some x) ->
    (forall x, d = Some (Some x) -> c = Some (Some x)) ->
    d_rep (upd w p c) (upd s p d).
  Proof.
    intros [L H] H1 H2 H3. split; [now rewrite !upd_length|]. intros k. specialize (H k).
    destruct (Nat.eq_dec k p) as [->|N].
    - destruct (Nat.lt_ge_cases p (length s)) as [Hp|Hp].
      + rewrite !nth_error_upd_eq by lia.
        destruct d as [[x|]|].
        * now rewrite (H3 x eq_refl).
        * destruct (H2 eq_refl) as [x ->]. eauto.
        * now rewrite H1.
      + rewrite (proj2 (nth_error_None (upd s p d) p)); auto. now rewrite upd_length.
    - rewrite !nth_error_upd_neq by auto. exact H.
  Qed.

  Lemma d_free w s p : d_rep w s -> free s p -> d_fresh w p = Ok tt.
  Proof.
    intros [_ H] F. specialize (H p). unfold free, d_fresh in *. rewrite F in H. now rewrite H.
  Qed.
  Lemma d_here w s p : d_rep w s -> here s p -> exists c, d_field w p = Ok c.
  Proof.
    intros [_ H] [c F]. specialize (H p). unfold d_field. rewrite F in H.
    destruct c as [x|]; [rewrite H; eauto|]. destruct H as [c ->]. eauto.
  Qed.
  Lemma d_has w s p x : d_rep w s -> has s p x -> d_get w p = Ok x.
  Proof.
    intros [_ H] F. specialize (H p). unfold has, d_get, d_field in *. rewrite F in H.
    now rewrite H.
  Qed.
  Lemma has_held (s : @vars A) p x : has s p x -> held s p = Some x.
  Proof. unfold has, held. now intros ->. Qed.

  (** A variable that the specification calls empty may hold anything. *)
  Lemma d_weaken w s q : d_rep w s -> here s q -> d_rep w (upd s q (Some None)).
  Proof.
    intros [L H] [c Hq]. split; [now rewrite upd_length|]. intros k.
    destruct (Nat.eq_dec k q) as [->|N].
    - rewrite nth_error_upd_eq by (apply nth_error_Some; congruence).
      specialize (H q). rewrite Hq in H. destruct c as [x|]; eauto.
    - rewrite nth_error_upd_neq by auto. apply H.
  Qed.

  Lemma here_upd (s : @vars A) p q c : here s q -> here (upd s p (Some c)) q.
  Proof.
    intros [d H]. destruct (Nat.eq_dec q p) as [->|N].
    - exists c. apply nth_error_upd_eq. apply nth_error_Some. congruence.
    - exists d. rewrite nth_error_upd_neq by auto. exact H.
  Qed.

  Lemma d_step_ok w s o : d_rep w s -> ub_documented s o ->
    (forall p x, o <> UbAssignValue p x) ->
    exists w', d_step w o = Ok w' /\ d_rep w' (ub_wanted s o).
  Proof.
    intros H D N. destruct o as [p|p x|p q|p q|p q|p q|p x|p x|p];
      cbn [ub_documented d_step ub_wanted] in *.
    - rewrite (d_free _ _ _ H D). cbn [bind]. eexists. split; [reflexivity|].
      apply d_rep_upd; auto; try congruence. intros _. eauto.
    - rewrite (d_free _ _ _ H D). cbn [bind]. eexists. split; [reflexivity|].
      apply d_rep_upd; auto; congruence.
    - destruct D as [D [x Hx]]. rewrite (d_free _ _ _ H D), (d_has _ _ _ _ H Hx), (has_held _ _ _ Hx).
      cbn [bind]. eexists. split; [reflexivity|]. apply d_rep_upd; auto; congruence.
    - destruct D as [D [x Hx]]. rewrite (d_free _ _ _ H D), (d_has _ _ _ _ H Hx), (has_held _ _ _ Hx).
      cbn [bind]. eexists. split; [reflexivity|]. apply d_weaken.
      + apply d_rep_upd; auto; congruence.
      + apply here_upd. eexists. exact Hx.
    - destruct D as [D [x Hx]]. destruct (d_here _ _ _ H D) as [c Ec].
      rewrite Ec, (d_has _ _ _ _ H Hx), (has_held _ _ _ Hx).
      cbn [bind]. eexists. split; [reflexivity|]. apply d_rep_upd; auto; congruence.
    - destruct D as [D [x Hx]]. destruct (d_here _ _ _ H D) as [c Ec].
      rewrite Ec, (d_has _ _ _ _ H Hx), (has_held _ _ _ Hx).
      cbn [bind]. eexists. split; [reflexivity|]. apply d_weaken.
      + apply d_rep_upd; auto; congruence.
      + apply here_upd. eexists. exact Hx.
    - now destruct (N p x).
    - destruct (d_here _ _ _ H D) as [c Ec]. rewrite Ec. cbn [bind]. eexists.
      split; [reflexivity|]. apply d_rep_upd; auto; congruence.
    - destruct (d_here _ _ _ H D) as [c Ec]. rewrite Ec. cbn [bind]. eexists.
      split; [reflexivity|]. apply d_rep_upd; auto; congruence.
  Qed.

  Lemma d_run_ok os : forall w s, d_rep w s -> ub_ok s os ->
    (forall p x, ~ In (UbAssignValue p x) os) ->
    exists w', d_run w os = Ok w' /\ d_rep w' (ub_result s os).
  Proof.
    induction os as [|o os IH]; intros w s H D N; cbn [d_run ub_ok] in *.
    - exists w. auto.
    - destruct D as [D D']. destruct (d_step_ok w s o H D) as (w1 & E1 & H1).
      { intros p x ->. apply (N p x). left. reflexivity. }
      rewrite E1. cbn [bind]. apply IH; auto. intros p x Hi. apply (N p x). right. auto.
  Qed.

  Lemma d_start_rep n : d_rep (d_start n) (ub_none n).
  Proof.
    split; [reflexivity|]. intros p. unfold d_start, ub_none.
    destruct (nth_error (repeat None n) p) as [c|] eqn:E; auto.
    apply nth_error_In, repeat_spec in E as ->. reflexivity.
  Qed.
End Direct.

(** The value as a member: every history of documented calls, but for the assignment of a plain
    value, leaves in every variable what it should. *)
Theorem C220_direct_partial : forall (A : Type) (n : nat) (os : list (ub_op A)),
  ub_ok (ub_none n) os -> (forall p x, ~ In (UbAssignValue p x) os) ->
  exists w, d_run (d_start n) os = Ok w
    /\ forall p x, has (ub_result (ub_none n) os) p x -> d_get w p = Ok x.
Proof.
  intros A n os D N. destruct (d_run_ok os _ _ (d_start_rep n) D N) as (w & E & H).
  exists w. split; auto. intros p x Hp. eapply d_has; eauto.
Qed.

Example C220_direct_case :
  let os := [UbNew 0 5; UbCopy 1 0; UbPut 1 6; UbMove 2 1; UbAssign 0 2; UbPut 2 8; UbDestroy 1] in
  ub_ok (ub_none 3) os
  /\ has (ub_result (ub_none 3) os) 0 6 /\ has (ub_result (ub_none 3) os) 2 8.
Proof. cbn. unfold free, here, has. cbn. repeat split; eauto. Qed.

Section Allocated.
  Context {A : Type}.

  (** Every variable that should hold a value is the only one that refers to its object, and the
      counter of that object is 0, as it was in the beginning. *)
  Definition a_rep (w : sworld A) (s : @vars A) : Prop :=
    length (s_vars w) = length s
    /\ (forall p, match nth_error s p with
                  | Some None => nth_error (s_vars w) p = Some SAbsent
                  | Some (Some None) => nth_error (s_vars w) p = Some (SPresent Nil)
                  | Some (Some (Some x)) =>
                      exists i, nth_error (s_vars w) p = Some (SPresent (To i))
                        /\ nth_error (s_objs w) i = Some (Some (0%Z, x))
                  | None => True
                  end)
    /\ (forall p q i, nth_error (s_vars w) p = Some (SPresent (To i)) ->
          nth_error (s_vars w) q = Some (SPresent (To i)) -> p = q).


  (** What the invariant says about one variable. *)
  Lemma a_inv (w : sworld A) (s : @vars A) p i : a_rep w s ->
    nth_error (s_vars w) p = Some (SPresent (To i)) ->
    exists x, has s p x /\ nth_error (s_objs w) i = Some (Some (0%Z, x)).
  Proof.
    intros (L & H & _) Hp. specialize (H p).
    assert (Hl : p < length s) by (rewrite <- L; apply nth_error_Some; congruence).
    destruct (nth_error s p) as [[[x|]|]|] eqn:E.
    - destruct H as (j & Hj & Ho). exists x. split; [exact E|]. congruence.
    - congruence.
    - congruence.
    - apply nth_error_None in E. lia.
  Qed.

  Lemma a_free w s p : a_rep w s -> free s p -> s_fresh w p = Ok tt.
  Proof.
    intros (_ & H & _) F. specialize (H p). unfold free, s_fresh in *. rewrite F in H.
    now rewrite H.
  Qed.

  Lemma a_has w s p x : a_rep w s -> has s p x ->
    exists i, nth_error (s_vars w) p = Some (SPresent (To i))
      /\ nth_error (s_objs w) i = Some (Some (0%Z, x)).
  Proof. intros (_ & H & _) F. specialize (H p). unfold has in F. now rewrite F in H. Qed.

  (** A variable gives its object to nobody. *)
  Lemma a_drop (w : sworld A) s p v d : a_rep w s ->
    (v = SAbsent /\ d = None) \/ (v = SPresent Nil /\ d = Some None) ->
    a_rep (s_set w p v) (upd s p d).
  Proof.
    intros (L & H & I) V. unfold s_set. split; [cbn; now rewrite !upd_length|]. split.
    - intros k. specialize (H k). cbn [s_vars s_objs].
      rewrite !nth_error_upd, L. destruct ((p =? k) && (p <? length s)); auto.
      destruct V as [[-> ->]|[-> ->]]; reflexivity.
    - intros a b i. cbn [s_vars]. rewrite !nth_error_upd.
      destruct ((p =? a) && _); [destruct V as [[-> ->]|[-> ->]]; discriminate|].
      destruct ((p =? b) && _); [destruct V as [[-> ->]|[-> ->]]; discriminate|]. apply I.
  Qed.

  (** An object that no variable refers to may become anything. *)
  Lemma a_object (w : sworld A) s i c : a_rep w s ->
    (forall p, nth_error (s_vars w) p <> Some (SPresent (To i))) ->
    a_rep (SW (upd (s_objs w) i c) (s_vars w)) s.
  Proof.
    intros (L & H & I) N. split; [exact L|]. split; [|exact I].
    intros p. specialize (H p). cbn [s_vars s_objs].
    destruct (nth_error s p) as [[[x|]|]|]; auto.
    destruct H as (j & Hj & Ho). exists j. split; auto. rewrite nth_error_upd_neq; auto.
    intros ->. exact (N _ Hj).
  Qed.

  (** A variable that refers to nothing takes an object of which no other variable knows. *)
  Lemma a_take (w : sworld A) s p i x : a_rep w s ->
    (forall q, nth_error (s_vars w) q <> Some (SPresent (To i))) ->
    nth_error (s_objs w) i = Some (Some (0%Z, x)) -> p < length s ->
    a_rep (s_set w p (SPresent (To i))) (upd s p (Some (Some x))).
  Proof.
    intros (L & H & I) N Ho Hp. unfold s_set. split; [cbn; now rewrite !upd_length|]. split.
    - intros k. specialize (H k). cbn [s_vars s_objs]. rewrite !nth_error_upd, L.
      destruct ((p =? k) && (p <? length s)); auto. eauto.
    - intros a b j. cbn [s_vars]. rewrite !nth_error_upd, L.
      destruct (Nat.ltb_spec p (length s)); [|lia]. rewrite !andb_true_r.
      destruct (Nat.eqb_spec p a), (Nat.eqb_spec p b); intros Ha Hb; subst; auto.
      + injection Ha as <-. now destruct (N _ Hb).
      + injection Hb as <-. now destruct (N _ Ha).
      + eapply I; eauto.
  Qed.

  Lemma minus_one : (size_t (0 - 1) =? 0)%Z = false.
  Proof. reflexivity. Qed.

  (** clean() with the counter 0 leaves the object. *)
  Lemma a_clean (w : sworld A) s p : a_rep w s -> here s p ->
    exists w1, s_clean w p = Ok w1 /\ s_vars w1 = s_vars w
      /\ (forall v d, (v = SAbsent /\ d = None) \/ (v = SPresent Nil /\ d = Some None) ->
           a_rep (s_set w1 p v) (upd s p d))
      /\ (forall i, nth_error (s_vars w) p <> Some (SPresent (To i)) ->
           nth_error (s_objs w1) i = nth_error (s_objs w) i).
  Proof.
    intros R [c Hc]. pose proof R as (L & H & I). specialize (H p). rewrite Hc in H.
    unfold s_clean, s_field. destruct c as [x|].
    - destruct H as (i & Hi & Ho). rewrite Hi. cbn [bind s_get]. rewrite Ho. cbn [bind].
      rewrite minus_one. eexists. split; [reflexivity|]. split; [reflexivity|]. split.
      + intros v d V. pose proof (a_drop w s p v d R V) as R1.
        change (s_set (SW (upd (s_objs w) i (Some (size_t (0 - 1), x))) (s_vars w)) p v)
          with (SW (upd (s_objs (s_set w p v)) i (Some (size_t (0 - 1), x))) (s_vars (s_set w p v))).
        apply a_object; auto. intros q. unfold s_set. cbn [s_vars]. rewrite nth_error_upd, L.
        destruct (Nat.eqb_spec p q) as [->|Nq]; cbn [andb].
        * destruct (Nat.ltb_spec q (length s)) as [Hl|Hl].
          -- destruct V as [[-> _]|[-> _]]; discriminate.
          -- apply nth_error_None in Hl. congruence.
        * intros Hq. apply Nq. eapply I; eauto.
      + intros j Hj. cbn [s_objs]. rewrite nth_error_upd_neq; auto. congruence.
    - rewrite H. cbn [bind]. exists w. split; auto. split; auto. split; auto.
      intros v d V. apply a_drop; auto.
  Qed.

  Lemma has_lt (s : @vars A) p x : has s p x -> p < length s.
  Proof. unfold has. intros H. apply nth_error_Some. congruence. Qed.

  Lemma upd_comm {B} (l : list B) i j x y : i <> j -> upd (upd l i x) j y = upd (upd l j y) i x.
  Proof.
    intros N. apply list_ext. intros k. rewrite !nth_error_upd, !upd_length.
    destruct (Nat.eqb_spec i k), (Nat.eqb_spec j k); subst; cbn [andb]; auto; congruence.
  Qed.
  Lemma upd_upd {B} (l : list B) i x y : upd (upd l i x) i y = upd l i y.
  Proof.
    apply list_ext. intros k. rewrite !nth_error_upd, !upd_length.
    destruct ((i =? k) && (i <? length l)); auto.
  Qed.

  (** The object of [q] goes to [p], which refers to nothing. *)
  Lemma a_give (w : sworld A) s p q i x : a_rep w s -> p <> q -> p < length s ->
    has s q x -> nth_error (s_vars w) q = Some (SPresent (To i)) ->
    a_rep (s_set (s_set w p (SPresent (To i))) q (SPresent Nil))
      (upd (upd s p (Some (Some x))) q (Some None)).
  Proof.
    intros R N Hp Hx Hi. unfold s_set. cbn [s_vars s_objs].
    rewrite (upd_comm (s_vars w)), (upd_comm s) by auto.
    pose proof (a_drop w s q (SPresent Nil) (Some None) R (or_intror (conj eq_refl eq_refl))) as R1.
    destruct (a_has _ _ _ _ R Hx) as (j & Hj & Ho). assert (j = i) as -> by congruence.
    apply (a_take _ _ p i x R1); auto.
    - intros k. unfold s_set. cbn [s_vars]. pose proof R as (L & _ & I).
      rewrite nth_error_upd. destruct (Nat.eqb_spec q k) as [->|Nk]; cbn [andb].
      + rewrite L. destruct (Nat.ltb_spec k (length s)); [discriminate|].
        apply has_lt in Hx. lia.
      + intros Hk. apply Nk. eapply I; eauto.
    - rewrite upd_length. auto.
  Qed.

  Lemma a_step_ok w s o : a_rep w s -> ub_documented s o -> unshared s o ->
    exists w', a_step w o = Ok w' /\ a_rep w' (ub_wanted s o).
  Proof.
    intros R D U. destruct o as [p|p x|p q|p q|p q|p q|p x|p x|p];
      cbn [ub_documented a_step ub_wanted unshared] in *; try contradiction.
    - unfold s_new. rewrite (a_free _ _ _ R D). cbn [bind]. eexists. split; [reflexivity|].
      assert (R1 : a_rep (SW (s_objs w ++ [Some (0%Z, x)]) (s_vars w)) s).
      { destruct R as (L & H & I). split; [exact L|]. split; [|exact I].
        intros k. specialize (H k). cbn [s_vars s_objs].
        destruct (nth_error s k) as [[[y|]|]|]; auto. destruct H as (i & Hi & Ho).
        exists i. split; auto. rewrite nth_error_app1; auto. apply nth_error_Some. congruence. }
      apply (a_take _ _ p (length (s_objs w)) x R1); cbn [s_vars s_objs].
      + intros q Hq. destruct (a_inv _ _ _ _ R Hq) as (y & _ & Ho).
        assert (length (s_objs w) < length (s_objs w)) by (apply nth_error_Some; congruence). lia.
      + rewrite nth_error_app2, Nat.sub_diag by lia. reflexivity.
      + apply nth_error_Some. unfold free in D. congruence.
    - destruct D as [D [x Hx]]. unfold s_move. rewrite (a_free _ _ _ R D). cbn [bind].
      destruct (a_has _ _ _ _ R Hx) as (i & Hi & Ho). unfold s_field. rewrite Hi. cbn [bind].
      eexists. split; [reflexivity|]. rewrite (has_held _ _ _ Hx). apply a_give; auto.
      + intros ->. unfold free, has in *. congruence.
      + apply nth_error_Some. unfold free in D. congruence.
    - destruct D as [D [x Hx]]. unfold s_move_assign.
      destruct (a_clean w s p R D) as (w1 & E1 & V1 & R1 & O1). rewrite E1. cbn [bind].
      destruct (a_has _ _ _ _ R Hx) as (i & Hi & Ho). unfold s_field. rewrite V1, Hi. cbn [bind].
      eexists. split; [reflexivity|]. rewrite (has_held _ _ _ Hx).
      specialize (R1 (SPresent Nil) (Some None) (or_intror (conj eq_refl eq_refl))).
      destruct (Nat.eq_dec p q) as [->|N].
      + unfold s_set in *. cbn [s_vars s_objs] in *. rewrite !upd_upd. exact R1.
      + assert (G : a_rep (s_set (s_set (s_set w1 p (SPresent Nil)) p (SPresent (To i))) q (SPresent Nil))
                      (upd (upd (upd s p (Some None)) p (Some (Some x))) q (Some None))).
        { apply a_give; auto.
          - rewrite upd_length. destruct D as [c Hc]. apply nth_error_Some. congruence.
          - unfold has. rewrite nth_error_upd_neq by auto. exact Hx.
          - unfold s_set. cbn [s_vars]. rewrite nth_error_upd_neq, V1 by auto. exact Hi. }
        unfold s_set in *. cbn [s_vars s_objs] in *. rewrite !upd_upd in G. exact G.
    - destruct U as [y Hy]. destruct (a_has _ _ _ _ R Hy) as (i & Hi & Ho).
      unfold a_put, s_field. rewrite Hi. cbn [bind s_get]. rewrite Ho. cbn [bind].
      eexists. split; [reflexivity|]. destruct R as (L & H & I). split; [cbn; now rewrite upd_length|].
      split; [|exact I]. intros k. specialize (H k). cbn [s_vars s_objs].
      pose proof (has_lt _ _ _ Hy) as Hl.
      destruct (Nat.eq_dec p k) as [<-|N].
      + rewrite nth_error_upd_eq by auto. exists i. split; auto. apply nth_error_upd_eq.
        apply nth_error_Some. congruence.
      + rewrite nth_error_upd_neq by auto.
        destruct (nth_error s k) as [[[z|]|]|]; auto. destruct H as (j & Hj & Hoj).
        exists j. split; auto. rewrite nth_error_upd_neq; auto.
        intros ->. apply N. eapply I; eauto.
    - unfold s_destroy. destruct (a_clean w s p R D) as (w1 & E1 & V1 & R1 & O1). rewrite E1.
      cbn [bind]. eexists. split; [reflexivity|]. apply R1. left. auto.
  Qed.

  Lemma a_run_ok os : forall w s, a_rep w s -> ub_ok s os -> all_unshared s os ->
    exists w', a_run w os = Ok w' /\ a_rep w' (ub_result s os).
  Proof.
    induction os as [|o os IH]; intros w s H D U; cbn [a_run ub_ok all_unshared] in *.
    - exists w. auto.
    - destruct D as [D D'], U as [U U']. destruct (a_step_ok w s o H D U) as (w1 & E1 & H1).
      rewrite E1. cbn [bind]. apply IH; auto.
  Qed.

  Lemma a_start_rep n : a_rep (s_start n) (ub_none n).
  Proof.
    unfold s_start, ub_none. split; [cbn; now rewrite !repeat_length|]. split.
    - intros p. cbn [s_vars]. destruct (nth_error (repeat None n) p) as [c|] eqn:E; auto.
      assert (Hp : p < n).
      { rewrite <- (repeat_length (@None (option A)) n). apply nth_error_Some. congruence. }
      apply nth_error_In, repeat_spec in E as ->. apply nth_error_repeat. exact Hp.
    - intros p q i Hp. apply nth_error_In, repeat_spec in Hp. discriminate.
  Qed.
End Allocated.

(** The value behind a pointer: every history of documented calls in which no value is copied
    leaves in every variable what it should. *)
Theorem C220_allocated_partial : forall (A : Type) (n : nat) (os : list (ub_op A)),
  ub_ok (ub_none n) os -> all_unshared (ub_none n) os ->
  exists w, a_run (s_start n) os = Ok w
    /\ forall p x, has (ub_result (ub_none n) os) p x -> a_get w p = Ok x.
Proof.
  intros A n os D U. destruct (a_run_ok os _ _ (a_start_rep n) D U) as (w & E & H).
  exists w. split; auto. intros p x Hp. destruct (a_has _ _ _ _ H Hp) as (i & Hi & Ho).
  unfold a_get, s_deref, s_field. rewrite Hi. cbn [bind s_get]. rewrite Ho. reflexivity.
Qed.

Example C220_allocated_case :
  let os := [UbNew 0 5; UbMove 1 0; UbPut 1 6; UbNew 2 7; UbMoveAssign 2 1; UbDestroy 1;
             UbNew 1 9] in
  ub_ok (ub_none 3) os /\ all_unshared (ub_none 3) os
  /\ has (ub_result (ub_none 3) os) 2 6 /\ has (ub_result (ub_none 3) os) 1 9.
Proof. cbn. unfold free, here, has. cbn. repeat split; eauto. Qed.

(** Behind a pointer a copy is no copy: what is written to it is what the original then holds,
    in every state. *)
Theorem C220_copy_refuted : forall (A : Type) (w w1 w2 : sworld A) (p q : nat) (y : A),
  a_step w (UbCopy p q) = Ok w1 -> a_step w1 (UbPut p y) = Ok w2 -> a_get w2 q = Ok y.
Proof.
  intros A w w1 w2 p q y H1 H2. cbn [a_step] in *. unfold s_copy in H1.
  unfold s_fresh in H1.
  destruct (nth_error (s_vars w) p) as [[|m0]|] eqn:Ep; try discriminate. cbn [bind] in H1.
  unfold s_field in H1. destruct (nth_error (s_vars w) q) as [[|m]|] eqn:Eq; try discriminate.
  cbn [bind] in H1. unfold s_incr in H1.
  destruct m as [| |i]; try discriminate. cbn [s_get s_set s_objs s_vars] in H1.
  destruct (nth_error (s_objs w) i) as [[[c x]|]|] eqn:Ei; try discriminate.
  cbn [bind] in H1. injection H1 as <-.
  assert (Hp : p < length (s_vars w)) by (apply nth_error_Some; congruence).
  assert (Hi : i < length (s_objs w)) by (apply nth_error_Some; congruence).
  unfold a_put, s_field in H2. cbn [s_vars] in H2. rewrite nth_error_upd_eq in H2 by auto.
  cbn [bind s_get s_objs] in H2. rewrite nth_error_upd_eq in H2 by auto. cbn [bind] in H2.
  injection H2 as <-. unfold a_get, s_deref, s_field. cbn [s_vars].
  rewrite nth_error_upd_neq by congruence. rewrite Eq. cbn [bind s_get s_objs].
  rewrite nth_error_upd_eq by (rewrite upd_length; auto). reflexivity.
Qed.

(** ... and when the copy is destroyed the original has lost its value. *)
Theorem C220_destroyed_copy_refuted : forall (A : Type) (n : nat) (x : A),
  exists w, a_run (s_start (2 + n)) [UbNew 0 x; UbCopy 1 0; UbDestroy 1] = Ok w
    /\ has (ub_result (ub_none (2 + n)) [UbNew 0 x; UbCopy 1 0; UbDestroy 1]) 0 x
    /\ a_get w 0 = UB.
Proof. intros A n x. eexists. split; [reflexivity|]. split; reflexivity. Qed.

(** A variable without a value cannot even be destroyed. *)
Theorem C220_default_refuted : forall (A : Type) (n : nat),
  ub_ok (ub_none (1 + n)) [UbDefault 0; @UbDestroy A 0]
  /\ a_run (s_start (1 + n)) [UbDefault 0; @UbDestroy A 0] = UB.
Proof. intros A n. split; [|reflexivity]. cbn. unfold free, here. cbn. eauto. Qed.

(** The assignment of a plain value never ends well, in either form, in any state. *)
Theorem C220_assign_refuted : forall (A : Type) (p : nat) (x : A),
  (forall w, d_step w (UbAssignValue p x) = UB) /\ (forall w, a_step w (UbAssignValue p x) = UB).
Proof. split; reflexivity. Qed.

(** A value made from a value of another number type holds 1, whatever the source holds. *)
Theorem C220_convert_refuted : forall number : Z,
  number <> 1%Z -> ub_convert number <> number.
Proof. intros number H. unfold ub_convert. congruence. Qed.

Example C220_copy_case :
  exists w1 w2, a_step (SW [Some (0%Z, 4)] [SPresent (To 0); SAbsent]) (UbCopy 1 0) = Ok w1
    /\ a_step w1 (UbPut 1 9) = Ok w2.
Proof. do 2 eexists. split; reflexivity. Qed.

(** * C221 *)

(** The table gives every type of the format its marker and its closing marker, no two types
    share a marker, and for all types but True and False it says rightly whether data follows. *)
Theorem C221_table_partial :
  (forall t l, In (t, l) ub_format ->
     value_type t = marker l
     /\ value_type_close t = match closed_by l with Some c => c | None => error_marker end
     /\ (t <> UTrue -> t <> UFalse -> data_payload t = data_follows l))
  /\ (forall t u l k, In (t, l) ub_format -> In (u, k) ub_format ->
        value_type t = value_type u -> t = u)
  /\ (forall t l, In (t, l) ub_format -> value_type t <> error_marker)
  /\ (forall t, (exists l, In (t, l) ub_format) \/ value_type t = error_marker).
Proof.
  split; [|split; [|split]].
  - intros t l H. cbn in H. repeat (destruct H as [H|H]; [injection H as <- <-; cbn; repeat split; congruence|]).
    destruct H.
  - intros t u l k Ht Hu E. cbn in Ht, Hu.
    repeat (destruct Ht as [Ht|Ht];
            [injection Ht as <- <-;
             repeat (destruct Hu as [Hu|Hu];
                     [injection Hu as <- <-; first [reflexivity | discriminate E]|]);
             destruct Hu|]).
    destruct Ht.
  - intros t l H. cbn in H.
    repeat (destruct H as [H|H]; [injection H as <- <-; discriminate|]). destruct H.
  - intros t. destruct t; try (right; reflexivity); left; eexists; cbn; tauto.
Qed.

(** True and False are said to be followed by data; in the format nothing follows them. *)
Theorem C221_payload_refuted : forall t l, In (t, l) ub_format ->
  t = UTrue \/ t = UFalse -> data_payload t = true /\ data_follows l = false.
Proof.
  intros t l H [->| ->]; cbn in H;
    repeat (destruct H as [H|H];
            [first [discriminate H | injection H as <-; split; reflexivity]|]); destruct H.
Qed.

Example C221_case : exists l, In (UTrue, l) ub_format.
Proof. eexists. cbn. tauto. Qed.

Print Assumptions C220_direct_partial.
Print Assumptions C220_allocated_partial.
Print Assumptions C220_copy_refuted.
Print Assumptions C220_destroyed_copy_refuted.
Print Assumptions C220_default_refuted.
Print Assumptions C220_assign_refuted.
Print Assumptions C220_convert_refuted.
Print Assumptions C221_table_partial.
Print Assumptions C221_payload_refuted.
