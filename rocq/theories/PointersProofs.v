(** Proofs about UniquePointer and SharedPointer. *)
From Coq Require Import List Arith ZArith Lia Bool.
From Verif Require Import Base BaseLemmas PointersModel PointersSpec.
Import ListNotations.

Lemma nth_error_updx {B} (l : list B) i j x :
  nth_error (upd l i x) j =
  if i =? j then (if i <? length l then Some x else None) else nth_error l j.
Proof.
  rewrite nth_error_upd. destruct (Nat.eqb_spec i j) as [->|]; cbn [andb]; auto.
  destruct (Nat.ltb_spec j (length l)); auto. apply nth_error_None; auto.
Qed.

Section Unique.
  Context {A : Type}.

  Definition u_rel (objs : list (option A)) (v : slot) (c : option (option A)) : Prop :=
    match c with
    | None => v = Absent
    | Some None => v = Present None
    | Some (Some x) => exists i, v = Present (Some i) /\ nth_error objs i = Some (Some x)
    end.

  Definition u_inv (w : uworld A) (s : uvars A) : Prop :=
    length (u_vars w) = length s /\
    (forall p v c, nth_error (u_vars w) p = Some v -> nth_error s p = Some c ->
                   u_rel (u_objs w) v c) /\
    (forall p q i, nth_error (u_vars w) p = Some (Present (Some i)) ->
                   nth_error (u_vars w) q = Some (Present (Some i)) -> p = q) /\
    (forall i x, nth_error (u_objs w) i = Some (Some x) ->
                 exists p, nth_error (u_vars w) p = Some (Present (Some i))).

  Lemma u_inv_lookup w s p c :
    u_inv w s -> nth_error s p = Some c ->
    exists v, nth_error (u_vars w) p = Some v /\ u_rel (u_objs w) v c.
  Proof.
    intros (Hl & Hr & _) H.
    destruct (nth_error (u_vars w) p) as [v|] eqn:E.
    - exists v. split; [reflexivity|]. eapply Hr; eauto.
    - apply nth_error_None in E.
      assert (p < length s) by (apply nth_error_Some; congruence). lia.
  Qed.

  Lemma u_inv_set w s p v v' c' :
    u_inv w s -> nth_error (u_vars w) p = Some v' ->
    (forall i, v' <> Present (Some i)) ->
    u_rel (u_objs w) v c' -> (forall i, v <> Present (Some i)) ->
    u_inv (u_set w p v) (upd s p c').
  Proof.
    intros (Hl & Hr & Hi & Ho) Hp Hv' Hrel Hv.
    split; [|split; [|split]]; cbn [u_set u_vars u_objs].
    - rewrite !upd_length; auto.
    - intros q x c. rewrite !nth_error_updx. rewrite Hl.
      destruct (p =? q); [|apply Hr].
      destruct (p <? length s); [|discriminate]. intros [= <-] [= <-]; auto.
    - intros a b i. rewrite !nth_error_updx.
      destruct (p =? a), (p =? b); try destruct (p <? _); try discriminate;
        try (intros [= E]; exfalso; eapply Hv; eauto; fail);
        try (intros _ [= E]; exfalso; eapply Hv; eauto; fail).
      apply Hi.
    - intros i x Hx. destruct (Ho _ _ Hx) as [q Hq]. exists q.
      rewrite nth_error_upd_neq; auto. intros ->.
      rewrite Hp in Hq. injection Hq as ->. eapply Hv'; eauto.
  Qed.

  Lemma u_field_at (w : uworld A) p o :
    nth_error (u_vars w) p = Some (Present o) -> u_field w p = Ok o.
  Proof. unfold u_field. intros ->; reflexivity. Qed.

  Lemma u_clean_ok w s p c :
    u_inv w s -> nth_error s p = Some (Some c) ->
    exists w', u_clean w p = Ok w' /\ u_inv w' (upd s p (Some None)) /\
               nth_error (u_vars w') p = Some (Present None).
  Proof.
    intros H Hp. destruct (u_inv_lookup _ _ _ _ H Hp) as (v & Hv & Hrel).
    destruct c as [x|]; cbn in Hrel.
    - destruct Hrel as (i & -> & Hx).
      unfold u_clean. rewrite (u_field_at _ _ _ Hv). cbn [bind]. rewrite Hx.
      eexists. split; [reflexivity|].
      destruct H as (Hl & Hr & Hi & Ho).
      assert (Hpl : p < length (u_vars w)) by (apply nth_error_Some; congruence).
      assert (Hil : i < length (u_objs w)) by (apply nth_error_Some; congruence).
      split; [|cbn [u_vars]; apply nth_error_upd_eq; auto].
      split; [|split; [|split]]; cbn [u_vars u_objs].
      + rewrite !upd_length; auto.
      + intros q y c. rewrite !nth_error_updx, <- Hl.
        destruct (Nat.eqb_spec p q) as [->|N].
        * destruct (q <? _); [|discriminate]. intros [= <-] [= <-]. reflexivity.
        * intros Hy Hc. specialize (Hr _ _ _ Hy Hc).
          destruct c as [[z|]|]; cbn in *; auto.
          destruct Hr as (j & -> & Hj). exists j. split; auto.
          rewrite nth_error_upd_neq; auto. intros ->. apply N. eapply Hi; eauto.
      + intros a b j. rewrite !nth_error_updx.
        destruct (p =? a), (p =? b); try destruct (p <? _); try discriminate. apply Hi.
      + intros j y. rewrite nth_error_updx.
        destruct (Nat.eqb_spec i j) as [->|N].
        * destruct (j <? _); discriminate.
        * intros Hy. destruct (Ho _ _ Hy) as [q Hq]. exists q.
          rewrite nth_error_upd_neq; auto. intros ->. congruence.
    - subst v. exists w. split.
      + unfold u_clean. rewrite (u_field_at _ _ _ Hv). reflexivity.
      + split; [|exact Hv].
        assert (E : w = u_set w p (Present None)).
        { destruct w as [ob va]; unfold u_set; cbn in *. f_equal. symmetry.
          clear -Hv. revert p Hv; induction va; intros [|p] Hv; cbn in *; try discriminate.
          - injection Hv as ->; auto.
          - f_equal; auto. }
        rewrite E. eapply u_inv_set; eauto; try discriminate. cbn. reflexivity.
  Qed.

  Lemma u_xfer_ok w s p q o c :
    u_inv w s -> p <> q ->
    (exists v, nth_error (u_vars w) p = Some v /\ forall i, v <> Present (Some i)) ->
    nth_error (u_vars w) q = Some (Present o) -> nth_error s q = Some (Some c) ->
    u_inv (u_set (u_set w p (Present o)) q (Present None))
          (upd (upd s p (Some c)) q (Some None)).
  Proof.
    intros H Npq (v & Hv & Hn) Hq Hs.
    assert (Hrel := proj1 (proj2 H) _ _ _ Hq Hs).
    destruct H as (Hl & Hr & Hi & Ho).
    assert (Hpl : p < length (u_vars w)) by (apply nth_error_Some; congruence).
    assert (Hql : q < length (u_vars w)) by (apply nth_error_Some; congruence).
    assert (Look : forall a, nth_error (upd (upd (u_vars w) p (Present o)) q (Present None)) a =
              if q =? a then Some (Present None) else if p =? a then Some (Present o)
              else nth_error (u_vars w) a).
    { intros a. rewrite nth_error_updx, upd_length. destruct (q =? a).
      - apply Nat.ltb_lt in Hql. rewrite Hql. reflexivity.
      - rewrite nth_error_updx. destruct (p =? a); auto.
        apply Nat.ltb_lt in Hpl. rewrite Hpl. reflexivity. }
    split; [|split; [|split]]; cbn [u_set u_vars u_objs].
    - rewrite !upd_length; auto.
    - intros a x d. rewrite Look. rewrite !nth_error_updx, upd_length, <- Hl.
      apply Nat.ltb_lt in Hql, Hpl. rewrite Hql, Hpl.
      destruct (q =? a); [intros [= <-] [= <-]; reflexivity|].
      destruct (p =? a); [intros [= <-] [= <-]; exact Hrel|]. apply Hr.
    - intros a b i. rewrite !Look.
      destruct (Nat.eqb_spec q a), (Nat.eqb_spec q b); try discriminate.
      destruct (Nat.eqb_spec p a), (Nat.eqb_spec p b).
      + congruence.
      + intros [= ->] Hb. exfalso. apply n0. eapply Hi; eauto.
      + intros Ha [= ->]. exfalso. apply n. eapply Hi; eauto.
      + apply Hi.
    - intros i x Hx. destruct (Ho _ _ Hx) as [a Ha].
      destruct (Nat.eq_dec a q) as [->|Na].
      + exists p. rewrite Look. destruct (Nat.eqb_spec q p); [congruence|].
        rewrite Nat.eqb_refl. congruence.
      + exists a. rewrite Look.
        destruct (Nat.eqb_spec q a); [congruence|].
        destruct (Nat.eqb_spec p a); [|auto].
        subst a. exfalso. rewrite Hv in Ha. injection Ha as ->. eapply Hn; eauto.
  Qed.

  Lemma upd_upd_eq {B} (l : list B) i x y : upd (upd l i x) i y = upd l i y.
  Proof. revert i; induction l; intros [|i]; cbn; auto. f_equal; auto. Qed.

  Lemma u_step_ok w s o :
    u_inv w s -> u_documented s o ->
    exists w', u_step w o = Ok w' /\ u_inv w' (u_spec s o).
  Proof.
    intros H D. destruct o as [p x|p|p q|p q|p|p]; cbn [u_documented u_spec u_step] in *.
    - destruct (u_inv_lookup _ _ _ _ H D) as (v & Hv & ->).
      unfold u_new, u_fresh. rewrite Hv. cbn [bind].
      eexists. split; [reflexivity|].
      destruct H as (Hl & Hr & Hi & Ho).
      assert (Hpl : p < length (u_vars w)) by (apply nth_error_Some; congruence).
      assert (B : forall i y, nth_error (u_objs w) i = Some y -> i < length (u_objs w)).
      { intros i y Hy. apply nth_error_Some. congruence. }
      assert (Fr : forall a, nth_error (u_vars w) a = Some (Present (Some (length (u_objs w)))) -> False).
      { intros a Ha. destruct (nth_error s a) as [c|] eqn:E.
        - specialize (Hr _ _ _ Ha E). destruct c as [[y|]|]; cbn in Hr; try discriminate.
          destruct Hr as (j & [= <-] & Hj). apply B in Hj. lia.
        - apply nth_error_None in E. assert (a < length (u_vars w)) by (apply nth_error_Some; congruence). lia. }
      split; [|split; [|split]]; cbn [u_vars u_objs].
      + rewrite !upd_length; auto.
      + intros q y c. rewrite !nth_error_updx, <- Hl.
        destruct (p =? q).
        * destruct (p <? _); [|discriminate]. intros [= <-] [= <-]. cbn.
          eexists. split; [reflexivity|]. rewrite nth_error_app2, Nat.sub_diag; auto.
        * intros Hy Hc. specialize (Hr _ _ _ Hy Hc).
          destruct c as [[z|]|]; cbn in *; auto.
          destruct Hr as (j & -> & Hj). exists j. split; auto.
          rewrite nth_error_app1; eauto.
      + intros a b i. rewrite !nth_error_updx.
        destruct (Nat.eqb_spec p a), (Nat.eqb_spec p b); try congruence.
        * destruct (p <? _); [|discriminate]. intros [= <-] Hb. exfalso; eauto.
        * destruct (p <? _); [|discriminate]. intros Ha [= <-]. exfalso; eauto.
        * apply Hi.
      + intros i y Hy.
        destruct (Nat.lt_ge_cases i (length (u_objs w))) as [L|L].
        * rewrite nth_error_app1 in Hy by auto. destruct (Ho _ _ Hy) as [a Ha].
          exists a. rewrite nth_error_upd_neq; auto. congruence.
        * exists p. rewrite nth_error_upd_eq by auto.
          assert (i < length (u_objs w ++ [Some x])) by (eapply nth_error_Some; congruence).
          rewrite app_length in H. cbn in H. do 3 f_equal. lia.
    - destruct (u_inv_lookup _ _ _ _ H D) as (v & Hv & ->).
      unfold u_empty, u_fresh. rewrite Hv. cbn [bind].
      eexists. split; [reflexivity|]. eapply u_inv_set; eauto; try discriminate. reflexivity.
    - destruct D as (Dp & c & Dq).
      destruct (u_inv_lookup _ _ _ _ H Dp) as (v & Hv & ->).
      destruct (u_inv_lookup _ _ _ _ H Dq) as (v & Hq & Hrel).
      assert (exists o, v = Present o) as [o ->].
      { destruct c as [x|]; cbn in Hrel; [destruct Hrel as (i & -> & _)|subst v]; eauto. }
      unfold u_move, u_fresh. rewrite Hv, (u_field_at _ _ _ Hq). cbn [bind].
      eexists. split; [reflexivity|].
      unfold content. unfold present in Dq. rewrite Dq.
      apply u_xfer_ok; auto; [congruence|]. exists Absent; split; auto; discriminate.
    - destruct D as ((c & Dp) & d & Dq).
      destruct (u_clean_ok _ _ _ _ H Dp) as (w1 & Hc & H1 & Hp1).
      unfold u_assign. rewrite Hc. cbn [bind].
      destruct (Nat.eqb_spec p q) as [<-|N].
      + rewrite (u_field_at _ _ _ Hp1). cbn [bind].
        eexists. split; [reflexivity|].
        assert (E : u_set (u_set w1 p (Present None)) p (Present None) = u_set w1 p (Present None)).
        { unfold u_set; cbn. rewrite upd_upd_eq. reflexivity. }
        rewrite E. rewrite <- (upd_upd_eq s p (Some None) (Some None)).
        eapply u_inv_set; eauto; try discriminate. reflexivity.
      + assert (Dq1 : nth_error (upd s p (Some None)) q = Some (Some d))
          by (rewrite nth_error_upd_neq; auto).
        destruct (u_inv_lookup _ _ _ _ H1 Dq1) as (v & Hq & Hrel).
        assert (exists o, v = Present o) as [o ->].
        { destruct d as [x|]; cbn in Hrel; [destruct Hrel as (i & -> & _)|subst v]; eauto. }
        rewrite (u_field_at _ _ _ Hq). cbn [bind].
        eexists. split; [reflexivity|].
        unfold content. unfold present in Dq. rewrite Dq.
        rewrite <- (upd_upd_eq s p (Some None) (Some d)).
        apply u_xfer_ok; auto. exists (Present None); split; auto; discriminate.
    - destruct D as (c & Dp). destruct (u_clean_ok _ _ _ _ H Dp) as (w1 & Hc & H1 & _); eauto.
    - destruct D as (c & Dp). destruct (u_clean_ok _ _ _ _ H Dp) as (w1 & Hc & H1 & Hp1).
      unfold u_destroy. rewrite Hc. cbn [bind].
      eexists. split; [reflexivity|]. rewrite <- (upd_upd_eq s p (Some None) None).
      eapply u_inv_set; eauto; try discriminate. reflexivity.
  Qed.

  Lemma u_run_ok os : forall w s,
    u_inv w s -> u_ok s os -> exists w', u_run w os = Ok w' /\ u_inv w' (u_result s os).
  Proof.
    induction os as [|o os IH]; intros w s H D; cbn in *.
    - eauto.
    - destruct D as [D1 D2]. destruct (u_step_ok _ _ _ H D1) as (w1 & E & H1).
      rewrite E. cbn [bind]. eauto.
  Qed.

  Lemma nth_error_repeat' {B} (x : B) n p y : nth_error (repeat x n) p = Some y -> y = x.
  Proof. intros E. apply nth_error_In in E. eapply repeat_spec; eauto. Qed.

  Lemma u_start_inv n : u_inv (@u_start A n) (repeat None n).
  Proof.
    split; [|split; [|split]]; cbn.
    - rewrite !repeat_length; auto.
    - intros p v c Hv Hc. apply nth_error_repeat' in Hv, Hc. subst. reflexivity.
    - intros p q i Hp. apply nth_error_repeat' in Hp. discriminate.
    - intros [|i] x; discriminate.
  Qed.
End Unique.

Section Shared.
  Context {A : Type}.

  Definition tr (c : option (option nat)) : svar :=
    match c with
    | None => SAbsent
    | Some None => SPresent Nil
    | Some (Some o) => SPresent (To o)
    end.

  Definition count (o : nat) (v : list (option (option nat))) : nat :=
    length (filter (is_owner o) v).
  Definition one (o : nat) (c : option (option nat)) : nat :=
    if is_owner o c then 1 else 0.

  Lemma count_upd o v p c c' :
    nth_error v p = Some c -> count o (upd v p c') + one o c = count o v + one o c'.
  Proof.
    unfold count, one. revert p; induction v as [|h t IH]; intros [|p] H; cbn in *; try discriminate.
    - injection H as ->. destruct (is_owner o c), (is_owner o c'); cbn; lia.
    - specialize (IH _ H). destruct (is_owner o h); cbn; lia.
  Qed.

  Lemma count_le o v : count o v <= length v.
  Proof. unfold count. induction v as [|h t IH]; cbn; [lia|]. destruct (is_owner o h); cbn; lia. Qed.

  Definition s_inv (w : sworld A) (s : sspec A) : Prop :=
    s_vars w = map tr (ss_vars s) /\
    length (s_objs w) = length (ss_vals s) /\
    (forall o x, nth_error (ss_vals s) o = Some x ->
       nth_error (s_objs w) o = Some (Some (size_t (Z.of_nat (count o (ss_vars s)) - 1), x))) /\
    (forall p o, nth_error (ss_vars s) p = Some (Some (Some o)) -> o < length (ss_vals s)).

  Lemma map_upd {B C} (f : B -> C) l i x : map f (upd l i x) = upd (map f l) i (f x).
  Proof. revert i; induction l; intros [|i]; cbn; auto. f_equal; auto. Qed.

  Lemma s_lookup w s p c :
    s_inv w s -> nth_error (ss_vars s) p = Some c -> nth_error (s_vars w) p = Some (tr c).
  Proof. intros (-> & _) H. apply map_nth_error; auto. Qed.

  Lemma size_t_small z : (0 <= z < 2 ^ 64)%Z -> size_t z = z.
  Proof. intros. unfold size_t. apply Z.mod_small; auto. Qed.

  Lemma size_t_add a b : size_t (size_t a + b) = size_t (a + b).
  Proof. unfold size_t. apply Zplus_mod_idemp_l. Qed.

  Lemma size_t_pred_zero k :
    (0 <= k < 2 ^ 64)%Z -> k <> 2%Z -> size_t (k - 2) <> 0%Z.
  Proof.
    intros B N E. unfold size_t in E.
    destruct (Z.lt_ge_cases k 2) as [L|L].
    - rewrite <- (Z_mod_plus_full (k - 2) 1) in E. rewrite Z.mod_small in E; lia.
    - rewrite Z.mod_small in E; lia.
  Qed.

  Lemma s_val w s p o :
    s_inv w s -> nth_error (ss_vars s) p = Some (Some (Some o)) ->
    exists x, nth_error (ss_vals s) o = Some x /\
      nth_error (s_objs w) o = Some (Some (size_t (Z.of_nat (count o (ss_vars s)) - 1), x)).
  Proof.
    intros (_ & Hl & Ho & Hb) Hp.
    assert (B := Hb _ _ Hp). destruct (nth_error (ss_vals s) o) as [x|] eqn:E.
    - exists x. split; auto.
    - apply nth_error_None in E. lia.
  Qed.

  (** Changing which object one variable refers to, together with the counters. *)
  Lemma s_inv_upd w s p c c' objs' :
    s_inv w s -> nth_error (ss_vars s) p = Some c ->
    (forall o, c' = Some (Some o) -> o < length (ss_vals s)) ->
    length objs' = length (s_objs w) ->
    (forall o x, nth_error (ss_vals s) o = Some x ->
       nth_error objs' o = Some (Some (size_t (Z.of_nat (count o (upd (ss_vars s) p c')) - 1), x))) ->
    s_inv (SW objs' (upd (s_vars w) p (tr c'))) (SS (upd (ss_vars s) p c') (ss_vals s)).
  Proof.
    intros (Hv & Hl & Ho & Hb) Hp Hc' Hlen Hobj.
    split; [|split; [|split]]; cbn [s_vars s_objs ss_vars ss_vals].
    - rewrite map_upd, Hv. reflexivity.
    - lia.
    - exact Hobj.
    - intros q o. rewrite nth_error_updx. destruct (p =? q).
      + destruct (_ <? _); [|discriminate]. intros [= E]; auto.
      + apply Hb.
  Qed.

  (** Replace what [p] refers to by nothing; the counter of the old object falls by one. *)
  Lemma s_clean_ok N w s p c c' :
    s_inv w s -> length (ss_vars s) = N -> (Z.of_nat N < 2 ^ 64)%Z ->
    nth_error (ss_vars s) p = Some (Some c) -> c' = None \/ c' = Some None ->
    (forall o, c = Some o -> count o (ss_vars s) <> 2) ->
    exists w', s_clean w p = Ok w' /\ s_vars w' = s_vars w /\
      s_inv (s_set w' p (tr c')) (SS (upd (ss_vars s) p c') (ss_vals s)).
  Proof.
    intros H HN HB Hp Hc' Hd.
    assert (Hpv := s_lookup _ _ _ _ H Hp).
    assert (Z1 : forall o, one o c' = 0) by (intros o; destruct Hc'; subst; reflexivity).
    assert (Zc : forall o, c' <> Some (Some o)) by (intros o; destruct Hc'; subst; discriminate).
    unfold s_clean, s_field. rewrite Hpv.
    destruct c as [o|]; cbn [tr bind].
    - destruct (s_val _ _ _ _ H Hp) as (x & Hx & Hobj).
      unfold s_get. rewrite Hobj. cbn [bind].
      assert (Hk := count_le o (ss_vars s)).
      assert (E : size_t (size_t (Z.of_nat (count o (ss_vars s)) - 1) - 1) =
                  size_t (Z.of_nat (count o (ss_vars s)) - 2)).
      { unfold Z.sub at 1. rewrite size_t_add. f_equal. lia. }
      rewrite E.
      assert (size_t (Z.of_nat (count o (ss_vars s)) - 2) <> 0%Z).
      { apply size_t_pred_zero; [lia|]. specialize (Hd o eq_refl). lia. }
      destruct (Z.eqb_spec (size_t (Z.of_nat (count o (ss_vars s)) - 2)) 0); [contradiction|].
      eexists. split; [reflexivity|]. split; [reflexivity|].
      unfold s_set. cbn [s_objs s_vars].
      eapply s_inv_upd; eauto.
      + intros j Hj. exfalso; eapply Zc; eauto.
      + apply upd_length.
      + intros j y Hy. assert (C := count_upd j _ _ _ c' Hp).
        rewrite Z1 in C. unfold one in C. cbn [is_owner] in C.
        destruct (Nat.eqb_spec o j) as [<-|Nj].
        * rewrite nth_error_upd_eq by (apply nth_error_Some; congruence).
          assert (x = y) by congruence. subst y.
          do 4 f_equal. lia.
        * rewrite nth_error_upd_neq by auto.
          destruct H as (_ & _ & Ho & _). rewrite (Ho _ _ Hy). do 5 f_equal. lia.
    - eexists. split; [reflexivity|]. split; [reflexivity|].
      eapply s_inv_upd; eauto.
      + intros j Hj. exfalso; eapply Zc; eauto.
      + intros j y Hy. assert (C := count_upd j _ _ _ c' Hp).
        rewrite Z1 in C. unfold one in C. cbn [is_owner] in C.
        destruct H as (_ & _ & Ho & _). rewrite (Ho _ _ Hy). do 5 f_equal. lia.
  Qed.

  Lemma s_set_set (w : sworld A) p a b : s_set (s_set w p a) p b = s_set w p b.
  Proof. unfold s_set. cbn. rewrite upd_upd_eq. reflexivity. Qed.

  (** [p] refers to nothing and takes a share of the object [o]. *)
  Lemma s_share_ok w s p c o :
    s_inv w s -> nth_error (ss_vars s) p = Some c -> (forall j, c <> Some (Some j)) ->
    o < length (ss_vals s) ->
    exists w', s_incr (s_set w p (SPresent (To o))) (To o) = Ok w' /\
      s_inv w' (SS (upd (ss_vars s) p (Some (Some o))) (ss_vals s)).
  Proof.
    intros H Hp Hc Hb.
    destruct (nth_error (ss_vals s) o) as [x|] eqn:Hx.
    2:{ apply nth_error_None in Hx. lia. }
    assert (Hobj := proj1 (proj2 (proj2 H)) _ _ Hx).
    unfold s_incr, s_get, s_set. cbn [s_objs s_vars]. rewrite Hobj. cbn [bind].
    eexists. split; [reflexivity|].
    change (SPresent (To o)) with (tr (Some (Some o))).
    assert (Z1 : forall j, one j c = 0).
    { intros j. unfold one. destruct c as [[i|]|]; cbn; auto. exfalso; eapply Hc; eauto. }
    eapply s_inv_upd; eauto.
    - intros j [= <-]; auto.
    - apply upd_length.
    - intros j y Hy. assert (C := count_upd j _ _ _ (Some (Some o)) Hp).
      rewrite Z1 in C. unfold one in C. cbn [is_owner] in C.
      destruct (Nat.eqb_spec o j) as [<-|Nj].
      + rewrite nth_error_upd_eq by (apply nth_error_Some; congruence).
        assert (x = y) by congruence. subst y.
        rewrite size_t_add. do 4 f_equal. lia.
      + rewrite nth_error_upd_neq by auto.
        destruct H as (_ & _ & Ho & _). rewrite (Ho _ _ Hy). do 5 f_equal. lia.
  Qed.

  (** [p] refers to nothing and takes what [q] refers to. *)
  Lemma s_take_ok w s p q c d :
    s_inv w s -> nth_error (ss_vars s) p = Some c -> (forall j, c <> Some (Some j)) ->
    p <> q -> nth_error (ss_vars s) q = Some (Some d) ->
    exists m, s_field w q = Ok m /\
      s_inv (s_set (s_set w p (SPresent m)) q (SPresent Nil))
            (SS (upd (upd (ss_vars s) p (Some d)) q (Some None)) (ss_vals s)).
  Proof.
    intros H Hp Hc N Hq. assert (Hqv := s_lookup _ _ _ _ H Hq).
    assert (Z1 : forall j, one j c = 0).
    { intros j. unfold one. destruct c as [[i|]|]; cbn; auto. exfalso; eapply Hc; eauto. }
    unfold s_field. rewrite Hqv.
    assert (exists m, tr (Some d) = SPresent m) as [m Hm] by (destruct d; cbn; eauto).
    rewrite Hm. exists m. split; [reflexivity|]. rewrite <- Hm.
    assert (Hq' : nth_error (upd (ss_vars s) p (Some d)) q = Some (Some d))
      by (rewrite nth_error_upd_neq; auto).
    destruct H as (Hv & Hl & Ho & Hb).
    split; [|split; [|split]]; cbn [s_set s_vars s_objs ss_vars ss_vals].
    - rewrite !map_upd, Hv. reflexivity.
    - auto.
    - intros j y Hy. rewrite (Ho _ _ Hy).
      assert (C := count_upd j _ _ _ (Some d) Hp).
      assert (C' := count_upd j _ _ _ (Some None) Hq').
      rewrite Z1 in C. change (one j (Some None)) with 0 in C'. do 5 f_equal. lia.
    - intros a o. rewrite nth_error_updx. destruct (q =? a).
      + destruct (_ <? _); discriminate.
      + rewrite nth_error_updx. destruct (p =? a).
        * destruct (_ <? _); [|discriminate]. intros [= ->]. eauto.
        * apply Hb.
  Qed.

  Lemma s_step_ok N w s o :
    s_inv w s -> length (ss_vars s) = N -> (Z.of_nat N < 2 ^ 64)%Z -> s_covered s o ->
    exists w', s_step w o = Ok w' /\ s_inv w' (s_spec s o) /\ length (ss_vars (s_spec s o)) = N.
  Proof.
    intros H HN HB D.
    destruct o as [p|p x|p q|p q|p q|p q|p|p]; cbn [s_covered s_spec s_step] in *.
    - contradiction.
    - assert (Hv := s_lookup _ _ _ _ H D). cbn in Hv.
      unfold s_new, s_fresh. rewrite Hv. cbn [bind].
      eexists. split; [reflexivity|].
      split; [|cbn [ss_vars]; rewrite upd_length; auto].
      destruct H as (HV & Hl & Ho & Hb).
      split; [|split; [|split]]; cbn [s_vars s_objs ss_vars ss_vals].
      + rewrite map_upd, HV. cbn. rewrite Hl. reflexivity.
      + rewrite !app_length; cbn; lia.
      + intros j y Hy. assert (C := count_upd j _ _ _ (Some (Some (length (ss_vals s)))) D).
        unfold one in C. cbn [is_owner] in C.
        destruct (Nat.eqb_spec (length (ss_vals s)) j) as [<-|Nj].
        * rewrite nth_error_app2 in Hy by auto. rewrite Nat.sub_diag in Hy. cbn in Hy.
          injection Hy as <-. rewrite nth_error_app2 by lia. rewrite Hl, Nat.sub_diag. cbn.
          assert (count (length (ss_vals s)) (ss_vars s) = 0).
          { clear -Hb. unfold count. destruct (filter _ _) as [|h t] eqn:E; auto.
            assert (I : In h (filter (is_owner (length (ss_vals s))) (ss_vars s))) by (rewrite E; left; auto).
            apply filter_In in I. destruct I as [I J].
            apply In_nth_error in I. destruct I as [p I].
            destruct h as [[i|]|]; cbn in J; try discriminate.
            apply Nat.eqb_eq in J. subst i. apply Hb in I. lia. }
          do 3 f_equal. replace (count _ _) with 1 by lia. reflexivity.
        * assert (L : j < length (ss_vals s)).
          { assert (j < length (ss_vals s ++ [x])) by (apply nth_error_Some; congruence).
            rewrite app_length in H. cbn in H. lia. }
          rewrite nth_error_app1 in Hy by auto. rewrite nth_error_app1 by lia.
          rewrite (Ho _ _ Hy). do 5 f_equal. lia.
      + intros a o. rewrite nth_error_updx, app_length. cbn [length]. destruct (p =? a).
        * destruct (_ <? _); [|discriminate]. intros [= <-]. lia.
        * intros E. apply Hb in E. lia.
    - destruct D as (Dp & o & Dq).
      assert (Hv := s_lookup _ _ _ _ H Dp). cbn in Hv.
      assert (Hq := s_lookup _ _ _ _ H Dq). cbn in Hq.
      unfold s_copy, s_fresh, s_field. rewrite Hv, Hq. cbn [bind].
      unfold target. unfold owns in Dq. rewrite Dq.
      destruct (s_share_ok w s p None o) as (w' & E & H'); auto; try discriminate.
      { apply (proj2 (proj2 (proj2 H)) _ _ Dq). }
      exists w'. split; [exact E|]. split; [exact H'|]. cbn [ss_vars]. rewrite upd_length; auto.
    - destruct D as (Dp & c & Dq).
      assert (Hv := s_lookup _ _ _ _ H Dp). cbn in Hv.
      destruct (s_take_ok w s p q None c) as (m & Hm & H'); auto; try discriminate; [congruence|].
      unfold s_move, s_fresh. rewrite Hv. cbn [bind]. rewrite Hm. cbn [bind].
      eexists. split; [reflexivity|]. unfold target. rewrite Dq. split; auto.
      cbn [ss_vars]. rewrite !upd_length; auto.
    - destruct D as (((c & Dp) & Dd) & o & Dq).
      destruct (s_clean_ok N w s p c (Some None)) as (w1 & E & Ev & H1); auto.
      { intros j ->. apply Dd. exact Dp. }
      unfold s_assign. rewrite E. cbn [bind].
      unfold s_field. rewrite Ev. rewrite (s_lookup _ _ _ _ H Dq). cbn [tr bind].
      unfold target. unfold owns in Dq. rewrite Dq.
      destruct (s_share_ok _ _ p (Some None) o H1) as (w' & E' & H').
      { cbn [ss_vars]. apply nth_error_upd_eq. apply nth_error_Some. congruence. }
      { discriminate. }
      { cbn [ss_vals]. apply (proj2 (proj2 (proj2 H)) _ _ Dq). }
      rewrite s_set_set in E'. exists w'. split; [exact E'|]. cbn [ss_vars ss_vals] in H'.
      rewrite upd_upd_eq in H'. split; auto. cbn [ss_vars]. rewrite upd_length; auto.
    - destruct D as (((c & Dp) & Dd) & d & Dq).
      destruct (s_clean_ok N w s p c (Some None)) as (w1 & E & Ev & H1); auto.
      { intros j ->. apply Dd. exact Dp. }
      unfold s_move_assign. rewrite E. cbn [bind].
      destruct (Nat.eq_dec p q) as [<-|Npq].
      + unfold s_field. rewrite Ev, (s_lookup _ _ _ _ H Dp).
        assert (exists m, tr (Some c) = SPresent m) as [m Hm] by (destruct c; cbn; eauto).
        rewrite Hm. cbn [bind]. eexists. split; [reflexivity|].
        rewrite s_set_set, upd_upd_eq. split; auto. cbn [ss_vars]. rewrite upd_length; auto.
      + destruct (s_take_ok _ _ p q (Some None) d H1) as (m & Hm & H'); auto.
        { cbn [ss_vars]. apply nth_error_upd_eq. apply nth_error_Some. congruence. }
        { discriminate. }
        { cbn [ss_vars]. rewrite nth_error_upd_neq; auto. }
        assert (Hm' : s_field w1 q = Ok m).
        { unfold s_field, s_set in *. cbn [s_vars] in Hm. rewrite nth_error_upd_neq in Hm; auto. }
        rewrite Hm'. cbn [bind]. rewrite s_set_set in H'.
        cbn [ss_vars ss_vals] in H'. rewrite upd_upd_eq in H'.
        unfold target. rewrite Dq. eexists. split; [reflexivity|]. split; auto.
        cbn [ss_vars]. rewrite !upd_length; auto.
    - destruct (s_clean_ok N w s p None (Some None)) as (w1 & E & Ev & H1); auto.
      { discriminate. }
      exists w1. split; auto. split; [|cbn [ss_vars]; rewrite upd_length; auto].
      assert (Eq : s_set w1 p (tr (Some None)) = w1); [|rewrite <- Eq; exact H1].
      unfold s_set. destruct w1 as [ob va]; cbn [s_objs s_vars] in *. f_equal.
      assert (Hv := s_lookup _ _ _ _ H D). rewrite <- Ev in Hv. cbn in Hv.
      clear -Hv. revert p Hv; induction va; intros [|p] Hv; cbn in *; try discriminate.
      + injection Hv as ->; auto.
      + f_equal; auto.
    - destruct D as ((c & Dp) & Dd).
      destruct (s_clean_ok N w s p c None) as (w1 & E & Ev & H1); auto.
      { intros j ->. apply Dd. exact Dp. }
      unfold s_destroy. rewrite E. cbn [bind]. eexists. split; [reflexivity|].
      split; auto. cbn [ss_vars]. rewrite upd_length; auto.
  Qed.

  Lemma s_run_ok N (HB : (Z.of_nat N < 2 ^ 64)%Z) os : forall w s,
    s_inv w s -> length (ss_vars s) = N -> s_ok s os ->
    exists w', s_run w os = Ok w' /\ s_inv w' (s_result s os) /\
               length (ss_vars (s_result s os)) = N.
  Proof.
    induction os as [|o os IH]; intros w s H HN D; cbn in *.
    - eauto.
    - destruct D as [D1 D2]. destruct (s_step_ok _ _ _ _ H HN HB D1) as (w1 & E & H1 & L1).
      rewrite E. cbn [bind]. eauto.
  Qed.

  Lemma s_start_inv n : s_inv (@s_start A n) (s_none n).
  Proof.
    split; [|split; [|split]]; cbn.
    - induction n; cbn; f_equal; auto.
    - reflexivity.
    - intros [|o]; discriminate.
    - intros p o E. apply nth_error_repeat' in E. discriminate.
  Qed.

  (** Dropping one of exactly two owners destroys the object. *)
  Lemma s_drop_two w s p o :
    s_inv w s -> owns s p o -> owners s o = 2 ->
    s_clean w p = Ok (SW (upd (s_objs w) o None) (upd (s_vars w) p (SPresent Nil))).
  Proof.
    intros H Hp Hc. destruct (s_val _ _ _ _ H Hp) as (x & Hx & Hobj).
    unfold s_clean, s_field. rewrite (s_lookup _ _ _ _ H Hp). cbn [tr bind].
    unfold s_get. rewrite Hobj. cbn [bind].
    change (count o (ss_vars s)) with (owners s o). rewrite Hc. reflexivity.
  Qed.

  (** clean() on one of several owners only lowers the counter. *)
  Lemma s_clean_many N w s p o :
    s_inv w s -> length (ss_vars s) = N -> (Z.of_nat N < 2 ^ 64)%Z ->
    owns s p o -> owners s o <> 2 ->
    exists x, nth_error (ss_vals s) o = Some x /\
    s_clean w p = Ok (SW (upd (s_objs w) o (Some (size_t (Z.of_nat (owners s o) - 2), x))) (s_vars w)).
  Proof.
    intros H HN HB Hp Hc. destruct (s_val _ _ _ _ H Hp) as (x & Hx & Hobj).
    exists x. split; auto.
    unfold s_clean, s_field. rewrite (s_lookup _ _ _ _ H Hp). cbn [tr bind].
    unfold s_get. rewrite Hobj. cbn [bind].
    change (count o (ss_vars s)) with (owners s o).
    assert (E : size_t (size_t (Z.of_nat (owners s o) - 1) - 1) =
                size_t (Z.of_nat (owners s o) - 2)).
    { unfold Z.sub at 1. rewrite size_t_add. f_equal. lia. }
    rewrite E. assert (Hk := count_le o (ss_vars s)). unfold count in Hk. fold (owners s o) in Hk.
    assert (size_t (Z.of_nat (owners s o) - 2) <> 0%Z).
    { apply size_t_pred_zero; lia. }
    destruct (Z.eqb_spec (size_t (Z.of_nat (owners s o) - 2)) 0); [contradiction|]. reflexivity.
  Qed.
End Shared.
