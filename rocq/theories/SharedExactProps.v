(** C25: exactly when the object of SharedPointers is destroyed, and which programs have undefined behaviour. *)
From Coq Require Import List Arith ZArith Lia Bool.
From Verif Require Import Base BaseLemmas PointersModel PointersSpec PointersProofs.
Import ListNotations.

Section Exact.
  Context {A : Type}.
  Implicit Types (w : sworld A) (s : xspec A).

  Record xinv w s : Prop := XI {
    xi_vars : s_vars w = map tr (x_vars s);
    xi_len : length (s_objs w) = length (x_vals s);
    xi_live : forall o x, nth_error (x_vals s) o = Some (Some x) ->
       nth_error (s_objs w) o = Some (Some (size_t (Z.of_nat (count o (x_vars s)) - 1), x));
    xi_dead : forall o, nth_error (x_vals s) o = Some None -> nth_error (s_objs w) o = Some None;
    xi_in : forall p o, nth_error (x_vars s) p = Some (Some (Some o)) -> o < length (x_vals s);
    xi_small : (Z.of_nat (length (x_vars s)) < 2 ^ 64)%Z }.

  Lemma xvar w s p : xinv w s -> nth_error (s_vars w) p = option_map tr (x_var s p).
  Proof. intros H. rewrite (xi_vars _ _ H). apply nth_error_map. Qed.
  Lemma xfree w s p : xinv w s -> s_fresh w p = if x_free s p then Ok tt else UB.
  Proof.
    intros H. unfold s_fresh, x_free. rewrite (xvar _ _ _ H). destruct (x_var s p) as [[[o|]|]|]; reflexivity.
  Qed.
  Lemma xfield w s p : xinv w s ->
    s_field w p = match x_var s p with
                  | Some (Some (Some o)) => Ok (To o)
                  | Some (Some None) => Ok Nil
                  | _ => UB
                  end.
  Proof. intros H. unfold s_field. rewrite (xvar _ _ _ H). destruct (x_var s p) as [[[o|]|]|]; reflexivity. Qed.
  Lemma xget w s p o : xinv w s -> x_var s p = Some (Some (Some o)) ->
    match nth_error (x_vals s) o with
    | Some (Some x) => nth_error (s_objs w) o = Some (Some (size_t (Z.of_nat (count o (x_vars s)) - 1), x)) /\ x_live s o = true
    | _ => nth_error (s_objs w) o = Some None /\ x_live s o = false
    end.
  Proof.
    intros H P. pose proof (xi_in _ _ H _ _ P) as B. unfold x_live.
    destruct (nth_error (x_vals s) o) as [[x|]|] eqn:E.
    - split; auto. apply (xi_live _ _ H); auto.
    - split; auto. apply (xi_dead _ _ H); auto.
    - apply nth_error_None in E. lia.
  Qed.

  Lemma dec_count k : size_t (size_t (Z.of_nat k - 1) - 1) = size_t (Z.of_nat k - 2).
  Proof. unfold Z.sub at 1. rewrite size_t_add. f_equal. lia. Qed.

  (** Changing what one variable refers to, together with the counters. *)
  Lemma xinv_upd w s p c c' objs' vals' :
    xinv w s -> x_var s p = Some c ->
    (forall o, c' = Some (Some o) -> o < length (x_vals s)) ->
    length objs' = length (s_objs w) -> length vals' = length (x_vals s) ->
    (forall o x, nth_error vals' o = Some (Some x) ->
       nth_error objs' o = Some (Some (size_t (Z.of_nat (count o (upd (x_vars s) p c')) - 1), x))) ->
    (forall o, nth_error vals' o = Some None -> nth_error objs' o = Some None) ->
    xinv (SW objs' (upd (s_vars w) p (tr c'))) (XS (upd (x_vars s) p c') vals').
  Proof.
    intros H P C L1 L2 O D. split; cbn [s_vars s_objs x_vars x_vals]; auto.
    - rewrite map_upd, (xi_vars _ _ H). reflexivity.
    - rewrite L1, L2. apply H.
    - intros q o. rewrite nth_error_updx. rewrite L2. destruct (p =? q); [|apply H].
      destruct (_ <? _); [|discriminate]. intros [= E]; auto.
    - rewrite upd_length. apply H.
  Qed.

  (** clean(): the released pointer is overwritten afterwards. *)
  Lemma xclean w s p : xinv w s ->
    match x_release s p with
    | Some s' => exists w', s_clean w p = Ok w' /\ xinv (s_set w' p (SPresent Nil)) s'
        /\ x_var s' p = Some (Some None) /\ length (x_vars s') = length (x_vars s)
        /\ (forall q, q <> p -> x_var s' q = x_var s q)
        /\ (forall q, q <> p -> s_field w' q = s_field w q)
        /\ (forall o, x_var s p = Some (Some (Some o)) ->
             nth_error (s_vars w') p = Some (SPresent (if x_owners s o =? 2 then Nil else To o)))
        /\ (x_var s p = Some (Some None) -> nth_error (s_vars w') p = Some (SPresent Nil))
    | None => s_clean w p = UB
    end.
  Proof.
    intros H. unfold x_release, s_clean. rewrite (xfield _ _ p H).
    destruct (x_var s p) as [[[o|]|]|] eqn:P; cbn [bind]; try reflexivity.
    - pose proof (xget _ _ _ _ H P) as G. unfold s_get.
      destruct (nth_error (x_vals s) o) as [[x|]|] eqn:V; destruct G as [G1 G2]; rewrite G1, G2; cbn [bind]; try reflexivity.
      rewrite dec_count. change (x_owners s o) with (count o (x_vars s)).
      assert (Hl : o < length (s_objs w)) by (apply nth_error_Some; congruence).
      assert (Hp : p < length (x_vars s)) by (apply nth_error_Some; unfold x_var in P; congruence).
      assert (Hq : p < length (s_vars w)) by (rewrite (xi_vars _ _ H), map_length; exact Hp).
      assert (C : forall j, count j (upd (x_vars s) p (Some None)) + (if o =? j then 1 else 0) = count j (x_vars s)).
      { intros j. pose proof (count_upd j _ _ _ (Some None) P) as C. unfold one in C. cbn [is_owner] in C. lia. }
      assert (W : forall (w' : sworld A) objs, s_vars w' = s_vars w \/ s_vars w' = upd (s_vars w) p (SPresent Nil) -> s_objs w' = objs ->
                  s_set w' p (SPresent Nil) = SW objs (upd (s_vars w) p (tr (Some None)))).
      { intros w' objs [E|E] <-; unfold s_set; rewrite E; [reflexivity|]. rewrite upd_upd_eq. reflexivity. }
      assert (Q : forall (v : list (option (option nat))) q, q <> p -> nth_error (upd v p (Some None)) q = nth_error v q)
        by (intros; apply nth_error_upd_neq; auto).
      destruct (Nat.eqb_spec (count o (x_vars s)) 2) as [E2|N2].
      + rewrite E2. change (size_t (Z.of_nat 2 - 2) =? 0)%Z with true. cbn iota.
        eexists. split; [reflexivity|]. split; [|split; [|split; [|split; [|split; [|split]]]]].
        * erewrite W; [|right; reflexivity|reflexivity]. eapply xinv_upd; eauto; try discriminate.
          -- apply upd_length.
          -- apply upd_length.
          -- intros j y. cbn [s_objs]. rewrite !nth_error_updx. destruct (Nat.eqb_spec o j) as [->|N].
             ++ destruct (_ <? _); discriminate.
             ++ intros J. rewrite (xi_live _ _ H _ _ J). pose proof (C j) as C'.
                destruct (Nat.eqb_spec o j); [contradiction|]. do 5 f_equal. lia.
          -- intros j. cbn [s_objs]. rewrite !nth_error_updx. rewrite <- (xi_len _ _ H).
             destruct (o =? j); [destruct (_ <? _); congruence|]. apply H.
        * unfold x_var. cbn [x_vars]. apply nth_error_upd_eq; auto.
        * cbn [x_vars]. apply upd_length.
        * intros q N. unfold x_var. cbn [x_vars]. apply Q; auto.
        * intros q N. unfold s_field. cbn [s_vars]. rewrite nth_error_upd_neq; auto.
        * intros j [= <-]. change (x_owners s o) with (count o (x_vars s)). rewrite E2. cbn [s_vars Nat.eqb]. apply nth_error_upd_eq; auto.
        * discriminate.
      + assert (Z0 : (size_t (Z.of_nat (count o (x_vars s)) - 2) =? 0)%Z = false).
        { apply Z.eqb_neq, size_t_pred_zero; [|lia]. pose proof (count_le o (x_vars s)). pose proof (xi_small _ _ H). lia. }
        rewrite Z0. eexists. split; [reflexivity|]. split; [|split; [|split; [|split; [|split; [|split]]]]].
        * erewrite W; [|left; reflexivity|reflexivity]. eapply xinv_upd; eauto; try discriminate.
          -- apply upd_length.
          -- intros j y J. cbn [s_objs]. rewrite nth_error_updx. pose proof (C j) as C'.
             destruct (Nat.eqb_spec o j) as [->|N].
             ++ apply Nat.ltb_lt in Hl. rewrite Hl. assert (x = y) by congruence. subst y. do 4 f_equal. lia.
             ++ rewrite (xi_live _ _ H _ _ J). do 5 f_equal. lia.
          -- intros j J. cbn [s_objs]. rewrite nth_error_upd_neq by congruence. apply H; auto.
        * unfold x_var. cbn [x_vars]. apply nth_error_upd_eq; auto.
        * cbn [x_vars]. apply upd_length.
        * intros q N. unfold x_var. cbn [x_vars]. apply Q; auto.
        * intros q N. reflexivity.
        * intros j [= <-]. change (x_owners s o) with (count o (x_vars s)).
          destruct (Nat.eqb_spec (count o (x_vars s)) 2); [contradiction|]. cbn [s_vars].
          rewrite (xvar _ _ _ H), P. reflexivity.
        * discriminate.
    - exists w. split; [reflexivity|]. assert (E : nth_error (s_vars w) p = Some (SPresent Nil)) by (rewrite (xvar _ _ _ H), P; reflexivity).
      split; [|repeat split; auto; discriminate].
      replace (s_set w p (SPresent Nil)) with w; auto. unfold s_set. destruct w as [ob va]. cbn [s_objs s_vars] in *. f_equal.
      clear -E. revert p E. induction va; intros [|p] E; cbn in *; try discriminate; [congruence|]. f_equal; auto.
  Qed.

  Lemma xshare w s p q c : xinv w s -> x_var s p = Some c -> (forall j, c <> Some (Some j)) ->
    match x_share s p q with
    | Some s' => exists m w', s_field w q = Ok m /\ s_incr (s_set w p (SPresent m)) m = Ok w' /\ xinv w' s'
    | None => forall m, s_field w q = Ok m -> s_incr (s_set w p (SPresent m)) m = UB
    end.
  Proof.
    intros H P N. unfold x_share. rewrite (xfield _ _ q H). destruct (x_var s q) as [[[o|]|]|] eqn:Q; try discriminate.
    - pose proof (xget _ _ _ _ H Q) as G. unfold s_incr, s_get, s_set. cbn [s_objs s_vars].
      destruct (nth_error (x_vals s) o) as [[x|]|] eqn:V; destruct G as [G1 G2]; rewrite G2.
      2,3: intros m [= <-]; cbn; rewrite G1; reflexivity.
      do 2 eexists. split; [reflexivity|]. cbn. rewrite G1. cbn [bind]. split; [reflexivity|].
      change (SPresent (To o)) with (tr (Some (Some o))). unfold x_put.
      assert (Z1 : forall j, one j c = 0).
      { intros j. unfold one. destruct c as [[i|]|]; cbn; auto. exfalso; eapply N; eauto. }
      eapply xinv_upd; eauto.
      + intros j [= <-]. apply (xi_in _ _ H _ _ Q).
      + apply upd_length.
      + intros j y J. pose proof (count_upd j _ _ _ (Some (Some o)) P) as C. rewrite Z1 in C. unfold one in C. cbn [is_owner] in C.
        destruct (Nat.eqb_spec o j) as [<-|Nj].
        * rewrite nth_error_upd_eq by (apply nth_error_Some; congruence). assert (x = y) by congruence. subst y.
          rewrite size_t_add. do 4 f_equal. lia.
        * rewrite nth_error_upd_neq by auto. rewrite (xi_live _ _ H _ _ J). do 5 f_equal. lia.
      + intros j J. rewrite nth_error_upd_neq by congruence. apply H; auto.
    - intros m [= <-]. reflexivity.
  Qed.

  Lemma xtake w s p q c : xinv w s -> x_var s p = Some c -> (forall j, c <> Some (Some j)) -> p <> q ->
    match x_take s p q with
    | Some s' => exists m, s_field w q = Ok m /\ xinv (s_set (s_set w p (SPresent m)) q (SPresent Nil)) s'
    | None => s_field w q = UB
    end.
  Proof.
    intros H P N D. unfold x_take. rewrite (xfield _ _ q H).
    assert (Z1 : forall j, one j c = 0).
    { intros j. unfold one. destruct c as [[i|]|]; cbn; auto. exfalso; eapply N; eauto. }
    assert (G : forall d m, x_var s q = Some (Some d) -> SPresent m = tr (Some d) ->
       xinv (s_set (s_set w p (SPresent m)) q (SPresent Nil)) (x_put (x_put s p (Some d)) q (Some None))).
    { intros d m Q ->. assert (Q' : nth_error (upd (x_vars s) p (Some d)) q = Some (Some d)) by (rewrite nth_error_upd_neq; auto).
      split; cbn [s_set s_vars s_objs x_put x_vars x_vals].
      - rewrite !map_upd, (xi_vars _ _ H). reflexivity.
      - apply H.
      - intros j y J. rewrite (xi_live _ _ H _ _ J).
        pose proof (count_upd j _ _ _ (Some d) P) as C. pose proof (count_upd j _ _ _ (Some None) Q') as C'.
        rewrite Z1 in C. change (one j (Some None)) with 0 in C'. do 5 f_equal. lia.
      - apply H.
      - intros a o. rewrite nth_error_updx. destruct (q =? a); [destruct (_ <? _); discriminate|].
        rewrite nth_error_updx. destruct (p =? a); [|apply H]. destruct (_ <? _); [|discriminate].
        intros [= ->]. apply (xi_in _ _ H _ _ Q).
      - rewrite !upd_length. apply H. }
    destruct (x_var s q) as [[[o|]|]|] eqn:Q; try reflexivity; eexists; (split; [reflexivity|]); apply G; auto.
  Qed.

  Lemma xstep w s o : xinv w s -> x_usual s o ->
    match x_step s o with
    | Some s' => exists w', s_step w o = Ok w' /\ xinv w' s'
    | None => s_step w o = UB
    end.
  Proof.
    intros H U. destruct o as [p|p x|p q|p q|p q|p q|p|p]; cbn [x_step s_step x_usual] in *; try contradiction.
    - unfold s_new. rewrite (xfree _ _ p H). destruct (x_free s p) eqn:F; cbn [bind]; [|reflexivity].
      unfold x_free in F. destruct (x_var s p) as [[c|]|] eqn:P; try discriminate.
      eexists. split; [reflexivity|]. split; cbn [s_vars s_objs x_vars x_vals].
      + rewrite map_upd, (xi_vars _ _ H), (xi_len _ _ H). reflexivity.
      + rewrite !app_length, (xi_len _ _ H). reflexivity.
      + intros j y J. pose proof (count_upd j _ _ _ (Some (Some (length (x_vals s)))) P) as C.
        unfold one in C. cbn [is_owner] in C. destruct (Nat.eqb_spec (length (x_vals s)) j) as [<-|Nj].
        * rewrite nth_error_app2, Nat.sub_diag in J by lia. injection J as <-.
          rewrite nth_error_app2; rewrite (xi_len _ _ H); [|lia]. rewrite Nat.sub_diag. cbn [nth_error].
          assert (Z0 : count (length (x_vals s)) (x_vars s) = 0).
          { pose proof (xi_in _ _ H) as Hb. clear -Hb. unfold count. destruct (filter _ _) as [|h t] eqn:E; auto.
            assert (I : In h (filter (is_owner (length (x_vals s))) (x_vars s))) by (rewrite E; left; auto).
            apply filter_In in I. destruct I as [I J]. apply In_nth_error in I. destruct I as [p I].
            destruct h as [[i|]|]; cbn in J; try discriminate. apply Nat.eqb_eq in J. subst i. apply Hb in I. lia. }
          do 3 f_equal. replace (count _ _) with 1 by lia. reflexivity.
        * assert (L : j < length (x_vals s)).
          { assert (B : j < length (x_vals s ++ [Some x])) by (apply nth_error_Some; congruence).
            rewrite app_length in B. cbn in B. lia. }
          rewrite nth_error_app1 in J by auto. rewrite nth_error_app1 by (rewrite (xi_len _ _ H); auto).
          rewrite (xi_live _ _ H _ _ J). do 5 f_equal. lia.
      + intros j J. assert (B : j < length (x_vals s ++ [Some x])) by (apply nth_error_Some; congruence).
        rewrite app_length in B. cbn in B. destruct (Nat.eq_dec j (length (x_vals s))) as [->|Nj].
        * rewrite nth_error_app2, Nat.sub_diag in J by lia. discriminate.
        * rewrite nth_error_app1 in J by lia. rewrite nth_error_app1 by (rewrite (xi_len _ _ H); lia). apply H; auto.
      + intros a j. rewrite nth_error_updx, app_length. cbn [length]. destruct (p =? a).
        * destruct (_ <? _); [|discriminate]. intros [= <-]. lia.
        * intros E. apply (xi_in _ _ H) in E. lia.
      + rewrite upd_length. apply H.
    - unfold s_copy. rewrite (xfree _ _ p H). destruct (x_free s p) eqn:F; cbn [bind]; [|reflexivity].
      unfold x_free in F. destruct (x_var s p) as [[c|]|] eqn:P; try discriminate.
      pose proof (xshare w s p q None H P) as S. destruct (x_share s p q) as [s'|].
      + destruct S as (m & w' & E1 & E2 & I); [discriminate|]. rewrite E1. cbn [bind]. eauto.
      + destruct (s_field w q) as [m| |] eqn:E; cbn [bind]; [apply S; [discriminate|reflexivity]|reflexivity|].
        exfalso. rewrite (xfield _ _ q H) in E. destruct (x_var s q) as [[[i|]|]|]; discriminate.
    - unfold s_move. rewrite (xfree _ _ p H). destruct (x_free s p) eqn:F; cbn [bind]; [|reflexivity].
      unfold x_free in F. destruct (x_var s p) as [[c|]|] eqn:P; try discriminate.
      destruct (Nat.eq_dec p q) as [<-|D].
      + unfold x_take. rewrite (xfield _ _ p H), P. reflexivity.
      + pose proof (xtake w s p q None H P) as S. destruct (x_take s p q) as [s'|].
        * destruct S as (m & E1 & I); [discriminate|auto|]. rewrite E1. cbn [bind]. eauto.
        * rewrite S; [reflexivity|discriminate|auto].
    - unfold s_assign. pose proof (xclean w s p H) as K. destruct (Nat.eqb_spec p q) as [<-|D].
      + destruct (x_var s p) as [[[o|]|]|] eqn:P; unfold x_release in K; rewrite P in K.
        * destruct (x_live s o) eqn:L; cbn [andb].
          2:{ rewrite K. reflexivity. }
          destruct K as (w' & E & I & V & Ln & _ & _ & Fo & _). rewrite E. cbn [bind]. unfold s_field. rewrite (Fo o eq_refl).
          destruct (x_owners s o =? 2) eqn:T; cbn [bind negb]; [reflexivity|].
          assert (Hp : p < length (x_vars s)) by (apply nth_error_Some; unfold x_var in P; congruence).
          pose proof (count_upd o _ _ _ (Some None) P) as C. unfold one in C. cbn [is_owner] in C.
          rewrite Nat.eqb_refl in C.
          set (s1 := XS (upd (x_vars s) p (Some None)) (x_vals s)) in *.
          assert (E3 : s_set (s_set w' p (SPresent Nil)) p (SPresent (To o)) = s_set w' p (SPresent (To o))) by apply s_set_set.
          unfold x_live in L. destruct (nth_error (x_vals s) o) as [[x|]|] eqn:X; try discriminate.
          pose proof (xi_live _ _ I o x X) as G. cbn [s_objs s_set] in G.
          unfold s_incr, s_get. cbn [s_set s_objs s_vars]. rewrite G. cbn [bind]. eexists. split; [reflexivity|].
          assert (Y : s = XS (upd (x_vars s1) p (Some (Some o))) (x_vals s1)).
          { unfold s1. cbn [x_vars x_vals]. rewrite upd_upd_eq. destruct s as [v l]. cbn [x_vars x_vals]. f_equal.
            clear -P. unfold x_var in P. cbn in P. revert p P. induction v; intros [|p] P; cbn in *; try discriminate; [congruence|]. f_equal; auto. }
          rewrite Y. change (SPresent (To o)) with (tr (Some (Some o))).
          replace (upd (s_vars w') p (tr (Some (Some o)))) with (upd (s_vars (s_set w' p (SPresent Nil))) p (tr (Some (Some o))))
            by (cbn [s_set s_vars]; apply upd_upd_eq).
          eapply (xinv_upd _ _ _ (Some None)); eauto.
          -- intros j [= <-]. unfold s1. cbn [x_vals]. apply nth_error_Some. congruence.
          -- apply upd_length.
          -- intros j y J. pose proof (count_upd j _ _ _ (Some (Some o)) V) as C1. unfold one in C1. cbn [is_owner] in C1.
             destruct (Nat.eqb_spec o j) as [<-|Nj].
             ++ rewrite nth_error_upd_eq by (apply nth_error_Some; congruence). assert (x = y) by (unfold s1 in J; cbn in J; congruence). subst y.
                rewrite size_t_add. do 4 f_equal. lia.
             ++ rewrite nth_error_upd_neq by auto. pose proof (xi_live _ _ I _ _ J) as G'. cbn [s_objs s_set] in G'. rewrite G'. do 5 f_equal. lia.
          -- intros j J. rewrite nth_error_upd_neq.
             ++ apply (xi_dead _ _ I _ J).
             ++ unfold s1 in J. cbn in J. congruence.
        * destruct K as (w' & E & I & V & _ & _ & _ & _ & Fn). rewrite E. cbn [bind]. unfold s_field. rewrite (Fn eq_refl). reflexivity.
        * rewrite K. reflexivity.
        * rewrite K. reflexivity.
      + destruct (x_release s p) as [s1|].
        2:{ rewrite K. reflexivity. }
        destruct K as (w' & E & I & V & _ & Vq & Fq & _ & _). rewrite E. cbn [bind].
        assert (E2 : s_field (s_set w' p (SPresent Nil)) q = s_field w' q).
        { unfold s_field, s_set. cbn [s_vars]. rewrite nth_error_upd_neq; auto. }
        pose proof (xshare _ s1 p q (Some None) I V) as S. rewrite E2 in S. destruct (x_share s1 p q) as [s'|].
        * destruct S as (m & w2 & E1 & E3 & I2); [discriminate|]. rewrite E1. cbn [bind]. rewrite s_set_set in E3. eauto.
        * destruct (s_field w' q) as [m| |] eqn:E3; cbn [bind]; [|reflexivity|].
          -- rewrite <- (S ltac:(discriminate) m eq_refl), s_set_set. reflexivity.
          -- exfalso. rewrite (xfield _ _ q I) in E2. destruct (x_var s1 q) as [[[i|]|]|]; discriminate.
    - unfold s_move_assign. pose proof (xclean w s p H) as K. destruct (x_release s p) as [s1|].
      2:{ rewrite K. reflexivity. }
      destruct K as (w' & E & I & V & _ & Vq & Fq & Fo & Fn). rewrite E. cbn [bind].
      destruct (Nat.eqb_spec p q) as [<-|D].
      + assert (exists m, s_field w' p = Ok m) as [m M].
        { unfold s_field. destruct (x_var s p) as [[[o|]|]|] eqn:P.
          - rewrite (Fo o eq_refl). eauto.
          - rewrite (Fn eq_refl). eauto.
          - exfalso. unfold s_clean in E. rewrite (xfield _ _ p H), P in E. discriminate.
          - exfalso. unfold s_clean in E. rewrite (xfield _ _ p H), P in E. discriminate. }
        rewrite M. cbn [bind]. rewrite s_set_set. eauto.
      + assert (E2 : s_field (s_set w' p (SPresent Nil)) q = s_field w' q).
        { unfold s_field, s_set. cbn [s_vars]. rewrite nth_error_upd_neq; auto. }
        pose proof (xtake _ s1 p q (Some None) I V) as S. rewrite E2 in S. destruct (x_take s1 p q) as [s'|].
        * destruct S as (m & E1 & I2); [discriminate|auto|]. rewrite E1. cbn [bind]. rewrite s_set_set in I2. eauto.
        * rewrite S; [reflexivity|discriminate|auto].
    - unfold s_clean. rewrite (xfield _ _ p H). destruct (x_var s p) as [[[o|]|]|] eqn:P; cbn [bind]; try reflexivity.
      + exfalso. apply (U o eq_refl).
      + eauto.
    - unfold s_destroy. pose proof (xclean w s p H) as K. destruct (x_release s p) as [s1|].
      2:{ rewrite K. reflexivity. }
      destruct K as (w' & E & I & V & _). rewrite E. cbn [bind]. eexists. split; [reflexivity|].
      rewrite <- (s_set_set w' p (SPresent Nil) SAbsent). unfold x_put.
      change SAbsent with (tr None). eapply (xinv_upd _ _ _ (Some None)); eauto; try discriminate.
      + intros j y J. pose proof (count_upd j _ _ _ None V) as C. unfold one in C. cbn [is_owner] in C.
        rewrite (xi_live _ _ I _ _ J). do 5 f_equal. lia.
      + intros j J. apply (xi_dead _ _ I _ J).
  Qed.

  Lemma xrun os : forall w s, xinv w s -> x_all_usual s os ->
    match x_steps s os with
    | Some s' => exists w', s_run w os = Ok w' /\ xinv w' s'
    | None => s_run w os = UB
    end.
  Proof.
    induction os as [|o os IH]; intros w s H U; cbn [x_steps s_run]; [eauto|].
    destruct U as [U1 U2]. pose proof (xstep w s o H U1) as S. destruct (x_step s o) as [s1|].
    - destruct S as (w1 & E & I). rewrite E. cbn [bind]. apply IH; auto.
    - rewrite S. reflexivity.
  Qed.

  Lemma xstart n : (Z.of_nat n < 2 ^ 64)%Z -> xinv (s_start n) (x_none n).
  Proof.
    intros B. split; cbn [s_start s_vars s_objs x_none x_vars x_vals length]; auto.
    - induction n; cbn; [reflexivity|]. f_equal. apply IHn. lia.
    - intros [|o] x; discriminate.
    - intros [|o]; discriminate.
    - intros p o E. apply nth_error_repeat' in E. discriminate.
    - rewrite repeat_length. exact B.
  Qed.
End Exact.

(** Any number of pointers and any history: either a call has undefined behaviour, and it is one that copies,
    assigns from or releases a pointer whose object is destroyed, or uses an empty pointer as a source, or a
    variable that does not hold a pointer; or the objects that are destroyed are exactly those of which a release
    left one owner, each owner of another sees its value, and to read through an owner of a destroyed one is
    undefined. *)
Theorem C25_exact_partial : forall (A : Type) (n : nat) (os : list (s_op A)),
  (Z.of_nat n < 2 ^ 64)%Z -> x_all_usual (x_none n) os ->
  match x_steps (x_none n) os with
  | Some s => exists w, s_run (s_start n) os = Ok w
      /\ (forall o, alive w o <-> x_live s o = true)
      /\ (forall o, destroyed w o <-> nth_error (x_vals s) o = Some None)
      /\ (forall p o, x_var s p = Some (Some (Some o)) ->
            s_deref w p = match nth_error (x_vals s) o with Some (Some x) => Ok x | _ => UB end)
  | None => s_run (s_start n) os = UB
  end.
Proof.
  intros A n os B U. pose proof (xrun os _ _ (xstart n B) U) as R. destruct (x_steps (x_none n) os) as [s|]; [|exact R].
  destruct R as (w & E & I). exists w. split; [exact E|].
  assert (L : forall o, nth_error (x_vals s) o = None -> nth_error (s_objs w) o = None).
  { intros o X. apply nth_error_None in X. apply nth_error_None. rewrite (xi_len _ _ I). exact X. }
  split; [|split].
  - intros o. unfold alive, x_live. destruct (nth_error (x_vals s) o) as [[x|]|] eqn:X.
    + split; [reflexivity|]. intros _. rewrite (xi_live _ _ I _ _ X). eauto.
    + rewrite (xi_dead _ _ I _ X). split; [intros (c & x & [=])|discriminate].
    + rewrite (L _ X). split; [intros (c & x & [=])|discriminate].
  - intros o. unfold destroyed. destruct (nth_error (x_vals s) o) as [[x|]|] eqn:X.
    + rewrite (xi_live _ _ I _ _ X). split; discriminate.
    + rewrite (xi_dead _ _ I _ X). split; reflexivity.
    + rewrite (L _ X). split; discriminate.
  - intros p o P. unfold s_deref. rewrite (xfield _ _ p I), P. cbn [bind].
    pose proof (xget _ _ _ _ I P) as G. unfold s_get.
    destruct (nth_error (x_vals s) o) as [[x|]|]; destruct G as [G _]; rewrite G; reflexivity.
Qed.

Example C25_exact_case :
  let os := [SNew 0 10; SCopy 1 0; SCopy 2 0; SNew 3 20; SAssign 3 1; SMove 4 2; SDestroy 0; SDestroy 1; SMoveAssign 2 4] in
  x_all_usual (x_none 5) os
  /\ x_steps (x_none 5) os = Some (XS [None; None; Some (Some 0); Some (Some 0); Some None] [Some 10; Some 20])
  /\ x_steps (x_none 5) (os ++ [SDestroy 2; SMove 0 3]) = Some (XS [Some (Some 0); None; None; Some None; Some None] [None; Some 20])
  /\ x_steps (x_none 5) (os ++ [SDestroy 2; SDestroy 3]) = None.
Proof. cbn. repeat split. Qed.

Print Assumptions C25_exact_partial.
