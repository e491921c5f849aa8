(** Proofs about the List model, third part: range erase, every call, every history,
    copying and moving. *)
From Coq Require Import List Arith Bool Lia.
From Verif Require Import Base BaseLemmas ListModel ListSpec ListProofs ListOps.
Import ListNotations.

Section Run.
  Context {A : Type}.
  Implicit Types h : heap A.

  Lemma frame_trans : forall h1 h2 h3 o ns ms,
    frame h1 o ns h2 -> frame h2 o ms h3 ->
    (forall n, In n ms -> In n ns \/ hp_cell h1 (Heap n) = None) ->
    frame h1 o ns h3.
  Proof.
    intros h1 h2 h3 o ns ms F1 F2 S p (O1 & O2 & O3) L.
    rewrite F2, F1; auto; [split; auto| |].
    - split; [exact O1|]. split; [exact O2|]. intros n -> M.
      destruct (S n M) as [H|H]; [apply (O3 n eq_refl H)|congruence].
    - rewrite F1; auto. split; auto.
  Qed.

  Lemma frame_refl : forall h o ns, frame h o ns h.
  Proof. intros h o ns p _ _. reflexivity. Qed.

  Lemma pop_front_until_ok : forall ns1 h l s b ns2 v1 v2 ext fuel,
    inv h l s (ns1 ++ b :: ns2) (v1 ++ v2) ext -> s <> Untouched -> length ns1 = length v1 ->
    length ns1 < fuel ->
    post h l (ns1 ++ b :: ns2) ext (pop_front_until fuel h l (Heap b)) s (b :: ns2) v2.
  Proof.
    induction ns1 as [|n ns1 IH]; intros h l s b ns2 v1 v2 ext fuel I Hs Len F;
      (destruct fuel as [|f]; [cbn in F; lia|]); destruct v1 as [|v v1]; try discriminate;
      cbn [pop_front_until app] in *;
      destruct (shape_split _ _ _ _ _ _ I Hs) as (_ & _ & Hh); cbn [head_of] in Hh; rewrite Hh.
    - rewrite ptr_eqb_refl. exists h, l. split; [reflexivity|]. split; [reflexivity|]. split; [auto|apply frame_refl].
    - pose proof (i_nodup _ _ _ _ _ _ I) as ND. inversion ND as [|? ? N1 N2]; subst.
      rewrite ptr_eqb_neq.
      2:{ intros E. injection E as ->. apply N1, in_app_iff. cbn; auto. }
      destruct (pop_front_ok _ _ _ _ _ _ _ _ I Hs) as (h1 & l1 & E1 & Id1 & I1 & F1).
      rewrite E1. cbn [bind fst snd].
      replace (match ns1 ++ b :: ns2 with [] => FrontOnly | _ => s end) with s in I1
        by (destruct ns1; reflexivity).
      injection Len as Len. cbn in F.
      destruct (IH h1 l1 s b ns2 v1 v2 ext f I1 Hs Len) as (h2 & l2 & E2 & Id2 & I2 & F2); [lia|].
      exists h2, l2. split; [exact E2|]. split; [congruence|]. split; [exact I2|].
      rewrite Id1 in F2. apply (frame_trans _ _ _ _ _ _ F1 F2).
      intros k Hk. left. right. exact Hk.
  Qed.

  Lemma pop_back_until_ok : forall ns2 h l ns1 a v1 va v2 ext fuel,
    inv h l Whole (ns1 ++ a :: ns2) (v1 ++ va :: v2) ext -> ns1 <> [] ->
    length ns1 = length v1 -> length ns2 < fuel ->
    post h l (ns1 ++ a :: ns2) ext (pop_back_until fuel h l (Heap a)) Whole (ns1 ++ [a]) (v1 ++ [va]).
  Proof.
    induction ns2 as [|n ns2 IH] using rev_ind; intros h l ns1 a v1 va v2 ext fuel I NE Len F;
      pose proof (inv_len _ _ _ _ _ _ I) as Lv; rewrite !app_length in Lv; cbn in Lv;
      (destruct fuel as [|f]; [rewrite ?app_length in F; cbn in F; lia|]);
      cbn [pop_back_until]; destruct (shape_split _ _ _ _ _ _ I) as (T & _ & _); try discriminate;
      destruct (T eq_refl) as (z & t & Ez & Ht); rewrite Ht.
    - apply app_inj_tail in Ez. destruct Ez as (_ & <-). rewrite ptr_eqb_refl.
      destruct v2; [|cbn in Lv; lia].
      exists h, l. split; [reflexivity|]. split; [reflexivity|]. split; [auto|apply frame_refl].
    - rewrite app_comm_cons, app_assoc in Ez. apply app_inj_tail in Ez. destruct Ez as (<- & <-).
      pose proof (i_nodup _ _ _ _ _ _ I) as ND.
      rewrite ptr_eqb_neq.
      2:{ intros E. injection E as ->. rewrite app_comm_cons, app_assoc in ND.
          apply nodup_snoc_inv in ND. destruct ND as (_ & ND). apply ND, in_app_iff. cbn; auto. }
      rewrite app_length in Lv. cbn in Lv.
      destruct v2 as [|w v2] using rev_ind; [cbn in Lv; lia|]. clear IHv2.
      destruct (exists_last (l := a :: ns2)) as (q & u & Eq); [discriminate|].
      assert (I' : inv h l Whole ((ns1 ++ q) ++ [u; n]) ((v1 ++ va :: v2) ++ [w]) ext).
      { replace ((ns1 ++ q) ++ [u; n]) with (ns1 ++ a :: ns2 ++ [n])
          by (rewrite app_comm_cons, Eq, <- !app_assoc; reflexivity).
        rewrite <- app_assoc. exact I. }
      destruct (pop_back_ok _ _ _ _ _ _ _ _ I') as (h1 & l1 & E1 & Id1 & I1 & F1).
      rewrite E1. cbn [bind fst snd].
      assert (I1' : inv h1 l1 Whole (ns1 ++ a :: ns2) (v1 ++ va :: v2) ext).
      { rewrite Eq, app_assoc. exact I1. }
      rewrite app_length in F. cbn in F.
      destruct (IH h1 l1 ns1 a v1 va v2 ext f I1' NE Len) as (h2 & l2 & E2 & Id2 & I2 & F2); [lia|].
      exists h2, l2. split; [exact E2|]. split; [congruence|]. split; [exact I2|].
      rewrite Id1 in F2.
      replace ((ns1 ++ q) ++ [u; n]) with (ns1 ++ a :: ns2 ++ [n]) in F1
        by (rewrite app_comm_cons, Eq, <- !app_assoc; reflexivity).
      apply (frame_trans _ _ _ _ _ _ F1 F2).
      intros k Hk. left. rewrite in_app_iff in *. cbn in *. rewrite in_app_iff. tauto.
  Qed.

  (** A proper middle part. *)
  Lemma erase_mid_ok : forall h l s ns1 mid b ns2 v1 vm v2 ext fuel,
    inv h l s (ns1 ++ mid ++ b :: ns2) (v1 ++ vm ++ v2) ext -> s <> Untouched -> ns1 <> [] ->
    length ns1 = length v1 -> length mid = length vm -> length mid < fuel ->
    post h l (ns1 ++ mid ++ b :: ns2) ext
      (list_erase_range fuel h l (head_of (dl_id l) (mid ++ b :: ns2)) (Heap b)) s
      (ns1 ++ b :: ns2) (v1 ++ v2).
  Proof.
    intros h l s ns1 mid b ns2 v1 vm v2 ext fuel I Hs NE L1 L2 F.
    destruct (shape_split _ _ _ _ _ _ I Hs) as (T & Ch & Hh).
    pose proof (i_nodup _ _ _ _ _ _ I) as ND.
    unfold list_erase_range, list_begin, list_end. rewrite Hh.
    replace (ptr_eqb (head_of (dl_id l) (mid ++ b :: ns2))
              (head_of (dl_id l) (ns1 ++ mid ++ b :: ns2))) with false.
    2:{ symmetry. apply ptr_eqb_neq. destruct ns1 as [|n0 ns1]; [congruence|].
        cbn in ND. inversion ND as [|? ? N1 N2]; subst. cbn.
        destruct mid as [|m mid]; cbn; intros E; injection E as ->; apply N1;
          rewrite !in_app_iff; cbn; auto. }
    cbn [ptr_eqb].
    pose proof (left_of_live _ _ _ _ _ _ _ I) as LL.
    pose proof (head_of_live' _ _ _ ns1 (mid ++ b :: ns2) _ _ I) as LA.
    assert (Lb : obj h (Heap b) <> None).
    { apply (inv_in_live _ _ _ _ _ _ _ I). rewrite !in_app_iff. cbn; auto. }
    peek (get_spec h (head_of (dl_id l) (mid ++ b :: ns2))); [exact LA|].
    pose proof (chain_cut _ _ _ _ Ch) as (_ & Pm).
    rewrite Pm in GP. injection GP as GP. rewrite <- GP.
    run (set_next_spec h (left_of (dl_id l) ns1) (Heap b)); [exact LL|].
    run (set_prev_spec h0 (Heap b) (left_of (dl_id l) ns1)); [back; exact Lb|].
    pose proof ND as ND0.
    apply nodup_app in ND. destruct ND as (N1 & N2 & N3).
    assert (NLm : forall n, In n mid -> left_of (dl_id l) ns1 <> Heap n).
    { intros n Hn. destruct (left_of_cases (dl_id l) ns1) as [(_ & ->)|(ns0 & k & E & ->)];
        [discriminate|]. intros Q. injection Q as ->. apply (N3 n).
      - rewrite E, in_app_iff. cbn; auto.
      - apply in_app_iff; auto. }
    destruct (delete_until_ok (dl_id l) mid h1 (b :: ns2) fuel) as (h2 & E2 & R); auto.
    - intros m1 n m2 ->. back. dec1.
      { exfalso. apply (NLm n); auto. apply in_app_iff. cbn; auto. }
      replace (ns1 ++ (m1 ++ n :: m2) ++ b :: ns2) with ((ns1 ++ m1) ++ n :: (m2 ++ b :: ns2)) in Ch
        by (rewrite <- !app_assoc; reflexivity).
      apply chain_next in Ch. exact Ch.
    - intros n Hn. back. apply (inv_in_live _ _ _ _ _ _ _ I). rewrite !in_app_iff; auto.
    - cbn [head_of] in E2. rewrite E2. cbn [bind]. clear E2.
      exists h2, l. split; [reflexivity|]. split; [reflexivity|].
      apply (unlink_inv h l s ns1 mid (b :: ns2) v1 vm v2 ext h1 h2); auto; cbn [head_of].
      + intros r. back. reflexivity.
      + congruence.
      + intros. back. decs.
      + intros. back. decs.
      + back. decs.
      + back. decs.
      + intros r R1 R2. rewrite C0, C; auto.
  Qed.

  Lemma split_at : forall (B : Type) i (l : list B), i <= length l ->
    l = firstn i l ++ skipn i l /\ length (firstn i l) = i.
  Proof.
    intros B i l H. split; [symmetry; apply firstn_skipn|]. rewrite firstn_length. lia.
  Qed.

  Lemma skipn_next : forall (B : Type) p (l : list B) x t, skipn p l = x :: t -> skipn (S p) l = t.
  Proof.
    intros B. induction p as [|p IH]; intros [|y l] x t E; cbn in *; try discriminate.
    - congruence.
    - apply (IH l x t E).
  Qed.

  Lemma iterator_at_ok : forall h l s ns vals ext i,
    inv h l s ns vals ext -> s <> Untouched -> position vals i <= length vals ->
    iterator_at h l i = Ok (head_of (dl_id l) (skipn (position vals i) ns)).
  Proof.
    intros h l s ns vals ext i I Hs Hi.
    destruct (shape_split _ _ _ _ _ _ I Hs) as (_ & Ch & Hh).
    pose proof (inv_len _ _ _ _ _ _ I) as L.
    destruct i as [i|]; cbn [iterator_at position] in *.
    - unfold list_begin. rewrite Hh. apply (advance_ok _ _ _ _ []); auto.
      + intros n Hn. apply (inv_in_live _ _ _ _ _ _ _ I Hn).
      + lia.
    - rewrite skipn_all2 by lia. reflexivity.
  Qed.

  Lemma post_id : forall h l s ns vals ext,
    inv h l s ns vals ext -> post h l ns ext (Ok (h, l)) s ns vals.
  Proof. intros. exists h, l. split; [reflexivity|]. split; [reflexivity|]. split; [auto|apply frame_refl]. Qed.

  (** Every covered call: what becomes of the sequence of elements becomes of the sequence of
      their nodes. *)
  Lemma step_nodes_ok : forall h l s ns vals ext fuel o s',
    inv h l s ns vals ext -> covered vals s o = Some s' -> length vals < fuel ->
    post h l ns ext (list_step fuel h l o) s' (list_seq_step ns (node_op (hp_fresh h) o))
      (list_seq_step vals o).
  Proof.
    intros h l s ns vals ext fuel o s' I Cv F.
    pose proof (inv_len _ _ _ _ _ _ I) as L.
    assert (Lp : forall i, position ns i = position vals i)
      by (intros [i|]; cbn [position]; [reflexivity|exact L]).
    destruct o as [x|x|i x|i xs| | |i|i j|]; cbn [covered list_step list_seq_step node_op] in *;
      rewrite ?Lp.
    - (* pushBack *)
      destruct s; inversion Cv; subst;
        apply (push_back_ok _ _ _ _ _ _ x I); discriminate.
    - (* pushFront *)
      pose proof (push_front_ok _ _ _ _ _ _ x I) as P.
      destruct s; inversion Cv; subst; exact P.
    - (* insert *)
      assert (Q : s' = s /\ s <> Untouched /\ vals <> [] /\ position vals i <= length vals
                  /\ (position vals i = length vals -> s = Whole)).
      { destruct s; [discriminate| |]; (destruct vals as [|v vals]; [discriminate|]).
        - destruct (Nat.leb_spec (position (v :: vals) i) (length (v :: vals))); inversion Cv; subst.
          repeat split; auto; discriminate.
        - destruct (Nat.ltb_spec (position (v :: vals) i) (length (v :: vals))); inversion Cv; subst.
          repeat split; auto; try discriminate; lia. }
      destruct Q as (-> & Hs & NE & Hi & Hend). clear Cv.
      rewrite (iterator_at_ok _ _ _ _ _ _ _ I Hs Hi). cbn [bind].
      set (p := position vals i) in *.
      destruct (split_at _ p vals Hi) as (Ev & Lv). destruct (split_at _ p ns) as (En & Ln); [lia|].
      rewrite En, Ev in I. rewrite En at 1.
      apply (insert_ok h l s (firstn p ns) (skipn p ns) (firstn p vals) (skipn p vals)); auto.
      + congruence.
      + rewrite <- En. intros E. apply NE. destruct vals; [reflexivity|subst; discriminate].
      + intros E. apply Hend. apply (f_equal (@length nat)) in E. rewrite skipn_length in E.
        cbn in E. lia.
      + rewrite <- Ev. exact F.
    - (* insert range *)
      assert (Q : s' = s /\ s <> Untouched /\ vals <> [] /\ position vals i <= length vals
                  /\ (position vals i = length vals -> s = Whole)).
      { destruct s; [discriminate| |]; (destruct vals as [|v vals]; [discriminate|]).
        - destruct (Nat.leb_spec (position (v :: vals) i) (length (v :: vals))); inversion Cv; subst.
          repeat split; auto; discriminate.
        - destruct (Nat.ltb_spec (position (v :: vals) i) (length (v :: vals))); inversion Cv; subst.
          repeat split; auto; try discriminate; lia. }
      destruct Q as (-> & Hs & NE & Hi & Hend). clear Cv.
      rewrite (iterator_at_ok _ _ _ _ _ _ _ I Hs Hi). cbn [bind].
      set (p := position vals i) in *.
      destruct (split_at _ p vals Hi) as (Ev & Lv). destruct (split_at _ p ns) as (En & Ln); [lia|].
      destruct xs as [|x xs].
      { cbn [app list_insert_range length seq]. rewrite <- Ev, <- En. apply post_id. exact I. }
      rewrite En, Ev in I. rewrite En at 1.
      apply (insert_range_ok h l s (firstn p ns) (skipn p ns) (firstn p vals) (skipn p vals)); auto.
      + congruence.
      + rewrite <- En. intros E. apply NE. destruct vals; [reflexivity|subst; discriminate].
      + intros E. apply Hend. apply (f_equal (@length nat)) in E. rewrite skipn_length in E.
        cbn in E. lia.
      + rewrite <- Ev. exact F.
    - (* popBack *)
      destruct s; try discriminate. destruct (Nat.leb_spec 2 (length vals)); inversion Cv; subst.
      destruct (exists_last (l := vals)) as (v0 & v & Ev); [intros ->; cbn in H; lia|].
      destruct (exists_last (l := ns)) as (n0 & t & En); [intros ->; cbn in L; lia|].
      subst. rewrite (app_length v0), (app_length n0) in L. rewrite app_length in H. cbn in L, H.
      destruct (exists_last (l := n0)) as (n1 & u & En); [intros ->; cbn in L; lia|].
      subst. rewrite !removelast_last. rewrite <- app_assoc in *. cbn [app] in *.
      apply (pop_back_ok _ _ _ _ _ _ _ _ I).
    - (* popFront *)
      destruct vals as [|v vals]; [discriminate|]. destruct ns as [|n ns]; [discriminate|].
      assert (Hs : s <> Untouched).
      { intros ->. destruct (i_shape _ _ _ _ _ _ I) as (E & _). discriminate. }
      cbn [tl length] in *.
      replace s' with (match ns with [] => FrontOnly | _ => s end).
      + apply (pop_front_ok _ _ _ _ _ _ _ _ I Hs).
      + destruct vals, ns; cbn in *; try lia; congruence.
    - (* erase *)
      destruct (Nat.ltb_spec (position vals i) (length vals)) as [Hi|]; [|discriminate].
      assert (Hs : s <> Untouched).
      { intros ->. destruct (i_shape _ _ _ _ _ _ I) as (E & _). subst. cbn in L. lia. }
      rewrite (iterator_at_ok _ _ _ _ _ _ _ I Hs) by lia. cbn [bind].
      set (p := position vals i) in *.
      destruct (split_at _ p vals) as (Ev & Lv); [lia|].
      destruct (split_at _ p ns) as (En & Ln); [lia|].
      destruct (skipn p vals) as [|v v2] eqn:E2.
      { apply (f_equal (@length A)) in E2. rewrite skipn_length in E2. cbn in E2. lia. }
      destruct (skipn p ns) as [|n n2] eqn:E3.
      { apply (f_equal (@length nat)) in E3. rewrite skipn_length in E3. cbn in E3. lia. }
      assert (E4 : skipn (S p) vals = v2) by (apply (skipn_next _ _ _ _ _ E2)).
      assert (E6 : skipn (S p) ns = n2) by (apply (skipn_next _ _ _ _ _ E3)).
      rewrite E4, E6. clear E6. cbn [head_of].
      assert (Ls : S p + length n2 = length ns).
      { apply (f_equal (@length nat)) in En. rewrite app_length, Ln in En. cbn in En. lia. }
      replace s' with (match n2 with [] => FrontOnly | _ => s end).
      + rewrite En at 1. apply erase_ok with (v := v); auto.
        * rewrite <- En, <- Ev. exact I.
        * congruence.
      + destruct (Nat.eqb_spec (S p) (length vals)) as [E5|E5]; inversion Cv; subst.
        * destruct n2; [reflexivity|cbn in Ls; lia].
        * destruct n2; [cbn in Ls; lia|reflexivity].
    - (* erase range *)
      destruct i as [i|]; [|discriminate]. cbn [position].
      set (q := position vals j) in *.
      destruct (Nat.eqb_spec i 0) as [Ei|Ei]; destruct (Nat.eqb_spec q (length vals)) as [Eq|Eq];
        cbn [andb] in Cv.
      + (* everything *)
        inversion Cv; subst s' i. rewrite Eq, skipn_all. rewrite <- L, skipn_all.
        cbn [firstn app].
        destruct s eqn:Es.
        * destruct (i_shape _ _ _ _ _ _ I) as (-> & Hh & Ht).
          destruct vals; [|discriminate]. cbn [iterator_at advance bind].
          unfold list_begin, list_end. rewrite Hh.
          destruct j as [j|]; cbn [iterator_at] in *.
          -- unfold q in Eq. cbn in Eq. subst j. cbn [advance bind].
             unfold list_begin. rewrite Hh. unfold list_erase_range, list_begin. rewrite Hh.
             cbn [ptr_eqb list_end].
             destruct fuel; [cbn in F; lia|]. cbn [pop_front_until]. rewrite Hh. cbn [ptr_eqb].
             apply post_id. exact I.
          -- cbn [bind]. unfold list_erase_range, list_begin, list_end. rewrite Hh.
             rewrite !ptr_eqb_refl. apply (clean_ok _ _ _ _ _ _ _ I F).
        * assert (Hs : Whole <> Untouched) by discriminate.
          rewrite (iterator_at_ok _ _ _ _ _ _ (Some 0) I Hs) by (cbn; lia). cbn [bind].
          rewrite (iterator_at_ok _ _ _ _ _ _ j I Hs) by (fold q; lia). cbn [bind].
          fold q. rewrite Eq, <- L, skipn_all. cbn [position skipn].
          destruct (shape_split _ _ _ _ _ _ I Hs) as (_ & _ & Hh).
          unfold list_erase_range, list_begin, list_end. rewrite Hh.
          cbn [head_of]. rewrite !ptr_eqb_refl. apply (clean_ok _ _ _ _ _ _ _ I F).
        * assert (Hs : FrontOnly <> Untouched) by discriminate.
          rewrite (iterator_at_ok _ _ _ _ _ _ (Some 0) I Hs) by (cbn; lia). cbn [bind].
          rewrite (iterator_at_ok _ _ _ _ _ _ j I Hs) by (fold q; lia). cbn [bind].
          fold q. rewrite Eq, <- L, skipn_all. cbn [position skipn].
          destruct (shape_split _ _ _ _ _ _ I Hs) as (_ & _ & Hh).
          unfold list_erase_range, list_begin, list_end. rewrite Hh.
          cbn [head_of]. rewrite !ptr_eqb_refl. apply (clean_ok _ _ _ _ _ _ _ I F).
      + (* from the front *)
        subst i. cbn [Nat.ltb andb] in Cv.
        assert (Q : s' = s /\ q < length vals).
        { destruct (Nat.ltb_spec 0 (length vals)); destruct (Nat.ltb_spec q (length vals));
            cbn [andb] in Cv; try (inversion Cv; auto; fail); destruct s; discriminate. }
        destruct Q as (-> & Hq). clear Cv.
        assert (Hs : s <> Untouched).
        { intros ->. destruct (i_shape _ _ _ _ _ _ I) as (E & _). subst. cbn in L. lia. }
        rewrite (iterator_at_ok _ _ _ _ _ _ (Some 0) I Hs) by (cbn; lia). cbn [bind].
        rewrite (iterator_at_ok _ _ _ _ _ _ j I Hs) by (fold q; lia). cbn [bind].
        fold q. cbn [position skipn firstn app].
        destruct (shape_split _ _ _ _ _ _ I Hs) as (_ & _ & Hh).
        destruct (split_at _ q vals) as (Ev & Lv); [lia|].
        destruct (split_at _ q ns) as (En & Ln); [lia|].
        destruct (skipn q ns) as [|b n2] eqn:E3.
        { apply (f_equal (@length nat)) in E3. rewrite skipn_length in E3. cbn in E3. lia. }
        unfold list_erase_range, list_begin, list_end. rewrite Hh.
        cbn [head_of]. rewrite ptr_eqb_refl. cbn [ptr_eqb].
        rewrite En at 1. apply pop_front_until_ok with (v1 := firstn q vals); auto.
        * rewrite <- En, <- Ev. exact I.
        * congruence.
        * lia.
      + (* up to the end *)
        destruct (Nat.ltb_spec q (length vals)) as [Hq|_]; [lia|].
        rewrite andb_false_r in Cv.
        destruct s; try discriminate.
        destruct (Nat.ltb_spec i (length vals)) as [Hi|]; [|discriminate]. inversion Cv; subst s'.
        assert (Hs : Whole <> Untouched) by discriminate.
        rewrite (iterator_at_ok _ _ _ _ _ _ (Some i) I Hs) by (cbn; lia). cbn [bind].
        rewrite (iterator_at_ok _ _ _ _ _ _ j I Hs) by (fold q; lia). cbn [bind].
        fold q. rewrite Eq, <- L, skipn_all, L, skipn_all, app_nil_r, app_nil_r. cbn [position].
        destruct (shape_split _ _ _ _ _ _ I Hs) as (_ & _ & Hh).
        destruct (split_at _ i vals) as (Ev & Lv); [lia|].
        destruct (split_at _ i ns) as (En & Ln); [lia|].
        destruct (skipn i ns) as [|a n2] eqn:E3.
        { apply (f_equal (@length nat)) in E3. rewrite skipn_length in E3. cbn in E3. lia. }
        destruct (skipn i vals) as [|va v2] eqn:E4.
        { apply (f_equal (@length A)) in E4. rewrite skipn_length in E4. cbn in E4. lia. }
        destruct (exists_last (l := firstn i ns)) as (n1 & u & En1).
        { intros E. rewrite E in Ln. cbn in Ln. lia. }
        unfold list_erase_range, list_begin, list_end. rewrite Hh.
        cbn [head_of]. rewrite ptr_eqb_refl.
        rewrite ptr_eqb_neq.
        2:{ pose proof (i_nodup _ _ _ _ _ _ I) as ND. rewrite En in ND |- *.
            destruct (firstn i ns) as [|n0 n3] eqn:E5; [destruct n1; discriminate|].
            cbn. intros E. injection E as ->. cbn in ND. inversion ND as [|? ? N1 N2]; subst.
            apply N1, in_app_iff. cbn; auto. }
        assert (I' : inv h l Whole (firstn i ns ++ a :: n2) (firstn i vals ++ va :: v2) ext).
        { rewrite <- En, <- Ev. exact I. }
        assert (Lt : length n2 < fuel).
        { apply (f_equal (@length nat)) in En. rewrite app_length in En. cbn in En. lia. }
        destruct (pop_back_until_ok n2 h l (firstn i ns) a (firstn i vals) va v2 ext fuel)
          as (h1 & l1 & E1 & Id1 & I1 & F1); auto.
        { intros E. rewrite E in Ln. cbn in Ln. lia. }
        { congruence. }
        rewrite E1. cbn [bind fst snd].
        rewrite En1 in I1. rewrite <- app_assoc in I1. cbn [app] in I1.
        destruct (pop_back_ok _ _ _ _ _ _ _ _ I1) as (h2 & l2 & E2 & Id2 & I2 & F2).
        rewrite En1. exists h2, l2. split; [exact E2|]. split; [congruence|]. split; [exact I2|].
        rewrite Id1 in F2. rewrite <- En in F1. apply (frame_trans _ _ _ _ _ _ F1 F2).
        intros k Hk. left. rewrite En, En1. rewrite !in_app_iff in *. cbn in *. tauto.
      + (* in the middle *)
        assert (Q : s' = s /\ i < length vals /\ i <= q /\ q < length vals).
        { destruct (Nat.ltb_spec i (length vals)); destruct (Nat.leb_spec i q);
          destruct (Nat.ltb_spec q (length vals)); cbn [andb] in Cv;
            try (inversion Cv; auto; fail); destruct s; discriminate. }
        destruct Q as (-> & Hi & Hiq & Hq). clear Cv.
        assert (Hs : s <> Untouched).
        { intros ->. destruct (i_shape _ _ _ _ _ _ I) as (E & _). subst. cbn in L. lia. }
        rewrite (iterator_at_ok _ _ _ _ _ _ (Some i) I Hs) by (cbn; lia). cbn [bind].
        rewrite (iterator_at_ok _ _ _ _ _ _ j I Hs) by (fold q; lia). cbn [bind].
        fold q. cbn [position].
        assert (Sk : forall (B : Type) (z : list B), skipn i z = firstn (q - i) (skipn i z) ++ skipn q z).
        { intros B z. rewrite <- (firstn_skipn (q - i) (skipn i z)) at 1. f_equal.
          replace q with ((q - i) + i) at 2 by lia. clear. revert z. generalize (q - i).
          induction i as [|i IH]; intros d z; [rewrite Nat.add_0_r; reflexivity|].
          rewrite <- plus_n_Sm. destruct z; [destruct d; reflexivity|]. cbn [skipn]. apply IH. }
        destruct (split_at _ i vals) as (Ev & Lv); [lia|].
        destruct (split_at _ i ns) as (En & Ln); [lia|].
        rewrite (Sk _ vals) in Ev. rewrite (Sk _ ns) in En.
        rewrite (Sk _ ns).
        assert (Lm1 : length (firstn (q - i) (skipn i ns)) = q - i)
          by (rewrite firstn_length, skipn_length; lia).
        assert (Lm2 : length (firstn (q - i) (skipn i vals)) = q - i)
          by (rewrite firstn_length, skipn_length; lia).
        destruct (skipn q ns) as [|b n2] eqn:E3.
        { apply (f_equal (@length nat)) in E3. rewrite skipn_length in E3. cbn in E3. lia. }
        cbn [head_of]. rewrite En at 1.
        apply erase_mid_ok with (vm := firstn (q - i) (skipn i vals)); auto; try congruence.
        * intros E. rewrite E in Ln. cbn in Ln. lia.
        * lia.
    - (* clean *)
      inversion Cv; subst. apply (clean_ok _ _ _ _ _ _ _ I F).
  Qed.
  Lemma step_ok : forall h l s ns vals ext fuel o s',
    inv h l s ns vals ext -> covered vals s o = Some s' -> length vals < fuel ->
    exists ns', post h l ns ext (list_step fuel h l o) s' ns' (list_seq_step vals o).
  Proof. intros h l s ns vals ext fuel o s' I Cv F. eexists. apply (step_nodes_ok _ _ _ _ _ _ _ _ _ I Cv F). Qed.
End Run.
