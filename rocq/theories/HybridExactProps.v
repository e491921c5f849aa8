(** Property C52, completed: how every history of a HybridVector ends. *)
From Coq Require Import List Arith ZArith Lia Bool.
From Verif Require Import Base BaseLemmas Store StoreLemmas StaticVectorModel StaticVectorSpec
  StaticVectorProofs VectorModel VectorSpec VectorProofs HybridVectorModel HybridVectorSpec
  HybridVectorProofs VectorExactSpec VectorExactProps HybridExactSpec.
Import ListNotations.

Section Exact.
  Context {A : Type}.
  Variable m : mode.
  Variable moved : A -> A.
  Variable dflt : A.
  Variable mem : memory.
  Hypothesis Hmem : mem <> NoMemory.
  Variable cap : nat.

  Notation mk l rest k := (SVec (St (map (@Some A) l ++ rest) k) (length l)).

  (** The container keeps [l] at [k]. *)
  Definition xrep (k : home) (l : list A) (h : hybrid A) : Prop :=
    match k with
    | NoHome => hrep cap Nowhere l h
    | InObject => hrep cap Fixed l h
    | OnHeap c => exists v, h = HVec v /\ vrep c l v
    end.

  Definition hends (e : hending A) (r : outcome (hybrid A)) : Prop :=
    match e with
    | HWorks k l => exists h, r = Ok h /\ xrep k l h
    | HBreaks => r = UB
    | HHangs => r = Diverge
    | HBadPosition => True
    end.

  (** What the vector does, the container does. *)
  Lemma on_heap_ends e r : ends e r -> hends (on_heap e) (let! v := r in Ok (HVec v)).
  Proof.
    destruct e; cbn [ends on_heap hends]; auto.
    - intros (v & -> & R). cbn [bind]. eexists. split; [reflexivity|]. cbn. eauto.
    - intros ->. reflexivity.
    - intros ->. reflexivity.
  Qed.

  Lemma fixed_gives l r : gives cap Fixed l r -> hends (HWorks InObject l) r.
  Proof. intros (h & -> & R). cbn. eauto. Qed.

  Lemma out_of_object (l : list A) h : hrep cap Fixed l h ->
    exists v, hv_useVector m mem cap h = Ok (HVec v) /\ vrep (length l * 2) l v.
  Proof.
    intros H. destruct (useVector_ok m mem Hmem cap l h H) as (rest & j & E & L).
    eexists. split; [exact E|]. exists rest, j. split; auto. lia.
  Qed.

  (** The members of Vector, from what is known about one call. *)
  Lemma vpush (l : list A) c v x : vrep c l v ->
    ends (one_more c l (l ++ [x])) (vec_pushBack m mem 2 v x).
  Proof. intros R. exact (really_ok m moved dflt mem Hmem c l v (VPush x) 2 R (le_n 2)). Qed.
  Lemma vinsert (l : list A) c v p x : vrep c l v -> p <= length l ->
    ends (one_more c l (insert_at p [x] l)) (vec_insert m moved dflt mem 2 v p x).
  Proof.
    intros R Hp. pose proof (really_ok m moved dflt mem Hmem c l v (VInsert p x) 2 R (le_n 2)) as E.
    cbn [vec_really vec_step] in E. destruct (Nat.leb_spec p (length l)); [exact E|lia].
  Qed.
  Lemma vemplace (l : list A) c v p x : vrep c l v -> p <= length l ->
    ends (one_more c l (insert_at p [x] l)) (vec_emplace m moved dflt mem 2 v p x).
  Proof.
    intros R Hp. pose proof (really_ok m moved dflt mem Hmem c l v (VEmplace p x) 2 R (le_n 2)) as E.
    cbn [vec_really vec_step] in E. destruct (Nat.leb_spec p (length l)); [exact E|lia].
  Qed.
  Lemma vrange (l : list A) c v p xs : vrep c l v -> p <= length l ->
    ends (some_more c l xs (insert_at p xs l)) (vec_insert_range m moved dflt mem 2 v p xs).
  Proof.
    intros R Hp.
    pose proof (really_ok m moved dflt mem Hmem c l v (VInsertRange p xs) 2 R (le_n 2)) as E.
    cbn [vec_really vec_step] in E. destruct (Nat.leb_spec p (length l)); [exact E|lia].
  Qed.

  Lemma at_heap v p : hv_at (@HVec A v) p = Ok (IVec (Z.of_nat p)).
  Proof. destruct p; reflexivity. Qed.

  (** *** pushBack *)
  Lemma push_heap (l : list A) c v x f : vrep c l v ->
    hends (on_heap (one_more c l (l ++ [x]))) (hv_pushBack_ref m mem cap (S f) (HVec v) (VExt x)).
  Proof.
    intros R. cbn [hv_pushBack_ref].
    change (vec_pushBack_ref m mem vfuel ?v (VExt x)) with (vec_pushBack m mem 2 v x).
    apply on_heap_ends, vpush; auto.
  Qed.

  Lemma push_object (l : list A) h x f : hrep cap Fixed l h ->
    hends (if length l <? cap then HWorks InObject (l ++ [x]) else moves_out l (l ++ [x]))
      (hv_pushBack_ref m mem cap (S (S f)) h (VExt x)).
  Proof.
    intros H. destruct (Nat.ltb_spec (length l) cap) as [Hl|Hl].
    - apply fixed_gives. pose proof (push_arr m mem Hmem cap l h x f H) as G.
      cbn [grow_place] in G. destruct (Nat.leb_spec (length l + 1) cap); [exact G|lia].
    - destruct (out_of_object l h H) as (v & E & R).
      destruct h as [|a|w]; cbn in H; try contradiction. destruct H as (r & j & -> & L).
      cbn [hv_pushBack_ref]. rewrite sv_size_mk, sv_capacity_mk.
      destruct (Nat.ltb_spec (length l) (length l + length r)); [lia|].
      rewrite E. cbn [bind lost]. exact (push_heap l _ v x f R).
  Qed.

  (** *** insert, emplace *)
  Lemma insert_heap (l : list A) c v p x f : vrep c l v -> p <= length l ->
    hends (on_heap (one_more c l (insert_at p [x] l)))
      (hv_insert_at m moved dflt mem cap (S f) (HVec v) (IVec (Z.of_nat p)) x).
  Proof.
    intros R Hp. cbn [hv_insert_at]. rewrite hi_vec_nat. cbn [bind]. change vfuel with 2.
    apply on_heap_ends, vinsert; auto.
  Qed.
  Lemma emplace_heap (l : list A) c v p x f : vrep c l v -> p <= length l ->
    hends (on_heap (one_more c l (insert_at p [x] l)))
      (hv_emplace_at m moved dflt mem cap (S f) (HVec v) (IVec (Z.of_nat p)) x).
  Proof.
    intros R Hp. cbn [hv_emplace_at]. rewrite hi_vec_nat. cbn [bind]. change vfuel with 2.
    apply on_heap_ends, vemplace; auto.
  Qed.
  Lemma range_heap (l : list A) c v p xs f : vrep c l v -> p <= length l ->
    hends (on_heap (some_more c l xs (insert_at p xs l)))
      (hv_insert_range_at m moved dflt mem cap (S f) (HVec v) (IVec (Z.of_nat p)) xs).
  Proof.
    intros R Hp. cbn [hv_insert_range_at]. rewrite hi_vec_nat. cbn [bind]. change vfuel with 2.
    apply on_heap_ends, vrange; auto.
  Qed.

  (** [begin() - it] is negative, in front of the vector. *)
  Lemma negative_position p : 0 < p -> hi_vec (IVec (0 + (0 - Z.of_nat p))) = UB.
  Proof. intros H. cbn [hi_vec]. destruct (Z.leb_spec 0 (0 + (0 - Z.of_nat p))); [lia|reflexivity]. Qed.

  Lemma insert_object (l : list A) h p x f : hrep cap Fixed l h -> p <= length l ->
    hends (if length l <? cap then HWorks InObject (insert_at p [x] l)
           else if p =? 0 then moves_out l (x :: l) else HBreaks)
      (hv_insert_at m moved dflt mem cap (S (S f)) h (IArr (Z.of_nat p)) x).
  Proof.
    intros H Hp. destruct (Nat.ltb_spec (length l) cap) as [Hl|Hl].
    - apply fixed_gives.
      pose proof (insert_arr m moved dflt mem Hmem cap l h p x f H Hp ltac:(lia)) as G.
      cbn [grow_place] in G. destruct (Nat.leb_spec (length l + 1) cap); [exact G|lia].
    - destruct (out_of_object l h H) as (v & E & R).
      destruct h as [|a|w]; cbn in H; try contradiction. destruct H as (r & j & -> & L).
      cbn [hv_insert_at]. rewrite sv_size_mk, sv_capacity_mk.
      destruct (Nat.ltb_spec (length l) (length l + length r)); [lia|].
      cbn [hv_begin hi_minus]. rewrite E. cbn [bind hv_begin hi_add].
      destruct (Nat.eqb_spec p 0) as [->|Hp0].
      + exact (insert_heap l (length l * 2) v 0 x f R (Nat.le_0_l _)).
      + cbn [hends]. rewrite negative_position by lia. reflexivity.
  Qed.

  Lemma emplace_object (l : list A) h p x f : hrep cap Fixed l h -> p <= length l ->
    hends (if length l <? cap then HWorks InObject (insert_at p [x] l)
           else moves_out l (insert_at p [x] l))
      (hv_emplace_at m moved dflt mem cap (S (S f)) h (IArr (Z.of_nat p)) x).
  Proof.
    intros H Hp. destruct (Nat.ltb_spec (length l) cap) as [Hl|Hl].
    - apply fixed_gives.
      pose proof (emplace_arr m moved dflt mem Hmem cap l h p x f H Hp) as G.
      cbn [grow_place] in G. destruct (Nat.leb_spec (length l + 1) cap); [exact G|lia].
    - destruct (out_of_object l h H) as (v & E & R).
      destruct h as [|a|w]; cbn in H; try contradiction. destruct H as (r & j & -> & L).
      cbn [hv_emplace_at]. rewrite sv_size_mk, sv_capacity_mk.
      destruct (Nat.eqb_spec (length l + length r) (length l)); [|lia].
      cbn [hv_begin hi_minus]. rewrite Z.sub_0_r, E. cbn [bind hv_begin hi_add]. rewrite Z.add_0_l.
      exact (emplace_heap l _ v p x f R Hp).
  Qed.

  Lemma range_object (l : list A) h p xs f : hrep cap Fixed l h -> p <= length l ->
    hends (if length l + length xs <? cap then HWorks InObject (insert_at p xs l)
           else if p =? 0 then on_heap (some_more (length l * 2) l xs (xs ++ l)) else HBreaks)
      (hv_insert_range_at m moved dflt mem cap (S (S f)) h (IArr (Z.of_nat p)) xs).
  Proof.
    intros H Hp. destruct (out_of_object l h H) as (v & E & R).
    destruct h as [|a|w]; cbn in H; try contradiction. destruct H as (r & j & -> & L).
    cbn [hv_insert_range_at]. rewrite sv_size_mk, sv_capacity_mk.
    destruct (Nat.ltb_spec (length l + length xs) cap) as [Hl|Hl];
      destruct (Nat.ltb_spec (length xs) (length l + length r - length l)); try lia.
    - rewrite hi_arr_nat. cbn [bind].
      destruct (insert_range_ok m moved dflt cap l r j p xs L Hp) as (r1 & j1 & E1 & L1 & _).
      rewrite bounded_fits in * by (rewrite insert_at_length; auto; lia).
      rewrite E1. cbn [bind hends]. eexists. split; [reflexivity|]. cbn. eauto.
    - cbn [hv_begin hi_minus]. rewrite E. cbn [bind hv_begin hi_add].
      destruct (Nat.eqb_spec p 0) as [->|Hp0].
      + exact (range_heap l (length l * 2) v 0 xs f R (Nat.le_0_l _)).
      + cbn [hends hv_insert_range_at]. rewrite negative_position by lia. reflexivity.
  Qed.

  (** Into the container that holds nothing. *)
  Lemma useArray_home : exists h, hv_useArray m cap (@HUnset A) = Ok h /\ hrep cap Fixed [] h.
  Proof. exact (useArray_new m cap). Qed.

  Lemma insert_none x :
    hends (if cap =? 0 then moves_out [] [x] else HBreaks)
      (hv_insert_at m moved dflt mem cap 3 HUnset INone x).
  Proof.
    cbn [hv_insert_at]. destruct useArray_home as (h & E & R). rewrite E. cbn [bind].
    destruct h as [|a|w]; cbn [hrep] in R; try contradiction. destruct R as (r & j & -> & L).
    rewrite sv_size_mk, sv_capacity_mk.
    destruct (Nat.eqb_spec cap 0) as [Hc|Hc],
      (Nat.ltb_spec (length (@nil A)) (length (@nil A) + length r)) as [Hr|Hr]; cbn [length] in L, Hr;
      try lia; [|reflexivity].
    destruct (out_of_object [] (HArr (mk (@nil A) r j))) as (v & E1 & R1). { cbn [hrep]. eauto. }
    cbn [hv_begin hi_minus]. rewrite E1. cbn [bind hv_begin hi_add].
    exact (insert_heap [] 0 v 0 x 0 R1 (le_n 0)).
  Qed.
  Lemma emplace_none x :
    hends (if cap =? 0 then moves_out [] [x] else HBreaks)
      (hv_emplace_at m moved dflt mem cap 3 HUnset INone x).
  Proof.
    cbn [hv_emplace_at]. destruct useArray_home as (h & E & R). rewrite E. cbn [bind].
    destruct h as [|a|w]; cbn [hrep] in R; try contradiction. destruct R as (r & j & -> & L).
    rewrite sv_size_mk, sv_capacity_mk.
    destruct (Nat.eqb_spec cap 0) as [Hc|Hc],
      (Nat.eqb_spec (length (@nil A) + length r) (length (@nil A))) as [Hr|Hr]; cbn [length] in L, Hr;
      try lia; [|reflexivity].
    destruct (out_of_object [] (HArr (mk (@nil A) r j))) as (v & E1 & R1). { cbn [hrep]. eauto. }
    cbn [hv_begin hi_minus]. rewrite E1. cbn [bind hv_begin hi_add].
    exact (emplace_heap [] 0 v 0 x 0 R1 (le_n 0)).
  Qed.

  (** *** erase *)
  Lemma settle_object (l : list A) a : hrep cap Fixed l (HArr a) ->
    hends (settles cap InObject l) (shrink_array m a).
  Proof.
    intros H. destruct (shrink_array_ok m cap l a H) as (h & -> & R). cbn [settles hends].
    eexists. split; [reflexivity|]. cbn [shrink_place] in R. destruct (length l =? 0); exact R.
  Qed.

  Lemma settle_heap (l : list A) c v : vrep c l v -> hends (settles cap (OnHeap c) l) (shrink_vector m cap v).
  Proof.
    intros (r & j & -> & L). unfold shrink_vector, vec_size, vc_tail. cbn [vc_arr sv_tail settles].
    destruct (Nat.ltb_spec (length l) cap) as [Hl|Hl].
    2: { eexists. split; [reflexivity|]. cbn. eexists. split; [reflexivity|]. exists r, j. auto. }
    apply fixed_gives. unfold hv_useArray, vec_size, vc_tail, vc_store. cbn [vc_arr sv_tail sv_store].
    destruct (Nat.ltb_spec cap (length l)); [lia|].
    change (load_range (length l) 0 (St (map Some l ++ r) j)) with (sv_elements (mk l r j)).
    rewrite elements_ok. cbn [bind]. rewrite new_mk.
    destruct (push_all_fit m cap l [] (raw A cap) 0) as (r1 & j1 & E & L1 & _);
      [rewrite raw_length; cbn; lia|cbn; lia|]. cbn [app] in *. rewrite E. cbn [bind hv_reset].
    unfold vec_destructor, vec_clean, vec_lift. cbn [vc_arr].
    destruct (clean_ok m c l r j L) as (r' & j' & E2 & _). rewrite E2. cbn [bind].
    apply store_array_ok. lia.
  Qed.

  Lemma hreally_ok k l h op : xrep k l h -> hends (hv_really m cap k l op) (hv_step m moved dflt mem cap h op).
  Proof.
    intros H. destruct op; cbn [hv_really hv_step].
    - unfold hv_pushBack. destruct k; cbn [xrep] in H.
      + destruct h; cbn in H; try contradiction. subst l. cbn [hv_pushBack_ref].
        destruct useArray_home as (h & E & R). rewrite E. cbn [bind].
        pose proof (push_object [] h x 0 R) as G. cbn [length app] in G.
        destruct (Nat.eqb_spec cap 0), (Nat.ltb_spec 0 cap); try lia; exact G.
      + apply push_object; auto.
      + destruct H as (v & -> & R). apply push_heap; auto.
    - destruct k; cbn [xrep] in H.
      + destruct h; cbn in H; try contradiction. subst l. eexists. split; reflexivity.
      + apply fixed_gives. apply pop_hv; auto.
      + destruct H as (v & -> & R). cbn [hv_popBack].
        exact (on_heap_ends _ _ (really_ok m moved dflt mem Hmem c l v VPop 2 R (le_n 2))).
    - destruct (Nat.leb_spec p (length l)) as [Hp|]; [|exact I]. destruct k; cbn [xrep] in H.
      + rewrite (at_hv cap Nowhere l h p H Hp). destruct h; cbn in H; try contradiction. subst l.
        apply insert_none.
      + rewrite (at_hv cap Fixed l h p H Hp). apply insert_object; auto.
      + destruct H as (v & -> & R). rewrite at_heap. apply insert_heap; auto.
    - destruct (Nat.leb_spec p (length l)) as [Hp|]; [|exact I]. destruct k; cbn [xrep] in H.
      + rewrite (at_hv cap Nowhere l h p H Hp). destruct h; cbn in H; try contradiction. subst l.
        eexists. split; reflexivity.
      + rewrite (at_hv cap Fixed l h p H Hp). apply range_object; auto.
      + destruct H as (v & -> & R). rewrite at_heap. apply range_heap; auto.
    - destruct (Nat.leb_spec p (length l)) as [Hp|]; [|exact I]. destruct k; cbn [xrep] in H.
      + rewrite (at_hv cap Nowhere l h p H Hp). destruct h; cbn in H; try contradiction. subst l.
        apply emplace_none.
      + rewrite (at_hv cap Fixed l h p H Hp). apply emplace_object; auto.
      + destruct H as (v & -> & R). rewrite at_heap. apply emplace_heap; auto.
    - destruct (Nat.leb_spec p (length l)) as [Hp|]; [|exact I]. destruct k; cbn [xrep] in H.
      + rewrite (at_hv cap Nowhere l h p H Hp). destruct h; cbn in H; try contradiction. subst l.
        destruct p; [|cbn in Hp; lia]. eexists. split; reflexivity.
      + rewrite (at_hv cap Fixed l h p H Hp). cbn [bind].
        destruct h as [|a|w]; cbn in H; try contradiction. destruct H as (r & j & -> & L).
        cbn [hv_erase_at]. rewrite hi_arr_nat. cbn [bind].
        destruct (erase_ok m moved cap l r j p L Hp) as (r1 & j1 & E & L1 & _). rewrite E.
        cbn [bind]. apply settle_object. cbn. eauto.
      + destruct H as (v & -> & R). rewrite at_heap. cbn [bind hv_erase_at]. rewrite hi_vec_nat.
        cbn [bind]. pose proof (really_ok m moved dflt mem Hmem c l v (VErase p) 2 R (le_n 2)) as G.
        cbn [vec_really vec_step] in G. destruct (Nat.leb_spec p (length l)); [|lia].
        destruct G as (w & -> & R1). cbn [bind]. apply settle_heap; auto.
    - destruct (Nat.leb_spec b e) as [Hb|]; [|exact I].
      destruct (Nat.leb_spec e (length l)) as [He|]; [|exact I]. cbn [andb].
      destruct k; cbn [xrep] in H.
      + rewrite (at_hv cap Nowhere l h b H), (at_hv cap Nowhere l h e H) by lia.
        destruct h; cbn in H; try contradiction. subst l. cbn in He.
        assert (e = 0) by lia. assert (b = 0) by lia. subst. destruct m; eexists; split; reflexivity.
      + rewrite (at_hv cap Fixed l h b H), (at_hv cap Fixed l h e H) by lia. cbn [bind].
        destruct h as [|a|w]; cbn in H; try contradiction. destruct H as (r & j & -> & L).
        cbn [hv_erase_range_at]. rewrite !hi_arr_nat. cbn [bind].
        destruct (inner_range m b e (length l)) eqn:Ei; unfold inner_range in Ei.
        * destruct m; [discriminate|]. apply andb_true_iff in Ei as [E1 E2].
          apply Nat.ltb_lt in E1, E2. cbn [hends]. rewrite erase_range_UB; auto.
        * destruct (erase_range_ok m moved cap l r j b e L Hb He) as (r1 & j1 & E & L1 & _).
          { destruct m; auto. right. apply andb_false_iff in Ei. rewrite !Nat.ltb_ge in Ei. lia. }
          rewrite E. cbn [bind]. apply settle_object. cbn. eauto.
      + destruct H as (v & -> & R). rewrite !at_heap. cbn [bind hv_erase_range_at].
        rewrite !hi_vec_nat. cbn [bind].
        pose proof (really_ok m moved dflt mem Hmem c l v (VEraseRange b e) 2 R (le_n 2)) as G.
        cbn [vec_really vec_step] in G. destruct (Nat.leb_spec b e); [|lia].
        destruct (Nat.leb_spec e (length l)); [|lia]. cbn [andb] in G.
        destruct (inner_range m b e (length l)); cbn [ends] in G.
        * rewrite G. reflexivity.
        * destruct G as (w & -> & R1). cbn [bind]. apply settle_heap; auto.
    - apply fixed_gives. destruct k; cbn [xrep] in H.
      + apply (clean_hv m cap Nowhere l); auto.
      + apply (clean_hv m cap Fixed l); auto.
      + destruct H as (v & -> & (r & j & -> & L)). unfold hv_clean. cbn [hv_reset].
        unfold vec_destructor, vec_clean, vec_lift. cbn [vc_arr].
        destruct (clean_ok m c l r j L) as (r' & j' & E2 & _). rewrite E2. cbn [bind].
        rewrite new_mk. apply (store_array_ok m cap [] (raw A cap) 0). cbn. lia.
  Qed.

  Lemma hstory_ok : forall ops k l h, xrep k l h ->
    hends (hv_story m cap k l ops) (hv_run m moved dflt mem cap h ops).
  Proof.
    induction ops as [|op ops IH]; intros k l h R; cbn [hv_story hv_run].
    - exists h. auto.
    - pose proof (hreally_ok k l h op R) as S. destruct (hv_really m cap k l op); cbn [hends] in S.
      + destruct S as (h1 & -> & R1). cbn [bind]. apply IH; auto.
      + rewrite S. reflexivity.
      + rewrite S. reflexivity.
      + exact I.
  Qed.

  (** What can be seen of it. *)
  Lemma seen k l h : xrep k l h -> hv_size h = length l /\ hv_capacity h = home_capacity cap k
    /\ place_of h = home_place k
    /\ (forall i x, nth_error l i = Some x -> hv_index h i = Ok x).
  Proof.
    intros H. destruct k; cbn [xrep] in H.
    - split; [exact (size_hv _ _ _ _ H)|]. split; [|split; [exact (place_hv _ _ _ _ H)|]].
      + destruct h; cbn in H; try contradiction. reflexivity.
      + intros i x. exact (index_hv _ _ _ _ i x H).
    - split; [exact (size_hv _ _ _ _ H)|]. split; [|split; [exact (place_hv _ _ _ _ H)|]].
      + destruct h; cbn in H; try contradiction. destruct H as (r & j & -> & L). cbn [hv_capacity].
        rewrite sv_capacity_mk. exact L.
      + intros i x. exact (index_hv _ _ _ _ i x H).
    - destruct H as (v & -> & r & j & -> & L). repeat split.
      intros i x E. unfold hv_index. cbn [hv_begin hi_deref].
      assert (D : forall i x, nth_error l i = Some x ->
        hi_deref (HVec (Vec (mk l r j) c)) (IVec (Z.of_nat i)) = Ok x).
      { intros i0 x0 E0. cbn [hi_deref]. rewrite hi_vec_nat. cbn [bind].
        unfold vec_index, vc_store. cbn [vc_arr sv_store]. rewrite load_at, E0. reflexivity. }
      destruct l as [|y l]; [destruct i; discriminate|].
      pose proof (D 0 y eq_refl) as D0. cbn [hi_deref Z.of_nat] in D0. rewrite D0. cbn [bind hi_add].
      rewrite Z.add_0_l. exact (D i x E).
  Qed.
End Exact.

(** Every history, for every element type and every size of the fixed part: if all positions are in the
    container when they are used, the history either ends with exactly these contents at this place,
    or in undefined behaviour, or in a call that does not return - and the specification says which. *)
Theorem C52_exact_partial :
  forall (A : Type) (m : mode) (moved : A -> A) (dflt : A) (mem : memory) (cap : nat)
         (ops : list (hv_op A)),
    mem <> NoMemory ->
    match hv_story m cap NoHome [] ops with
    | HWorks k l => exists h, hv_run m moved dflt mem cap hv_new ops = Ok h
        /\ hv_size h = length l /\ hv_capacity h = home_capacity cap k
        /\ place_of h = home_place k
        /\ (forall i x, nth_error l i = Some x -> hv_index h i = Ok x)
    | HBreaks => hv_run m moved dflt mem cap hv_new ops = UB
    | HHangs => hv_run m moved dflt mem cap hv_new ops = Diverge
    | HBadPosition => True
    end.
Proof.
  intros A m moved dflt mem cap ops Hmem.
  pose proof (hstory_ok m moved dflt mem Hmem cap ops NoHome [] HUnset eq_refl) as S.
  unfold hv_new. destruct (hv_story m cap NoHome [] ops); cbn [hends] in S; auto.
  destruct S as (h & E & R). exists h. split; [exact E|]. exact (seen cap _ _ _ R).
Qed.

(** Histories of each kind. *)
Example C52_exact_case :
  hv_story Tracked 2 NoHome [] [HPush 1; HPush 2; HEmplace 1 3; HInsert 3 4; HErase 0]
    = HWorks (OnHeap 4) [3; 2; 4]
  /\ hv_story Tracked 2 NoHome [] [HPush 1; HPush 2; HPush 3; HErase 0; HErase 0]
    = HWorks InObject [3]
  /\ hv_story Tracked 2 NoHome [] [HPush 1; HPush 2; HInsert 1 3] = HBreaks
  /\ hv_story Tracked 2 NoHome [] [HPush 1; HErase 0; HInsert 0 5] = HBreaks
  /\ hv_story Tracked 2 NoHome [] [HPush 1; HErase 0; HInsertRange 0 [5]; HPush 6]
    = HWorks InObject [6]
  /\ hv_story Trivial 2 NoHome [] [HPush 1; HInsertRange 1 [5]] = HBreaks
  /\ hv_story Trivial 1 NoHome [] [HClean; HInsertRange 0 [5]] = HWorks (OnHeap 1) [5]
  /\ hv_story Trivial 1 NoHome [] [HClean; HInsertRange 0 [5]; HPush 6] = HHangs
  /\ hv_story Trivial 0 NoHome [] [HInsert 0 5; HPush 6] = HWorks (OnHeap 8) [5; 6].
Proof. repeat split; vm_compute; reflexivity. Qed.

Print Assumptions C52_exact_partial.
