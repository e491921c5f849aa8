(** Proofs about the model of HybridVector. *)
From Coq Require Import List Arith ZArith Lia Bool.
From Verif Require Import Base BaseLemmas Store StoreLemmas StaticVectorModel StaticVectorSpec
  StaticVectorProofs VectorModel VectorSpec VectorProofs HybridVectorModel HybridVectorSpec.
Import ListNotations.

Section Proofs.
  Context {A : Type}.
  Variable m : mode.
  Variable moved : A -> A.
  Variable dflt : A.
  Variable mem : memory.
  Hypothesis Hmem : mem <> NoMemory.
  Variable cap : nat.
  Notation mk l rest k := (SVec (St (map (@Some A) l ++ rest) k) (length l)).

  (** The container represents the contents [l]. *)
  Definition hrep (k : place) (l : list A) (h : hybrid A) : Prop :=
    match k, h with
    | Nowhere, HUnset => l = []
    | Fixed, HArr a => exists rest j, a = mk l rest j /\ length l + length rest = cap
    | Dynamic, HVec v => exists rest j c, v = Vec (mk l rest j) c
        /\ length l + length rest = c /\ c <> 1 /\ (c = 0 -> cap = 0)
    | _, _ => False
    end.

  Definition gives (k : place) (l : list A) (r : outcome (hybrid A)) : Prop :=
    exists h, r = Ok h /\ hrep k l h.

  Lemma new_mk n : sv_new n = mk (@nil A) (raw A n) 0.
  Proof. reflexivity. Qed.

  Lemma raw_length n : length (raw A n) = n.
  Proof. unfold raw. apply repeat_length. Qed.

  Lemma copy_fit xs : length xs <= cap ->
    exists rest j, sv_copy m cap xs = Ok (mk xs rest j) /\ length xs + length rest = cap.
  Proof.
    intros H. unfold sv_copy. destruct (Nat.leb_spec (length xs) cap); [|lia].
    rewrite new_mk.
    destruct (push_all_fit m cap xs [] (raw A cap) 0) as (r & j & E & L & _);
      [rewrite raw_length; cbn; lia|cbn; lia|]. cbn [app] in *. eauto.
  Qed.

  Lemma store_array_ok l rest j : length l <= cap ->
    gives Fixed l (store_array m cap (mk l rest j)).
  Proof.
    intros H. unfold store_array. rewrite elements_ok. cbn [bind].
    destruct (copy_fit l H) as (r1 & j1 & E1 & L1). rewrite E1. cbn [bind].
    rewrite elements_ok. cbn [bind].
    destruct (copy_fit l H) as (r2 & j2 & E2 & L2). rewrite E2. cbn [bind].
    eexists. split; [reflexivity|]. cbn. eauto.
  Qed.

  Lemma reset_hv k l h : hrep k l h -> hv_reset m h = Ok HUnset.
  Proof.
    destruct k, h; cbn; try (intro; contradiction); auto.
    - intros (r & j & -> & L). rewrite destructor_ok. reflexivity.
    - intros (r & j & c & -> & L & _). unfold vec_destructor, vec_clean, vec_lift. cbn [vc_arr].
      destruct (clean_ok m c l r j L) as (r' & j' & E & _). rewrite E. reflexivity.
  Qed.

  Lemma useArray_new : gives Fixed [] (hv_useArray m cap HUnset).
  Proof. cbn. rewrite new_mk. apply (store_array_ok [] (raw A cap) 0). cbn. lia. Qed.

  Lemma useArray_vec l h : hrep Dynamic l h -> length l <= cap ->
    gives Fixed l (hv_useArray m cap h).
  Proof.
    intros H Hl. pose proof (reset_hv _ _ _ H) as HR. destruct h as [|a|v]; cbn in H; try contradiction.
    destruct H as (r & j & c & -> & L & _). unfold hv_useArray.
    unfold vec_size, vc_tail, vc_store. cbn [vc_arr sv_tail sv_store].
    destruct (Nat.ltb_spec cap (length l)); [lia|].
    change (load_range (length l) 0 (St (map Some l ++ r) j)) with (sv_elements (mk l r j)).
    rewrite elements_ok. cbn [bind]. rewrite new_mk.
    destruct (push_all_fit m cap l [] (raw A cap) 0) as (r1 & j1 & E & L1 & _);
      [rewrite raw_length; cbn; lia|cbn; lia|]. cbn [app] in *. rewrite E. cbn [bind].
    rewrite HR. cbn [bind]. apply store_array_ok; auto.
  Qed.

  (** The vector right after the switch has room for twice the elements. *)
  Lemma useVector_ok l h : hrep Fixed l h ->
    exists rest j, hv_useVector m mem cap h = Ok (HVec (Vec (mk l rest j) (length l * 2)))
      /\ length rest = length l.
  Proof.
    intros H. pose proof (reset_hv _ _ _ H) as HR. destruct h as [|a|v]; cbn in H; try contradiction.
    destruct H as (r & j & -> & L). unfold hv_useVector, sv_size. cbn [sv_tail].
    destruct (reserve_ok (A := A) m mem Hmem [] [] 0 (length l * 2) 0 eq_refl) as (r1 & j1 & E1 & L1 & _).
    change (@vec_new A) with (Vec (mk (@nil A) [] 0) 0). rewrite E1. cbn [bind].
    rewrite elements_ok. cbn [bind]. rewrite Nat.max_r in * by lia. cbn [length] in L1.
    destruct (push_all_ok' m mem l [] r1 j1 (length l * 2) 1) as (r2 & j2 & E2 & L2 & _);
      [cbn; lia|cbn; lia|].
    cbn [app] in *. change vfuel with 2. rewrite E2. cbn [bind]. rewrite HR. cbn [bind].
    eexists r2, j2. split; [reflexivity|lia].
  Qed.

  Lemma sv_size_mk l rest j : sv_size (mk l rest j) = length l.
  Proof. reflexivity. Qed.
  Lemma sv_capacity_mk (l : list A) rest j : sv_capacity (mk l rest j) = length l + length rest.
  Proof. unfold sv_capacity. cbn. rewrite app_length, map_length. reflexivity. Qed.

  (** *** pushBack *)
  Lemma push_vec l h x f : hrep Dynamic l h ->
    gives Dynamic (l ++ [x]) (hv_pushBack_ref m mem cap (S f) h (VExt x)).
  Proof.
    destruct h as [|a|v]; cbn [hrep]; try (intro; contradiction).
    intros (r & j & c & -> & L & C1 & C0). cbn [hv_pushBack_ref].
    change (vec_pushBack_ref m mem vfuel ?v (VExt x)) with (vec_pushBack m mem 2 v x).
    destruct (VectorProofs.push_ok m mem Hmem l r j c x 0 L (or_intror C1))
      as (r1 & j1 & E & L1 & _). rewrite E. cbn [bind].
    eexists. split; [reflexivity|]. cbn [hrep]. exists r1, j1. eexists.
    split; [reflexivity|]. split; [exact L1|].
    destruct (length l <? c); auto. split; [apply grow_ne1; auto|].
    pose proof (grow_gt c C1). lia.
  Qed.

  Lemma dynamic_start l rest j : length rest = length l -> (length l = 0 -> cap = 0) ->
    hrep Dynamic l (HVec (Vec (mk l rest j) (length l * 2))).
  Proof.
    intros H Hc. cbn. exists rest, j, (length l * 2). split; auto. split; [lia|].
    split; [lia|]. intros; apply Hc. lia.
  Qed.

  Lemma push_arr l h x f : hrep Fixed l h ->
    gives (grow_place cap (length l) 1 Fixed) (l ++ [x])
      (hv_pushBack_ref m mem cap (S (S f)) h (VExt x)).
  Proof.
    intros H. destruct h as [|a|v]; cbn in H; try contradiction.
    destruct H as (r & j & Ea & L). cbn [hv_pushBack_ref].
    assert (Ez : sv_size a = length l /\ sv_capacity a = cap).
    { subst a. rewrite sv_size_mk, sv_capacity_mk. auto. }
    destruct Ez as [E1 E2]. rewrite E1, E2. cbn [grow_place].
    destruct (Nat.ltb_spec (length l) cap) as [Hl|Hl].
    - destruct (Nat.leb_spec (length l + 1) cap); [|lia]. cbn [as_arg bind].
      change (sv_pushBack_arg m a (Ext x)) with (sv_pushBack m a x). subst a.
      destruct (pushBack_ok m cap l r j x L) as (r1 & j1 & E & L1 & _).
      rewrite bounded_fits in * by (rewrite app_length; cbn; lia).
      rewrite E. cbn [bind]. eexists. split; [reflexivity|]. cbn. eauto.
    - destruct (Nat.leb_spec (length l + 1) cap); [lia|].
      destruct (useVector_ok l (HArr a)) as (r1 & j1 & E & L1). { cbn. eauto. }
      rewrite E. cbn [bind lost].
      exact (push_vec l _ x f (dynamic_start l r1 j1 L1 ltac:(lia))).
  Qed.

  Lemma push_hv k l h x : hrep k l h ->
    gives (grow_place cap (length l) 1 k) (l ++ [x]) (hv_pushBack m mem cap h x).
  Proof.
    intros H. unfold hv_pushBack. destruct k.
    - destruct h; cbn in H; try contradiction. subst l. cbn [hv_pushBack_ref].
      destruct useArray_new as (h & E & R). rewrite E. cbn [bind].
      pose proof (push_arr [] h x 0 R) as G. cbn [grow_place length Nat.add] in *.
      destruct (Nat.leb_spec 1 cap), (Nat.eqb_spec cap 0); auto; lia.
    - apply push_arr; auto.
    - apply push_vec; auto.
  Qed.

  (** *** insert, emplace *)
  Lemma hi_arr_nat p : hi_arr (IArr (Z.of_nat p)) = Ok p.
  Proof. cbn. destruct (Z.leb_spec 0 (Z.of_nat p)); [|lia]. rewrite Nat2Z.id. reflexivity. Qed.
  Lemma hi_vec_nat p : hi_vec (IVec (Z.of_nat p)) = Ok p.
  Proof. cbn. destruct (Z.leb_spec 0 (Z.of_nat p)); [|lia]. rewrite Nat2Z.id. reflexivity. Qed.

  Lemma insert_vec l h p x f : hrep Dynamic l h -> p <= length l ->
    gives Dynamic (insert_at p [x] l)
      (hv_insert_at m moved dflt mem cap (S f) h (IVec (Z.of_nat p)) x).
  Proof.
    destruct h as [|a|v]; cbn [hrep]; try (intro; contradiction).
    intros (r & j & c & -> & L & C1 & C0) Hp. cbn [hv_insert_at]. rewrite hi_vec_nat. cbn [bind].
    destruct (insert_ok' m moved dflt mem Hmem l r j c p x 0 L (or_intror C1) Hp)
      as (r1 & j1 & E & L1 & _). change vfuel with 2. rewrite E. cbn [bind].
    eexists. split; [reflexivity|]. cbn [hrep]. exists r1, j1. eexists.
    split; [reflexivity|]. split; [exact L1|].
    destruct (length l <? c); auto. split; [apply grow_ne1; auto|].
    pose proof (grow_gt c C1). lia.
  Qed.

  Lemma emplace_vec l h p x f : hrep Dynamic l h -> p <= length l ->
    gives Dynamic (insert_at p [x] l)
      (hv_emplace_at m moved dflt mem cap (S f) h (IVec (Z.of_nat p)) x).
  Proof.
    destruct h as [|a|v]; cbn [hrep]; try (intro; contradiction).
    intros (r & j & c & -> & L & C1 & C0) Hp. cbn [hv_emplace_at]. rewrite hi_vec_nat. cbn [bind].
    destruct (emplace_ok m moved dflt mem Hmem l r j c p x 0 L (or_intror C1) Hp)
      as (r1 & j1 & E & L1 & _). change vfuel with 2. rewrite E. cbn [bind].
    eexists. split; [reflexivity|]. cbn [hrep]. exists r1, j1. eexists.
    split; [reflexivity|]. split; [exact L1|].
    destruct (length l <? c); auto. split; [apply grow_ne1; auto|].
    pose proof (grow_gt c C1). lia.
  Qed.

  Lemma insert_arr l h p x f : hrep Fixed l h -> p <= length l -> (length l = cap -> p = 0) ->
    gives (grow_place cap (length l) 1 Fixed) (insert_at p [x] l)
      (hv_insert_at m moved dflt mem cap (S (S f)) h (IArr (Z.of_nat p)) x).
  Proof.
    intros H Hp H0. destruct h as [|a|v]; cbn in H; try contradiction.
    destruct H as (r & j & Ea & L). cbn [hv_insert_at].
    assert (Ez : sv_size a = length l /\ sv_capacity a = cap).
    { subst a. rewrite sv_size_mk, sv_capacity_mk. auto. }
    destruct Ez as [E1 E2]. rewrite E1, E2. cbn [grow_place].
    destruct (Nat.ltb_spec (length l) cap) as [Hl|Hl].
    - destruct (Nat.leb_spec (length l + 1) cap); [|lia]. rewrite hi_arr_nat. cbn [bind]. subst a.
      destruct (insert_ok m moved dflt cap l r j p x L Hp) as (r1 & j1 & E & L1 & _).
      rewrite bounded_fits in * by (rewrite insert_at_length; auto; cbn; lia).
      rewrite E. cbn [bind]. eexists. split; [reflexivity|]. cbn. eauto.
    - destruct (Nat.leb_spec (length l + 1) cap); [lia|].
      rewrite (H0 ltac:(lia)). cbn [Z.of_nat hv_begin hi_minus Z.sub Z.add Z.opp].
      destruct (useVector_ok l (HArr a)) as (r1 & j1 & E & L1). { cbn. eauto. }
      rewrite E. cbn [bind hv_begin hi_add Z.add].
      exact (insert_vec l _ 0 x f (dynamic_start l r1 j1 L1 ltac:(lia)) (Nat.le_0_l _)).
  Qed.

  Lemma emplace_arr l h p x f : hrep Fixed l h -> p <= length l ->
    gives (grow_place cap (length l) 1 Fixed) (insert_at p [x] l)
      (hv_emplace_at m moved dflt mem cap (S (S f)) h (IArr (Z.of_nat p)) x).
  Proof.
    intros H Hp. destruct h as [|a|v]; cbn in H; try contradiction.
    destruct H as (r & j & Ea & L). cbn [hv_emplace_at].
    assert (Ez : sv_size a = length l /\ sv_capacity a = cap).
    { subst a. rewrite sv_size_mk, sv_capacity_mk. auto. }
    destruct Ez as [E1 E2]. rewrite E1, E2. cbn [grow_place].
    destruct (Nat.eqb_spec cap (length l)) as [Hl|Hl].
    - destruct (Nat.leb_spec (length l + 1) cap); [lia|].
      cbn [hv_begin hi_minus]. rewrite Z.sub_0_r.
      destruct (useVector_ok l (HArr a)) as (r1 & j1 & E & L1). { cbn. eauto. }
      rewrite E. cbn [bind hv_begin hi_add]. rewrite Z.add_0_l.
      exact (emplace_vec l _ p x f (dynamic_start l r1 j1 L1 ltac:(lia)) Hp).
    - destruct (Nat.leb_spec (length l + 1) cap); [|lia]. rewrite hi_arr_nat. cbn [bind]. subst a.
      rewrite emplace_eq by auto.
      destruct (insert_ok m moved dflt cap l r j p x L Hp) as (r1 & j1 & E & L1 & _).
      rewrite bounded_fits in * by (rewrite insert_at_length; auto; cbn; lia).
      rewrite E. cbn [bind]. eexists. split; [reflexivity|]. cbn. eauto.
  Qed.

  (** Into the unset container: only when there is no fixed part. *)
  Lemma full_new h : hrep Fixed [] h -> cap = 0 ->
    exists a, h = HArr a /\ sv_size a = 0 /\ sv_capacity a = 0.
  Proof.
    intros H Hc. destruct h as [|a|v]; cbn in H; try contradiction. destruct H as (r & j & -> & L).
    exists (mk (@nil A) r j). rewrite sv_capacity_mk. cbn in *. repeat split; lia.
  Qed.

  Lemma insert_new x : cap = 0 ->
    gives Dynamic [x] (hv_insert_at m moved dflt mem cap 3 HUnset INone x).
  Proof.
    intros Hc. cbn [hv_insert_at]. destruct useArray_new as (h & E & R). rewrite E. cbn [bind].
    destruct (full_new h R Hc) as (a & -> & E1 & E2). rewrite E1, E2. cbn [Nat.ltb Nat.leb].
    cbn [hv_begin hi_minus].
    destruct (useVector_ok [] (HArr a) R) as (r1 & j1 & E3 & L1). rewrite E3.
    cbn [bind hv_begin hi_add Z.add].
    pose proof (insert_vec [] _ 0 x 0 (dynamic_start [] r1 j1 L1 (fun _ => Hc)) (le_n 0)) as G.
    exact G.
  Qed.

  Lemma emplace_new x : cap = 0 ->
    gives Dynamic [x] (hv_emplace_at m moved dflt mem cap 3 HUnset INone x).
  Proof.
    intros Hc. cbn [hv_emplace_at]. destruct useArray_new as (h & E & R). rewrite E. cbn [bind].
    destruct (full_new h R Hc) as (a & -> & E1 & E2). rewrite E1, E2. cbn [Nat.eqb].
    cbn [hv_begin hi_minus].
    destruct (useVector_ok [] (HArr a) R) as (r1 & j1 & E3 & L1). rewrite E3.
    cbn [bind hv_begin hi_add Z.add].
    pose proof (emplace_vec [] _ 0 x 0 (dynamic_start [] r1 j1 L1 (fun _ => Hc)) (le_n 0)) as G.
    exact G.
  Qed.

  Lemma at_hv k l h p : hrep k l h -> p <= length l ->
    hv_at h p = Ok (match k with
                    | Nowhere => INone
                    | Fixed => IArr (Z.of_nat p)
                    | Dynamic => IVec (Z.of_nat p)
                    end).
  Proof.
    intros H Hp. destruct k, h; cbn in H; try contradiction.
    - subst l. cbn in Hp. assert (p = 0) by lia. subst. reflexivity.
    - destruct p; reflexivity.
    - destruct p; reflexivity.
  Qed.

  (** *** Ranges *)
  Lemma range_vec l h p xs f : hrep Dynamic l h -> p <= length l ->
    ~ (cap <= 1 /\ length l = 0 /\ length xs = 1) ->
    gives Dynamic (insert_at p xs l)
      (hv_insert_range_at m moved dflt mem cap (S f) h (IVec (Z.of_nat p)) xs).
  Proof.
    destruct h as [|a|v]; cbn [hrep]; try (intro; contradiction).
    intros (r & j & c & -> & L & C1 & C0) Hp Hx. cbn [hv_insert_range_at].
    rewrite hi_vec_nat. cbn [bind].
    destruct (insert_range_ok' m moved dflt mem Hmem l r j c p xs 0 L Hp)
      as (r1 & j1 & E & L1 & _). change vfuel with 2. rewrite E. cbn [bind].
    eexists. split; [reflexivity|]. cbn [hrep]. exists r1, j1. eexists.
    split; [reflexivity|]. split; [exact L1|]. clear E L1.
    destruct (Nat.leb_spec (length xs + length l) c); auto.
    destruct (Nat.eqb_spec (length xs) 0); auto. split; lia.
  Qed.

  Lemma range_arr l h p xs f : hrep Fixed l h -> p <= length l ->
    (cap <= length l + length xs -> p = 0) ->
    ~ (cap <= 1 /\ length l = 0 /\ length xs = 1) ->
    gives (grow_place cap (length l) (S (length xs)) Fixed) (insert_at p xs l)
      (hv_insert_range_at m moved dflt mem cap (S (S f)) h (IArr (Z.of_nat p)) xs).
  Proof.
    intros H Hp H0 Hx. destruct h as [|a|v]; cbn in H; try contradiction.
    destruct H as (r & j & Ea & L). cbn [hv_insert_range_at].
    assert (Ez : sv_size a = length l /\ sv_capacity a = cap).
    { subst a. rewrite sv_size_mk, sv_capacity_mk. auto. }
    destruct Ez as [E1 E2]. rewrite E1, E2. cbn [grow_place].
    destruct (Nat.ltb_spec (length xs) (cap - length l)) as [Hl|Hl].
    - destruct (Nat.leb_spec (length l + S (length xs)) cap); [|lia].
      rewrite hi_arr_nat. cbn [bind]. subst a.
      destruct (insert_range_ok m moved dflt cap l r j p xs L Hp) as (r1 & j1 & E & L1 & _).
      rewrite bounded_fits in * by (rewrite insert_at_length; auto; cbn; lia).
      rewrite E. cbn [bind]. eexists. split; [reflexivity|]. cbn. eauto.
    - destruct (Nat.leb_spec (length l + S (length xs)) cap); [lia|].
      rewrite (H0 ltac:(lia)). cbn [Z.of_nat hv_begin hi_minus Z.sub Z.add Z.opp].
      destruct (useVector_ok l (HArr a)) as (r1 & j1 & E & L1). { cbn. eauto. }
      rewrite E. cbn [bind hv_begin hi_add Z.add hv_insert_range_at].
      change (hi_vec (IVec 0)) with (@Ok nat 0). cbn [bind].
      destruct (insert_range_ok' m moved dflt mem Hmem l r1 j1 (length l * 2) 0 xs 0)
        as (r2 & j2 & E3 & L2 & _); [lia|lia|]. change vfuel with 2. rewrite E3. cbn [bind].
      eexists. split; [reflexivity|]. cbn [hrep]. exists r2, j2. eexists.
      split; [reflexivity|]. split; [exact L2|]. clear E3 L2.
      destruct (Nat.leb_spec (length xs + length l) (length l * 2)); [split; lia|].
      destruct (Nat.eqb_spec (length xs) 0); split; lia.
  Qed.

  (** *** popBack, erase, clean *)
  Lemma pop_hv k l h : hrep k l h -> gives k (removelast l) (hv_popBack m h).
  Proof.
    intros H. destruct k, h as [|a|v]; cbn in H; try contradiction.
    - subst l. exists HUnset. split; reflexivity.
    - destruct H as (r & j & -> & L). cbn [hv_popBack].
      destruct (popBack_ok m cap l r j L) as (r1 & j1 & E & L1 & _). rewrite E. cbn [bind].
      eexists. split; [reflexivity|]. cbn. eauto.
    - destruct H as (r & j & c & -> & L & C). cbn [hv_popBack]. unfold vec_popBack, vec_lift.
      cbn [vc_arr].
      destruct (popBack_ok m c l r j L) as (r1 & j1 & E & L1 & _). rewrite E. cbn [bind].
      eexists. split; [reflexivity|]. cbn [hrep vc_capacity]. exists r1, j1, c. destruct C; repeat split; auto.
  Qed.

  Lemma clean_hv k l h : hrep k l h -> gives Fixed [] (hv_clean m cap h).
  Proof.
    intros H. unfold hv_clean. rewrite (reset_hv _ _ _ H). cbn [bind].
    rewrite new_mk. apply (store_array_ok [] (raw A cap) 0). cbn. lia.
  Qed.

  Lemma shrink_array_ok l a : hrep Fixed l (HArr a) ->
    gives (shrink_place cap (length l) Fixed) l (shrink_array m a).
  Proof.
    intros H. pose proof (reset_hv _ _ _ H) as HR. unfold shrink_array.
    assert (E : sv_size a = length l).
    { cbn in H. destruct H as (r & j & -> & L). reflexivity. }
    rewrite E. cbn [shrink_place]. destruct (Nat.eqb_spec (length l) 0) as [E0|E0].
    - rewrite HR. exists HUnset. split; auto. cbn. destruct l; auto; cbn in E0; lia.
    - exists (HArr a). auto.
  Qed.

  Lemma shrink_vector_ok l v : hrep Dynamic l (HVec v) ->
    gives (shrink_place cap (length l) Dynamic) l (shrink_vector m cap v).
  Proof.
    intros H. unfold shrink_vector.
    assert (E : vec_size v = length l).
    { cbn in H. destruct H as (r & j & c & -> & L). reflexivity. }
    rewrite E. cbn [shrink_place]. destruct (Nat.ltb_spec (length l) cap) as [E0|E0].
    - apply useArray_vec; auto. lia.
    - exists (HVec v). auto.
  Qed.

  Lemma erase_hv k l h p : hrep k l h -> p <= length l ->
    gives (shrink_place cap (length (erase_at p (S p) l)) k) (erase_at p (S p) l)
      (let! it := hv_at h p in hv_erase_at m moved cap h it).
  Proof.
    intros H Hp. rewrite (at_hv k l h p H Hp). cbn [bind].
    destruct k, h as [|a|v]; cbn [hrep] in H; try contradiction.
    - subst l. cbn in Hp. assert (p = 0) by lia. subst p. exists HUnset. split; reflexivity.
    - destruct H as (r & j & -> & L). cbn [hv_erase_at]. rewrite hi_arr_nat. cbn [bind].
      destruct (erase_ok m moved cap l r j p L Hp) as (r1 & j1 & E & L1 & _). rewrite E.
      cbn [bind]. apply shrink_array_ok. cbn. eauto.
    - destruct H as (r & j & c & -> & L & C). cbn [hv_erase_at]. rewrite hi_vec_nat. cbn [bind].
      unfold vec_erase, vec_lift. cbn [vc_arr].
      destruct (erase_ok m moved c l r j p L Hp) as (r1 & j1 & E & L1 & _). rewrite E.
      cbn [bind vc_capacity]. apply shrink_vector_ok. cbn [hrep]. exists r1, j1, c. destruct C; repeat split; auto.
  Qed.

  Lemma erase_range_hv k l h b e : hrep k l h -> b <= e -> e <= length l ->
    m = Trivial \/ b = e \/ e = length l ->
    gives (shrink_place cap (length (erase_at b e l)) k) (erase_at b e l)
      (let! it := hv_at h b in let! jt := hv_at h e in hv_erase_range_at m moved cap h it jt).
  Proof.
    intros H Hb He Hm. rewrite (at_hv k l h b H), (at_hv k l h e H) by lia. cbn [bind].
    destruct k, h as [|a|v]; cbn [hrep] in H; try contradiction.
    - subst l. cbn in He. assert (e = 0) by lia. assert (b = 0) by lia. subst.
      exists HUnset. split; reflexivity.
    - destruct H as (r & j & -> & L). cbn [hv_erase_range_at]. rewrite !hi_arr_nat. cbn [bind].
      destruct (erase_range_ok m moved cap l r j b e L Hb He Hm) as (r1 & j1 & E & L1 & _).
      rewrite E. cbn [bind]. apply shrink_array_ok. cbn. eauto.
    - destruct H as (r & j & c & -> & L & C). cbn [hv_erase_range_at]. rewrite !hi_vec_nat.
      cbn [bind]. unfold vec_erase_range, vec_lift. cbn [vc_arr].
      destruct (erase_range_ok m moved c l r j b e L Hb He Hm) as (r1 & j1 & E & L1 & _).
      rewrite E. cbn [bind vc_capacity]. apply shrink_vector_ok. cbn [hrep]. exists r1, j1, c. destruct C; repeat split; auto.
  Qed.

  (** *** Histories *)
  Lemma step_hv k l h op : hrep k l h -> hv_valid_op l op -> insertion_works cap k l op ->
    m = Trivial \/ no_inner_range l op ->
    gives (place_step cap k l op) (hseq_step l op) (hv_step m moved dflt mem cap h op).
  Proof.
    intros H Hv Hw Hm. destruct op; cbn [hv_step place_step hseq_step hv_valid_op insertion_works
      no_inner_range] in *.
    - apply push_hv; auto.
    - apply pop_hv; auto.
    - rewrite (at_hv k l h p H Hv). cbn [bind]. destruct Hw as [W1 W2]. destruct k.
      + destruct h; cbn in H; try contradiction. subst l. specialize (W1 eq_refl).
        cbn [grow_place]. destruct (Nat.eqb_spec cap 0); [|lia].
        cbn in Hv. assert (p = 0) by lia. subst p. apply insert_new; auto.
      + apply insert_arr; auto.
      + apply insert_vec; auto.
    - rewrite (at_hv k l h p H Hv). cbn [bind]. destruct Hw as (W1 & W2 & W3). destruct k.
      + congruence.
      + apply range_arr; auto.
      + apply range_vec; auto.
    - rewrite (at_hv k l h p H Hv). cbn [bind]. destruct k.
      + destruct h; cbn in H; try contradiction. subst l. specialize (Hw eq_refl).
        cbn [grow_place]. destruct (Nat.eqb_spec cap 0); [|lia].
        cbn in Hv. assert (p = 0) by lia. subst p. apply emplace_new; auto.
      + apply emplace_arr; auto.
      + apply emplace_vec; auto.
    - apply erase_hv; auto.
    - destruct Hv. apply erase_range_hv; auto.
    - apply (clean_hv k l); auto.
  Qed.

  Lemma run_hv ops : forall k l h, hrep k l h ->
    hv_along (fun k l op => hv_valid_op l op /\ insertion_works cap k l op
                            /\ (m = Trivial \/ no_inner_range l op)) cap k l ops ->
    exists h', hv_run m moved dflt mem cap h ops = Ok h'
      /\ hrep (snd (fold_left (fun s op => (hseq_step (fst s) op, place_step cap (snd s) (fst s) op))
                      ops (l, k)))
           (fold_left hseq_step ops l) h'.
  Proof.
    induction ops as [|op ops IH]; intros k l h H Ha; cbn [hv_run fold_left hv_along] in *; eauto.
    destruct Ha as [(V & W & M) Ha]. destruct (step_hv k l h op H V W M) as (h1 & E & R).
    rewrite E. cbn [bind]. apply IH; auto.
  Qed.

  Lemma hv_along_weaken (P Q : place -> list A -> hv_op A -> Prop) :
    (forall k l op, P k l op -> Q k l op) ->
    forall ops k l, hv_along P cap k l ops -> hv_along Q cap k l ops.
  Proof.
    intros H. induction ops; cbn [hv_along]; auto. intros k l [H1 H2]. auto.
  Qed.

  (** *** Observations *)
  Lemma size_hv k l h : hrep k l h -> hv_size h = length l.
  Proof.
    destruct k, h; cbn [hrep]; try (intro; contradiction).
    - intros ->. reflexivity.
    - intros (r & j & -> & _). reflexivity.
    - intros (r & j & c & -> & _). reflexivity.
  Qed.

  Lemma place_hv k l h : hrep k l h -> place_of h = k.
  Proof. destruct k, h; cbn; auto; intro; contradiction. Qed.

  Lemma load_at (l : list A) rest j i : st_load (St (map Some l ++ rest) j) i
    = match nth_error l i with Some x => Ok x | None => st_load (St (map Some l ++ rest) j) i end.
  Proof.
    destruct (nth_error l i) as [x|] eqn:E; auto. unfold st_load. cbn [st_cells].
    rewrite nth_error_app1 by (rewrite map_length; apply nth_error_Some; congruence).
    rewrite nth_error_map', E. reflexivity.
  Qed.

  Definition iter (k : place) (i : nat) : hiter :=
    match k with
    | Nowhere => INone
    | Fixed => IArr (Z.of_nat i)
    | Dynamic => IVec (Z.of_nat i)
    end.

  Lemma deref_hv k l h i x : hrep k l h -> nth_error l i = Some x ->
    hi_deref h (iter k i) = Ok x.
  Proof.
    intros H E. destruct k, h; cbn [hrep] in H; try contradiction.
    - subst l. destruct i; discriminate.
    - destruct H as (r & j & -> & _). cbn [iter hi_deref]. rewrite hi_arr_nat. cbn [bind].
      unfold sv_index. cbn [sv_store]. rewrite load_at, E. reflexivity.
    - destruct H as (r & j & c & -> & _). cbn [iter hi_deref]. rewrite hi_vec_nat. cbn [bind].
      unfold vec_index, vc_store. cbn [vc_arr sv_store]. rewrite load_at, E. reflexivity.
  Qed.

  Lemma begin_hv k l h : hrep k l h -> hv_begin h = iter k 0.
  Proof. destruct k, h; cbn; auto; intro; contradiction. Qed.
  Lemma end_hv k l h : hrep k l h -> hv_end h = iter k (length l).
  Proof.
    destruct k, h; cbn [hrep]; try (intro; contradiction).
    - reflexivity.
    - intros (r & j & -> & _). reflexivity.
    - intros (r & j & c & -> & _). reflexivity.
  Qed.

  Lemma index_hv k l h i x : hrep k l h -> nth_error l i = Some x -> hv_index h i = Ok x.
  Proof.
    intros H E. unfold hv_index. rewrite (begin_hv _ _ _ H).
    destruct l as [|y l]; [destruct i; discriminate|].
    rewrite (deref_hv k (y :: l) h 0 y H eq_refl). cbn [bind].
    assert (Hk : k <> Nowhere). { intros ->. destruct h; cbn in H; try contradiction. discriminate. }
    replace (hi_add (iter k 0) (Z.of_nat i)) with (Ok (iter k i)).
    2: { destruct k; cbn; congruence. }
    cbn [bind]. apply (deref_hv k (y :: l)); auto.
  Qed.

  Lemma hi_eq_iter k i j : k <> Nowhere -> hi_eq (iter k i) (iter k j) = (i =? j).
  Proof.
    intros H. destruct k; [congruence| |]; cbn.
    all: destruct (Z.eqb_spec (Z.of_nat i) (Z.of_nat j)), (Nat.eqb_spec i j); auto; lia.
  Qed.

  Lemma visit_hv k l h : hrep k l h -> k <> Nowhere -> forall l2 l1,
    l = l1 ++ l2 -> forall f, length l2 < f -> hv_visit f h (iter k (length l1)) = Ok l2.
  Proof.
    intros H Hk. induction l2 as [|x l2 IH]; intros l1 El f Hf.
    - destruct f; [cbn in Hf; lia|]. cbn [hv_visit]. rewrite (end_hv _ _ _ H), hi_eq_iter by auto.
      rewrite El, app_nil_r, Nat.eqb_refl. reflexivity.
    - destruct f; [cbn in Hf; lia|]. cbn [hv_visit]. rewrite (end_hv _ _ _ H), hi_eq_iter by auto.
      destruct (Nat.eqb_spec (length l1) (length l)) as [E|E].
      { rewrite El, app_length in E. cbn in E. lia. }
      cbn [negb]. rewrite (deref_hv k l h (length l1) x H).
      2: { rewrite El, nth_error_app2, Nat.sub_diag by lia. reflexivity. }
      cbn [bind].
      replace (hi_add (iter k (length l1)) 1) with (Ok (iter k (length (l1 ++ [x])))).
      2: { rewrite app_length. cbn [length]. destruct k; [congruence| |]; cbn [iter hi_add];
           f_equal; f_equal; lia. }
      cbn [bind]. rewrite (IH (l1 ++ [x])).
      + reflexivity.
      + rewrite <- app_assoc. exact El.
      + cbn in Hf. lia.
  Qed.

  Lemma elements_hv k l h : hrep k l h -> k <> Nowhere -> hv_elements h = Ok l.
  Proof.
    intros H Hk. unfold hv_elements. rewrite (begin_hv _ _ _ H), (size_hv _ _ _ H).
    apply (visit_hv k l h H Hk l []); auto.
  Qed.

  Lemma copy_hv k l h : hrep k l h ->
    exists h', hv_copy m cap h = Ok h' /\ place_of h' = k /\ hv_size h' = length l
      /\ (k <> Nowhere -> hv_elements h' = Ok l).
  Proof.
    intros H. destruct k, h as [|a|v]; cbn [hrep] in H; try contradiction.
    - subst l. exists HUnset. repeat split; auto. congruence.
    - destruct H as (r & j & -> & L). cbn [hv_copy]. rewrite elements_ok. cbn [bind].
      destruct (copy_fit l) as (r1 & j1 & E & L1); [lia|]. rewrite E. cbn [bind].
      assert (G : hrep Fixed l (HArr (mk l r1 j1))). { cbn. eauto. }
      eexists. split; [reflexivity|]. split; [reflexivity|]. split; [reflexivity|].
      intros Hk. apply (elements_hv Fixed); auto.
    - destruct H as (r & j & c & -> & L & _). cbn [hv_copy]. rewrite vec_elements_ok. cbn [bind].
      rewrite vec_copy_ok. cbn [bind].
      eexists. split; [reflexivity|]. split; [reflexivity|]. split; [reflexivity|].
      intros _. clear.
      unfold hv_elements, hv_begin, hv_size, vec_size, vc_tail. cbn [vc_arr sv_tail].
      assert (G : forall l2 l1, l = l1 ++ l2 -> forall f, length l2 < f ->
                hv_visit f (HVec (Vec (mk l [] 0) (length l))) (IVec (Z.of_nat (length l1))) = Ok l2).
      { induction l2 as [|x l2 IH]; intros l1 El f Hf; (destruct f; [cbn in Hf; lia|]);
          cbn [hv_visit hv_end hi_eq]; unfold vc_tail; cbn [vc_arr sv_tail];
          destruct (Z.eqb_spec (Z.of_nat (length l1)) (Z.of_nat (length l))) as [E|E]; auto.
        - rewrite El, app_nil_r in E. lia.
        - rewrite El, app_length in E. cbn in E. lia.
        - cbn [negb hi_deref]. rewrite hi_vec_nat. cbn [bind]. unfold vec_index, vc_store.
          cbn [vc_arr sv_store]. rewrite load_at.
          rewrite El at 1. rewrite nth_error_app2, Nat.sub_diag by lia. cbn [nth_error bind hi_add].
          replace (Z.of_nat (length l1) + 1)%Z with (Z.of_nat (length (l1 ++ [x])))
            by (rewrite app_length; cbn; lia).
          rewrite (IH (l1 ++ [x])); [reflexivity| |cbn in Hf; lia].
          rewrite <- app_assoc. exact El. }
      apply (G l []); auto.
  Qed.
End Proofs.
