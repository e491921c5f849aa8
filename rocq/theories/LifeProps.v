(** Theorems about the objects that are never destroyed: C07, C57 and C235. *)
From Coq Require Import List Arith ZArith Lia Bool.
From Verif Require Import Base BaseLemmas Store StoreLemmas StaticVectorModel StaticVectorSpec
  StaticVectorProofs VectorModel VectorSpec VectorProofs VectorProps HybridVectorModel HybridVectorSpec
  HybridVectorProofs CloneModel LifeModel LifeSpec LifeProofs.
Import ListNotations.

(** ** Array *)

(** C07, exact count: a history loses one object for every element erased before another, and no other. *)
Theorem C07_lost_partial :
  forall (A : Type) (moved : A -> A) (dflt : A) (cap : nat) (ops : list (sv_op A)),
    valid cap [] ops -> along tail_range cap [] ops ->
    exists v s, sv_run Tracked moved dflt (sv_new cap) ops = Ok v
      /\ sv_destructor Tracked v = Ok s
      /\ count_live (st_cells s) + st_leaks s = sv_losses cap [] ops.
Proof.
  intros A moved dflt cap ops Hv Ht.
  assert (G : forall ops (l : list A) rest k, length l + length rest = cap -> valid cap l ops ->
    along tail_range cap l ops ->
    exists v s, sv_run Tracked moved dflt (SVec (St (map Some l ++ rest) k) (length l)) ops = Ok v
      /\ sv_destructor Tracked v = Ok s
      /\ phi s + length l = phi (St (map Some l ++ rest) k) + sv_losses cap l ops).
  { clear. induction ops as [|op ops IH]; intros l rest k L V T; cbn [sv_run sv_losses].
    - eexists _, _. split; [reflexivity|]. rewrite destructor_ok. split; [reflexivity|].
      pose proof (bal_destructor (SVec (St (map Some l ++ rest) k) (length l)) _
                    (destructor_ok Tracked l rest k)) as B. cbn [sv_size sv_tail sv_store] in B. lia.
    - destruct V as (V & Vs). destruct T as (T & Ts).
      destruct (step_ok Tracked moved dflt cap l rest k op L V (or_intror T)) as (r1 & k1 & E & L1 & _).
      rewrite E. cbn [bind]. destruct (IH _ r1 k1 L1 Vs Ts) as (v & s & Ev & Es & P).
      exists v, s. split; [exact Ev|]. split; [exact Es|].
      apply bal_step in E; [|intros p ->; exact V].
      unfold loses, sv_size in E. cbn [sv_tail sv_store] in E.
      assert (D : match op with Erase p => if S p <? length l then 1 else 0 | _ => 0 end = sv_lost l op)
        by (destruct op; reflexivity).
      rewrite D in E. lia. }
  destruct (G ops [] (raw A cap) 0) as (v & s & Ev & Es & P); auto.
  { unfold raw. rewrite repeat_length. reflexivity. }
  exists v, s. split; [exact Ev|]. split; [exact Es|]. unfold phi in P. cbn [map app length st_cells st_leaks] in P.
  rewrite count_live_repeat in P. lia.
Qed.

Example C07_lost_case :
  let ops := [PushBack 1; PushBack 2; PushBack 3; Erase 0; PushBack 4; Emplace 1 5; Erase 2; Erase 2; Clean] in
  valid 5 [] ops /\ along tail_range 5 [] ops /\ sv_losses 5 [] ops = 2.
Proof. cbv. repeat split; auto; lia. Qed.

(** ** Vector *)

(** C57, exact count: one object for every element erased before another, one for every element emplaced
    before another, and no other; with and without realloc. *)
Theorem C57_lost_partial :
  forall (A : Type) (moved : A -> A) (dflt : A) (mem : memory) (ops : list (vec_op A)) fuel,
    mem <> NoMemory -> vec_along dflt vec_valid 0 [] ops ->
    vec_along dflt (fun _ => vec_tail_range) 0 [] ops -> depth ops <= fuel ->
    exists v, vec_run Tracked moved dflt mem fuel vec_new ops = Ok v
      /\ vec_destructor Tracked v = Ok (vec_losses dflt [] ops).
Proof.
  intros A moved dflt mem ops fuel Hmem Hv Ht Hf.
  assert (D : forall l rest k c, exists n,
             vec_destructor Tracked (Vec (SVec (St (map (@Some A) l ++ rest) k) (length l)) c) = Ok n).
  { clear. intros. unfold vec_destructor, vec_clean, vec_lift. cbn [vc_arr].
    destruct (clean_ok Tracked (length l + length rest) l rest k eq_refl) as (r' & j' & E & _). rewrite E.
    cbn [bind]. eexists. reflexivity. }
  assert (G : forall ops (l : list A) rest k c, length l + length rest = c ->
    vec_along dflt vec_valid c l ops -> vec_along dflt (fun _ => vec_tail_range) c l ops ->
    depth ops <= fuel ->
    exists v n, vec_run Tracked moved dflt mem fuel (Vec (SVec (St (map Some l ++ rest) k) (length l)) c) ops = Ok v
      /\ vec_destructor Tracked v = Ok n
      /\ n + length l = phi (St (map Some l ++ rest) k) + vec_losses dflt l ops).
  { clear Hv Ht Hf ops. induction ops as [|op ops IH]; intros l rest k c L V T F; cbn [vec_run vec_losses].
    - destruct (D l rest k c) as (n & E). eexists _, n. split; [reflexivity|]. split; [exact E|].
      apply bal_vdestructor in E. unfold vec_size, vc_tail, vc_store in E. cbn [vc_arr sv_tail sv_store] in E. lia.
    - destruct V as (V & Vs). destruct T as (T & Ts).
      assert (depth [op] <= fuel /\ depth ops <= fuel) as [F1 F2].
      { clear - F. pose proof (depth_ge ops). unfold depth in *. cbn [fold_right] in *. destruct op; lia. }
      destruct (step_ok' Tracked moved dflt mem Hmem l rest k c op fuel L V (or_intror T) F1)
        as (r1 & k1 & E & L1 & _).
      rewrite E. cbn [bind]. destruct (IH _ r1 k1 _ L1 Vs Ts F2) as (v & n & Ev & En & P).
      exists v, n. split; [exact Ev|]. split; [exact En|].
      destruct V as (V & _).
      apply bal_vstep in E; [|intros p ->; exact V|intros p x ->; exact V].
      unfold vloses, loses, sv_size, vec_size, vc_tail in E. cbn [vc_arr sv_tail sv_store] in E.
      assert (K : match op with
                  | VErase p => if S p <? length l then 1 else 0
                  | VEmplace p _ => if p <? length l then 1 else 0
                  | _ => 0 end = vec_lost l op) by (destruct op; reflexivity).
      rewrite K in E. lia. }
  rewrite new_rep. destruct (G ops [] [] 0 0) as (v & n & Ev & En & P); auto.
  exists v. split; [exact Ev|]. rewrite En. f_equal. cbn in P. lia.
Qed.

Example C57_lost_case :
  let ops := [VPush 1; VPush 2; VPush 3; VErase 0; VEmplace 1 5; VErase 2; VResize 20; VErase 3; VClean] in
  vec_along 0 vec_valid 0 [] ops /\ vec_along 0 (fun _ => vec_tail_range) 0 [] ops
  /\ vec_losses 0 [] ops = 3.
Proof. history. Qed.

(** ** HybridVector *)

Section Hybrid.
  Context {A : Type}.
  Variable moved : A -> A.
  Variable dflt : A.
  Variable mem : memory.
  Hypothesis Hmem : mem <> NoMemory.
  Variable cap : nat.
  Notation mk l rest k := (SVec (St (map (@Some A) l ++ rest) k) (length l)).

  (** Objects constructed in the container and not destroyed. *)
  Definition hphi (h : hybrid A) : nat :=
    match h with HUnset => 0 | HArr a => phi (sv_store a) | HVec v => phi (vc_store v) end.

  Definition shaped (h : hybrid A) : Prop :=
    match h with
    | HUnset => True
    | HArr a => exists l r j, a = mk l r j /\ length l + length r = cap
    | HVec v => exists l r j c, v = Vec (mk l r j) c
    end.

  Lemma shaped_arr l r j : length l + length r = cap -> shaped (HArr (mk l r j)).
  Proof. intros L. exists l, r, j. auto. Qed.
  Lemma shaped_vec l r j c : shaped (HVec (Vec (mk l r j) c)).
  Proof. exists l, r, j, c. auto. Qed.
  Hint Resolve shaped_arr shaped_vec : core.

  Lemma hrep_shaped k l h : hrep cap k l h -> shaped h.
  Proof.
    destruct k, h as [|a|v]; cbn; try contradiction; auto.
    - intros (r & j & -> & L). eauto.
    - intros (r & j & c & -> & _). eauto.
  Qed.

  (** The result of a call: the container [h'] of the model without the count, and [n] objects lost. *)
  Definition agrees (d : nat) (h : hybrid A) (r : outcome (hybrid A * nat)) (h' : hybrid A) : Prop :=
    exists n, r = Ok (h', n) /\ n + hphi h' + hv_size h = hphi h + hv_size h' + d.

  Lemma destroyed_arr l rest j :
    exists n, arr_destructor (mk l rest j) = Ok n /\ n + length l = phi (St (map Some l ++ rest) j).
  Proof.
    unfold arr_destructor. rewrite destructor_ok. cbn [bind]. eexists. split; [reflexivity|].
    pose proof (bal_destructor (mk l rest j) _ (destructor_ok Tracked l rest j)) as B.
    exact B.
  Qed.
  Lemma destroyed_vec l rest j c :
    exists n, vec_destructor Tracked (Vec (mk l rest j) c) = Ok n /\ n + length l = phi (St (map Some l ++ rest) j).
  Proof.
    destruct (vec_destructor Tracked (Vec (mk l rest j) c)) as [n| |] eqn:E.
    - exists n. split; [reflexivity|]. apply bal_vdestructor in E. exact E.
    - exfalso. unfold vec_destructor, vec_clean, vec_lift in E. cbn [vc_arr] in E.
      destruct (clean_ok Tracked (length l + length rest) l rest j eq_refl) as (r' & j' & E' & _).
      rewrite E' in E. discriminate.
    - exfalso. unfold vec_destructor, vec_clean, vec_lift in E. cbn [vc_arr] in E.
      destruct (clean_ok Tracked (length l + length rest) l rest j eq_refl) as (r' & j' & E' & _).
      rewrite E' in E. discriminate.
  Qed.

  Lemma reset_agrees h : shaped h -> exists n, life_reset h = Ok n /\ n + hv_size h = hphi h.
  Proof.
    destruct h as [|a|v]; cbn [shaped life_reset hphi hv_size].
    - exists 0. auto.
    - intros (l & r & j & -> & _). apply destroyed_arr.
    - intros (l & r & j & c & ->). apply destroyed_vec.
  Qed.

  Lemma moved_array l rest j : length l <= cap ->
    exists r1 j1, hv_of_moved_array Tracked moved cap (mk l rest j)
        = Ok (HArr (mk l r1 j1), mk (map moved l) rest j)
      /\ sv_copy Tracked cap l = Ok (mk l r1 j1) /\ length l + length r1 = cap
      /\ phi (St (map Some l ++ r1) j1) = length l.
  Proof.
    intros H. unfold hv_of_moved_array. rewrite elements_ok. cbn [bind].
    destruct (copy_fit Tracked cap l H) as (r1 & j1 & E1 & L1). rewrite E1. cbn [bind sv_store sv_tail].
    pose proof (assign_list_ok Tracked (map moved l) (map Some l) [] rest j 0) as G.
    cbn [app] in G. rewrite G; [|rewrite !map_length; reflexivity|reflexivity|].
    2: { clear. induction l; cbn; constructor; auto. right. reflexivity. }
    cbn [bind]. exists r1, j1. rewrite map_length. split; [reflexivity|]. split; [reflexivity|].
    split; [exact L1|].
    unfold sv_copy in E1. destruct (length l <=? cap) eqn:B; [|apply Nat.leb_gt in B; lia].
    apply bal_push_all in E1. unfold loses, phi, sv_size in E1. cbn [sv_store sv_tail sv_new st_cells st_leaks] in E1.
    rewrite count_live_repeat in E1. unfold phi. cbn [st_cells st_leaks]. lia.
  Qed.

  Lemma phi_moved l rest j : phi (St (map Some (map moved l) ++ rest) j) = phi (St (map (@Some A) l ++ rest) j).
  Proof. unfold phi. cbn [st_cells st_leaks]. rewrite !count_live_app, !count_live_some, map_length. reflexivity. Qed.

  Lemma store_array_agrees l rest j : length l <= cap ->
    exists r1 j1 n, life_store_array moved cap (mk l rest j) = Ok (HArr (mk l r1 j1), n)
      /\ store_array Tracked cap (mk l rest j) = Ok (HArr (mk l r1 j1))
      /\ length l + length r1 = cap
      /\ n + phi (St (map Some l ++ r1) j1) = phi (St (map (@Some A) l ++ rest) j).
  Proof.
    intros H. destruct (moved_array l rest j H) as (r1 & j1 & E1 & C1 & L1 & P1).
    destruct (moved_array l r1 j1 H) as (r2 & j2 & E2 & C2 & L2 & P2).
    destruct (destroyed_arr (map moved l) r1 j1) as (n & En & Pn).
    destruct (destroyed_arr (map moved l) rest j) as (k & Ek & Pk).
    rewrite map_length, phi_moved in *.
    exists r2, j2, (n + k). unfold life_store_array. rewrite E1. cbn [bind fst snd]. rewrite E2.
    cbn [bind fst snd]. rewrite En. cbn [bind]. rewrite Ek. cbn [bind].
    split; [reflexivity|]. split.
    - unfold store_array. rewrite elements_ok. cbn [bind]. rewrite C1. cbn [bind].
      rewrite elements_ok. cbn [bind]. rewrite C2. reflexivity.
    - split; [exact L2|]. lia.
  Qed.

  Lemma store_vector_agrees (v : vec A) : life_store_vector v = Ok (HVec v, 0).
  Proof. reflexivity. Qed.

  Lemma useArray_agrees h h' : shaped h -> (forall v, h = HVec v -> vec_size v <= cap) ->
    hv_useArray Tracked cap h = Ok h' -> agrees 0 h (life_useArray moved cap h) h' /\ shaped h'.
  Proof.
    intros S V E. destruct h as [|a|v]; cbn [hv_useArray life_useArray] in *.
    - change (sv_new cap) with (mk (@nil A) (raw A cap) 0) in *.
      destruct (store_array_agrees [] (raw A cap) 0) as (r1 & j1 & n & E1 & E2 & L & P); [cbn; lia|].
      rewrite E2 in E. injection E as <-. split; [|exact (shaped_arr [] r1 j1 L)]. exists n. split; [exact E1|].
      cbn [hphi hv_size sv_size sv_tail sv_store length]. unfold phi in P at 2. cbn [map app st_cells st_leaks] in P.
      rewrite count_live_repeat in P. cbn in *. lia.
    - injection E as <-. split; [|exact S]. exists 0. split; [reflexivity|lia].
    - destruct S as (l & r & j & c & ->). specialize (V _ eq_refl).
      unfold vec_size, vc_tail, vc_store in *. cbn [vc_arr sv_tail sv_store] in *.
      destruct (Nat.ltb_spec cap (length l)); [lia|].
      change (load_range (length l) 0 (St (map Some l ++ r) j)) with (sv_elements (mk l r j)) in *.
      rewrite elements_ok in *. cbn [bind] in *.
      destruct (push_all_fit Tracked cap l [] (raw A cap) 0) as (r1 & j1 & Ep & L1 & _);
        [rewrite raw_length; cbn; lia|cbn; lia|].
      change (sv_new cap) with (mk (@nil A) (raw A cap) 0) in *. cbn [app] in Ep. rewrite Ep in *.
      cbn [bind] in *.
      pose proof (assign_list_ok Tracked (map moved l) (map Some l) [] r j 0) as G.
      cbn [app] in G. rewrite G; [|rewrite !map_length; reflexivity|reflexivity|].
      2: { clear. induction l; cbn; constructor; auto. right. reflexivity. }
      cbn [bind]. cbn [life_reset vc_capacity]. destruct (destroyed_vec (map moved l) r j c) as (n & En & Pn).
      rewrite map_length in En. rewrite En. cbn [bind].
      destruct (store_array_agrees l r1 j1 H) as (r2 & j2 & k & E1 & E2 & L & P). rewrite E1. cbn [bind fst snd].
      destruct (destroyed_vec l r j c) as (n' & En' & _). cbn [hv_reset] in E. rewrite En' in E. cbn [bind] in E.
      rewrite E2 in E. injection E as <-. split; [|auto].
      exists (n + k). split; [reflexivity|].
      cbn [hphi hv_size]. unfold sv_size, vec_size, vc_tail, vc_store. cbn [vc_arr sv_tail sv_store].
      rewrite map_length, phi_moved in Pn.
      apply bal_push_all in Ep. unfold loses, sv_size in Ep. cbn [sv_tail sv_store length] in Ep.
      unfold phi in Ep at 2. cbn [map app st_cells st_leaks] in Ep. rewrite count_live_repeat in Ep. lia.
  Qed.

  Lemma useVector_agrees h h' : shaped h -> hv_useVector Tracked mem cap h = Ok h' ->
    agrees 0 h (life_useVector moved mem cap h) h' /\ shaped h'.
  Proof.
    intros S E. destruct h as [|a|v].
    - cbn [hv_useVector life_useVector] in *.
      destruct (reserve_ok (A := A) Tracked mem Hmem [] [] 0 (cap * 2) 0 eq_refl) as (r1 & j1 & E1 & L1 & _).
      change (@vec_new A) with (Vec (mk (@nil A) [] 0) 0) in *. rewrite E1 in *. cbn [bind] in *.
      injection E as <-. rewrite store_vector_agrees. split.
      + exists 0. split; [reflexivity|]. apply bal_reserve in E1 as (B & _).
        unfold vloses, loses, sv_size in B. cbn [vc_arr sv_tail sv_store length] in B.
        cbn [hphi hv_size]. unfold vec_size, vc_tail, vc_store. cbn [vc_arr sv_tail sv_store length fst vec_move].
        unfold phi in B at 2. cbn in B. cbn [map app]. unfold phi in *. cbn in *. lia.
      + cbn. eexists [], r1, j1, _. reflexivity.
    - pose proof S as (l & r & j & -> & L).
      assert (R : hrep cap Fixed l (HArr (mk l r j))) by (cbn; eauto).
      destruct (useVector_ok Tracked mem Hmem cap l _ R) as (r1 & j1 & E1 & L1).
      rewrite E1 in E. injection E as <-. split; [|auto].
      unfold hv_useVector in E1. unfold life_useVector, agrees, sv_size in *. cbn [sv_tail] in *.
      destruct (vec_reserve Tracked mem vec_new (length l * 2)) as [v0| |] eqn:Er; cbn [bind] in *; try discriminate.
      rewrite elements_ok in *. cbn [bind] in *.
      destruct (vec_push_all Tracked mem vfuel v0 l) as [v1| |] eqn:Ep; cbn [bind] in *; try discriminate.
      destruct (hv_reset Tracked (HArr (mk l r j))); cbn [bind] in E1; try discriminate.
      cbn [sv_store].
      pose proof (assign_list_ok Tracked (map moved l) (map Some l) [] r j 0) as G.
      cbn [app] in G. rewrite G; [|rewrite !map_length; reflexivity|reflexivity|].
      2: { clear. induction l; cbn; constructor; auto. right. reflexivity. }
      cbn [bind life_reset]. destruct (destroyed_arr (map moved l) r j) as (n & En & Pn).
      rewrite map_length in En. rewrite En. cbn [bind]. rewrite store_vector_agrees. cbn [bind fst snd].
      injection E1 as ->. exists (n + 0). split; [reflexivity|].
      apply bal_reserve in Er as (B & _). apply bal_vpush_all in Ep.
      rewrite map_length, phi_moved in Pn.
      unfold vloses, loses, sv_size in B, Ep. cbn [hphi hv_size]. unfold sv_size, vec_size, vc_tail, vc_store in *.
      cbn [vc_arr sv_tail sv_store vec_new] in *. unfold phi in B at 2. cbn in B. lia.
    - cbn in *. injection E as <-. split; [|exact S]. exists 0. split; [reflexivity|lia].
  Qed.

  Ltac inv H E := match type of H with bind ?m _ = Ok _ =>
    let x := fresh "w" in destruct m as [x| |] eqn:E; cbn [bind] in H; try discriminate; cbn [bind] end.

  Lemma push_agrees f : forall h x h', shaped h -> hv_pushBack_ref Tracked mem cap f h (VExt x) = Ok h' ->
    agrees 0 h (life_pushBack moved mem cap f h x) h'.
  Proof.
    induction f as [|f IH]; intros h x h' S E; cbn [hv_pushBack_ref life_pushBack] in *; [discriminate|].
    destruct h as [|a|v].
    - inv E E1. destruct (useArray_agrees HUnset w S ltac:(discriminate) E1) as ((n & En & P) & S').
      rewrite En. cbn [bind fst snd]. destruct (IH _ _ _ S' E) as (k & Ek & P'). rewrite Ek. cbn [bind fst snd].
      exists (n + k). split; [reflexivity|]. lia.
    - destruct (sv_size a <? sv_capacity a).
      + cbn [as_arg bind] in E. inv E E1. unfold sv_pushBack. rewrite E1. cbn [bind]. injection E as <-.
        exists 0. split; [reflexivity|]. apply bal_push_arg in E1. unfold loses in E1. cbn [hphi hv_size]. lia.
      + inv E E1. destruct (useVector_agrees (HArr a) w S E1) as ((n & En & P) & S').
        rewrite En. cbn [bind fst snd]. cbn [lost] in E.
        destruct (IH _ _ _ S' E) as (k & Ek & P'). rewrite Ek. cbn [bind fst snd].
        exists (n + k). split; [reflexivity|]. lia.
    - inv E E1. unfold vec_pushBack. rewrite E1. cbn [bind]. injection E as <-.
      exists 0. split; [reflexivity|]. apply bal_vpush in E1. unfold vloses, loses, sv_size in E1.
      cbn [hphi hv_size]. unfold vec_size, vc_tail, vc_store. lia.
  Qed.

  Lemma insert_agrees f : forall h it x h', shaped h -> hv_insert_at Tracked moved dflt mem cap f h it x = Ok h' ->
    agrees 0 h (life_insert_at moved dflt mem cap f h it x) h'.
  Proof.
    induction f as [|f IH]; intros h it x h' S E; cbn [hv_insert_at life_insert_at] in *; [discriminate|].
    destruct h as [|a|v].
    - inv E E1. destruct (useArray_agrees HUnset w S ltac:(discriminate) E1) as ((n & En & P) & S').
      rewrite En. cbn [bind fst snd]. destruct (IH _ _ _ _ S' E) as (k & Ek & P'). rewrite Ek. cbn [bind fst snd].
      exists (n + k). split; [reflexivity|]. lia.
    - destruct (sv_size a <? sv_capacity a).
      + inv E E0. inv E E1. cbn [bind]. injection E as <-.
        exists 0. split; [reflexivity|]. apply bal_insert_arg in E1. unfold loses in E1. cbn [hphi hv_size]. lia.
      + inv E E1. destruct (useVector_agrees (HArr a) w S E1) as ((n & En & P) & S').
        rewrite En. cbn [bind fst snd]. inv E E2.
        destruct (IH _ _ _ _ S' E) as (k & Ek & P'). rewrite Ek. cbn [bind fst snd].
        exists (n + k). split; [reflexivity|]. lia.
    - inv E E0. inv E E1. cbn [bind]. injection E as <-.
      exists 0. split; [reflexivity|]. apply bal_vinsert in E1. unfold vloses, loses, sv_size in E1.
      cbn [hphi hv_size]. unfold vec_size, vc_tail, vc_store. lia.
  Qed.

  Lemma insert_range_agrees f : forall h it xs h', shaped h ->
    hv_insert_range_at Tracked moved dflt mem cap f h it xs = Ok h' ->
    agrees 0 h (life_insert_range_at moved dflt mem cap f h it xs) h'.
  Proof.
    induction f as [|f IH]; intros h it xs h' S E; cbn [hv_insert_range_at life_insert_range_at] in *; [discriminate|].
    destruct h as [|a|v].
    - destruct it; cbn [hi_eq] in *; injection E as <-; exists 0; (split; [reflexivity|lia]).
    - destruct (length xs <? sv_capacity a - sv_size a).
      + inv E E0. inv E E1. cbn [bind]. injection E as <-.
        exists 0. split; [reflexivity|]. apply bal_insert_range in E1. unfold loses in E1. cbn [hphi hv_size]. lia.
      + inv E E1. destruct (useVector_agrees (HArr a) w S E1) as ((n & En & P) & S').
        rewrite En. cbn [bind fst snd]. inv E E2.
        destruct (IH _ _ _ _ S' E) as (k & Ek & P'). rewrite Ek. cbn [bind fst snd].
        exists (n + k). split; [reflexivity|]. lia.
    - inv E E0. inv E E1. cbn [bind]. injection E as <-.
      exists 0. split; [reflexivity|]. apply bal_vinsert_range in E1. unfold vloses, loses, sv_size in E1.
      cbn [hphi hv_size]. unfold vec_size, vc_tail, vc_store. lia.
  Qed.

  (** The iterator stands for position [p]. *)
  Definition means (h : hybrid A) (it : hiter) (p : nat) : Prop :=
    match h, it with
    | HUnset, INone | HArr _, INone => p = 0
    | HArr _, IArr z => z = Z.of_nat p
    | HVec _, IVec z => z = Z.of_nat p
    | _, _ => False
    end.

  Lemma emplace_agrees f : forall h it x p h', shaped h -> means h it p -> p <= hv_size h ->
    hv_emplace_at Tracked moved dflt mem cap f h it x = Ok h' ->
    agrees (match h' with HVec _ => if p <? hv_size h then 1 else 0 | _ => 0 end) h
      (life_emplace_at moved dflt mem cap f h it x) h'.
  Proof.
    induction f as [|f IH]; intros h it x p h' S M Hp E; cbn [hv_emplace_at life_emplace_at] in *; [discriminate|].
    destruct h as [|a|v].
    - inv E E1. destruct (useArray_agrees HUnset w S ltac:(discriminate) E1) as ((n & En & P) & S').
      rewrite En. cbn [bind fst snd]. cbn [hv_size] in Hp. assert (p = 0) by lia. subst p.
      assert (M' : means w it 0).
      { cbn [hv_useArray] in E1. unfold store_array in E1.
        repeat (inv E1 E2; clear E2). injection E1 as <-. destruct it; cbn in M |- *; auto; contradiction. }
      destruct (IH _ _ _ 0 _ S' M' (Nat.le_0_l _) E) as (k & Ek & P'). rewrite Ek. cbn [bind fst snd].
      assert (Z0 : hv_size w = 0).
      { cbn [hv_useArray] in E1. change (sv_new cap) with (mk (@nil A) (raw A cap) 0) in E1.
        destruct (store_array_agrees [] (raw A cap) 0) as (r1 & j1 & q & _ & E2 & _); [cbn; lia|].
        rewrite E2 in E1. injection E1 as <-. reflexivity. }
      exists (n + k). split; [reflexivity|]. rewrite Z0 in P'. cbn [hv_size Nat.ltb Nat.leb] in *. destruct h'; lia.
    - destruct (sv_capacity a =? sv_size a).
      + inv E E1. destruct (useVector_agrees (HArr a) w S E1) as ((n & En & P) & S').
        rewrite En. cbn [bind fst snd]. inv E E2.
        pose proof S as (l & r & j & Ea & L).
        assert (R : hrep cap Fixed l (HArr a)) by (cbn; eauto).
        destruct (useVector_ok Tracked mem Hmem cap l _ R) as (r1 & j1 & E3 & L1).
        rewrite E3 in E1. injection E1 as <-.
        assert (Z0 : hv_size (HArr a) = length l) by (subst a; reflexivity).
        assert (M' : means (HVec (Vec (mk l r1 j1) (length l * 2))) w0 p).
        { cbn [hv_begin hi_add] in E2. injection E2 as <-. destruct it; cbn [means hi_minus hv_begin] in *; try contradiction; lia. }
        destruct (IH _ _ x p h' S' M') as (k & Ek & P'); [|exact E|].
        { rewrite Z0 in Hp. exact Hp. }
        rewrite Ek. cbn [bind fst snd]. exists (n + k). split; [reflexivity|].
        rewrite Z0 in *. change (hv_size (HVec (Vec (mk l r1 j1) (length l * 2)))) with (length l) in *. lia.
      + inv E E0. inv E E1. cbn [bind]. injection E as <-.
        exists 0. split; [reflexivity|]. apply bal_emplace in E1. unfold loses in E1. cbn [hphi hv_size]. lia.
    - inv E E0. inv E E1. cbn [bind]. injection E as <-.
      assert (w = p).
      { destruct it; cbn [means] in M; try contradiction. subst. rewrite hi_vec_nat in E0. congruence. }
      subst w. exists 0. split; [reflexivity|]. apply bal_vemplace in E1; [|exact Hp].
      unfold vloses, loses, sv_size in E1.
      cbn [hphi hv_size]. unfold vec_size, vc_tail, vc_store in *. lia.
  Qed.

  Lemma shrink_array_agrees a h' : shaped (HArr a) -> shrink_array Tracked a = Ok h' ->
    agrees 0 (HArr a) (life_shrink_array a) h'.
  Proof.
    intros S. unfold shrink_array, life_shrink_array. destruct (Nat.eqb_spec (sv_size a) 0) as [Z|Z]; intros E.
    - destruct (reset_agrees _ S) as (n & En & P). rewrite En. cbn [bind]. cbn [hv_reset] in E. inv E E1.
      injection E as <-. exists n. split; [reflexivity|]. cbn [hphi hv_size] in *. lia.
    - injection E as <-. exists 0. split; [reflexivity|]. lia.
  Qed.
  Lemma shrink_vector_agrees v h' : shaped (HVec v) -> shrink_vector Tracked cap v = Ok h' ->
    agrees 0 (HVec v) (life_shrink_vector moved cap v) h'.
  Proof.
    intros S. unfold shrink_vector, life_shrink_vector. destruct (Nat.ltb_spec (vec_size v) cap) as [Z|Z]; intros E.
    - apply (useArray_agrees (HVec v) h' S); [|exact E]. intros w H. injection H as <-. lia.
    - injection E as <-. exists 0. split; [reflexivity|]. lia.
  Qed.

  Lemma agrees_seq d h h1 r h' : agrees 0 h1 r h' -> hphi h1 + hv_size h = hphi h + hv_size h1 + d ->
    agrees d h r h'.
  Proof. intros (n & E & P) B. exists n. split; [exact E|]. lia. Qed.

  Lemma step_agrees k l h op h' : hrep cap k l h -> hv_valid_op l op -> no_inner_range l op ->
    hv_step Tracked moved dflt mem cap h op = Ok h' -> place_of h' = place_step cap k l op ->
    agrees (hv_lost cap k l op) h (life_step moved dflt mem cap h op) h'.
  Proof.
    intros R V N E K. pose proof (hrep_shaped k l h R) as S. pose proof (size_hv cap k l h R) as Z.
    destruct op; cbn [hv_step life_step hv_lost hv_valid_op no_inner_range] in *.
    - apply push_agrees; auto.
    - unfold life_popBack. rewrite E. cbn [bind]. exists 0. split; [reflexivity|].
      destruct h as [|a|v]; cbn [hv_popBack] in E.
      + injection E as <-. lia.
      + inv E E1. injection E as <-. apply bal_pop in E1. unfold loses in E1. cbn [hphi hv_size]. lia.
      + inv E E1. injection E as <-. unfold vec_popBack in E1.
        pose proof (bal_lift 0 _ _ _ E1 (fun a => bal_pop _ a)) as B. unfold vloses, loses, sv_size in B.
        cbn [hphi hv_size]. unfold vec_size, vc_tail, vc_store. lia.
    - inv E E1. apply insert_agrees; auto.
    - inv E E1. apply insert_range_agrees; auto.
    - rewrite (at_hv cap k l h p R V) in *. cbn [bind] in *.
      pose proof (emplace_agrees 3 h (match k with Nowhere => INone | Fixed => IArr (Z.of_nat p)
                                      | Dynamic => IVec (Z.of_nat p) end) x p h' S) as G.
      rewrite <- K. rewrite Z in G.
      replace (match place_of h' with Dynamic => if p <? length l then 1 else 0 | _ => 0 end)
        with (match h' with HVec _ => if p <? length l then 1 else 0 | _ => 0 end) by (destruct h'; reflexivity).
      apply G; auto. destruct k, h as [|a|v]; cbn in R; try contradiction; cbn; auto.
      subst l. cbn in V. lia.
    - rewrite (at_hv cap k l h p R V) in *. cbn [bind] in *. unfold lost_inside. rewrite <- Z in *.
      destruct k, h as [|a|v]; cbn in R; try contradiction; cbn [hv_erase_at life_erase_at] in *.
      + injection E as <-. exists 0. split; [reflexivity|]. cbn. lia.
      + inv E E1. rewrite hi_arr_nat in E1. injection E1 as <-. cbn [bind]. inv E E2. cbn [bind].
        destruct R as (r & j & -> & L). cbn [hv_size sv_size sv_tail] in *.
        pose proof (erase_ok Tracked moved cap l r j p L V) as (r1 & j1 & E3 & L3 & _).
        rewrite E3 in E2. injection E2 as <-.
        apply (agrees_seq _ _ (HArr (mk (erase_at p (Datatypes.S p) l) r1 j1))).
        * apply shrink_array_agrees; auto.
        * apply bal_erase in E3; [|exact V]. unfold loses in E3. cbn [hphi hv_size]. unfold sv_size in *.
          cbn [sv_tail sv_store] in *. lia.
      + inv E E1. rewrite hi_vec_nat in E1. injection E1 as <-. cbn [bind]. inv E E2. cbn [bind].
        destruct R as (r & j & c & -> & L & _). cbn [hv_size] in *. unfold vec_size, vc_tail in V. cbn [vc_arr sv_tail] in V.
        pose proof (erase_ok Tracked moved c l r j p L V) as (r1 & j1 & E3 & L3 & _).
        unfold vec_erase, vec_lift in E2. cbn [vc_arr vc_capacity] in E2. rewrite E3 in E2. cbn [bind] in E2. injection E2 as <-.
        apply (agrees_seq _ _ (HVec (Vec (mk (erase_at p (Datatypes.S p) l) r1 j1) c))).
        * apply shrink_vector_agrees; auto.
        * apply bal_erase in E3; [|exact V]. unfold loses in E3. cbn [hphi hv_size]. unfold sv_size, vec_size, vc_tail, vc_store in *.
          cbn [vc_arr sv_tail sv_store] in *. lia.
    - destruct V as (V1 & V2).
      rewrite (at_hv cap k l h b R ltac:(lia)), (at_hv cap k l h e R V2) in *. cbn [bind] in *.
      destruct k, h as [|a|v]; cbn in R; try contradiction; cbn [hv_erase_range_at life_erase_range_at] in *.
      + injection E as <-. exists 0. split; [reflexivity|]. lia.
      + inv E E1. rewrite hi_arr_nat in E1. injection E1 as <-. cbn [bind].
        inv E E1. rewrite hi_arr_nat in E1. injection E1 as <-. cbn [bind]. inv E E2. cbn [bind].
        destruct R as (r & j & -> & L).
        pose proof (erase_range_ok Tracked moved cap l r j b e L V1 V2 (or_intror N)) as (r1 & j1 & E3 & L3 & _).
        rewrite E3 in E2. injection E2 as <-.
        apply (agrees_seq _ _ (HArr (mk (erase_at b e l) r1 j1))).
        * apply shrink_array_agrees; auto.
        * apply bal_erase_range in E3. unfold loses in E3. cbn [hphi hv_size]. lia.
      + inv E E1. rewrite hi_vec_nat in E1. injection E1 as <-. cbn [bind].
        inv E E1. rewrite hi_vec_nat in E1. injection E1 as <-. cbn [bind]. inv E E2. cbn [bind].
        destruct R as (r & j & c & -> & L & _).
        pose proof (erase_range_ok Tracked moved c l r j b e L V1 V2 (or_intror N)) as (r1 & j1 & E3 & L3 & _).
        unfold vec_erase_range, vec_lift in E2. cbn [vc_arr vc_capacity] in E2. rewrite E3 in E2. cbn [bind] in E2. injection E2 as <-.
        apply (agrees_seq _ _ (HVec (Vec (mk (erase_at b e l) r1 j1) c))).
        * apply shrink_vector_agrees; auto.
        * apply bal_erase_range in E3. unfold loses, sv_size in E3. cbn [hphi hv_size]. unfold vec_size, vc_tail, vc_store.
          cbn [vc_arr sv_tail sv_store] in *. lia.
    - unfold hv_clean in E. unfold life_clean. destruct (reset_agrees h S) as (n & En & P). rewrite En. cbn [bind].
      inv E E1. change (sv_new cap) with (mk (@nil A) (raw A cap) 0) in *.
      destruct (store_array_agrees [] (raw A cap) 0) as (r1 & j1 & q & E2 & E3 & L & P1); [cbn; lia|].
      rewrite E3 in E. injection E as <-. rewrite E2. cbn [bind fst snd]. exists (n + q). split; [reflexivity|].
      unfold phi in P1 at 2. cbn [map app st_cells st_leaks] in P1. rewrite count_live_repeat in P1.
      cbn [hphi hv_size sv_size sv_tail sv_store length]. cbn in *. lia.
  Qed.
End Hybrid.

(** C235, exact count: a history of a HybridVector, with its destructor, destroys nothing twice and loses one
    object for every element erased before another and one for every element emplaced before another in
    dynamic memory, and no other - across all changes of storage. *)
Theorem C235_lost_partial :
  forall (A : Type) (moved : A -> A) (dflt : A) (mem : memory) (cap : nat) (ops : list (hv_op A)),
    mem <> NoMemory ->
    hv_along (fun k l op => hv_valid_op l op /\ insertion_works cap k l op /\ no_inner_range l op)
      cap Nowhere [] ops ->
    life_run moved dflt mem cap hv_new ops = Ok (hv_losses cap Nowhere [] ops).
Proof.
  intros A moved dflt mem cap ops Hmem W.
  assert (G : forall ops k (l : list A) h, hrep cap k l h ->
    hv_along (fun k l op => hv_valid_op l op /\ insertion_works cap k l op /\ no_inner_range l op) cap k l ops ->
    exists n, life_run moved dflt mem cap h ops = Ok n
      /\ n + length l = hphi h + hv_losses cap k l ops).
  { clear W ops. induction ops as [|op ops IH]; intros k l h R W; cbn [life_run hv_losses].
    - destruct (reset_agrees cap h (hrep_shaped cap k l h R)) as (n & E & P). exists n. split; [exact E|].
      rewrite (size_hv cap k l h R) in P. lia.
    - destruct W as ((V & I & N) & Ws).
      destruct (step_hv Tracked moved dflt mem Hmem cap k l h op R V I (or_intror N)) as (h' & E & R').
      destruct (step_agrees moved dflt mem Hmem cap k l h op h' R V N E (place_hv cap _ _ _ R')) as (n & En & P).
      rewrite En. cbn [bind fst snd]. destruct (IH _ _ _ R' Ws) as (q & Eq & Pq). rewrite Eq. cbn [bind].
      exists (n + q). split; [reflexivity|].
      rewrite (size_hv cap _ _ _ R), (size_hv cap _ _ _ R') in P. lia. }
  destruct (G ops Nowhere [] HUnset eq_refl W) as (n & E & P). unfold hv_new. rewrite E. f_equal. cbn in P. lia.
Qed.

(** Into dynamic memory, back and forth again, with one element emplaced inside and one erased there. *)
Example C235_lost_case :
  let ops := [HPush 1; HPush 2; HInsert 0 3; HEmplace 1 4; HErase 1; HPop; HPop; HErase 0; HPush 5; HPush 6;
              HPush 7; HEraseRange 1 3; HClean; HPush 8] in
  hv_along (fun k l op => hv_valid_op l op /\ insertion_works 2 k l op /\ no_inner_range l op) 2 Nowhere [] ops
  /\ hv_losses 2 Nowhere [] ops = 2 /\ place_run 2 (firstn 4 ops) = Dynamic
  /\ place_run 2 (firstn 8 ops) = Fixed /\ life_run (fun x => x) 0 Fresh 2 hv_new ops = Ok 2.
Proof. vm_compute. repeat (first [split | intro]); auto; try lia; try discriminate. Qed.

(** C235, refutation: after any history, erasing an element before another loses an object. *)
Theorem C235_erase_refuted :
  forall (A : Type) (moved : A -> A) (dflt : A) (mem : memory) (cap : nat) (ops : list (hv_op A)) (p : nat),
    mem <> NoMemory ->
    hv_along (fun k l op => hv_valid_op l op /\ insertion_works cap k l op /\ no_inner_range l op)
      cap Nowhere [] ops ->
    S p < length (hseq_run ops) ->
    exists n, life_run moved dflt mem cap hv_new ops = Ok n
      /\ life_run moved dflt mem cap hv_new (ops ++ [HErase p]) = Ok (S n).
Proof.
  intros A moved dflt mem cap ops p Hmem W Hp.
  exists (hv_losses cap Nowhere [] ops). split; [apply C235_lost_partial; auto|].
  rewrite C235_lost_partial; auto.
  - f_equal. clear W Hmem. unfold hseq_run in Hp. revert Hp. generalize Nowhere (@nil A).
    induction ops as [|op ops IH]; intros k l Hp; cbn [app hv_losses fold_left] in *.
    + cbn [hv_lost]. unfold lost_inside. destruct (Nat.ltb_spec (S p) (length l)); lia.
    + rewrite IH; auto.
  - unfold hseq_run in Hp. revert W Hp. generalize Nowhere (@nil A).
    induction ops as [|op ops IH]; intros k l W Hp; cbn [app hv_along fold_left] in *.
    + cbn. repeat split; auto. lia.
    + destruct W as (W & Ws). split; auto.
Qed.

Example C235_erase_case :
  let ops := [HPush 1; HPush 2; HPush 3] in
  hv_along (fun k l op => hv_valid_op l op /\ insertion_works 2 k l op /\ no_inner_range l op) 2 Nowhere [] ops
  /\ 1 < length (hseq_run ops) /\ life_run (fun x => x) 0 Realloc 2 hv_new (ops ++ [HErase 0]) = Ok 1.
Proof. vm_compute. repeat (first [split | intro]); auto. Qed.

(** C235, refutation: erasing a range before another element assigns to destroyed objects. *)
Theorem C235_range_erase_refuted :
  forall (A : Type) (moved : A -> A) (dflt : A) (mem : memory) (cap : nat) (ops : list (hv_op A)) (b e : nat),
    mem <> NoMemory ->
    hv_along (fun k l op => hv_valid_op l op /\ insertion_works cap k l op /\ no_inner_range l op)
      cap Nowhere [] ops ->
    b < e -> e < length (hseq_run ops) ->
    life_run moved dflt mem cap hv_new (ops ++ [HEraseRange b e]) = UB.
Proof.
  intros A moved dflt mem cap ops b e Hmem W Hb He.
  assert (G : forall ops k (l : list A) h, hrep cap k l h ->
    hv_along (fun k l op => hv_valid_op l op /\ insertion_works cap k l op /\ no_inner_range l op) cap k l ops ->
    e < length (fold_left hseq_step ops l) ->
    life_run moved dflt mem cap h (ops ++ [HEraseRange b e]) = UB).
  { clear W He ops. induction ops as [|op ops IH]; intros k l h R W He; cbn [app life_run fold_left] in *.
    - cbn [life_step]. rewrite (at_hv cap k l h b R ltac:(lia)), (at_hv cap k l h e R ltac:(lia)). cbn [bind].
      destruct k, h as [|a|v]; cbn [hrep] in R; try contradiction.
      + subst l. cbn in He. lia.
      + destruct R as (r & j & -> & L). cbn [life_erase_range_at]. rewrite !hi_arr_nat. cbn [bind].
        rewrite erase_range_UB by auto. reflexivity.
      + destruct R as (r & j & c & -> & L). cbn [life_erase_range_at]. rewrite !hi_vec_nat. cbn [bind].
        unfold vec_erase_range, vec_lift. cbn [vc_arr]. rewrite erase_range_UB by auto. reflexivity.
    - destruct W as ((V & I & N) & Ws).
      destruct (step_hv Tracked moved dflt mem Hmem cap k l h op R V I (or_intror N)) as (h' & E & R').
      destruct (step_agrees moved dflt mem Hmem cap k l h op h' R V N E (place_hv cap _ _ _ R')) as (n & En & P).
      rewrite En. cbn [bind fst snd]. rewrite (IH _ _ _ R' Ws He). reflexivity. }
  exact (G ops Nowhere [] HUnset eq_refl W He).
Qed.

Print Assumptions C07_lost_partial.
Print Assumptions C57_lost_partial.
Print Assumptions C235_lost_partial.
Print Assumptions C235_erase_refuted.
Print Assumptions C235_range_erase_refuted.
