(** Vector refines the unbounded sequence. *)
From Coq Require Import List Arith Lia Bool.
From Verif Require Import Base BaseLemmas Store StoreLemmas StaticVectorModel StaticVectorSpec
  StaticVectorProofs VectorModel VectorSpec.
Import ListNotations.

Section Proofs.
  Context {A : Type}.
  Variable m : mode.
  Variable moved : A -> A.
  Variable dflt : A.
  Variable mem : memory.
  Hypothesis Hmem : mem <> NoMemory.

  Notation mk l rest k := (SVec (St (map (@Some A) l ++ rest) k) (length l)).

  Definition vpost (rest : list (option A)) (k : nat) (keeps_clean : Prop)
    (r : outcome (vec A)) (l' : list A) (c' : nat) : Prop :=
    exists rest' k', r = Ok (Vec (mk l' rest' k') c')
      /\ length l' + length rest' = c'
      /\ (m = Tracked -> keeps_clean -> all_raw rest -> all_raw rest' /\ k' = k).

  Lemma vpost_same l rest k P c : length l + length rest = c ->
    vpost rest k P (Ok (Vec (mk l rest k) c)) l c.
  Proof. intros. exists rest, k. auto. Qed.

  Lemma vpost_weaken rest k (P Q : Prop) r l c : (Q -> P) ->
    vpost rest k P r l c -> vpost rest k Q r l c.
  Proof. intros H (r' & k' & E & L & C). exists r', k'. auto. Qed.

  Lemma vpost_lift cap rest k P r l' v : vc_capacity v = cap ->
    post m cap rest k P r l' -> vpost rest k P (vec_lift v r) l' cap.
  Proof.
    intros Hv (r' & k' & E & L & C). unfold vec_lift. rewrite E. cbn [bind].
    exists r', k'. rewrite Hv. auto.
  Qed.

  (** sequencing *)
  Lemma vpost_bind rest k P1 P2 r f l1 c1 l2 c2 :
    vpost rest k P1 r l1 c1 ->
    (forall rest1 k1, length l1 + length rest1 = c1 ->
       vpost rest1 k1 P2 (f (Vec (mk l1 rest1 k1) c1)) l2 c2) ->
    vpost rest k (P1 /\ P2) (let! v := r in f v) l2 c2.
  Proof.
    intros (r1 & k1 & E & L & C) H. rewrite E. cbn [bind].
    destruct (H r1 k1 L) as (r2 & k2 & E2 & L2 & C2).
    exists r2, k2. split; auto. split; auto.
    intros Em [HP1 HP2] HR. destruct (C Em HP1 HR) as [HR1 ->]. auto.
  Qed.

  Lemma reserve_ok l rest k n c : length l + length rest = c ->
    vpost rest k True (vec_reserve m mem (Vec (mk l rest k) c) n) l (Nat.max c n).
  Proof.
    intros Hc. unfold vec_reserve. cbn [vc_capacity].
    destruct (Nat.ltb_spec c n) as [H|H].
    - rewrite Nat.max_r by lia. unfold vc_store, vc_tail. cbn [vc_arr sv_store sv_tail st_cells st_leaks].
      destruct mem; [| |congruence].
      + rewrite app_length, map_length, <- app_assoc.
        eexists. exists k. split; [reflexivity|]. unfold raw.
        rewrite app_length, repeat_length. split; [lia|].
        intros Em _ HR. split; auto. apply all_raw_app. split; auto. apply all_raw_repeat.
      + pose proof (elements_ok l rest k) as E. unfold sv_elements in E.
        cbn [sv_tail sv_store] in E. rewrite E. cbn [bind].
        pose proof (destructor_ok m l rest k) as D. unfold sv_destructor in D.
        cbn [sv_tail sv_store] in D. rewrite D. cbn [bind].
        eexists. eexists. split; [reflexivity|]. unfold raw.
        rewrite repeat_length. split; [lia|].
        intros Em _ HR. split. { apply all_raw_repeat. }
        rewrite Em. cbn [st_cells st_leaks]. rewrite count_live_raw; auto.
        apply all_raw_app. split; auto. rewrite dead_tracked by auto. apply all_raw_repeat.
    - rewrite Nat.max_l by lia. apply vpost_same; auto.
  Qed.

  Lemma next_capacity_grow c : next_capacity c = grow c.
  Proof. reflexivity. Qed.

  Lemma grow_gt c : c <> 1 -> c < grow c.
  Proof.
    intros H. unfold grow. destruct (Nat.eqb_spec c 0); [lia|].
    assert (c + 1 <= c * 3 / 2); [|lia]. apply Nat.div_le_lower_bound; lia.
  Qed.

  Lemma grow_ne1 c : c <> 1 -> grow c <> 1.
  Proof.
    intros H. destruct (Nat.eq_dec c 0) as [->|Hn]; [discriminate|].
    pose proof (grow_gt c H). lia.
  Qed.

  Lemma push_direct l rest k c x f : length l + length rest = c -> length l < c ->
    vpost rest k True (vec_pushBack m mem (S f) (Vec (mk l rest k) c) x) (l ++ [x]) c.
  Proof.
    intros Hc Hl. unfold vec_pushBack. cbn [vec_pushBack_ref]. unfold vc_tail, vc_store.
    cbn [vc_arr sv_tail sv_store vc_capacity vref_value bind].
    destruct (Nat.eqb_spec (length l) c); [lia|]. cbn [negb].
    destruct rest as [|cell rest]; [cbn in *; lia|].
    rewrite construct_tail. cbn [bind]. exists rest, (leak_of m cell + k).
    rewrite app_length. cbn [length] in *. split. { do 3 f_equal. lia. }
    split; [lia|]. intros -> _ HR. inversion HR; subst. auto.
  Qed.

  Lemma push_ok l rest k c x f : length l + length rest = c -> length l < c \/ c <> 1 ->
    vpost rest k True (vec_pushBack m mem (S (S f)) (Vec (mk l rest k) c) x) (l ++ [x])
      (if length l <? c then c else grow c).
  Proof.
    intros Hc Hg. destruct (Nat.ltb_spec (length l) c) as [H|H].
    - apply push_direct; auto.
    - unfold vec_pushBack. cbn [vec_pushBack_ref]. unfold vc_tail at 1.
      cbn [vc_arr sv_tail vc_capacity].
      destruct (Nat.eqb_spec (length l) c); [|lia]. cbn [negb survive].
      rewrite next_capacity_grow. pose proof (grow_gt c ltac:(lia)).
      eapply vpost_weaken with (P := True /\ True); [auto|].
      eapply vpost_bind with (P2 := True).
      { pose proof (reserve_ok l rest k (grow c) c Hc) as R.
        rewrite Nat.max_r in R by lia. exact R. }
      intros r1 k1 L1. apply (push_direct l r1 k1 (grow c) x f); lia.
  Qed.

  Lemma push_all_ok' xs : forall l rest k c f, length l + length rest = c ->
    length l + length xs <= c ->
    vpost rest k True (vec_push_all m mem (S f) (Vec (mk l rest k) c) xs) (l ++ xs) c.
  Proof.
    induction xs as [|x xs IH]; intros l rest k c f Hc Hl; cbn [vec_push_all].
    - rewrite app_nil_r. apply vpost_same; auto.
    - cbn in Hl. eapply vpost_weaken with (P := True /\ True); [auto|].
      eapply vpost_bind. { apply push_direct; auto. lia. }
      intros r1 k1 L1. replace (l ++ x :: xs) with ((l ++ [x]) ++ xs) by (rewrite <- app_assoc; auto).
      apply IH; auto. rewrite app_length. cbn. lia.
  Qed.

  Lemma bounded_fits cap (l l' : list A) : length l' <= cap -> bounded cap l l' = l'.
  Proof. intros H. unfold bounded. destruct (Nat.leb_spec (length l') cap); auto; lia. Qed.

  Lemma insert_at_length it (xs l : list A) : it <= length l ->
    length (insert_at it xs l) = length l + length xs.
  Proof. intros. unfold insert_at. rewrite !app_length, firstn_length, skipn_length. lia. Qed.

  Lemma insert_direct l rest k c it x f : length l + length rest = c -> length l < c ->
    it <= length l ->
    vpost rest k True (vec_insert m moved dflt mem (S f) (Vec (mk l rest k) c) it x)
      (insert_at it [x] l) c.
  Proof.
    intros Hc Hl Hi. unfold vec_insert. cbn [vec_insert_ref]. unfold vec_size.
    unfold vc_tail at 1 2, vc_store at 1. cbn [vc_arr sv_tail sv_store vc_capacity].
    destruct (Nat.ltb_spec (length l) c) as [_|?]; [|lia].
    destruct (Nat.eqb_spec it (length l)) as [->|Hne].
    - unfold insert_at. rewrite firstn_all, skipn_all, app_nil_r.
      apply (push_direct l rest k c x f); auto.
    - pose proof (insert_ok m moved dflt c l rest k it x Hc Hi) as H.
      rewrite bounded_fits in H by (rewrite insert_at_length by auto; cbn; lia).
      apply (vpost_lift c rest k True _ _ (Vec (mk l rest k) c) eq_refl) in H.
      unfold vec_lift, sv_insert, sv_insert_arg, sv_size, sv_capacity in H.
      cbn [sv_store sv_tail st_cells vc_capacity arg_value bind] in H.
      rewrite app_length, map_length in H.
      destruct (Nat.ltb_spec (length l) (length l + length rest)) as [_|?]; [|lia].
      destruct (Nat.eqb_spec it (length l)); [congruence|].
      unfold vc_tail. cbn [vc_arr sv_tail sv_store vref_value bind].
      destruct (st_construct m _ (length l) dflt) as [s1| |]; cbn [bind] in *; auto.
      destruct (shift_right m moved _ it 1 s1) as [s2| |]; cbn [bind] in *; auto.
      destruct (st_assign m s2 it x) as [s3| |]; cbn [bind] in *; auto.
  Qed.

  Lemma insert_ok' l rest k c it x f : length l + length rest = c -> length l < c \/ c <> 1 ->
    it <= length l ->
    vpost rest k True (vec_insert m moved dflt mem (S (S f)) (Vec (mk l rest k) c) it x)
      (insert_at it [x] l) (if length l <? c then c else grow c).
  Proof.
    intros Hc Hg Hi. destruct (Nat.ltb_spec (length l) c) as [H|H].
    - apply insert_direct; auto.
    - unfold vec_insert. cbn [vec_insert_ref]. unfold vec_size, vc_tail at 1.
      cbn [vc_arr sv_tail vc_capacity].
      destruct (Nat.ltb_spec (length l) c) as [?|_]; [lia|].
      cbn [survive]. rewrite next_capacity_grow. pose proof (grow_gt c ltac:(lia)).
      eapply vpost_weaken with (P := True /\ True); [auto|].
      eapply vpost_bind with (P2 := True).
      { pose proof (reserve_ok l rest k (grow c) c Hc) as R.
        rewrite Nat.max_r in R by lia. exact R. }
      intros r1 k1 L1. apply (insert_direct l r1 k1 (grow c) it x f); lia.
  Qed.

  Lemma emplace_direct l rest k c it x f : length l + length rest = c -> length l < c ->
    it <= length l ->
    vpost rest k (it = length l) (vec_emplace m moved dflt mem (S f) (Vec (mk l rest k) c) it x)
      (insert_at it [x] l) c.
  Proof.
    intros Hc Hl Hi. cbn [vec_emplace]. unfold vec_size.
    unfold vc_tail at 1 2, vc_store at 1. cbn [vc_arr sv_tail sv_store vc_capacity].
    destruct (Nat.ltb_spec (length l) c) as [_|?]; [|lia].
    destruct (Nat.eqb_spec it (length l)) as [->|Hne].
    - unfold insert_at. rewrite firstn_all, skipn_all, app_nil_r.
      apply vpost_weaken with (P := True); [auto|]. apply (push_direct l rest k c x f); auto.
    - destruct rest as [|cell rest]; [cbn in *; lia|]. cbn [length] in *.
      destruct (insert_core m moved dflt c l cell rest k it) as (g & Lg & Vg & E); [lia|lia|].
      destruct g as [|g0 [|? ?]]; try discriminate. clear Lg.
      inversion Vg as [|? ? Hg _]; subst. unfold vc_tail.
      cbn [vc_arr sv_tail sv_store].
      destruct (st_construct m _ (length l) dflt) as [s1| |]; cbn [bind] in E; try discriminate.
      cbn [bind]. rewrite E. cbn [bind app].
      rewrite st_construct_mid. 2: rewrite map_length, firstn_length; lia.
      cbn [bind]. exists rest. eexists. split; [|split].
      + f_equal. f_equal. unfold insert_at. f_equal.
        * f_equal. rewrite !map_app. cbn [map]. rewrite <- app_assoc. reflexivity.
        * rewrite !app_length, firstn_length, skipn_length. cbn. lia.
      + rewrite insert_at_length by lia. cbn. lia.
      + intros _ ->. lia.
  Qed.

  Lemma emplace_ok l rest k c it x f : length l + length rest = c -> length l < c \/ c <> 1 ->
    it <= length l ->
    vpost rest k (it = length l)
      (vec_emplace m moved dflt mem (S (S f)) (Vec (mk l rest k) c) it x)
      (insert_at it [x] l) (if length l <? c then c else grow c).
  Proof.
    intros Hc Hg Hi. destruct (Nat.ltb_spec (length l) c) as [H|H].
    - apply emplace_direct; auto.
    - remember (S f) as f'. cbn [vec_emplace]. subst f'. unfold vec_size, vc_tail at 1.
      cbn [vc_arr sv_tail vc_capacity].
      destruct (Nat.ltb_spec (length l) c) as [?|_]; [lia|].
      rewrite next_capacity_grow. pose proof (grow_gt c ltac:(lia)).
      eapply vpost_weaken with (P := True /\ it = length l); [auto|].
      eapply vpost_bind.
      { pose proof (reserve_ok l rest k (grow c) c Hc) as R.
        rewrite Nat.max_r in R by lia. exact R. }
      intros r1 k1 L1. apply (emplace_direct l r1 k1 (grow c) it x f); lia.
  Qed.

  Lemma insert_range_direct l rest k c it xs f : length l + length rest = c ->
    length xs + length l <= c -> it <= length l ->
    vpost rest k True (vec_insert_range m moved dflt mem (S f) (Vec (mk l rest k) c) it xs)
      (insert_at it xs l) c.
  Proof.
    intros Hc Hl Hi. cbn [vec_insert_range]. unfold vec_size.
    unfold vc_tail at 1 2, vc_store at 1. cbn [vc_arr sv_tail sv_store vc_capacity].
    destruct (Nat.eqb_spec (length xs) 0) as [E0|N0].
    { destruct xs; [|discriminate]. unfold insert_at. cbn [app]. rewrite firstn_skipn.
      apply vpost_same; auto. }
    destruct (Nat.leb_spec (length xs + length l) c) as [_|?]; [|lia].
    destruct (Nat.eqb_spec it (length l)) as [->|Hne].
    - unfold insert_at. rewrite firstn_all, skipn_all, app_nil_r.
      apply (push_all_ok' xs l rest k c f); lia.
    - pose proof (insert_range_ok m moved dflt c l rest k it xs Hc Hi) as H.
      rewrite bounded_fits in H by (rewrite insert_at_length by auto; lia).
      apply (vpost_lift c rest k True _ _ (Vec (mk l rest k) c) eq_refl) in H.
      unfold vec_lift, sv_insert_range, sv_size, sv_capacity in H.
      cbn [sv_store sv_tail st_cells vc_capacity] in H.
      rewrite app_length, map_length in H.
      destruct (Nat.eqb_spec (length xs) 0); [congruence|].
      destruct (Nat.leb_spec (length xs + length l) (length l + length rest)) as [_|?]; [|lia].
      destruct (Nat.eqb_spec it (length l)); [congruence|].
      unfold vc_tail. cbn [vc_arr sv_tail sv_store].
      destruct (construct_dflt m dflt _ (length l) _) as [s1| |]; cbn [bind] in *; auto.
      destruct (shift_right m moved _ it _ s1) as [s2| |]; cbn [bind] in *; auto.
      destruct (assign_list m xs it s2) as [s3| |]; cbn [bind] in *; auto.
  Qed.

  Lemma insert_range_ok' l rest k c it xs f : length l + length rest = c -> it <= length l ->
    vpost rest k True (vec_insert_range m moved dflt mem (S (S f)) (Vec (mk l rest k) c) it xs)
      (insert_at it xs l)
      (if length xs + length l <=? c then c else if length xs =? 0 then c else c + length xs).
  Proof.
    intros Hc Hi. destruct (Nat.leb_spec (length xs + length l) c) as [H|H].
    - apply insert_range_direct; auto.
    - remember (S f) as f'. cbn [vec_insert_range]. subst f'. unfold vec_size, vc_tail at 1.
      cbn [vc_arr sv_tail vc_capacity].
      destruct (Nat.eqb_spec (length xs) 0) as [E0|N0]; [lia|].
      destruct (Nat.leb_spec (length xs + length l) c) as [?|_]; [lia|].
      eapply vpost_weaken with (P := True /\ True); [auto|].
      eapply vpost_bind with (P2 := True).
      { pose proof (reserve_ok l rest k (c + length xs) c Hc) as R.
        rewrite Nat.max_r in R by lia. exact R. }
      intros r1 k1 L1. apply (insert_range_direct l r1 k1 (c + length xs) it xs f); lia.
  Qed.

  Lemma grow_until_stop f c n : n <= c -> grow_until f c n = c.
  Proof. intros H. destruct f; cbn [grow_until]; auto. destruct (Nat.ltb_spec c n); auto; lia. Qed.

  Lemma grow_until_more n : forall f c, c <> 1 -> n <= f + c ->
    forall g, grow_until (f + g) c n = grow_until f c n.
  Proof.
    induction f as [|f IH]; intros c Hc Hn g; cbn [Nat.add].
    - rewrite grow_until_stop by lia. reflexivity.
    - cbn [grow_until]. destruct (Nat.ltb_spec c n); auto.
      pose proof (grow_gt c Hc). apply IH; [apply grow_ne1; auto|lia].
  Qed.

  Lemma resize_ok n : forall f l rest k c, length l + length rest = c ->
    length l < n -> c <> 1 \/ n <= 1 -> n <= f + c -> grow_until f c n <> n ->
    vpost rest k True (vec_resize m dflt mem (S f) (Vec (mk l rest k) c) n)
      (l ++ repeat dflt (n - length l)) (grow_until f c n).
  Proof.
    induction f as [|f IH]; intros l rest k c Hc Hl Hg Hf Hn; cbn [vec_resize];
      unfold vec_size, vc_tail at 1; cbn [vc_arr sv_tail vc_capacity].
    all: destruct (Nat.ltb_spec (length l) n) as [_|?]; [|lia].
    all: destruct (Nat.ltb_spec n c) as [H1|H1].
    1,3: rewrite grow_until_stop by lia; unfold vc_tail, vc_store; cbn [vc_arr sv_tail sv_store];
      destruct (split_at rest (n - length l)) as (gap & rest' & -> & Lg); [lia|];
      rewrite construct_dflt_ok by (auto; rewrite map_length; auto);
      cbn [bind]; exists rest'; eexists; split; [|split].
    1,4: f_equal; f_equal; rewrite app_length, repeat_length;
      replace (length l + (n - length l)) with n by lia; f_equal; f_equal;
      rewrite map_app, <- app_assoc; f_equal; f_equal;
      clear; induction (n - length l); cbn; congruence.
    1,3: rewrite app_length, repeat_length; rewrite app_length in Hc; lia.
    1,2: intros -> _ HR; apply all_raw_app in HR as [HR1 HR2]; split; auto;
      rewrite leaks_of_raw; auto.
    - cbn in Hf, Hn. lia.
    - destruct (Nat.ltb_spec c n) as [H2|H2].
      2:{ rewrite grow_until_stop in Hn by lia. lia. }
      cbn [grow_until] in *. destruct (Nat.ltb_spec c n) as [_|?]; [|lia].
      rewrite next_capacity_grow.
      assert (c <> 1) as Hc1 by lia.
      pose proof (grow_gt c Hc1).
      eapply vpost_weaken with (P := True /\ True); [auto|].
      eapply vpost_bind with (P2 := True).
      { pose proof (reserve_ok l rest k (grow c) c Hc) as R.
        rewrite Nat.max_r in R by lia. exact R. }
      intros r1 k1 L1. pose proof (grow_ne1 c Hc1). apply IH; auto; try lia.
  Qed.

  Lemma step_ok' l rest k c op f : length l + length rest = c ->
    vec_valid c l op -> m = Trivial \/ vec_tail_range l op ->
    depth [op] <= f ->
    vpost rest k (vec_no_leak l op)
      (vec_step m moved dflt mem f (Vec (mk l rest k) c) op)
      (seq_step dflt l op) (cap_step c l op).
  Proof.
    intros Hc [Hv Hg] Hm Hf.
    assert (exists f', f = S (S f')) as (f' & ->).
    { destruct f as [|[|f]]; cbn in Hf; eauto.
      all: exfalso; destruct op; lia. }
    destruct op; cbn [vec_step seq_step cap_step vec_no_leak vec_valid_op vec_tail_range grows]
      in *.
    - apply (push_ok l rest k c x f'); auto.
    - apply (push_ok l rest k c x f'); auto.
    - apply (vpost_lift c); auto. apply popBack_ok; auto.
    - apply (insert_ok' l rest k c it x f'); auto.
    - apply (insert_range_ok' l rest k c it xs f'); auto.
    - apply (emplace_ok l rest k c it x f'); auto.
    - apply (vpost_lift c); auto. apply erase_ok; auto.
    - apply (vpost_lift c); auto. apply erase_range_ok; tauto.
    - apply (vpost_lift c); auto. apply clean_ok; auto.
    - apply reserve_ok; auto.
    - destruct (Nat.ltb_spec (length l) n) as [Hl|Hl].
      + destruct (Hg Hl) as [Hg1 Hg2].
        cbn in Hf.
        assert (grow_until (S f') c n = grow_until n c n) as <-.
        { replace (S f') with (n + (S f' - n)) by lia.
          destruct (Nat.eq_dec c 1) as [->|Hne].
          - rewrite !grow_until_stop by lia. reflexivity.
          - apply grow_until_more; lia. }
        assert (grow_until (S f') c n <> n).
        { replace (S f') with (n + (S f' - n)) by lia.
          destruct (Nat.eq_dec c 1) as [->|Hne].
          - rewrite grow_until_stop by lia. rewrite grow_until_stop in Hg2 by lia. auto.
          - rewrite grow_until_more; auto; lia. }
        apply resize_ok; auto; lia.
      + replace (n - length l) with 0 by lia. cbn [repeat]. rewrite app_nil_r.
        cbn [vec_resize]. unfold vec_size, vc_tail. cbn [vc_arr sv_tail].
        destruct (Nat.ltb_spec (length l) n); [lia|]. apply vpost_same; auto.
  Qed.

  Lemma depth_ge (ops : list (vec_op A)) : 2 <= depth ops.
  Proof.
    unfold depth. induction ops as [|o ops IH]; cbn [fold_right]; auto. destruct o; lia.
  Qed.

  Lemma run_ok' f : forall ops l rest k c, length l + length rest = c ->
    vec_along dflt vec_valid c l ops ->
    m = Trivial \/ vec_along dflt (fun _ => vec_tail_range) c l ops ->
    depth ops <= f ->
    exists c', vpost rest k (vec_along dflt (fun _ => vec_no_leak) c l ops)
      (vec_run m moved dflt mem f (Vec (mk l rest k) c) ops)
      (fold_left (seq_step dflt) ops l) c'.
  Proof.
    induction ops as [|op ops IH]; intros l rest k c Hc Hv Hm Hf; cbn [vec_run fold_left vec_along].
    - exists c. apply vpost_same; auto.
    - destruct Hv as [Hv1 Hv2].
      assert (depth [op] <= f /\ depth ops <= f) as [Hf1 Hf2].
      { clear - Hf. pose proof (depth_ge ops). unfold depth in *. cbn [fold_right] in *.
        destruct op; lia. }
      destruct (step_ok' l rest k c op f Hc Hv1) as (r1 & k1 & E1 & L1 & C1); auto.
      { destruct Hm as [?|[? ?]]; auto. }
      rewrite E1. cbn [bind].
      destruct (IH _ r1 k1 _ L1 Hv2) as (c' & r2 & k2 & E2 & L2 & C2); auto.
      { destruct Hm as [?|[? ?]]; auto. }
      exists c', r2, k2. split; auto. split; auto.
      intros Em [P1 P2] HR. destruct (C1 Em P1 HR) as [HR1 ->]. auto.
  Qed.

  Lemma vec_elements_ok l rest k c : vec_elements (Vec (mk l rest k) c) = Ok l.
  Proof. exact (elements_ok l rest k). Qed.

  Lemma vec_destructor_ok l rest k c : m = Tracked -> all_raw rest ->
    vec_destructor m (Vec (mk l rest k) c) = Ok k.
  Proof.
    intros Em HR. unfold vec_destructor, vec_clean, vec_lift. cbn [vc_arr].
    destruct (clean_ok m (length l + length rest) l rest k eq_refl) as (r' & k' & E & L & C).
    rewrite E. cbn [bind]. unfold vc_store. cbn [vc_arr sv_store st_cells st_leaks map app].
    destruct (C Em I HR) as [HR' ->]. rewrite count_live_raw; auto.
  Qed.

  Lemma vec_copy_ok xs : vec_copy m xs = Ok (Vec (mk xs [] 0) (length xs)).
  Proof.
    unfold vec_copy.
    pose proof (construct_list_ok m xs (raw A (length xs)) [] [] 0 0) as H.
    cbn [app] in H. rewrite app_nil_r in H. rewrite H; auto.
    - cbn [bind]. rewrite leaks_of_raw by apply all_raw_repeat. reflexivity.
    - unfold raw. apply repeat_length.
  Qed.
End Proofs.
