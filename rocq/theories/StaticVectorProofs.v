(** StaticVector refines bounded lists. *)
From Coq Require Import List Arith Lia Bool.
From Verif Require Import Base BaseLemmas Store StoreLemmas StaticVectorModel StaticVectorSpec.
Import ListNotations.

Definition all_raw {A} (g : list (option A)) : Prop := Forall (fun c => c = None) g.

Lemma all_raw_repeat {A} n : all_raw (repeat (@None A) n).
Proof. induction n; constructor; auto. Qed.

Lemma all_raw_app {A} (g h : list (option A)) : all_raw (g ++ h) <-> all_raw g /\ all_raw h.
Proof. apply Forall_app. Qed.

Lemma removelast_firstn' {A} (l : list A) : removelast l = firstn (length l - 1) l.
Proof.
  induction l as [|a l IH]; auto. destruct l as [|b l]; auto.
  change (removelast (a :: b :: l)) with (a :: removelast (b :: l)). rewrite IH.
  cbn [length]. rewrite !Nat.sub_succ, !Nat.sub_0_r. reflexivity.
Qed.

Section Proofs.
  Context {A : Type}.
  Variable m : mode.
  Variable moved : A -> A.
  Variable dflt : A.

  Notation mk l rest k := (SVec (St (map (@Some A) l ++ rest) k) (length l)).

  (** The post condition of an operation. *)
  Definition post (cap : nat) (rest : list (option A)) (k : nat) (keeps_clean : Prop)
    (r : outcome (svec A)) (l' : list A) : Prop :=
    exists rest' k', r = Ok (mk l' rest' k')
      /\ length l' + length rest' = cap
      /\ (m = Tracked -> keeps_clean -> all_raw rest -> all_raw rest' /\ k' = k).

  Lemma post_same cap l rest k P : length l + length rest = cap ->
    post cap rest k P (Ok (mk l rest k)) l.
  Proof. intros. exists rest, k. auto. Qed.

  Lemma construct_tail (x : A) l c rest k :
    st_construct m (St (map Some l ++ c :: rest) k) (length l) x
    = Ok (St (map Some (l ++ [x]) ++ rest) (leak_of m c + k)).
  Proof.
    rewrite st_construct_mid by (rewrite map_length; auto).
    rewrite map_app, <- app_assoc. reflexivity.
  Qed.

  Lemma pushBack_ok cap (l : list A) rest k x : length l + length rest = cap ->
    post cap rest k True (sv_pushBack m (mk l rest k) x) (bounded cap l (l ++ [x])).
  Proof.
    intros Hc. unfold sv_pushBack, sv_pushBack_arg, sv_size, sv_capacity, bounded.
    cbn [sv_store sv_tail st_cells arg_value]. rewrite !app_length, map_length. cbn [length].
    destruct (Nat.ltb_spec (length l) (length l + length rest)) as [H|H].
    - destruct (Nat.leb_spec (length l + 1) cap); [|lia].
      destruct rest as [|c rest]; [cbn in *; lia|]. cbn [bind].
      rewrite construct_tail. cbn [bind].
      exists rest, (leak_of m c + k). rewrite app_length. cbn [length] in *.
      replace (S (length l)) with (length l + 1) by lia. split; [reflexivity|].
      split; [lia|].
      intros -> _ HR. inversion HR; subst. auto.
    - destruct (Nat.leb_spec (length l + 1) cap); [lia|]. apply post_same; auto.
  Qed.

  Lemma pushBack_move_eq v (x : A) : sv_pushBack_move m v x = sv_pushBack m v x.
  Proof.
    unfold sv_pushBack_move, sv_pushBack, sv_pushBack_arg. cbn [arg_value bind]. reflexivity.
  Qed.

  Lemma emplaceBack_eq v (x : A) : sv_emplaceBack m v x = sv_pushBack m v x.
  Proof. reflexivity. Qed.

  Lemma push_all_ok cap xs : forall l rest k, length l + length rest = cap ->
    post cap rest k True (sv_push_all m (mk l rest k) xs) (firstn cap (l ++ xs)).
  Proof.
    induction xs as [|x xs IH]; intros l rest k Hc; cbn [sv_push_all].
    - rewrite app_nil_r, firstn_all2 by lia. apply post_same; auto.
    - destruct (pushBack_ok cap l rest k x Hc) as (rest1 & k1 & E1 & L1 & C1).
      rewrite E1. cbn [bind].
      destruct (IH _ rest1 k1 L1) as (rest2 & k2 & E2 & L2 & C2).
      rewrite E2.
      assert (firstn cap (bounded cap l (l ++ [x]) ++ xs) = firstn cap (l ++ x :: xs)) as Ef.
      { unfold bounded. rewrite app_length. cbn.
        destruct (Nat.leb_spec (length l + 1) cap).
        - rewrite <- app_assoc. reflexivity.
        - rewrite !firstn_app. replace (cap - length l) with 0 by lia. reflexivity. }
      rewrite Ef in *. exists rest2, k2. split; auto. split; auto.
      intros Em _ HR. destruct (C1 Em I HR) as [HR1 K1]. destruct (C2 Em I HR1) as [HR2 K2].
      split; auto. lia.
  Qed.

  Lemma push_all_fit cap xs l rest k : length l + length rest = cap ->
    length l + length xs <= cap ->
    post cap rest k True (sv_push_all m (mk l rest k) xs) (l ++ xs).
  Proof.
    intros Hc Hx. pose proof (push_all_ok cap xs l rest k Hc) as H.
    rewrite firstn_all2 in H by (rewrite app_length; lia). exact H.
  Qed.

  Lemma popBack_ok cap (l : list A) rest k : length l + length rest = cap ->
    post cap rest k True (sv_popBack m (mk l rest k)) (removelast l).
  Proof.
    intros Hc. unfold sv_popBack, sv_size. cbn [sv_store sv_tail].
    destruct (list_eq_dec (fun a b : unit => left (match a, b with tt, tt => eq_refl end))
                (map (fun _ => tt) l) []) as [E|E].
    - apply map_eq_nil in E. subst l. cbn. apply (post_same cap []); auto.
    - destruct l as [|y l0] using rev_ind; [cbn in E; congruence|]. clear IHl0.
      rewrite removelast_last, app_length in *. cbn [length] in *.
      destruct (Nat.eqb_spec (length l0 + 1) 0); [lia|].
      rewrite map_app, <- app_assoc. cbn [map app].
      replace (length l0 + 1 - 1) with (length l0) by lia.
      rewrite st_destroy_mid.
      2: rewrite map_length; auto. 2: right; reflexivity.
      cbn [bind].
      exists (dead m (Some y) :: rest), k. split; auto. cbn [length]. split; [lia|].
      intros -> _ HR. split; auto. constructor; auto.
  Qed.

  Lemma insert_core cap (l : list A) c rest k it :
    length l + S (length rest) = cap -> it < length l ->
    exists g,
      length g = 1 /\ Forall (fun c => live c = true) g /\
      (let! s := st_construct m (St (map Some l ++ c :: rest) k) (length l) dflt in
       shift_right m moved (length l - it) it 1 s)
      = Ok (St (map Some (firstn it l) ++ g ++ map Some (skipn it l) ++ rest) (leak_of m c + k)).
  Proof.
    intros Hc Hi.
    rewrite st_construct_mid by (rewrite map_length; auto). cbn [bind].
    destruct (shift_right_ok m moved (map Some (firstn it l)) (skipn it l) [Some dflt]
               rest (leak_of m c + k) (length l - it) it) as (g & L & U & V & R).
    - rewrite skipn_length. auto.
    - rewrite map_length, firstn_length. lia.
    - discriminate.
    - constructor; auto. right; reflexivity.
    - exists g. split; auto. split. { apply V. constructor; auto. }
      cbn [length] in R. rewrite <- R. rewrite app_assoc, <- map_app, firstn_skipn. reflexivity.
  Qed.

  Lemma insert_ok cap (l : list A) rest k it x : length l + length rest = cap -> it <= length l ->
    post cap rest k True (sv_insert m moved dflt (mk l rest k) it x)
      (bounded cap l (insert_at it [x] l)).
  Proof.
    intros Hc Hi. unfold sv_insert, sv_insert_arg.
    unfold sv_size at 1, sv_capacity at 1. cbn [sv_store sv_tail st_cells].
    rewrite app_length, map_length.
    destruct (Nat.ltb_spec (length l) (length l + length rest)) as [H|H].
    - destruct (Nat.eqb_spec it (length l)) as [->|Hne].
      + unfold insert_at. rewrite firstn_all, skipn_all, app_nil_r. apply pushBack_ok; auto.
      + destruct rest as [|c rest]; [cbn in *; lia|]. cbn [length] in *.
        destruct (insert_core cap l c rest k it) as (g & Lg & Vg & E); [lia|lia|].
        destruct g as [|g0 [|? ?]]; try discriminate. clear Lg.
        inversion Vg as [|? ? Hg _]; subst.
        cbn [sv_store sv_tail].
        destruct (st_construct m _ (length l) dflt) as [s1| |]; cbn [bind] in E;
          try discriminate.
        cbn [bind]. rewrite E. cbn [bind arg_value app].
        rewrite st_assign_mid.
        2: rewrite map_length, firstn_length; lia.
        2: right; auto.
        cbn [bind].
        unfold bounded, insert_at. rewrite !app_length, firstn_length, skipn_length.
        cbn [length].
        match goal with |- context [if ?b then _ else _] => replace b with true end.
        2:{ symmetry. apply Nat.leb_le. lia. }
        exists rest, (leak_of m c + k).
        split; [|split].
        * f_equal. f_equal.
          { f_equal. rewrite !map_app. cbn [map]. rewrite <- app_assoc. reflexivity. }
          rewrite !app_length, firstn_length, skipn_length. cbn [length]. lia.
        * rewrite !app_length, firstn_length, skipn_length. cbn [length]. lia.
        * intros -> _ HR. inversion HR; subst. auto.
    - unfold bounded, insert_at. rewrite !app_length, firstn_length, skipn_length. cbn [length].
      match goal with |- context [if ?b then _ else _] => replace b with false end.
      2:{ symmetry. apply Nat.leb_gt. lia. }
      apply post_same; auto.
  Qed.

  Lemma insert_move_eq v it (x : A) :
    sv_insert_move m moved dflt v it x = sv_insert m moved dflt v it x.
  Proof.
    unfold sv_insert_move, sv_insert, sv_insert_arg. cbn [arg_value].
    reflexivity.
  Qed.

  Lemma emplace_eq (l : list A) rest k it x : it <= length l ->
    sv_emplace m moved dflt (mk l rest k) it x = sv_insert m moved dflt (mk l rest k) it x.
  Proof.
    intros Hi. unfold sv_emplace, sv_insert, sv_insert_arg.
    unfold sv_size, sv_capacity. cbn [sv_store sv_tail st_cells].
    rewrite app_length, map_length.
    destruct (Nat.ltb_spec (length l) (length l + length rest)) as [H|H]; [|reflexivity].
    destruct (Nat.eqb_spec it (length l)) as [->|Hne]; [reflexivity|].
    destruct rest as [|c rest]; [cbn in *; lia|]. cbn [length] in *.
    destruct (insert_core _ l c rest k it eq_refl) as (g & Lg & Vg & E); [lia|].
    destruct g as [|g0 [|? ?]]; try discriminate. clear Lg.
    inversion Vg as [|? ? Hg _]; subst.
    destruct (st_construct m _ (length l) dflt) as [s1| |]; cbn [bind] in E; try discriminate.
    cbn [bind]. rewrite E. cbn [bind arg_value app].
    rewrite st_assign_mid, st_destroy_mid.
    2,4: rewrite map_length, firstn_length; lia.
    2,3: right; auto.
    cbn [bind]. rewrite st_construct_mid. 2: rewrite map_length, firstn_length; lia.
    cbn [bind]. unfold leak_of, dead. destruct m; reflexivity.
  Qed.

  Lemma insert_range_ok cap (l : list A) rest k it xs :
    length l + length rest = cap -> it <= length l ->
    post cap rest k True (sv_insert_range m moved dflt (mk l rest k) it xs)
      (bounded cap l (insert_at it xs l)).
  Proof.
    intros Hc Hi. unfold sv_insert_range.
    unfold sv_size at 1, sv_capacity at 1. cbn [sv_store sv_tail st_cells].
    rewrite app_length, map_length.
    assert (length (insert_at it xs l) = length l + length xs) as Hlen.
    { unfold insert_at. rewrite !app_length, firstn_length, skipn_length. lia. }
    unfold bounded. rewrite Hlen.
    destruct (Nat.eqb_spec (length xs) 0) as [E0|E0].
    { apply length_zero_iff_nil in E0. subst xs. unfold insert_at. cbn [app].
      rewrite firstn_skipn. destruct (_ <=? _); apply post_same; auto. }
    destruct (Nat.leb_spec (length xs + length l) (length l + length rest)) as [H|H].
    - destruct (Nat.leb_spec (length l + length xs) cap); [|lia].
      destruct (Nat.eqb_spec it (length l)) as [->|Hne].
      + unfold insert_at. rewrite firstn_all, skipn_all, app_nil_r.
        apply push_all_fit; auto.
      + destruct (split_at rest (length xs)) as (gap & rest' & -> & Lg); [lia|].
        rewrite construct_dflt_ok by (auto; rewrite map_length; auto).
        cbn [bind].
        destruct (shift_right_ok m moved (map Some (firstn it l)) (skipn it l)
                    (repeat (Some dflt) (length xs)) rest' (leaks_of m gap + k)
                    (length l - it) it) as (g & L & U & V & R).
        * rewrite skipn_length. auto.
        * rewrite map_length, firstn_length. lia.
        * destruct xs; cbn in *; [lia|discriminate].
        * apply usable_repeat.
        * rewrite repeat_length in L, R.
          rewrite app_assoc, <- map_app, firstn_skipn in R. rewrite R. cbn [bind].
          rewrite assign_list_ok; auto.
          2: rewrite map_length, firstn_length; lia.
          cbn [bind]. exists rest', (leaks_of m gap + k).
          rewrite app_length in *. split; [|split].
          { f_equal. f_equal.
            - f_equal. unfold insert_at. rewrite !map_app, <- !app_assoc. reflexivity.
            - lia. }
          { lia. }
          intros -> _ HR. apply all_raw_app in HR as [HR1 HR2]. split; auto.
          rewrite leaks_of_raw; auto.
    - destruct (Nat.leb_spec (length l + length xs) cap); [lia|].
      apply post_same; auto.
  Qed.

  Lemma erase_ok cap (l : list A) rest k it :
    length l + length rest = cap -> it <= length l ->
    post cap rest k (length l <= S it) (sv_erase m moved (mk l rest k) it)
      (erase_at it (S it) l).
  Proof.
    intros Hc Hi. unfold sv_erase. cbn [sv_tail sv_store].
    destruct (Nat.eqb_spec it (length l)) as [->|Hne].
    { unfold erase_at. rewrite firstn_all, skipn_all2, app_nil_r by lia. apply post_same; auto. }
    destruct (Nat.eqb_spec (S it) (length l)) as [Hl|Hnl].
    { unfold erase_at. rewrite Hl, skipn_all, app_nil_r.
      replace (firstn it l) with (removelast l).
      2:{ rewrite removelast_firstn'. f_equal. lia. }
      destruct (popBack_ok cap l rest k Hc) as (r' & k' & E & L & C).
      exists r', k'. auto. }
    assert (E : map Some l ++ rest
                = map Some (firstn it l) ++ [nth it (map Some l) None]
                  ++ map Some (skipn (S it) l) ++ rest).
    { rewrite !app_assoc, <- app_assoc with (n := rest). rewrite !app_assoc. f_equal.
      rewrite <- firstn_map, <- skipn_map.
      rewrite <- app_assoc.
      rewrite <- (firstn_skipn it (map Some l)) at 1. f_equal.
      assert (it < length (map (@Some A) l)) as Hlt by (rewrite map_length; lia).
      clear - Hlt. revert it Hlt. induction (map (@Some A) l) as [|a q IH]; intros [|i] H;
        cbn in *; try lia; auto. apply IH. lia. }
    rewrite E.
    assert (live (nth it (map (@Some A) l) None) = true) as Hlive.
    { destruct (nth_error_lt l it) as [x Hx]; [lia|].
      erewrite nth_error_nth; [|rewrite nth_error_map', Hx; reflexivity]. reflexivity. }
    destruct (shift_left_ok m moved (skipn (S it) l) (map Some (firstn it l))
                [nth it (map Some l) None] rest k (length l - S it) it)
      as (g & L & U & V & R).
    - rewrite skipn_length. auto.
    - rewrite map_length, firstn_length. lia.
    - discriminate.
    - constructor; auto. right; auto.
    - cbn [length] in R. rewrite R. cbn [bind].
      assert (length (erase_at it (S it) l) = length l - 1) as Hlen.
      { unfold erase_at. rewrite app_length, firstn_length, skipn_length. lia. }
      exists (g ++ rest), k. rewrite app_length, Hlen. cbn in L. split; [|split].
      + f_equal. f_equal. f_equal. unfold erase_at. rewrite map_app, <- app_assoc. reflexivity.
      + lia.
      + lia.
  Qed.

  Lemma clean_ok cap (l : list A) rest k : length l + length rest = cap ->
    post cap rest k True (sv_clean m (mk l rest k)) [].
  Proof.
    intros Hc. unfold sv_clean. cbn [sv_tail sv_store].
    pose proof (destroy_range_ok m (map Some l) [] rest k (length l) 0) as H.
    cbn [app length] in H. rewrite H; auto.
    2: rewrite map_length; auto. 2: apply usable_some.
    cbn [bind]. exists (map (dead m) (map Some l) ++ rest), k.
    cbn [length map app]. rewrite app_length, !map_length. split; auto. split; [lia|].
    intros Em _ HR. split; auto. apply all_raw_app. split; auto.
    rewrite dead_tracked by auto. apply all_raw_repeat.
  Qed.

  Lemma erase_range_ok cap (l : list A) rest k b e :
    length l + length rest = cap -> b <= e -> e <= length l ->
    m = Trivial \/ b = e \/ e = length l ->
    post cap rest k (b = e \/ e = length l) (sv_erase_range m moved (mk l rest k) b e)
      (erase_at b e l).
  Proof.
    intros Hc Hbe Hel Hm. unfold sv_erase_range.
    unfold sv_size. cbn [sv_tail sv_store].
    destruct (Nat.eqb_spec e (b + length l)) as [Ee|Ne].
    { assert (b = 0) by lia. assert (e = length l) by lia. clear Ee. subst b e.
      unfold erase_at. cbn [firstn app]. rewrite skipn_all.
      destruct (clean_ok cap l rest k Hc) as (r' & k' & E & L & C). exists r', k'. auto. }
    destruct (Nat.ltb_spec (e - b) (length l)) as [H1|H1]; [|lia].
    destruct (Nat.ltb_spec b e) as [H2|H2]; cbn [andb].
    2:{ assert (b = e) by lia. subst. unfold erase_at. rewrite firstn_skipn.
        apply post_same; auto. }
    assert (E : map Some l ++ rest
                = map Some (firstn b l) ++ map Some (skipn b (firstn e l))
                  ++ map Some (skipn e l) ++ rest).
    { rewrite !app_assoc. f_equal. rewrite <- !map_app. f_equal.
      rewrite <- (firstn_skipn e l) at 1. f_equal.
      rewrite <- (firstn_skipn b (firstn e l)) at 1. f_equal.
      rewrite firstn_firstn. f_equal. lia. }
    assert (length (map (@Some A) (skipn b (firstn e l))) = e - b) as Lmid.
    { rewrite map_length, skipn_length, firstn_length. lia. }
    assert (length (map (@Some A) (firstn b l)) = b) as Lpre.
    { rewrite map_length, firstn_length. lia. }
    assert (length (erase_at b e l) = length l - (e - b)) as Hlen.
    { unfold erase_at. rewrite app_length, firstn_length, skipn_length. lia. }
    rewrite E. rewrite destroy_range_ok; auto; [|apply usable_some].
    cbn [bind].
    destruct (Nat.eq_dec e (length l)) as [He|He].
    - subst e. rewrite Nat.sub_diag. cbn [shift_left bind].
      rewrite skipn_all. cbn [map app].
      exists (map (dead m) (map Some (skipn b (firstn (length l) l))) ++ rest), k.
      rewrite Hlen, app_length, map_length, Lmid. split; [|split].
      + unfold erase_at. rewrite skipn_all, app_nil_r. reflexivity.
      + lia.
      + intros Em _ HR. split; auto. apply all_raw_app. split; auto.
        rewrite dead_tracked by auto. apply all_raw_repeat.
    - assert (m = Trivial) as Em by (destruct Hm as [?|[?|?]]; auto; lia).
      rewrite dead_trivial by auto.
      destruct (shift_left_ok m moved (skipn e l) (map Some (firstn b l))
                  (map Some (skipn b (firstn e l))) rest k (length l - e) b)
        as (g & L & U & V & R).
      + rewrite skipn_length. auto.
      + auto.
      + intros En. rewrite En in Lmid. cbn in Lmid. lia.
      + apply usable_some.
      + rewrite Lmid in R, L. rewrite R. cbn [bind].
        exists (g ++ rest), k. rewrite app_length, Hlen. split; [|split].
        * f_equal. f_equal. f_equal. unfold erase_at. rewrite map_app, <- app_assoc. reflexivity.
        * lia.
        * congruence.
  Qed.

  Lemma count_live_raw (g : list (option A)) : all_raw g -> count_live g = 0.
  Proof. induction 1; cbn; auto. subst. exact IHForall. Qed.

  Lemma reset_ok cap (l : list A) rest k : length l + length rest = cap ->
    post cap rest k True (sv_reset m (mk l rest k)) [].
  Proof.
    intros Hc. unfold sv_reset.
    destruct (clean_ok cap l rest k Hc) as (r' & k' & E & L & C). rewrite E. cbn [bind].
    cbn [map app length sv_store sv_tail st_cells st_leaks] in *.
    exists (raw A (length r')),
      (match m with Tracked => count_live r' + k' | Trivial => k' end).
    cbn [map app length].
    split; auto. split. { unfold raw. rewrite repeat_length. auto. }
    intros Em _ HR. destruct (C Em I HR) as [HR' ->]. split. { apply all_raw_repeat. }
    rewrite Em. rewrite count_live_raw; auto.
  Qed.

  Lemma assign_ok cap (l : list A) rest k xs : length l + length rest = cap ->
    post cap rest k True (sv_assign m (mk l rest k) xs) (bounded cap l xs).
  Proof.
    intros Hc. unfold sv_assign, sv_capacity, bounded. cbn [sv_store st_cells].
    rewrite app_length, map_length, Hc.
    destruct (Nat.ltb_spec cap (length xs)) as [H|H].
    - destruct (Nat.leb_spec (length xs) cap); [lia|]. apply post_same; auto.
    - destruct (Nat.leb_spec (length xs) cap); [|lia].
      destruct (clean_ok cap l rest k Hc) as (r' & k' & E & L & C). rewrite E. cbn [bind].
      destruct (push_all_fit cap xs [] r' k' L H) as (r2 & k2 & E2 & L2 & C2).
      cbn [map app length] in *. exists r2, k2. split; auto. split; auto.
      intros Em _ HR. destruct (C Em I HR) as [HR1 ->]. auto.
  Qed.

  Lemma step_ok cap (l : list A) rest k op :
    length l + length rest = cap -> valid_op l op -> m = Trivial \/ tail_range l op ->
    post cap rest k (no_inner_erase l op) (sv_step m moved dflt (mk l rest k) op)
      (spec_step cap l op).
  Proof.
    intros Hc Hv Hm.
    assert (weaken : forall r l' (P : Prop),
              post cap rest k True r l' -> post cap rest k P r l').
    { intros r l' P (r1 & k1 & E & L & C). exists r1, k1. auto. }
    destruct op; cbn [sv_step spec_step no_inner_erase valid_op tail_range] in *.
    - apply weaken. apply pushBack_ok; auto.
    - apply weaken. rewrite pushBack_move_eq. apply pushBack_ok; auto.
    - apply weaken. rewrite emplaceBack_eq. apply pushBack_ok; auto.
    - apply weaken. apply popBack_ok; auto.
    - apply weaken. apply insert_ok; auto.
    - apply weaken. rewrite insert_move_eq. apply insert_ok; auto.
    - apply weaken. apply insert_range_ok; auto.
    - apply weaken. rewrite emplace_eq by auto. apply insert_ok; auto.
    - apply erase_ok; auto.
    - apply erase_range_ok; tauto.
    - apply weaken. apply clean_ok; auto.
    - apply weaken. apply reset_ok; auto.
    - apply weaken. apply assign_ok; auto.
    - apply weaken. apply push_all_ok; auto.
  Qed.

  Lemma run_ok cap ops : forall (l : list A) rest k,
    length l + length rest = cap -> valid cap l ops ->
    m = Trivial \/ along tail_range cap l ops ->
    post cap rest k (along no_inner_erase cap l ops) (sv_run m moved dflt (mk l rest k) ops)
      (fold_left (spec_step cap) ops l).
  Proof.
    induction ops as [|op ops IH]; intros l rest k Hc Hv Hm; cbn [sv_run fold_left along].
    - apply post_same; auto.
    - destruct Hv as [Hv1 Hv2].
      destruct (step_ok cap l rest k op Hc Hv1) as (r1 & k1 & E1 & L1 & C1).
      { destruct Hm as [?|[? ?]]; auto. }
      rewrite E1. cbn [bind].
      destruct (IH _ r1 k1 L1 Hv2) as (r2 & k2 & E2 & L2 & C2).
      { destruct Hm as [?|[? ?]]; auto. }
      exists r2, k2. split; auto. split; auto.
      intros Em [P1 P2] HR. destruct (C1 Em P1 HR) as [HR1 ->]. auto.
  Qed.

  Lemma elements_ok (l : list A) rest k : sv_elements (mk l rest k) = Ok l.
  Proof.
    unfold sv_elements. cbn [sv_tail sv_store].
    apply (load_range_ok l []); auto.
  Qed.

  Lemma destructor_ok (l : list A) rest k :
    sv_destructor m (mk l rest k) = Ok (St (map (dead m) (map Some l) ++ rest) k).
  Proof.
    unfold sv_destructor. cbn [sv_tail sv_store].
    apply (destroy_range_ok m (map Some l) [] rest); auto.
    - rewrite map_length; auto.
    - apply usable_some.
  Qed.
End Proofs.

Section RangeErase.
  Context {A : Type}.
  Variable moved : A -> A.

  Lemma erase_range_UB (l : list A) rest k b e : b < e -> e < length l ->
    sv_erase_range Tracked moved (SVec (St (map (@Some A) l ++ rest) k) (length l)) b e = UB.
  Proof.
    intros Hb He.
    unfold sv_erase_range, sv_size. cbn [sv_tail sv_store].
    destruct (Nat.eqb_spec e (b + length l)); [lia|].
    destruct (Nat.ltb_spec (e - b) (length l)) as [H1|H1]; [|lia].
    destruct (Nat.ltb_spec b e) as [H2|H2]; [|lia]. cbn [andb].
    assert (Em : map Some l ++ rest
                = map Some (firstn b l) ++ map Some (skipn b (firstn e l))
                  ++ map Some (skipn e l) ++ rest).
    { rewrite !app_assoc. f_equal. rewrite <- !map_app. f_equal.
      rewrite <- (firstn_skipn e l) at 1. f_equal.
      rewrite <- (firstn_skipn b (firstn e l)) at 1. f_equal.
      rewrite firstn_firstn. f_equal. lia. }
    rewrite Em. rewrite destroy_range_ok; [| | |apply usable_some].
    2:{ rewrite map_length, skipn_length, firstn_length. lia. }
    2:{ rewrite map_length, firstn_length. lia. }
    cbn [bind]. rewrite dead_tracked by auto.
    replace (length l - e) with (S (length l - e - 1)) by lia. cbn [shift_left].
    assert (forall s y, nth_error (st_cells s) b = Some None ->
              st_move Tracked moved s b y = UB) as HUB.
    { intros s y Hn. unfold st_move. unfold st_load.
      destruct (nth_error (st_cells s) y) as [[?|]|]; auto. cbn [bind].
      unfold st_assign. rewrite Hn. reflexivity. }
    rewrite HUB; auto. cbn [st_cells].
    assert (length (map (@Some A) (firstn b l)) = b) as Lb
      by (rewrite map_length, firstn_length; lia).
    assert (length (map (@Some A) (skipn b (firstn e l))) = e - b) as Le
      by (rewrite map_length, skipn_length, firstn_length; lia).
    rewrite nth_error_app2 by lia. rewrite Lb, Le.
    rewrite nth_error_app1 by (rewrite repeat_length; lia).
    rewrite nth_error_repeat_lt.
    match goal with |- context [if ?b then _ else _] => replace b with true end; auto.
    symmetry. apply Nat.ltb_lt. lia.
  Qed.
End RangeErase.
