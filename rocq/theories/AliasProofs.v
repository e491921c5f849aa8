(** Lemmas for C217: vectors and circular arrays. *)
From Coq Require Import List Arith Bool Lia.
From Verif Require Import Base BaseLemmas Store StoreLemmas StaticVectorModel StaticVectorSpec
  StaticVectorProofs VectorModel VectorSpec VectorProofs CircularArrayModel AliasModel AliasSpec.
From Verif Require CircularArrayProofs.
Import ListNotations.

Section Lists.
  Context {A : Type}.

  Lemma part_length b e (l : list A) : b <= e -> e <= length l -> length (part b e l) = e - b.
  Proof. intros. unfold part. rewrite firstn_length, skipn_length. lia. Qed.

  Lemma skipn_nth : forall b (l : list A) x, nth_error l b = Some x ->
    skipn b l = x :: skipn (S b) l.
  Proof.
    induction b as [|b IH]; intros [|y l] x H; try discriminate.
    - injection H as ->. reflexivity.
    - cbn [skipn]. apply IH. exact H.
  Qed.

  Lemma part_succ b e (l : list A) x : b < e -> nth_error l b = Some x ->
    part b e l = x :: part (S b) e l.
  Proof.
    intros H Hx. unfold part. replace (e - b) with (S (e - S b)) by lia.
    rewrite (skipn_nth _ _ _ Hx). reflexivity.
  Qed.

  Lemma part_app b e (l l' : list A) : e <= length l -> part b e (l ++ l') = part b e l.
  Proof.
    intros H. unfold part. rewrite skipn_app, firstn_app, skipn_length.
    destruct (Nat.le_gt_cases b (length l)).
    - replace (e - b - (length l - b)) with 0 by lia. rewrite firstn_O, app_nil_r. reflexivity.
    - replace (e - b) with 0 by lia. reflexivity.
  Qed.

  Lemma part_firstn b e it (l : list A) : e <= it -> it <= length l ->
    part b e (firstn it l) = part b e l.
  Proof.
    intros H1 H2. rewrite <- (firstn_skipn it l) at 2. symmetry. apply part_app.
    rewrite firstn_length. lia.
  Qed.
End Lists.

Section Vectors.
  Context {A : Type}.
  Variable m : mode.
  Variable moved : A -> A.
  Variable dflt : A.

  Notation mk l rest k := (SVec (St (map (@Some A) l ++ rest) k) (length l)).

  Lemma sv_reached_rep cap v l : sv_reached m moved dflt cap v l ->
    exists rest k, v = mk l rest k /\ length l + length rest = cap.
  Proof.
    intros (ops & Hv & Hm & E & ->). unfold sv_new in E.
    destruct (run_ok m moved dflt cap ops [] (raw A cap) 0) as (r & k & E' & L & _); auto.
    { unfold raw. rewrite repeat_length. reflexivity. }
    cbn [map app length] in E'. rewrite E in E'. injection E' as ->.
    exists r, k. split; [reflexivity|exact L].
  Qed.

  Lemma load_own (l : list A) rest k j x : nth_error l j = Some x ->
    st_load (St (map Some l ++ rest) k) j = Ok x.
  Proof.
    intros H. unfold st_load. cbn [st_cells].
    rewrite nth_error_app1 by (rewrite map_length; apply nth_error_Some; congruence).
    rewrite (map_nth_error _ _ _ H). reflexivity.
  Qed.

  Lemma push_own_arg (l : list A) rest k j x : nth_error l j = Some x ->
    sv_pushBack_arg m (mk l rest k) (Own j) = sv_pushBack m (mk l rest k) x.
  Proof.
    intros H. unfold sv_pushBack, sv_pushBack_arg. destruct (_ <? _); auto.
    cbn [arg_value sv_store]. rewrite (load_own _ _ _ _ _ H). reflexivity.
  Qed.

  (** pushBack keeps the elements, so the range can be read along the way. *)
  Lemma push_own_all : forall n src (l : list A) rest k, src + n <= length l ->
    sv_push_own m n src (mk l rest k) = sv_push_all m (mk l rest k) (part src (src + n) l).
  Proof.
    induction n as [|n IH]; intros src l rest k H; cbn [sv_push_own].
    - unfold part. rewrite Nat.add_0_r, Nat.sub_diag. reflexivity.
    - destruct (nth_error l src) as [x|] eqn:Ex.
      2:{ apply nth_error_None in Ex. lia. }
      rewrite (push_own_arg _ _ _ _ _ Ex).
      rewrite (part_succ src (src + S n) l x) by (auto; lia). cbn [sv_push_all].
      destruct (pushBack_ok m (length l + length rest) l rest k x eq_refl) as (r1 & k1 & E1 & L1 & _).
      rewrite E1. cbn [bind].
      replace (src + S n) with (S src + n) by lia.
      unfold bounded in *. destruct (_ <=? _).
      + rewrite IH by (rewrite app_length; cbn; lia). rewrite part_app by lia. reflexivity.
      + apply IH. lia.
  Qed.

  (** Copying, first cell first, when no cell is written before it is read. *)
  Lemma assign_own_list : forall n src dst (xs : list A) (c : list (option A)) k,
    length xs = n -> (src + n <= dst \/ dst <= src) ->
    (forall i x, nth_error xs i = Some x -> nth_error c (src + i) = Some (Some x)) ->
    (forall i, i < n -> exists y, nth_error c (dst + i) = Some y /\ usable m y) ->
    assign_own m n src dst (St c k) = assign_list m xs dst (St c k).
  Proof.
    induction n as [|n IH]; intros src dst xs c k L D Hs Hd; destruct xs as [|x xs]; try discriminate;
      cbn [assign_own assign_list]; auto.
    assert (E : st_load (St c k) src = Ok x).
    { unfold st_load. cbn [st_cells]. pose proof (Hs 0 x eq_refl) as H. rewrite Nat.add_0_r in H.
      rewrite H. reflexivity. }
    rewrite E. cbn [bind].
    destruct (Hd 0) as (y & Hy & Uy); [lia|]. rewrite Nat.add_0_r in Hy.
    unfold st_assign. cbn [st_cells st_leaks]. rewrite Hy.
    assert (G : match m, y with
                | Tracked, None => UB
                | _, _ => Ok (St (upd c dst (Some x)) k)
                end = Ok (St (upd c dst (Some x)) k)).
    { destruct Uy as [U|U]; [rewrite U; reflexivity|destruct m; auto; destruct y; [reflexivity|discriminate]]. }
    rewrite G. cbn [bind]. injection L as L.
    apply IH; auto; [lia| |].
    - intros i z Hz. assert (i < n) by (rewrite <- L; apply nth_error_Some; congruence).
      rewrite nth_error_upd_neq by lia. rewrite <- (Hs (S i) z Hz). f_equal. lia.
    - intros i Hi. destruct (Hd (S i)) as (w & Hw & Uw); [lia|]. exists w.
      rewrite nth_error_upd_neq by lia. rewrite <- Hw. split; [f_equal; lia|exact Uw].
  Qed.

  (** Copying a part onto itself. *)
  Lemma assign_own_same : forall n p (c : list (option A)) k,
    (forall i, i < n -> exists x, nth_error c (p + i) = Some (Some x)) ->
    assign_own m n p p (St c k) = Ok (St c k).
  Proof.
    induction n as [|n IH]; intros p c k H; cbn [assign_own]; auto.
    destruct (H 0) as (x & Hx); [lia|]. rewrite Nat.add_0_r in Hx.
    unfold st_load. cbn [st_cells]. rewrite Hx. cbn [bind].
    unfold st_assign at 1. cbn [st_cells st_leaks]. rewrite Hx.
    replace (upd c p (Some x)) with c.
    2:{ apply list_ext. intros i. destruct (Nat.eq_dec i p) as [->|Hn].
        - rewrite nth_error_upd_eq; [exact Hx|]. apply nth_error_Some. congruence.
        - rewrite nth_error_upd_neq by auto. reflexivity. }
    destruct m; cbn [bind]; apply IH; intros i Hi; destruct (H (S i)) as (y & Hy);
      try lia; exists y; rewrite <- Hy; f_equal; lia.
  Qed.

  Lemma usable_live (y : option A) : live y = true -> usable m y.
  Proof. intros H. right. exact H. Qed.

  Lemma assign_usable c k p (y : option A) x : nth_error c p = Some y -> usable m y ->
    st_assign m (St c k) p x = Ok (St (upd c p (Some x)) k).
  Proof.
    intros Hy U. unfold st_assign. cbn [st_cells st_leaks]. rewrite Hy.
    destruct U as [U|U]; [rewrite U; reflexivity|].
    destruct m; auto. destruct y; [reflexivity|discriminate].
  Qed.

  (** What the loop that makes room leaves in every cell. *)
  Lemma shift_right_cells : forall n lo d (mid : list A) c k, length mid = n -> 0 < d ->
    (forall i x, nth_error mid i = Some x -> nth_error c (lo + i) = Some (Some x)) ->
    (forall i, i < d -> exists y, nth_error c (lo + n + i) = Some y /\ usable m y) ->
    exists c', shift_right m moved n lo d (St c k) = Ok (St c' k)
      /\ (forall i x, nth_error mid i = Some x -> nth_error c' (lo + d + i) = Some (Some x))
      /\ (forall i x, i < d -> nth_error mid i = Some x ->
            nth_error c' (lo + i) = Some (Some (moved x)))
      /\ (forall p, p < lo \/ lo + n + d <= p \/ lo + n <= p < lo + d ->
            nth_error c' p = nth_error c p).
  Proof.
    induction n as [|n IH]; intros lo d mid c k L Hd Hm Hg; cbn [shift_right].
    - exists c. destruct mid; [|discriminate]. split; [reflexivity|].
      split; [intros [|i] x H; discriminate|]. split; [intros [|i] x _ H; discriminate|]. auto.
    - destruct (exists_last (l := mid)) as (mid0 & x & ->); [intros ->; discriminate|].
      rewrite app_length in L. cbn in L. assert (L0 : length mid0 = n) by lia. clear L.
      assert (Hx : nth_error c (lo + n) = Some (Some x)).
      { apply Hm. rewrite nth_error_app2, L0, Nat.sub_diag by lia. reflexivity. }
      unfold st_move at 1, st_load at 1. cbn [st_cells]. rewrite Hx. cbn [bind].
      destruct (Hg (d - 1)) as (y & Hy & Uy); [lia|].
      replace (lo + S n + (d - 1)) with (lo + n + d) in Hy by lia.
      rewrite (assign_usable _ _ _ _ _ Hy Uy). cbn [bind].
      assert (Lt : lo + n < length c) by (apply nth_error_Some; congruence).
      assert (Lt2 : lo + n + d < length c) by (apply nth_error_Some; congruence).
      rewrite (assign_usable _ _ _ (Some x)); [|rewrite nth_error_upd_neq by lia; exact Hx|right; reflexivity].
      cbn [bind].
      set (c1 := upd (upd c (lo + n + d) (Some x)) (lo + n) (Some (moved x))).
      assert (C1 : nth_error c1 (lo + n) = Some (Some (moved x))).
      { unfold c1. apply nth_error_upd_eq. rewrite upd_length. exact Lt. }
      assert (C2 : nth_error c1 (lo + n + d) = Some (Some x)).
      { unfold c1. rewrite nth_error_upd_neq by lia. apply nth_error_upd_eq. exact Lt2. }
      assert (C3 : forall p, p <> lo + n -> p <> lo + n + d -> nth_error c1 p = nth_error c p).
      { intros p H1 H2. unfold c1. rewrite !nth_error_upd_neq by lia. reflexivity. }
      destruct (IH lo d mid0 c1 k L0 Hd) as (c' & E & Q1 & Q2 & Q3).
      { intros i z Hz. assert (i < n) by (rewrite <- L0; apply nth_error_Some; congruence).
        rewrite C3 by lia. apply Hm. rewrite nth_error_app1 by lia. exact Hz. }
      { intros i Hi. destruct i as [|i].
        - exists (Some (moved x)). rewrite Nat.add_0_r. split; [exact C1|right; reflexivity].
        - destruct (Hg i) as (z & Hz & Uz); [lia|]. exists z.
          rewrite C3 by lia. rewrite <- Hz. split; [f_equal; lia|exact Uz]. }
      exists c'. split; [exact E|]. split; [|split].
      + intros i z Hz. destruct (Nat.lt_ge_cases i n) as [Hi|Hi].
        * apply Q1. rewrite nth_error_app1 in Hz by lia. exact Hz.
        * assert (Li : i < length (mid0 ++ [x])) by (apply nth_error_Some; congruence).
          rewrite app_length in Li. cbn in Li. assert (i = n) by lia. subst i.
          rewrite nth_error_app2, L0, Nat.sub_diag in Hz by lia. injection Hz as <-.
          replace (lo + d + n) with (lo + n + d) by lia. rewrite Q3 by lia. exact C2.
      + intros i z Hi Hz. destruct (Nat.lt_ge_cases i n) as [Hin|Hin].
        * apply (Q2 i z Hi). rewrite nth_error_app1 in Hz by lia. exact Hz.
        * assert (Li : i < length (mid0 ++ [x])) by (apply nth_error_Some; congruence).
          rewrite app_length in Li. cbn in Li. assert (i = n) by lia. subst i.
          rewrite nth_error_app2, L0, Nat.sub_diag in Hz by lia. injection Hz as <-.
          rewrite Q3 by lia. exact C1.
      + intros p Hp. rewrite Q3 by lia. apply C3; lia.
  Qed.

  (** The first half of an insertion in the middle. *)
  Lemma open_gap cap (l : list A) rest k it n : length l + length rest = cap ->
    it < length l -> 0 < n -> n + length l <= cap ->
    exists gap r' k',
      (let! s := construct_dflt m dflt n (length l) (St (map Some l ++ rest) k) in
       shift_right m moved (length l - it) it n s)
      = Ok (St (map Some (firstn it l) ++ gap ++ map Some (skipn it l) ++ r') k')
      /\ length gap = n /\ Forall (fun c => live c = true) gap
      /\ length l + n + length r' = cap
      /\ (it + n <= length l ->
            gap = map (fun x => Some (moved x)) (part it (it + n) l)).
  Proof.
    intros Hc Hi Hn Hf.
    destruct (split_at rest n) as (g & r' & -> & Lg); [lia|].
    rewrite (construct_dflt_ok m dflt g (map Some l) r' k n (length l)); auto;
      [|rewrite map_length; reflexivity].
    cbn [bind]. rewrite app_length in Hc.
    assert (Lr : length (repeat (Some dflt) n) = n) by apply repeat_length.
    set (kk := leaks_of m g + k).
    destruct (shift_right_ok m moved (map Some (firstn it l)) (skipn it l) (repeat (Some dflt) n) r' kk
                (length l - it) it) as (gap & G1 & G2 & G3 & G4).
    { rewrite skipn_length. reflexivity. }
    { rewrite map_length, firstn_length. lia. }
    { destruct n; [lia|discriminate]. }
    { apply usable_repeat. }
    rewrite Lr in *. rewrite app_assoc, <- map_app, firstn_skipn in G4.
    exists gap, r', kk. split; [exact G4|]. split; [exact G1|]. split.
    { apply G3. clear. induction n; constructor; auto. }
    split; [lia|]. intros Hle.
    destruct (shift_right_cells (length l - it) it n (skipn it l)
                (map Some l ++ repeat (Some dflt) n ++ r') kk) as (c' & E & Q1 & Q2 & Q3).
    { apply skipn_length. }
    { exact Hn. }
    { intros i x Hx. rewrite nth_error_app1.
      - apply map_nth_error. rewrite <- (firstn_skipn it l), nth_error_app2; rewrite firstn_length.
        + rewrite <- Hx. f_equal. lia.
        + lia.
      - rewrite map_length. assert (i < length (skipn it l)) by (apply nth_error_Some; congruence).
        rewrite skipn_length in *. lia. }
    { intros i Hin. exists (Some dflt). split; [|right; reflexivity].
      rewrite nth_error_app2; rewrite map_length; [|lia].
      rewrite nth_error_app1 by lia. rewrite nth_error_repeat; [reflexivity|lia]. }
    rewrite G4 in E. injection E as E. subst c'.
    apply list_ext. intros i.
    destruct (Nat.lt_ge_cases i n) as [Hin|Hin].
    - destruct (nth_error (skipn it l) i) as [x|] eqn:Ex.
      2:{ apply nth_error_None in Ex. rewrite skipn_length in Ex. lia. }
      pose proof (Q2 i x Hin Ex) as Q.
      rewrite nth_error_app2 in Q by (rewrite map_length, firstn_length; lia).
      rewrite map_length, firstn_length in Q. rewrite nth_error_app1 in Q by lia.
      replace (it + i - Nat.min it (length l)) with i in Q by lia. rewrite Q. symmetry.
      apply (map_nth_error (fun x => Some (moved x))). unfold part.
      replace (it + n - it) with n by lia.
      rewrite <- Ex. rewrite <- (firstn_skipn n (skipn it l)) at 2.
      rewrite nth_error_app1; [reflexivity|]. rewrite firstn_length, skipn_length. lia.
    - rewrite (proj2 (nth_error_None gap i)) by lia. symmetry. apply nth_error_None.
      rewrite map_length, part_length; lia.
  Qed.

  (** What the second half of the insertion finds in the cells of the range. *)
  Definition found (it b e : nat) (l xs : list A) : Prop :=
    ((it = length l \/ e <= it) /\ xs = part b e l)
    \/ (it < length l /\ it + (e - b) <= b /\ xs = part (b - (e - b)) b l)
    \/ (it < length l /\ b = it /\ xs = map moved (part b e l)).

  Lemma nth_part b e i x (l : list A) : nth_error (part b e l) i = Some x ->
    nth_error l (b + i) = Some x.
  Proof.
    unfold part. intros H.
    assert (Hi : i < length (firstn (e - b) (skipn b l))) by (apply nth_error_Some; congruence).
    assert (Hs : nth_error (skipn b l) i = Some x).
    { rewrite <- (firstn_skipn (e - b) (skipn b l)), nth_error_app1 by exact Hi. exact H. }
    assert (Hb : b <= length l).
    { destruct (Nat.le_gt_cases b (length l)); auto.
      rewrite skipn_all2 in Hs by lia. destruct i; discriminate. }
    rewrite <- (firstn_skipn b l), nth_error_app2; rewrite firstn_length; [|lia].
    rewrite <- Hs. f_equal. lia.
  Qed.

  Lemma nth_low it i (l : list A) x : nth_error l i = Some x -> i < it -> it <= length l ->
    nth_error (firstn it l) i = Some x.
  Proof.
    intros H Hi Hl. rewrite <- (firstn_skipn it l), nth_error_app1 in H; auto.
    rewrite firstn_length. lia.
  Qed.

  Lemma nth_high it i (l : list A) x : nth_error l i = Some x -> it <= i ->
    nth_error (skipn it l) (i - it) = Some x.
  Proof.
    intros H Hi.
    assert (i < length l) by (apply nth_error_Some; congruence).
    rewrite <- (firstn_skipn it l), nth_error_app2 in H; rewrite firstn_length in *; [|lia].
    rewrite <- H. f_equal. lia.
  Qed.

  Lemma insert_own_ok cap (l : list A) rest k it b e xs : length l + length rest = cap ->
    it <= length l -> b <= e -> e <= length l -> found it b e l xs ->
    exists rest' k',
      sv_insert_own m moved dflt (mk l rest k) it b e
      = Ok (mk (bounded cap l (insert_at it xs l)) rest' k')
      /\ length (bounded cap l (insert_at it xs l)) + length rest' = cap.
  Proof.
    intros Hc Hi Hb He Hx. unfold sv_insert_own. cbn [sv_tail sv_store].
    unfold sv_size, sv_capacity. cbn [sv_tail sv_store st_cells]. rewrite app_length, map_length.
    assert (Lx : length xs = e - b).
    { destruct Hx as [(_ & ->)|[(H1 & H2 & ->)|(_ & _ & ->)]].
      - apply part_length; auto.
      - rewrite part_length; lia.
      - rewrite map_length. apply part_length; auto. }
    assert (Hlen : length (insert_at it xs l) = length l + length xs)
      by (apply insert_at_length; auto).
    unfold bounded. rewrite Hlen.
    destruct (Nat.eqb_spec (e - b) 0) as [E0|E0].
    { destruct xs as [|x xs]; [|cbn in Lx; lia].
      assert (E : insert_at it [] l = l) by (unfold insert_at; cbn; apply firstn_skipn).
      rewrite E. destruct (_ <=? _); exists rest, k; auto. }
    destruct (Nat.leb_spec (e - b + length l) (length l + length rest)) as [H|H].
    2:{ destruct (Nat.leb_spec (length l + length xs) cap); [lia|]. exists rest, k. auto. }
    destruct (Nat.leb_spec (length l + length xs) cap); [|lia].
    destruct (Nat.eqb_spec it (length l)) as [->|Hne].
    - assert (Ex : xs = part b e l).
      { destruct Hx as [(_ & Q)|[(H1 & _)|(H1 & _)]]; [exact Q|lia|lia]. }
      rewrite push_own_all by lia. replace (b + (e - b)) with e by lia. rewrite <- Ex.
      destruct (push_all_fit m cap xs l rest k Hc) as (r & k' & E & L & _); [lia|].
      rewrite E. unfold insert_at. rewrite firstn_all, skipn_all, app_nil_r. exists r, k'. auto.
    - destruct (open_gap cap l rest k it (e - b) Hc) as (gap & r' & k' & E & Lg & Vg & Lr & Mg);
        try lia.
      change (let! s := construct_dflt m dflt (e - b) (length l) (St (map Some l ++ rest) k) in
              let! s0 := shift_right m moved (length l - it) it (e - b) s in
              let! s1 := assign_own m (e - b) b it s0 in Ok (SVec s1 (length l + (e - b))))
        with (let! s := construct_dflt m dflt (e - b) (length l) (St (map Some l ++ rest) k) in
              let! s0 := shift_right m moved (length l - it) it (e - b) s in
              (fun s0 => let! s1 := assign_own m (e - b) b it s0 in
                         Ok (SVec s1 (length l + (e - b)))) s0).
      destruct (construct_dflt m dflt (e - b) (length l) (St (map Some l ++ rest) k)) as [s1| |];
        cbn [bind] in E |- *; try discriminate.
      rewrite E. cbn [bind].
      assert (Lf : length (map (@Some A) (firstn it l)) = it)
        by (rewrite map_length, firstn_length; lia).
      assert (Go : forall r, assign_list m xs it
                     (St (map Some (firstn it l) ++ gap ++ map Some (skipn it l) ++ r') k') = r ->
                   exists rest'0 k'0,
                     (let! s2 := r in Ok (SVec s2 (length l + (e - b))))
                     = Ok (SVec (St (map Some (insert_at it xs l) ++ rest'0) k'0)
                                (length l + length xs))
                     /\ length l + length xs + length rest'0 = cap).
      { intros r <-. rewrite assign_list_ok; auto; [|lia|].
        2:{ apply Forall_forall. intros y Hy. right.
            exact (proj1 (Forall_forall _ _) Vg y Hy). }
        cbn [bind]. exists r', k'. split; [|lia]. f_equal. f_equal.
        - f_equal. unfold insert_at. rewrite !map_app, <- !app_assoc. reflexivity.
        - lia. }
      destruct Hx as [(Hx & ->)|[(_ & Hx & ->)|(_ & -> & ->)]].
      + destruct Hx as [|Hx]; [lia|].
        rewrite assign_own_list with (xs := part b e l); auto.
        * rewrite Hlen. apply Go. reflexivity.
        * left. lia.
        * intros i x Ex.
          assert (i < e - b) by (rewrite <- Lx; apply nth_error_Some; congruence).
          rewrite nth_error_app1 by lia. apply map_nth_error.
          apply nth_low; [apply (nth_part _ _ _ _ _ Ex)|lia|lia].
        * intros i Hin. destruct (nth_error gap i) as [y|] eqn:Ey.
          2:{ apply nth_error_None in Ey. lia. }
          exists y. rewrite nth_error_app2 by lia. rewrite nth_error_app1 by lia.
          replace (it + i - length (map Some (firstn it l))) with i by lia. split; [exact Ey|].
          right. apply nth_error_In in Ey. exact (proj1 (Forall_forall _ _) Vg y Ey).
      + rewrite assign_own_list with (xs := part (b - (e - b)) b l); auto.
        * rewrite Hlen. apply Go. reflexivity.
        * right. lia.
        * intros i x Ex.
          assert (i < e - b) by (rewrite <- Lx; apply nth_error_Some; congruence).
          apply nth_part in Ex.
          rewrite nth_error_app2 by lia. rewrite nth_error_app2 by lia.
          rewrite nth_error_app1.
          -- apply map_nth_error. apply (nth_high it) in Ex; [|lia]. rewrite <- Ex. f_equal. lia.
          -- rewrite Lf, Lg, map_length, skipn_length. lia.
        * intros i Hin. destruct (nth_error gap i) as [y|] eqn:Ey.
          2:{ apply nth_error_None in Ey. lia. }
          exists y. rewrite nth_error_app2 by lia. rewrite nth_error_app1 by lia.
          replace (it + i - length (map Some (firstn it l))) with i by lia. split; [exact Ey|].
          right. apply nth_error_In in Ey. exact (proj1 (Forall_forall _ _) Vg y Ey).
      + replace (it + (e - it)) with e in Mg by lia. rewrite Mg by lia.
        rewrite assign_own_same.
        * cbn [bind]. rewrite Hlen, map_length, part_length by lia.
          exists r', k'. split; [|lia]. f_equal. f_equal.
          f_equal. unfold insert_at. rewrite !map_app, map_map, <- !app_assoc. reflexivity.
        * intros i Hin.
          destruct (nth_error (part it e l) i) as [x|] eqn:Ex.
          2:{ apply nth_error_None in Ex. rewrite part_length in Ex; lia. }
          exists (moved x). rewrite nth_error_app2 by lia.
          replace (it + i - length (map Some (firstn it l))) with i by lia.
          rewrite nth_error_app1 by (rewrite map_length, part_length; lia).
          apply (map_nth_error (fun x => Some (moved x)) _ _ Ex).
  Qed.

  (** One element is a range of one. *)
  Lemma insert_arg_own (v : svec A) it j :
    sv_insert_arg m moved dflt v it (Own j) = sv_insert_own m moved dflt v it j (S j).
  Proof.
    unfold sv_insert_arg, sv_insert_own. replace (S j - j) with 1 by lia. cbn [Nat.eqb].
    change (1 + sv_size v <=? sv_capacity v) with (sv_size v <? sv_capacity v).
    destruct (_ <? _); auto. destruct (_ =? _).
    - cbn [sv_push_own]. destruct (sv_pushBack_arg m v (Own j)); reflexivity.
    - cbn [construct_dflt].
      destruct (st_construct m (sv_store v) (sv_tail v) dflt) as [s1| |]; cbn [bind]; auto.
      destruct (shift_right m moved (sv_tail v - it) it 1 s1) as [s2| |]; cbn [bind]; auto.
      cbn [assign_own arg_value sv_store]. destruct (st_load s2 j) as [x| |]; cbn [bind]; auto.
      destruct (st_assign m s2 it x) as [s3| |]; cbn [bind]; auto.
      rewrite Nat.add_1_r. reflexivity.
  Qed.

  Lemma found_one it j (l : list A) y : j < length l -> j <> it -> found it j (S j) l [y] ->
    (it = length l \/ j < it /\ nth_error l j = Some y)
    \/ (it < j /\ nth_error l (j - 1) = Some y).
  Proof.
    intros Hj Hn. unfold found, part. replace (S j - j) with 1 by lia. intros [([H|H] & E)|[(H1 & H2 & E)|(_ & H & _)]]; [auto| | |lia].
    - left. right. split; [lia|].
      destruct (nth_error l j) as [x|] eqn:Ex; [|apply nth_error_None in Ex; lia].
      rewrite (skipn_nth _ _ _ Ex) in E. cbn in E. congruence.
    - right. split; [lia|]. replace (j - (j - 1)) with 1 in E by lia.
      destruct (nth_error l (j - 1)) as [x|] eqn:Ex; [|apply nth_error_None in Ex; lia].
      rewrite (skipn_nth _ _ _ Ex) in E. cbn in E. congruence.
  Qed.

  Lemma emplace_own_ok cap (l : list A) rest k it j y : length l + length rest = cap ->
    it <= length l -> j < length l -> j <> it -> found it j (S j) l [y] ->
    exists rest' k',
      sv_emplace_own m moved dflt (mk l rest k) it j
      = Ok (mk (bounded cap l (insert_at it [y] l)) rest' k')
      /\ length (bounded cap l (insert_at it [y] l)) + length rest' = cap.
  Proof.
    intros Hc Hi Hj Hn Hy.
    destruct (insert_own_ok cap l rest k it j (S j) [y]) as (r0 & k0 & E0 & L0); try lia; auto.
    unfold sv_emplace_own. cbn [sv_tail sv_store].
    unfold sv_size, sv_capacity. cbn [sv_tail sv_store st_cells]. rewrite app_length, map_length.
    destruct (Nat.ltb_spec (length l) (length l + length rest)) as [H|H].
    2:{ exists rest, k. unfold bounded. rewrite insert_at_length by auto. cbn [length].
        destruct (Nat.leb_spec (length l + 1) cap); [lia|]. auto. }
    destruct (Nat.eqb_spec it (length l)) as [->|Hne].
    - unfold sv_insert_own in E0. unfold sv_size, sv_capacity in E0.
      cbn [sv_tail sv_store st_cells] in E0.
      rewrite app_length, map_length in E0. replace (S j - j) with 1 in E0 by lia.
      cbn [Nat.eqb] in E0. rewrite Nat.eqb_refl in E0.
      destruct (Nat.leb_spec (1 + length l) (length l + length rest)); [|lia].
      cbn [sv_push_own] in E0. exists r0, k0. split; auto.
      destruct (sv_pushBack_arg m (mk l rest k) (Own j)); cbn [bind] in E0; try discriminate; auto.
    - apply found_one in Hy; auto.
      destruct (open_gap cap l rest k it 1 Hc) as (gap & r' & k' & E & Lg & Vg & Lr & _); try lia.
      cbn [construct_dflt] in E.
      destruct (st_construct m (St (map Some l ++ rest) k) (length l) dflt) as [s1| |];
        cbn [bind] in E |- *; try discriminate.
      rewrite E. cbn [bind].
      destruct gap as [|g [|? ?]]; try discriminate Lg. cbn [app].
      assert (Lf : it = length (map (@Some A) (firstn it l)))
        by (rewrite map_length, firstn_length; lia).
      inversion Vg as [|? ? Vg' _]; subst.
      rewrite (st_destroy_mid m _ g); [|exact Lf|apply usable_live; exact Vg']. cbn [bind].
      assert (Ld : st_load (St (map Some (firstn it l) ++ dead m g :: map Some (skipn it l) ++ r') k') j
                   = Ok y).
      { unfold st_load. cbn [st_cells].
        destruct Hy as [[?|(Hlt & Hy)]|(Hlt & Hy)]; [lia| |].
        - rewrite nth_error_app1 by lia.
          rewrite (map_nth_error _ _ _ (nth_low it j l y Hy Hlt Hi)). reflexivity.
        - rewrite nth_error_app2 by lia. rewrite <- Lf.
          replace (j - it) with (S (j - 1 - it)) by lia. cbn [nth_error].
          rewrite nth_error_app1 by (rewrite map_length, skipn_length; lia).
          rewrite (map_nth_error _ _ _ (nth_high it (j - 1) l y Hy ltac:(lia))). reflexivity. }
      rewrite Ld. cbn [bind].
      rewrite st_construct_mid by exact Lf. cbn [bind]. unfold bounded. rewrite insert_at_length by auto. cbn [length].
      destruct (Nat.leb_spec (length l + 1) (length l + length rest)); [|lia].
      eexists r', _. split.
      + rewrite insert_at_length by auto. cbn [length]. f_equal. f_equal; [|lia]. f_equal.
        unfold insert_at. rewrite !map_app, <- !app_assoc. reflexivity.
      + rewrite insert_at_length by auto. cbn [length]. lia.
  Qed.

  Lemma emplace_own_bad cap (l : list A) rest k it : length l + length rest = cap ->
    it < length l -> length l < cap -> m = Tracked ->
    sv_emplace_own m moved dflt (mk l rest k) it it = UB.
  Proof.
    intros Hc Hi Hl Hm. unfold sv_emplace_own. cbn [sv_tail sv_store].
    unfold sv_size, sv_capacity. cbn [sv_tail sv_store st_cells]. rewrite app_length, map_length.
    destruct (Nat.ltb_spec (length l) (length l + length rest)) as [H|H]; [|lia].
    destruct (Nat.eqb_spec it (length l)) as [->|Hne]; [lia|].
    destruct (open_gap cap l rest k it 1 Hc) as (gap & r' & k' & E & Lg & Vg & Lr & _); try lia.
    cbn [construct_dflt] in E.
    destruct (st_construct m (St (map Some l ++ rest) k) (length l) dflt) as [s1| |];
      cbn [bind] in E |- *; try discriminate.
    rewrite E. cbn [bind].
    destruct gap as [|g [|? ?]]; try discriminate Lg. cbn [app].
    assert (Lf : it = length (map (@Some A) (firstn it l)))
      by (rewrite map_length, firstn_length; lia).
    inversion Vg as [|? ? Vg' _]; subst.
    rewrite (st_destroy_mid Tracked _ g); [|exact Lf|right; exact Vg']. cbn [bind].
    unfold st_load. cbn [st_cells dead]. rewrite nth_error_app2 by lia.
    rewrite <- Lf, Nat.sub_diag. reflexivity.
  Qed.
End Vectors.

Section Growing.
  Context {A : Type}.
  Variable m : mode.
  Variable moved : A -> A.
  Variable dflt : A.
  Variable mem : memory.

  Notation mk l rest k := (SVec (St (map (@Some A) l ++ rest) k) (length l)).

  Lemma vec_reached_rep (v : vec A) l : vec_reached m moved dflt mem v l ->
    mem <> NoMemory /\ exists rest k c, v = Vec (mk l rest k) c /\ length l + length rest = c.
  Proof.
    intros (Hmem & ops & fuel & Hv & Ht & Hf & E & ->). split; [exact Hmem|].
    change (@vec_new A) with (Vec (mk (@nil A) [] 0) 0) in E.
    destruct (VectorProofs.run_ok' m moved dflt mem Hmem fuel ops [] [] 0 0)
      as (c & r & k & E' & L & _); auto.
    rewrite E in E'. injection E' as ->. exists r, k, c. auto.
  Qed.

  Lemma vec_insert_own_ok fuel (l : list A) rest k c it b e xs : length l + length rest = c ->
    it <= length l -> b <= e -> e <= length l -> found moved it b e l xs -> length l + (e - b) <= c ->
    exists rest' k',
      vec_insert_own m moved dflt mem (S fuel) (Vec (mk l rest k) c) it b e
      = Ok (Vec (mk (insert_at it xs l) rest' k') c)
      /\ length (insert_at it xs l) + length rest' = c.
  Proof.
    intros Hc Hi Hb He Hx Hf.
    destruct (insert_own_ok m moved dflt c l rest k it b e xs Hc Hi Hb He Hx) as (r & k' & E & L).
    cbn [vec_insert_own]. unfold vec_size, vc_tail. cbn [vc_arr sv_tail vc_capacity].
    destruct (Nat.leb_spec (e - b + length l) c); [|lia]. rewrite orb_true_r.
    rewrite E. unfold vec_lift. cbn [bind vc_capacity]. unfold bounded in *.
    assert (Lx : length xs = e - b).
    { destruct Hx as [(_ & ->)|[(H1 & H2 & ->)|(_ & _ & ->)]]; rewrite ?map_length, part_length; lia. }
    rewrite insert_at_length in * by auto.
    destruct (Nat.leb_spec (length l + length xs) c); [|lia].
    exists r, k'. rewrite insert_at_length in * by auto. auto.
  Qed.

  Lemma vec_insert_own_grows fuel (l : list A) rest k c it b e : mem <> NoMemory ->
    length l + length rest = c -> b < e -> c < length l + (e - b) ->
    vec_insert_own m moved dflt mem (S fuel) (Vec (mk l rest k) c) it b e = UB.
  Proof.
    intros Hmem Hc Hb Hf. cbn [vec_insert_own]. unfold vec_size, vc_tail. cbn [vc_arr sv_tail vc_capacity].
    destruct (Nat.leb_spec (e - b + length l) c); [lia|].
    destruct (Nat.eqb_spec (e - b) 0); [lia|]. cbn [orb].
    destruct (VectorProofs.reserve_ok m mem Hmem l rest k (c + (e - b)) c Hc) as (r & k' & E & L & _).
    rewrite E. cbn [bind vc_capacity].
    destruct (Nat.eqb_spec c (Nat.max c (c + (e - b)))); [lia|]. reflexivity.
  Qed.

  (** One element of a vector with room is a range of one. *)
  Lemma vec_insert_ref_own fuel (l : list A) rest k c it j : length l + length rest = c ->
    length l < c ->
    vec_insert_ref m moved dflt mem (S fuel) (Vec (mk l rest k) c) it (VOwn j)
    = vec_insert_own m moved dflt mem (S fuel) (Vec (mk l rest k) c) it j (S j).
  Proof.
    intros Hc Hf. cbn [vec_insert_own vec_insert_ref]. unfold vec_size, vc_tail.
    cbn [vc_arr sv_tail vc_capacity]. replace (S j - j) with 1 by lia. cbn [Nat.eqb orb].
    destruct (Nat.leb_spec (1 + length l) c); [|lia].
    destruct (Nat.ltb_spec (length l) c); [|lia].
    rewrite <- insert_arg_own. unfold vec_lift, sv_insert_arg, sv_size, sv_capacity.
    cbn [sv_tail sv_store st_cells]. rewrite app_length, map_length, Hc.
    destruct (Nat.ltb_spec (length l) c); [|lia].
    destruct (it =? length l).
    - cbn [vec_pushBack_ref]. unfold vc_tail, vc_store. cbn [vc_arr sv_tail vc_capacity sv_store].
      destruct (Nat.eqb_spec (length l) c); [lia|]. cbn [negb vref_value].
      unfold sv_pushBack_arg, sv_size, sv_capacity. cbn [sv_tail sv_store st_cells].
      rewrite app_length, map_length, Hc. destruct (Nat.ltb_spec (length l) c); [|lia].
      cbn [arg_value sv_store]. unfold vc_store. cbn [vc_arr sv_store].
      destruct (st_load (St (map Some l ++ rest) k) j) as [x| |]; cbn [bind]; auto.
      destruct (st_construct m (St (map Some l ++ rest) k) (length l) x); reflexivity.
    - unfold vc_store. cbn [vc_arr sv_store].
      destruct (st_construct m (St (map Some l ++ rest) k) (length l) dflt) as [s1| |]; cbn [bind]; auto.
      destruct (shift_right m moved (length l - it) it 1 s1) as [s2| |]; cbn [bind]; auto.
      cbn [vref_value arg_value sv_store]. unfold vc_store. cbn [vc_arr sv_store].
      destruct (st_load s2 j) as [x| |]; cbn [bind]; auto.
      destruct (st_assign m s2 it x); reflexivity.
  Qed.
End Growing.

Section Circular.
  Context {A : Type}.
  Variable m : mode.
  Variable moved : A -> A.

  Notation holds := CircularArrayProofs.holds.
  Notation ix := CircularArrayProofs.ix.

  Lemma ca_reached_holds cap (c : circ A) q : ca_reached m cap c q -> holds cap c q.
  Proof.
    intros (ops & Hc & E & ->).
    destruct (CircularArrayProofs.run_ok m cap ops (ca_new cap) []) as (c' & E' & H & _); auto.
    { apply CircularArrayProofs.holds_new. }
    rewrite E in E'. injection E' as <-. exact H.
  Qed.

  Lemma load_cell cap (c : circ A) q j x : holds cap c q -> nth_error q j = Some x ->
    st_load (ca_store c) (ix (S cap) (ca_head c) j) = Ok x.
  Proof.
    intros H E. unfold st_load. rewrite (CircularArrayProofs.h_cells _ _ _ H _ _ E). reflexivity.
  Qed.

  Lemma push_own_ok cap (c : circ A) q j x : holds cap c q -> nth_error q j = Some x ->
    ca_push_own m c j = ca_pushBack m c x.
  Proof.
    intros H E. unfold ca_push_own, ca_pushBack. destruct (_ =? _); auto.
    assert (j < length q) by (apply nth_error_Some; congruence).
    pose proof (CircularArrayProofs.h_len _ _ _ H). pose proof (CircularArrayProofs.h_head _ _ _ H).
    rewrite (CircularArrayProofs.h_N _ _ _ H). unfold ca_begin.
    rewrite CircularArrayProofs.ci_plus_ix by lia. rewrite (load_cell _ _ _ _ _ H E). reflexivity.
  Qed.

  Lemma place_head (c c' : circ A) x : ca_place m c x = Ok c' -> ca_head c' = ca_head c.
  Proof.
    unfold ca_place. destruct (st_construct m (ca_store c) (ca_tail c) x); cbn [bind]; try discriminate.
    intros E. injection E as <-. reflexivity.
  Qed.

  Lemma place_own_copies cap : forall n (c : circ A) q b, holds cap c q -> b + n <= length q ->
    length q + n <= cap ->
    ca_place_own m moved false n c (ix (S cap) (ca_head c) b)
    = ca_place_all m c (part b (b + n) q).
  Proof.
    induction n as [|n IH]; intros c q b H Hb Hc; cbn [ca_place_own].
    - unfold part. rewrite Nat.add_0_r, Nat.sub_diag. reflexivity.
    - destruct (nth_error q b) as [x|] eqn:Ex; [|apply nth_error_None in Ex; lia].
      rewrite (load_cell _ _ _ _ _ H Ex). cbn [bind].
      rewrite (part_succ b (b + S n) q x) by (auto; lia). cbn [ca_place_all].
      destruct (CircularArrayProofs.place_ok m cap c q x H) as (c1 & E1 & H1 & _); [lia|].
      rewrite E1. cbn [bind].
      replace (Circ (SVec (ca_store c1) (sv_tail (ca_buffer c1))) (ca_head c1) (ca_tail c1)) with c1
        by (destruct c1 as [[s t] hd tl]; reflexivity).
      rewrite (CircularArrayProofs.h_N _ _ _ H1).
      pose proof (CircularArrayProofs.h_head _ _ _ H).
      rewrite CircularArrayProofs.ci_inc_ix by lia.
      rewrite <- (place_head _ _ _ E1). rewrite (IH c1 (q ++ [x]) (S b) H1).
      + rewrite part_app by lia. replace (S b + n) with (b + S n) by lia. reflexivity.
      + rewrite app_length. cbn. lia.
      + rewrite app_length. cbn. lia.
  Qed.

  Lemma assign_cell cap (c : circ A) pre x suf y : holds cap c (pre ++ x :: suf) ->
    exists s, st_assign m (ca_store c) (ix (S cap) (ca_head c) (length pre)) y = Ok s
      /\ holds cap (Circ (SVec s (sv_tail (ca_buffer c))) (ca_head c) (ca_tail c)) (pre ++ y :: suf).
  Proof.
    intros H. assert (Ex : nth_error (pre ++ x :: suf) (length pre) = Some x) by apply nth_error_mid.
    pose proof (CircularArrayProofs.h_cells _ _ _ H _ _ Ex) as Cx.
    unfold st_assign. rewrite Cx. exists (St (upd (st_cells (ca_store c))
      (ix (S cap) (ca_head c) (length pre)) (Some y)) (st_leaks (ca_store c))).
    split; [destruct m; reflexivity|].
    destruct H as [HN Hh Hl Ht Hc]. constructor.
    - unfold ca_N, ca_store in *. cbn. rewrite upd_length. exact HN.
    - cbn. exact Hh.
    - rewrite app_length in *. cbn in *. lia.
    - cbn [ca_tail ca_head]. rewrite Ht. rewrite !app_length. reflexivity.
    - intros i z Hz. unfold ca_store. cbn [ca_buffer sv_store st_cells ca_head].
      assert (Li : i < length (pre ++ y :: suf)) by (apply nth_error_Some; congruence).
      rewrite app_length in Li, Hl. cbn [length] in Li, Hl.
      destruct (Nat.eq_dec i (length pre)) as [->|Hn].
      + rewrite nth_error_mid in Hz. injection Hz as <-. apply nth_error_upd_eq.
        fold (ca_store c). fold (ca_N c). rewrite HN. apply CircularArrayProofs.ix_lt; lia.
      + rewrite nth_error_upd_neq.
        2:{ intros Q. apply CircularArrayProofs.ix_inj in Q; lia. }
        apply Hc. rewrite <- Hz.
        destruct (Nat.lt_ge_cases i (length pre)).
        * rewrite !nth_error_app1 by lia. reflexivity.
        * rewrite !nth_error_app2 by lia. replace (i - length pre) with (S (i - length pre - 1)) by lia.
          reflexivity.
  Qed.

  Lemma place_own_moves cap : forall mid (c : circ A) pre suf, holds cap c (pre ++ mid ++ suf) ->
    length (pre ++ mid ++ suf) + length mid <= cap ->
    exists c', ca_place_own m moved true (length mid) c (ix (S cap) (ca_head c) (length pre)) = Ok c'
      /\ holds cap c' (pre ++ map moved mid ++ suf ++ mid).
  Proof.
    induction mid as [|x mid IH]; intros c pre suf H Hc; cbn [length ca_place_own].
    - exists c. rewrite app_nil_r. auto.
    - rewrite !app_length in Hc. cbn [length] in Hc.
      assert (Ex : nth_error (pre ++ (x :: mid) ++ suf) (length pre) = Some x)
        by apply nth_error_mid.
      rewrite (load_cell _ _ _ _ _ H Ex). cbn [bind].
      destruct (CircularArrayProofs.place_ok m cap c _ x H) as (c1 & E1 & H1 & _).
      { rewrite !app_length. cbn. lia. }
      rewrite E1. cbn [bind]. rewrite <- (place_head _ _ _ E1).
      replace ((pre ++ (x :: mid) ++ suf) ++ [x]) with (pre ++ x :: (mid ++ suf ++ [x])) in H1
        by (rewrite <- !app_assoc; reflexivity).
      destruct (assign_cell cap c1 pre x (mid ++ suf ++ [x]) (moved x) H1) as (s & Es & Hs).
      rewrite Es. cbn [bind].
      replace (pre ++ moved x :: mid ++ suf ++ [x]) with ((pre ++ [moved x]) ++ mid ++ (suf ++ [x])) in Hs
        by (rewrite <- !app_assoc; reflexivity).
      rewrite (CircularArrayProofs.h_N _ _ _ H1).
      pose proof (CircularArrayProofs.h_head _ _ _ H1).
      rewrite CircularArrayProofs.ci_inc_ix by lia.
      replace (S (length pre)) with (length (pre ++ [moved x])) by (rewrite app_length; cbn; lia).
      destruct (IH _ (pre ++ [moved x]) (suf ++ [x]) Hs) as (c2 & E2 & H2).
      { rewrite !app_length. cbn. lia. }
      cbn [ca_head] in E2. rewrite E2. exists c2. split; auto.
      replace (pre ++ map moved (x :: mid) ++ suf ++ x :: mid)
        with ((pre ++ [moved x]) ++ map moved mid ++ (suf ++ [x]) ++ mid)
        by (cbn [map]; rewrite <- !app_assoc; reflexivity).
      exact H2.
  Qed.
End Circular.
