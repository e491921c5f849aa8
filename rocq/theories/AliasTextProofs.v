(** Lemmas for C217: strings and lists. *)
From Coq Require Import List Arith Bool Lia.
From Verif Require Import Base BaseLemmas Store StoreLemmas StringModel StringSpec StringProofs
  ListModel ListSpec AliasModel AliasSpec AliasProofs.
From Verif Require ListProofs ListOps ListRun.
Import ListNotations.

Section Text.
  Context {A : Type}.
  Variable nul : A.
  Variable is_nul : A -> bool.
  Hypothesis Hnul : is_nul nul = true.

  Notation rep := (rep nul).
  Notation full := (full nul).

  Lemma readable_nth : forall (c : list (option A)) i x, nth_error (readable c) i = Some x ->
    nth_error c i = Some (Some x).
  Proof.
    induction c as [|[y|] c IH]; intros [|i] x H; cbn in *; try discriminate.
    - congruence.
    - apply IH. exact H.
  Qed.

  Lemma readable_app (l : list A) c : readable (map Some l ++ c) = l ++ readable c.
  Proof. induction l; cbn; congruence. Qed.

  Lemma skipn_front k (l : list A) (c : list (option A)) : k <= length l ->
    skipn k (map Some l ++ c) = map Some (skipn k l) ++ c.
  Proof. revert l. induction k; intros [|x l] H; cbn in *; try lia; auto. apply IHk. lia. Qed.

  Lemma before_nul_app (l1 l2 : list A) :
    before_nul is_nul (l1 ++ nul :: l2) = before_nul is_nul l1.
  Proof.
    induction l1 as [|x l1 IH]; cbn; [rewrite Hnul; reflexivity|].
    destruct (is_nul x); congruence.
  Qed.

  Lemma before_nul_length (l : list A) : length (before_nul is_nul l) <= length l.
  Proof. induction l as [|x l IH]; cbn; [lia|]. destruct (is_nul x); cbn; lia. Qed.

  (** The C string data() + k. *)
  Lemma own_raw_full l rest c k : k <= length l ->
    own_raw (full l rest c) k = Some (skipn k l ++ nul :: readable rest).
  Proof.
    intros H. unfold own_raw, full. cbn [s_buf]. rewrite skipn_front by exact H.
    rewrite readable_app. reflexivity.
  Qed.

  Lemma own_raw_length l rest c k : k <= length l ->
    raw_length is_nul (own_raw (full l rest c) k) = Ok (length (before_nul is_nul (skipn k l))).
  Proof.
    intros H. rewrite own_raw_full by exact H.
    rewrite (raw_length_ok is_nul (Some (skipn k l ++ nul :: readable rest))).
    - cbn [text]. rewrite before_nul_app. reflexivity.
    - exists nul. split; [apply in_or_app; right; left; reflexivity|exact Hnul].
  Qed.

  Lemma text_nth (l : list A) i x : nth_error (before_nul is_nul l) i = Some x ->
    nth_error l i = Some x.
  Proof.
    revert i. induction l as [|y l IH]; intros i H; cbn in H; [destruct i; discriminate|].
    destruct (is_nul y); [destruct i; discriminate|].
    destruct i as [|i]; [exact H|]. apply IH. exact H.
  Qed.

  Lemma nth_skipn k i (l : list A) : nth_error (skipn k l) i = nth_error l (k + i).
  Proof. revert l. induction k as [|k IH]; intros [|x l]; cbn; auto. destruct i; reflexivity. Qed.

  Lemma at_full l rest c j x : nth_error l j = Some x -> str_at (full l rest c) j = Ok x.
  Proof. intros H. apply (load_own l (Some nul :: rest) 0 j x H). Qed.

  Lemma str_push_own_ok fuel s l c j x : rep s l c -> nth_error l j = Some x ->
    str_push_own nul (S fuel) s j = str_push_back nul (S fuel) s x.
  Proof.
    intros R Hx. destruct R as [(_ & _ & ->)|(rest & -> & E)]; [destruct j; discriminate|].
    cbn [str_push_own str_push_back]. change (s_tail (full l rest c)) with (length l). change (s_cap (full l rest c)) with c.
    destruct (Nat.ltb_spec (length l) c); [|lia].
    rewrite (at_full _ _ _ _ _ Hx). reflexivity.
  Qed.

  Lemma str_push_raw_own_fits fuel s l c k : rep s l c -> k <= length l ->
    length l + length (before_nul is_nul (skipn k l)) + 2 < c ->
    exists s', str_push_raw_own nul is_nul (S fuel) s k = Ok s'
      /\ rep s' (l ++ before_nul is_nul (skipn k l)) c.
  Proof.
    intros R Hk Hc. destruct R as [(-> & _)|(rest & -> & E)]; [lia|].
    cbn [str_push_raw_own]. rewrite own_raw_length by exact Hk. cbn [bind].
    set (t := before_nul is_nul (skipn k l)) in *. change (s_tail (full l rest c)) with (length l). change (s_cap (full l rest c)) with c.
    destruct (Nat.ltb_spec (length l + length t + 2) c); [|lia].
    assert (Lt : length t <= length l - k).
    { pose proof (before_nul_length (skipn k l)) as Q. rewrite skipn_length in Q. exact Q. }
    assert (Q : with_buf (full l rest c) (assign_own Trivial (length t) k (length l))
                = with_buf (full l rest c) (assign_list Trivial t (length l))).
    { unfold with_buf, full. cbn [s_buf s_cap s_tail].
      rewrite (assign_own_list Trivial (length t) k (length l) t); auto.
      - left. lia.
      - intros i x Hx. apply text_nth in Hx. rewrite nth_skipn in Hx.
        assert (k + i < length l) by (apply nth_error_Some; congruence).
        rewrite nth_error_app1 by (rewrite map_length; lia). apply map_nth_error. exact Hx.
      - intros i Hi.
        destruct (nth_error (map Some l ++ Some nul :: rest) (length l + i)) as [y|] eqn:Ey.
        + exists y. split; auto. left; reflexivity.
        + apply nth_error_None in Ey. rewrite app_length, map_length in Ey. cbn in Ey. lia. }
    rewrite Q. apply append_list_ok; auto. lia.
  Qed.

  Lemma str_push_raw_own_grows fuel s l c k : rep s l c -> k <= length l -> 0 < c ->
    c <= length l + length (before_nul is_nul (skipn k l)) + 2 ->
    str_push_raw_own nul is_nul (S fuel) s k = UB.
  Proof.
    intros R Hk H0 Hc. pose proof R as R0. destruct R as [(-> & _)|(rest & -> & E)]; [lia|].
    cbn [str_push_raw_own]. rewrite own_raw_length by exact Hk. cbn [bind].
    set (t := before_nul is_nul (skipn k l)) in *. change (s_tail (full l rest c)) with (length l). change (s_cap (full l rest c)) with c.
    destruct (Nat.ltb_spec (length l + length t + 2) c); [lia|].
    unfold StringModel.next_capacity.
    change (s_cap (full l rest c)) with c.
    set (want := if length l + length t + 2 <? c * 3 / 2 then c * 3 / 2 else length l + length t + 2).
    assert (W : c < want).
    { unfold want. destruct (Nat.ltb_spec (length l + length t + 2) (c * 3 / 2)) as [?|G]; [lia|].
      assert (c = 1 \/ c < c * 3 / 2) as [->|?] by
        (destruct (Nat.eq_dec c 1); [auto|right; apply StringProofs.grown_gt; lia]); lia. }
    destruct (StringProofs.resize_ok nul (full l rest c) l c want R0) as (s' & Es & R').
    { left. lia. }
    rewrite Es. cbn [bind]. rewrite (StringProofs.cap_ok nul s' _ _ R').
    destruct (Nat.eqb_spec c (Nat.max c want)); [lia|reflexivity].
  Qed.

  Lemma clean_full l rest c : 0 < c ->
    str_clean nul (full l rest c)
    = Ok (Str (Some (Some nul :: tl (map Some l ++ Some nul :: rest))) c 0).
  Proof.
    intros H. unfold str_clean, full. cbn [s_cap]. destruct (Nat.eqb_spec c 0); [lia|].
    unfold set_tail. cbn [s_buf s_cap]. destruct l; cbn [map app tl]; apply put_first.
  Qed.

  (** s = s.data() *)
  Lemma str_assign_own_empty fuel s l c : rep s l c -> 0 < c ->
    exists s', str_assign_raw_own nul is_nul (S fuel) s 0 = Ok s' /\ rep s' [] c.
  Proof.
    intros R H0. destruct R as [(-> & _)|(rest & -> & E)]; [lia|].
    cbn [str_assign_raw_own]. rewrite clean_full by exact H0. cbn [bind].
    set (cs := tl (map Some l ++ Some nul :: rest)).
    assert (Lc : length cs + 1 = c).
    { unfold cs. destruct l; cbn [map app tl length] in *; rewrite ?app_length, ?map_length;
        cbn [length] in *; lia. }
    unfold own_raw at 1. cbn [s_buf skipn readable raw_length scan]. rewrite Hnul. cbn [bind s_cap].
    destruct (Nat.leb_spec (0 + 1) c); [|lia]. cbn [Nat.add].
    unfold with_buf. cbn [s_buf s_cap s_tail assign_own]. unfold st_load. cbn [st_cells nth_error bind].
    unfold st_assign. cbn [st_cells nth_error st_leaks upd bind].
    unfold set_tail. cbn [s_buf s_cap]. rewrite put_first.
    eexists. split; [reflexivity|]. change (rep (full [] cs c) [] c). apply rep_full. cbn. lia.
  Qed.

  (** s = s.data() + k *)
  Lemma str_assign_own_rest fuel s l c k : rep s l c -> 0 < k -> k <= length l ->
    exists s', str_assign_raw_own nul is_nul (S fuel) s k = Ok s'
      /\ rep s' (before_nul is_nul (skipn k l)) c.
  Proof.
    intros R H0 Hk. destruct R as [(_ & _ & ->)|(rest & -> & E)]; [cbn in Hk; lia|].
    destruct l as [|x0 l]; [cbn in Hk; lia|]. destruct k as [|k]; [lia|].
    cbn [str_assign_raw_own]. rewrite clean_full by lia. cbn [bind map app tl length skipn] in *.
    set (t := before_nul is_nul (skipn k l)).
    set (L := skipn k l ++ nul :: readable rest).
    assert (Ow : own_raw (Str (Some (Some nul :: map Some l ++ Some nul :: rest)) c 0) (S k) = Some L).
    { unfold own_raw. cbn [s_buf skipn]. rewrite skipn_front by lia. rewrite readable_app. reflexivity. }
    rewrite Ow.
    assert (Te : terminated is_nul (Some L)).
    { exists nul. split; [apply in_or_app; right; left; reflexivity|exact Hnul]. }
    assert (Et : before_nul is_nul L = t) by (unfold L; apply before_nul_app).
    rewrite (raw_length_ok is_nul (Some L) Te). cbn [bind text]. rewrite Et.
    destruct (scan_ok is_nul L Te) as (_ & z & r & EL). rewrite Et in EL.
    assert (Lt : length t <= length l - k).
    { pose proof (before_nul_length (skipn k l)) as Q. rewrite skipn_length in Q. exact Q. }
    cbn [s_cap]. destruct (Nat.leb_spec (length t + 1) c); [|lia].
    set (cs := Some nul :: map Some l ++ Some nul :: rest).
    assert (Lcs : length cs = c).
    { unfold cs. cbn [length]. rewrite app_length, map_length. cbn. lia. }
    destruct (split_gap cs (length t + 1)) as (g1 & g2 & Eg & L1 & L2); [lia|].
    assert (Q : with_buf (Str (Some cs) c 0) (assign_own Trivial (length t + 1) (S k) 0)
                = with_buf (Str (Some cs) c 0) (assign_list Trivial (t ++ [z]) 0)).
    { unfold with_buf. cbn [s_buf s_cap s_tail].
      rewrite (assign_own_list Trivial (length t + 1) (S k) 0 (t ++ [z])); auto.
      - rewrite app_length. reflexivity.
      - right. lia.
      - intros i x Hx.
        assert (HL : nth_error L i = Some x).
        { rewrite EL. replace (t ++ z :: r) with ((t ++ [z]) ++ r) by (rewrite <- app_assoc; reflexivity).
          rewrite nth_error_app1; [exact Hx|]. apply nth_error_Some. congruence. }
        unfold cs. cbn [Nat.add nth_error].
        unfold L in HL.
        change (nul :: readable rest) with (readable (Some nul :: rest)) in HL.
        rewrite <- readable_app, <- skipn_front in HL by lia.
        apply readable_nth in HL.
        clear - HL. revert HL. generalize (map (@Some A) l ++ Some nul :: rest) as cc.
        induction k as [|k IHk]; intros cc HL; [exact HL|].
        destruct cc as [|y cc]; [destruct i; discriminate|]. cbn. apply IHk. exact HL.
      - intros i Hi. cbn [Nat.add].
        destruct (nth_error cs i) as [y|] eqn:Ey.
        + exists y. split; auto. left; reflexivity.
        + apply nth_error_None in Ey. lia. }
    rewrite Q, Eg. rewrite (assign_at (t ++ [z]) [] g1 g2); [|reflexivity|rewrite app_length; cbn; lia].
    cbn [bind app]. unfold set_tail. cbn [s_buf s_cap].
    rewrite map_app, <- app_assoc. cbn [map app].
    rewrite put_at by (rewrite map_length; reflexivity).
    eexists. split; [reflexivity|]. apply rep_full. lia.
  Qed.

  (** insert(it, s[j]): what is read after the characters from [i] on have moved. *)
  Lemma str_insert_own_ok fuel s l c i j x : rep s l c -> length l + 1 < c -> i < length l ->
    j < length l -> nth_error l (if j <=? i then j else j - 1) = Some x ->
    str_insert_own nul (S fuel) s i j = str_insert nul (S fuel) s i x.
  Proof.
    intros R Hc Hi Hj Hx. destruct R as [(-> & _)|(rest & -> & E)]; [lia|].
    cbn [str_insert_own str_insert]. change (s_tail (full l rest c)) with (length l). change (s_cap (full l rest c)) with c.
    destruct (Nat.ltb_spec (length l + 1) c); [|lia].
    destruct (Nat.eqb_spec i (length l)); [lia|].
    unfold full. rewrite put_at by (rewrite map_length; reflexivity). cbn [bind s_tail].
    unfold with_buf at 1 2. cbn [s_buf s_cap s_tail].
    destruct (shift_right_cells Trivial (fun c => c) (length l - i) i 1 (skipn i l)
                (map Some l ++ Some nul :: rest) 0) as (c' & E' & C1 & C2 & C3).
    { apply skipn_length. }
    { lia. }
    { intros p y Hy. rewrite nth_skipn in Hy.
      assert (i + p < length l) by (apply nth_error_Some; congruence).
      rewrite nth_error_app1 by (rewrite map_length; lia). apply map_nth_error. exact Hy. }
    { intros p Hp. exists (Some nul). split; [|left; reflexivity].
      replace (i + (length l - i) + p) with (length (map (@Some A) l)) by (rewrite map_length; lia).
      apply StoreLemmas.nth_error_mid. }
    rewrite E'. cbn [bind st_cells].
    assert (At : str_at (Str (Some c') c (length l)) j = Ok x).
    { unfold str_at. cbn [s_buf]. unfold st_load. cbn [st_cells].
      destruct (Nat.leb_spec j i) as [Hji|Hji].
      - destruct (Nat.eq_dec j i) as [->|Hne].
        + rewrite <- (Nat.add_0_r i), (C2 0 x); [reflexivity|lia|].
          rewrite nth_skipn, Nat.add_0_r. exact Hx.
        + rewrite C3 by lia. rewrite nth_error_app1 by (rewrite map_length; lia).
          rewrite (map_nth_error _ _ _ Hx). reflexivity.
      - replace j with (i + 1 + (j - 1 - i)) by lia.
        rewrite (C1 (j - 1 - i) x); [reflexivity|].
        rewrite nth_skipn. rewrite <- Hx. f_equal. lia. }
    rewrite At. reflexivity.
  Qed.

  Lemma str_insert_own_end fuel s l c j x : rep s l c -> length l + 1 < c ->
    nth_error l j = Some x ->
    str_insert_own nul (S (S fuel)) s (length l) j = str_insert nul (S (S fuel)) s (length l) x.
  Proof.
    intros R Hc Hx. cbn [str_insert_own str_insert].
    rewrite (StringProofs.tail_ok nul _ _ _ R), (StringProofs.cap_ok nul _ _ _ R).
    destruct (Nat.ltb_spec (length l + 1) c); [|lia]. rewrite Nat.eqb_refl.
    apply (str_push_own_ok fuel s l c j x R Hx).
  Qed.

  Lemma str_insert_own_grows fuel s l c i j : rep s l c -> 0 < c -> c <= length l + 1 ->
    str_insert_own nul (S fuel) s i j = UB.
  Proof.
    intros R H0 Hc. cbn [str_insert_own].
    rewrite (StringProofs.tail_ok nul _ _ _ R), (StringProofs.cap_ok nul _ _ _ R).
    destruct (Nat.ltb_spec (length l + 1) c); [lia|]. unfold StringModel.next_capacity.
    rewrite (StringProofs.cap_ok nul _ _ _ R).
    destruct (StringProofs.reserve_ok nul s l c (c * 3 / 2) R) as (s' & Es & R'); [left; lia|].
    rewrite Es. cbn [bind]. rewrite (StringProofs.cap_ok nul s' _ _ R').
    assert (1 <= c * 3 / 2) by (apply Nat.div_le_lower_bound; lia).
    destruct (Nat.eqb_spec c (c + c * 3 / 2)); [lia|reflexivity].
  Qed.
End Text.

Section Nodes.
  Context {A : Type}.
  Implicit Types h : heap A.
  Import ListProofs ListOps ListRun.

  Definition first_or (q : ptr) (ns : list nat) : ptr :=
    match ns with [] => q | n :: _ => Heap n end.

  (** The nodes [mid] hold [vals] and lead to [q]. *)
  Fixpoint leads h (q : ptr) (mid : list nat) (vals : list A) : Prop :=
    match mid, vals with
    | [], [] => True
    | n :: mid', v :: vals' =>
        (exists a, hp_cell h (Heap n) = Some (Node a (first_or q mid') v)) /\ leads h q mid' vals'
    | _, _ => False
    end.

  Lemma leads_frame h h' q : forall mid vals,
    (forall n, In n mid -> hp_cell h' (Heap n) = hp_cell h (Heap n)) ->
    leads h q mid vals -> leads h' q mid vals.
  Proof.
    induction mid as [|n mid IH]; intros [|v vals] HF H; cbn in *; auto.
    destruct H as ((a & H1) & H2). split.
    - exists a. rewrite HF by auto. exact H1.
    - apply IH; auto.
  Qed.

  Lemma leads_length h q : forall mid vals, leads h q mid vals -> length mid = length vals.
  Proof.
    induction mid as [|n mid IH]; intros [|v vals] H; cbn in *; try contradiction; auto.
    f_equal. apply IH. apply H.
  Qed.

  Lemma count_to_ok h q : forall mid vals fuel, leads h q mid vals -> ~ In q (map Heap mid) ->
    length mid < fuel -> count_to fuel h (first_or q mid) q = Ok (length mid).
  Proof.
    induction mid as [|n mid IH]; intros [|v vals] fuel H Hq F; cbn in H; try contradiction;
      (destruct fuel as [|f]; [cbn in F; lia|]); cbn [count_to first_or].
    - rewrite ptr_eqb_refl. reflexivity.
    - cbn [map In] in Hq. rewrite ptr_eqb_neq by (intro; apply Hq; left; auto).
      destruct H as ((a & H1) & H2). unfold get. rewrite H1. cbn [bind n_next].
      rewrite (IH vals) by (auto; cbn in F; lia). reflexivity.
  Qed.

  Lemma chain_of_ok q : forall mid vals h f fuel, leads h q mid vals -> ~ In q (map Heap mid) ->
    obj h (Heap f) <> None -> (forall n, In n mid -> n < f) -> f < hp_fresh h -> length mid < fuel ->
    chain_of fuel h (Heap f) (first_or q mid) q = make_chain h (Heap f) vals.
  Proof.
    induction mid as [|n mid IH]; intros [|v vals] h f fuel H Hq Lf Lt Fr F; cbn in H; try contradiction;
      (destruct fuel as [|fl]; [cbn in F; lia|]); cbn [chain_of first_or make_chain].
    - rewrite ptr_eqb_refl. reflexivity.
    - cbn [map In] in Hq. rewrite ptr_eqb_neq by (intro; apply Hq; left; auto).
      destruct H as ((a & H1) & H2). unfold get at 1. rewrite H1. cbn [bind n_obj].
      destruct (new_node_spec h v) as (h1 & E1 & N1 & P1 & O1 & F1 & C1). rewrite E1.
      destruct (set_next_spec h1 (Heap f) (Heap (hp_fresh h))) as (h2 & E2 & N2 & P2 & O2 & F2 & C2).
      { rewrite O1. destruct (ptr_dec (Heap (hp_fresh h)) (Heap f)); [discriminate|exact Lf]. }
      rewrite E2. cbn [bind].
      destruct (set_prev_spec h2 (Heap (hp_fresh h)) (Heap f)) as (h3 & E3 & N3 & P3 & O3 & F3 & C3).
      { rewrite O2, O1. destruct (ptr_dec (Heap (hp_fresh h)) (Heap (hp_fresh h))); congruence. }
      rewrite E3. cbn [bind].
      assert (Keep : forall p, p < f -> hp_cell h3 (Heap p) = hp_cell h (Heap p)).
      { intros p Hp. rewrite C3, C2, C1; auto; intro Q; injection Q; lia. }
      unfold get. rewrite Keep, H1 by (apply Lt; left; reflexivity). cbn [bind n_next].
      apply IH; auto.
      + apply (leads_frame h); auto. intros p Hp. apply Keep. apply Lt. right. exact Hp.
      + rewrite O3, O2, O1. destruct (ptr_dec (Heap (hp_fresh h)) (Heap (hp_fresh h))); congruence.
      + intros p Hp. pose proof (Lt p (or_intror Hp)). lia.
      + rewrite F3, F2, F1. lia.
      + cbn in F. lia.
  Qed.

  (** insert(it, itBegin, itEnd) of the list itself copies first and links later. *)
  Lemma list_insert_own_range h l it q mid vals fuel :
    leads h q mid vals -> ~ In q (map Heap mid) -> (forall n, In n mid -> n < hp_fresh h) ->
    length mid < fuel ->
    list_insert_own fuel h l it (first_or q mid) q = list_insert_range fuel h l it vals.
  Proof.
    intros H Hq Fr F. unfold list_insert_own. rewrite (count_to_ok _ _ _ _ _ H Hq F). cbn [bind].
    destruct mid as [|n mid], vals as [|v vals]; cbn in H; try contradiction; [reflexivity|].
    cbn [length Nat.eqb list_insert_range first_or]. destruct H as ((a & H1) & H2).
    unfold get at 1. rewrite H1. cbn [bind n_obj].
    destruct (new_node_spec h v) as (h1 & E1 & N1 & P1 & O1 & F1 & C1). rewrite E1.
    assert (Keep : forall p, p < hp_fresh h -> hp_cell h1 (Heap p) = hp_cell h (Heap p)).
    { intros p Hp. apply C1. intro Q; injection Q; lia. }
    unfold get at 1. rewrite Keep, H1 by (apply Fr; left; reflexivity). cbn [bind n_next].
    cbn [map In] in Hq.
    rewrite (chain_of_ok q mid vals h1 (hp_fresh h) fuel); auto.
    - apply (leads_frame h); auto. intros p Hp. apply Keep. apply Fr. right. exact Hp.
    - rewrite O1. destruct (ptr_dec (Heap (hp_fresh h)) (Heap (hp_fresh h))); congruence.
    - intros p Hp. apply Fr. right. exact Hp.
    - lia.
    - cbn in F. lia.
  Qed.

  Lemma leads_inv h l s ext : forall mid ns1 ns2 v1 vm v2,
    inv h l s (ns1 ++ mid ++ ns2) (v1 ++ vm ++ v2) ext -> s <> Untouched ->
    length ns1 = length v1 -> length mid = length vm ->
    leads h (head_of (dl_id l) ns2) mid vm.
  Proof.
    induction mid as [|n mid IH]; intros ns1 ns2 v1 vm v2 I Hs L1 L2; destruct vm as [|v vm];
      try discriminate; cbn [leads]; auto.
    injection L2 as L2. split.
    - destruct (shape_split _ _ _ _ _ _ I Hs) as (_ & Ch & _).
      cbn [app] in Ch. pose proof (chain_next _ _ _ _ _ Ch) as Nx.
      pose proof (i_vals _ _ _ _ _ _ I) as V.
      assert (O : obj h (Heap n) = Some v).
      { apply Forall2_app_inv_l in V. destruct V as (w1 & w2 & V1 & V2 & Ew).
        assert (length w1 = length v1).
        { rewrite <- L1. clear - V1. induction V1; cbn; congruence. }
        assert (w1 = v1 /\ w2 = (v :: vm) ++ v2) as (-> & ->).
        { clear - Ew H. revert v1 Ew H. induction w1 as [|a w1 IHw]; intros [|b v1] Ew H; try discriminate.
          - auto.
          - cbn in Ew. injection Ew as -> Ew. injection H as H. destruct (IHw v1 Ew H) as (-> & ->). auto. }
        cbn [app] in V2. inversion V2; subst. assumption. }
      destruct (cell_of_obj _ _ _ O) as (a & b & Cn). unfold nxt in Nx. rewrite Cn in Nx. cbn in Nx.
      injection Nx as ->. exists a. rewrite Cn. destruct mid; reflexivity.
    - apply (IH (ns1 ++ [n]) ns2 (v1 ++ [v]) vm v2); auto.
      + rewrite <- !app_assoc. exact I.
      + rewrite !app_length. cbn. lia.
  Qed.

  Lemma part_split {B} b e (l : list B) : b <= e -> e <= length l ->
    l = firstn b l ++ part b e l ++ skipn e l.
  Proof.
    intros Hb He. unfold part. rewrite <- (firstn_skipn b l) at 1. f_equal.
    rewrite <- (firstn_skipn (e - b) (skipn b l)) at 1. f_equal.
    clear - Hb. revert l e Hb. induction b as [|b IH]; intros l e Hb; [rewrite Nat.sub_0_r; reflexivity|].
    destruct e as [|e]; [lia|]. destruct l as [|x l]; [cbn; destruct (e - b); reflexivity|].
    cbn [skipn Nat.sub]. apply IH. lia.
  Qed.

  Lemma first_or_part o b e (ns : list nat) : b <= e -> e <= length ns ->
    first_or (head_of o (skipn e ns)) (part b e ns) = head_of o (skipn b ns).
  Proof.
    intros Hb He. unfold part.
    destruct (Nat.eq_dec b e) as [->|Hn]; [rewrite Nat.sub_diag; reflexivity|].
    destruct (nth_error ns b) as [n|] eqn:En; [|apply nth_error_None in En; lia].
    rewrite (skipn_nth _ _ _ En). destruct (e - b) eqn:E; [lia|]. reflexivity.
  Qed.

  (** ... at the positions [b] to [e] of a list that some covered calls have made. *)
  Lemma list_insert_own_inv h l s ns vals ext b e it fuel :
    inv h l s ns vals ext -> s <> Untouched -> b <= e -> e <= length vals -> length vals < fuel ->
    list_insert_own fuel h l it (head_of (dl_id l) (skipn b ns)) (head_of (dl_id l) (skipn e ns))
    = list_insert_range fuel h l it (part b e vals).
  Proof.
    intros I Hs Hb He F. pose proof (inv_len _ _ _ _ _ _ I) as L.
    rewrite <- (first_or_part (dl_id l) b e ns) by lia.
    assert (Ld : leads h (head_of (dl_id l) (skipn e ns)) (part b e ns) (part b e vals)).
    { apply (leads_inv h l s ext (part b e ns) (firstn b ns) (skipn e ns) (firstn b vals)
               (part b e vals) (skipn e vals)); auto.
      - rewrite <- !part_split by lia. exact I.
      - rewrite !firstn_length. lia.
      - rewrite !part_length by lia. reflexivity. }
    apply list_insert_own_range; auto.
    - intros Q. apply in_map_iff in Q. destruct Q as (n & En & Hn).
      destruct (head_of_cases (dl_id l) (skipn e ns)) as [(_ & Eh)|(p & ns0 & Es & Eh)];
        rewrite Eh in En; [discriminate|]. injection En as ->.
      pose proof (i_nodup _ _ _ _ _ _ I) as ND.
      rewrite (part_split b e ns) in ND by lia. rewrite Es in ND.
      apply NoDup_remove_2 with (l := firstn b ns ++ part b e ns) (l' := ns0) (a := p).
      + rewrite <- app_assoc. exact ND.
      + rewrite !in_app_iff. auto.
    - intros n Hn. apply (i_fresh _ _ _ _ _ _ I). apply (inv_in_live _ _ _ _ _ _ _ I).
      rewrite (part_split b e ns) by lia. rewrite !in_app_iff. auto.
    - rewrite part_length by lia. lia.
  Qed.
End Nodes.
