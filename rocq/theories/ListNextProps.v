(** C17: how every history of a List goes. *)
From Coq Require Import List Arith Bool Lia.
From Verif Require Import Base BaseLemmas ListModel ListSpec ListProofs ListOps ListRun ListTwo ListProps.
From Verif Require Import ListNextSpec ListNextProofs.
Import ListNotations.

Section Next.
  Context {A : Type}.
  Implicit Types h : heap A.
  Implicit Types vals : list A.

  Definition gone (s : shape) (l : dlist) (t : nat) : Prop := s = FrontOnly /\ dl_tail l = Heap t.

  Definition ninv h (l : dlist) (s : shape) (ns : list nat) vals : Prop :=
    inv h l s ns vals [] /\ good (dl_id l) (gone s l) 0 h
    /\ dl_head l <> PostFirst (dl_id l)
    /\ (s = FrontOnly -> exists t, dl_tail l = Heap t)
    /\ (s = Untouched -> prv h (PostLast (dl_id l)) = Some Null).

  Lemma untouched_front : forall o : list_op A, covered [] Untouched o <> Some FrontOnly.
  Proof.
    intros o Cv. destruct o as [x|x|i x|i xs| | |i|i j|]; cbn [covered] in Cv; try discriminate.
    destruct i as [[|i]|]; destruct j as [[|j]|]; cbn in Cv; discriminate.
  Qed.

  Lemma good_weaken : forall o (D D' : nat -> Prop) (m m' : nat) h,
    good o D m h -> (forall t, D' t -> D t) -> m' <= hp_fresh h -> good o D' m' h.
  Proof. intros o D D' m m' h (G1 & G2 & G3 & G4) S F. split; [exact G1|]. split; [exact G2|]. split; auto. Qed.

  Lemma head_good : forall h l s ns vals, inv h l s ns vals [] -> dl_head l <> PostFirst (dl_id l).
  Proof.
    intros h l s ns vals I. pose proof (i_shape _ _ _ _ _ _ I) as S. destruct s.
    - destruct S as (_ & -> & _). discriminate.
    - destruct S as (_ & _ & ->). destruct ns; discriminate.
    - destruct S as (_ & ->). destruct ns; discriminate.
  Qed.
  Lemma head_null : forall h l s ns vals, inv h l s ns vals [] -> s <> Untouched -> dl_head l <> Null.
  Proof.
    intros h l s ns vals I Hs. destruct (shape_split _ _ _ _ _ _ I Hs) as (_ & _ & ->).
    destruct ns; discriminate.
  Qed.

  (** clean() leaves nothing in front of end(). *)
  Lemma clean_last : forall fuel h l r, list_clean fuel h l = Ok r ->
    prv (fst r) (PostLast (dl_id l)) = Some Null.
  Proof.
    intros fuel h l r E. unfold list_clean in E. unbn E h1. unbn E h2. injection E as <-.
    cbn [fst]. unfold clean_links in Q0. cbn [dl_id] in Q0. unb Q0. unb Q0. unb Q0.
    rewrite (set_next_prv _ _ _ _ _ Q0). apply (set_prev_prv _ _ _ _ Q3).
  Qed.

  (** Where the end is kept does not change when the last element is not popped. *)
  Lemma tail_kept : forall h l s ns vals fuel o r,
    inv h l s ns vals [] -> good (dl_id l) (fun _ => False) 0 h ->
    covered vals s o = Some FrontOnly -> list_step fuel h l o = Ok r ->
    dl_tail (snd r) = dl_tail l.
  Proof.
    intros h l s ns vals fuel o r I G Cv E.
    pose proof (inv_len _ _ _ _ _ _ I) as L.
    pose proof (head_good _ _ _ _ _ I) as Hp.
    assert (K : okl (dl_id l) l) by (split; [reflexivity|exact Hp]).
    assert (Hs : s <> Untouched).
    { intros ->. destruct (i_shape _ _ _ _ _ _ I) as (Es & _). subst ns. destruct vals; [|discriminate].
      apply (untouched_front _ Cv). }
    pose proof (head_null _ _ _ _ _ I Hs) as Hn.
    destruct (shape_split _ _ _ _ _ _ I Hs) as (_ & _ & Hh).
    assert (It : forall i q, position vals i < length vals -> iterator_at h l i = Ok q ->
              q <> PostLast (dl_id l)).
    { intros i q Hi Ei. rewrite (iterator_at_ok _ _ _ _ _ _ i I Hs) in Ei by lia. injection Ei as <-.
      destruct (skipn (position vals i) ns) eqn:Ek; [|discriminate].
      apply (f_equal (@length nat)) in Ek. rewrite skipn_length in Ek. cbn in Ek. lia. }
    assert (Hl : vals <> [] -> dl_head l <> PostLast (dl_id l)).
    { intros Nv. rewrite Hh. destruct ns; [destruct vals; [congruence|discriminate]|discriminate]. }
    destruct o as [x|x|i x|i xs| | |i|i j|]; cbn [covered] in Cv; cbn [list_step] in E.
    - destruct s; discriminate.
    - apply (push_front_good _ _ _ _ _ _ _ G K E). exact Hn.
    - unbn E q.
      assert (Q1 : vals <> [] /\ position vals i < length vals).
      { destruct s; [discriminate| |]; (destruct vals; [discriminate|]); split; try discriminate.
        - destruct (position (a :: vals) i <=? length (a :: vals)); discriminate.
        - destruct (Nat.ltb_spec (position (a :: vals) i) (length (a :: vals))); [assumption|discriminate]. }
      destruct Q1 as [V1 V2].
      apply (insert_good _ _ _ _ _ _ _ _ _ G K (iterator_good _ _ _ _ _ _ _ G K Q) E); auto.
      apply (It _ _ V2 Q).
    - unbn E q.
      assert (Q1 : vals <> [] /\ position vals i < length vals).
      { destruct s; [discriminate| |]; (destruct vals; [discriminate|]); split; try discriminate.
        - destruct (position (a :: vals) i <=? length (a :: vals)); discriminate.
        - destruct (Nat.ltb_spec (position (a :: vals) i) (length (a :: vals))); [assumption|discriminate]. }
      destruct Q1 as [V1 V2].
      apply (insert_range_good _ _ _ _ _ _ _ _ _ G K (iterator_good _ _ _ _ _ _ _ G K Q) E); auto.
      apply (It _ _ V2 Q).
    - destruct s; try discriminate. destruct (2 <=? length vals); discriminate.
    - apply (pop_front_good _ _ _ _ _ _ G K E).
    - unbn E q. destruct (Nat.ltb_spec (position vals i) (length vals)) as [V|]; [|discriminate].
      apply (erase_good _ _ _ _ _ _ _ G K (iterator_good _ _ _ _ _ _ _ G K Q) E). apply (It _ _ V Q).
    - unbn E q. unbn E q2. destruct i as [i|]; [|discriminate].
      assert (V : position vals j < length vals).
      { destruct ((i =? 0) && (position vals j =? length vals)); [discriminate|].
        destruct (Nat.ltb_spec (position vals j) (length vals)); [assumption|].
        rewrite andb_false_r in Cv. destruct s; try discriminate.
        destruct ((i <? length vals) && (position vals j =? length vals)); discriminate. }
      apply (erase_range_good _ _ _ _ _ _ _ _ _ G K (iterator_good _ _ _ _ _ _ _ G K Q0) E).
      apply (It _ _ V Q0).
    - discriminate.
  Qed.

  (** The last element leaves the list. *)
  Lemma last_gone : forall vals (ns : list nat) ns0 t o s first,
    length ns = length vals -> NoDup ns -> ns = ns0 ++ [t] ->
    covered vals s o = Some FrontOnly -> s = Whole ->
    ~ In t (list_seq_step ns (node_op first o)).
  Proof.
    intros vals ns ns0 t o s first L ND -> Cv ->. rewrite app_length in L. cbn in L.
    assert (Nt : ~ In t ns0) by (apply nodup_snoc_inv in ND; apply ND).
    destruct o as [x|x|i x|i xs| | |i|i j|]; cbn [covered] in Cv; cbn [list_seq_step node_op];
      try discriminate.
    - destruct vals; [discriminate|]. destruct (position (a :: vals) i <=? length (a :: vals)); discriminate.
    - destruct vals; [discriminate|]. destruct (position (a :: vals) i <=? length (a :: vals)); discriminate.
    - destruct (2 <=? length vals); discriminate.
    - destruct vals as [|a [|b vals]]; [discriminate| |discriminate]. cbn in L.
      destruct ns0; [cbn; auto|cbn in L; lia].
    - destruct (Nat.ltb_spec (position vals i) (length vals)) as [V|]; [|discriminate].
      destruct (Nat.eqb_spec (S (position vals i)) (length vals)) as [V2|]; [|discriminate].
      assert (P : position (ns0 ++ [t]) i = position vals i).
      { destruct i; [reflexivity|]. cbn [position] in *. lia. }
      rewrite P. assert (E : position vals i = length ns0) by lia. rewrite E.
      rewrite skipn_all2 by (rewrite app_length; cbn; lia).
      rewrite app_nil_r, firstn_app, Nat.sub_diag, firstn_all. cbn [firstn]. rewrite app_nil_r. exact Nt.
    - destruct i as [i|]; [|discriminate]. exfalso.
      destruct ((i =? 0) && (position vals j =? length vals)); [discriminate|].
      destruct ((i <? length vals) && (i <=? position vals j) && (position vals j <? length vals));
        [discriminate|].
      destruct ((i <? length vals) && (position vals j =? length vals)); discriminate.
  Qed.

  (** A call that leaves the list as new. *)
  Lemma cleaned_last : forall h l s ns vals fuel o r, ninv h l s ns vals ->
    covered vals s o = Some Untouched -> list_step fuel h l o = Ok r ->
    prv (fst r) (PostLast (dl_id l)) = Some Null.
  Proof.
    intros h l s ns vals fuel o r (I & G & Hp & _ & U) Cv E.
    pose proof (inv_len _ _ _ _ _ _ I) as L.
    assert (Em : s = Untouched -> vals = []).
    { intros ->. destruct (i_shape _ _ _ _ _ _ I) as (-> & _). destruct vals; [reflexivity|discriminate]. }
    destruct o as [x|x|i x|i xs| | |i|i j|]; cbn [covered] in Cv; cbn [list_step] in E.
    - destruct s; discriminate.
    - destruct s; discriminate.
    - destruct s; [discriminate| |]; (destruct vals as [|v vals]; [discriminate|]);
        [destruct (position (v :: vals) i <=? length (v :: vals))
        |destruct (position (v :: vals) i <? length (v :: vals))]; discriminate.
    - destruct s; [discriminate| |]; (destruct vals as [|v vals]; [discriminate|]);
        [destruct (position (v :: vals) i <=? length (v :: vals))
        |destruct (position (v :: vals) i <? length (v :: vals))]; discriminate.
    - destruct s; try discriminate. destruct (2 <=? length vals); discriminate.
    - destruct vals as [|v [|w vals]]; try discriminate. cbn in Cv. injection Cv as ->.
      specialize (Em eq_refl). discriminate.
    - destruct (Nat.ltb_spec (position vals i) (length vals)) as [V|]; [|discriminate].
      destruct (S (position vals i) =? length vals); [discriminate|]. injection Cv as ->.
      rewrite (Em eq_refl) in V. cbn in V. lia.
    - destruct i as [i|]; [|discriminate].
      destruct (Nat.eqb_spec i 0) as [->|Ei]; destruct (Nat.eqb_spec (position vals j) (length vals)) as [Ej|Ej];
        cbn [andb] in Cv.
      + destruct s.
        * destruct (i_shape _ _ _ _ _ _ I) as (-> & Hh & _). specialize (Em eq_refl). subst vals.
          cbn [iterator_at advance bind] in E. destruct j as [j|]; cbn [iterator_at] in E.
          -- cbn in Ej. subst j. cbn [advance bind] in E.
             unfold list_erase_range, list_begin, list_end in E. rewrite Hh in E. cbn [ptr_eqb] in E.
             destruct fuel; cbn [pop_front_until] in E; [discriminate|]. rewrite Hh in E.
             cbn [ptr_eqb] in E. injection E as <-. apply U. reflexivity.
          -- cbn [bind] in E. unfold list_erase_range in E. rewrite !ptr_eqb_refl in E.
             apply (clean_last _ _ _ _ E).
        * assert (Hs : Whole <> Untouched) by discriminate.
          rewrite (iterator_at_ok _ _ _ _ _ _ j I Hs) in E by lia. cbn [bind iterator_at advance] in E.
          rewrite Ej, <- L, skipn_all in E. unfold list_erase_range in E. cbn [head_of] in E.
          rewrite !ptr_eqb_refl in E. apply (clean_last _ _ _ _ E).
        * assert (Hs : FrontOnly <> Untouched) by discriminate.
          rewrite (iterator_at_ok _ _ _ _ _ _ j I Hs) in E by lia. cbn [bind iterator_at advance] in E.
          rewrite Ej, <- L, skipn_all in E. unfold list_erase_range in E. cbn [head_of] in E.
          rewrite !ptr_eqb_refl in E. apply (clean_last _ _ _ _ E).
      + exfalso. destruct (Nat.ltb_spec 0 (length vals)) as [V|V]; cbn [andb] in Cv.
        * destruct ((0 <=? position vals j) && (position vals j <? length vals)).
          -- injection Cv as ->. rewrite (Em eq_refl) in V. cbn in V. lia.
          -- destruct s; try discriminate.
        * destruct s; discriminate.
      + exfalso. destruct ((i <? length vals) && (i <=? position vals j) && (position vals j <? length vals)) eqn:B.
        * injection Cv as ->. rewrite (Em eq_refl) in B. cbn in B. discriminate.
        * destruct s; try discriminate. destruct ((i <? length vals) && true); discriminate.
      + exfalso. destruct ((i <? length vals) && (i <=? position vals j) && (position vals j <? length vals)) eqn:B.
        * injection Cv as ->. rewrite (Em eq_refl) in B. cbn in B. discriminate.
        * destruct s; try discriminate. destruct ((i <? length vals) && false); discriminate.
    - apply (clean_last _ _ _ _ E).
  Qed.

  Lemma covered_next : forall h l s ns vals fuel o s',
    ninv h l s ns vals -> covered vals s o = Some s' -> length vals < fuel ->
    exists h' l' ns', list_step fuel h l o = Ok (h', l') /\ dl_id l' = dl_id l
      /\ ninv h' l' s' ns' (list_seq_step vals o).
  Proof.
    intros h l s ns vals fuel o s' NI Cv F. pose proof NI as (I & G & Hp & T & U).
    destruct (step_nodes_ok _ _ _ _ _ _ _ _ _ I Cv F) as (h' & l' & E & Id & I' & _).
    exists h', l', (list_seq_step ns (node_op (hp_fresh h) o)). split; [exact E|]. split; [exact Id|].
    split; [exact I'|]. rewrite Id.
    assert (G0 : good (dl_id l) (fun _ => False) 0 h) by (apply (good_weaken _ _ _ _ _ _ G); [tauto|lia]).
    assert (K : okl (dl_id l) l) by (split; [reflexivity|exact Hp]).
    split; [|split; [|split]].
    - assert (W : s' = FrontOnly \/ s' <> FrontOnly) by (destruct s'; [right|right|left]; congruence).
      destruct W as [->|W].
      + pose proof (tail_kept _ _ _ _ _ _ _ _ I G0 Cv E) as Et. cbn [snd] in Et.
        destruct s.
        * exfalso. destruct (i_shape _ _ _ _ _ _ I) as (Es & _). subst ns.
          pose proof (inv_len _ _ _ _ _ _ I) as L. destruct vals; [|discriminate].
          apply (untouched_front _ Cv).
        * destruct (i_shape _ _ _ _ _ _ I) as ((ns0 & t & En & Ht) & _).
          assert (Gt : good (dl_id l) (fun _ => False) (hp_fresh h) h).
          { apply (good_weaken _ _ _ _ _ _ G); [tauto|lia]. }
          destruct (step_good _ _ _ _ _ _ _ _ Gt K E) as [(G1 & G2 & G3 & G4) _]. cbn [fst] in *.
          split; [exact G1|]. split; [exact G2|]. split; [|lia].
          intros t' (_ & Ht'). assert (t' = t) by congruence. subst t'. split.
          -- assert (t < hp_fresh h); [|lia]. apply (i_fresh _ _ _ _ _ _ I).
             apply (inv_in_live _ _ _ _ _ _ _ I). rewrite En, in_app_iff. cbn; auto.
          -- destruct (live_dec h' (Heap t)) as [Lt|Lt]; [|exact Lt]. exfalso.
             apply (i_live _ _ _ _ _ _ I') in Lt. destruct Lt as [Lt|[]]. revert Lt.
             apply (last_gone vals ns ns0 t o Whole); auto.
             ++ apply (inv_len _ _ _ _ _ _ I).
             ++ apply (i_nodup _ _ _ _ _ _ I).
        * destruct (step_good _ _ _ _ _ _ _ _ G K E) as [G1 _]. cbn [fst] in G1.
          apply (good_weaken _ _ _ _ _ _ G1); [|lia]. intros t (_ & Ht). split; [reflexivity|congruence].
      + destruct (step_good _ _ _ _ _ _ _ _ G0 K E) as [G1 _]. cbn [fst] in G1.
        apply (good_weaken _ _ _ _ _ _ G1); [|lia]. intros t (Ht & _). congruence.
    - rewrite <- Id. apply (head_good _ _ _ _ _ I').
    - intros ->. pose proof (tail_kept _ _ _ _ _ _ _ _ I G0 Cv E) as Et. cbn [snd] in Et. rewrite Et.
      destruct s; [|destruct (i_shape _ _ _ _ _ _ I) as ((ns0 & t & En & Ht) & _); eauto|auto].
      exfalso. destruct (i_shape _ _ _ _ _ _ I) as (Es & _). subst ns.
      pose proof (inv_len _ _ _ _ _ _ I) as L. destruct vals; [|discriminate].
      apply (untouched_front _ Cv).
    - intros ->. apply (cleaned_last _ _ _ _ _ _ _ _ NI Cv E).
  Qed.

  (** A list that begins with a node that is gone, or with one that leads nowhere, cannot be walked. *)
  Lemma walk_dead : forall h l f, obj h (dl_head l) = None -> dl_head l <> PostLast (dl_id l) ->
    list_size (S f) h l = UB /\ list_forward (S f) h l = UB.
  Proof.
    intros h l f D N. unfold list_size, list_forward, list_begin, list_end. cbn [count_from walk_from].
    rewrite (ptr_eqb_neq _ _ N), get_none by exact D. split; reflexivity.
  Qed.
  Lemma walk_null : forall h l f n, dl_head l = Heap n -> obj h Null = None ->
    obj h (Heap n) <> None -> nxt h (Heap n) = Some Null ->
    list_size (S (S f)) h l = UB /\ list_forward (S (S f)) h l = UB.
  Proof.
    intros h l f n Hh D Lv Nx. unfold list_size, list_forward, list_begin, list_end. rewrite Hh.
    cbn [count_from walk_from ptr_eqb]. destruct (get_spec h (Heap n) Lv) as (c & E & N & _).
    rewrite E. cbn [bind]. rewrite N in Nx. injection Nx as ->.
    cbn [ptr_eqb]. rewrite get_none by exact D. split; reflexivity.
  Qed.

  (** A range put into an empty list without a last element. *)
  Lemma range_into_empty : forall h l it (x : A) xs fuel,
    inv h l FrontOnly [] [] [] -> 0 < fuel ->
    exists h' l' ns', list_insert_range fuel h l it (x :: xs) = Ok (h', l') /\ dl_id l' = dl_id l
      /\ inv h' l' Whole ns' (x :: xs) [].
  Proof.
    intros h l it x xs fuel I F. assert (Hs : FrontOnly <> Untouched) by discriminate.
    destruct (shape_split _ _ _ _ _ _ I Hs) as (T & Ch & Hh). cbn [head_of] in Hh.
    cbn [list_insert_range]. alloc (new_node_spec h x).
    destruct (make_chain_ok xs h0 (hp_fresh h)) as (h1 & E & K1 & K2 & K3 & K4 & K6 & K5).
    { back. decs. }
    { intros n. back. dec1; [injection e as e; lia|]. intros H.
      apply (i_fresh _ _ _ _ _ _ I) in H. lia. }
    rewrite E. cbn [bind]. clear E. rewrite F0 in *.
    set (cs := hp_fresh h :: seq (S (hp_fresh h)) (length xs)) in *.
    assert (Vc : Forall2 (fun n v => obj h1 (Heap n) = Some v) cs (x :: xs)).
    { constructor; [|exact K2]. rewrite K4. back. decs. }
    assert (Rc : forall n, In n cs -> hp_fresh h <= n < hp_fresh h1).
    { intros n [<-|Hn]; [lia|]. apply in_seq in Hn. lia. }
    assert (NDc : NoDup cs).
    { change cs with (seq (hp_fresh h) (S (length xs))). apply seq_NoDup. }
    assert (K : forall r, ~ In r (map Heap cs) -> hp_cell h1 r = hp_cell h r).
    { intros r Hr. rewrite K3 by exact Hr. apply C. intros E. apply Hr. left. exact E. }
    assert (NF : ~ In (PostFirst (dl_id l)) (map Heap cs)) by (intro; mem; congruence).
    assert (NL : ~ In (PostLast (dl_id l)) (map Heap cs)) by (intro; mem; congruence).
    assert (Of : obj h1 (PostFirst (dl_id l)) <> None).
    { unfold obj. rewrite K by exact NF. apply (i_first _ _ _ _ _ _ I). }
    assert (Ol : obj h1 (PostLast (dl_id l)) <> None).
    { unfold obj. rewrite K by exact NL. apply (i_last _ _ _ _ _ _ I). }
    assert (Hc1 : obj h1 (hd Null (map Heap cs)) <> None) by (inversion Vc; cbn; congruence).
    assert (Hc2 : obj h1 (last (map Heap cs) Null) <> None).
    { destruct (exists_last (l := cs)) as (c' & m & Ec); [discriminate|].
      rewrite Ec in Vc |- *. rewrite map_app. cbn [map]. rewrite last_last.
      apply Forall2_app_inv_l in Vc. destruct Vc as (? & ? & _ & V & _). inversion V; congruence. }
    assert (Hsz : list_size fuel h1 l = Ok 0).
    { unfold list_size. rewrite Hh. destruct fuel; [lia|]. cbn [count_from]. rewrite ptr_eqb_refl. reflexivity. }
    rewrite Hsz. cbn [bind Nat.eqb]. clear Hsz.
    assert (HD : hd Null (map Heap cs) = Heap (hp_fresh h)) by reflexivity.
    rewrite HD in Hc1.
    assert (LAin : In (last (map Heap cs) Null) (map Heap cs)) by (apply last_in; discriminate).
    assert (Ne1 : PostFirst (dl_id l) <> last (map Heap cs) Null)
      by (intro Q; apply NF; rewrite Q; exact LAin).
    assert (Ne3 : PostLast (dl_id l) <> last (map Heap cs) Null)
      by (intro Q; apply NL; rewrite Q; exact LAin).
    unfold update_links, update_head_links, update_tail_links. cbn [dl_id dl_head dl_tail].
    run (set_next_spec h1 (PostFirst (dl_id l)) (Heap (hp_fresh h))); [exact Of|].
    run (set_prev_spec h2 (Heap (hp_fresh h)) (PostFirst (dl_id l))); [back; auto|].
    run (set_prev_spec h3 (PostLast (dl_id l)) (last (map Heap cs) Null)); [back; auto|].
    run (set_next_spec h4 (last (map Heap cs) Null) (PostLast (dl_id l))); [back; auto|].
    eexists h5, _, cs. split; [reflexivity|]. split; [reflexivity|].
    match goal with |- inv _ ?l' _ _ _ _ => set (l1 := l') end.
    assert (LO : left_of (dl_id l) [] = PostFirst (dl_id l)) by reflexivity.
    assert (HO : head_of (dl_id l) [] = PostLast (dl_id l)) by reflexivity.
    assert (J : inv h5 l1 FrontOnly ([] ++ cs ++ []) ([] ++ (x :: xs) ++ []) []).
    { apply (splice_inv h l FrontOnly [] [] [] [] [] cs (x :: xs) h1 h5 l1); auto; try discriminate; try lia;
        rewrite ?LO, ?HO, ?HD.
      - intros r. back. reflexivity.
      - intros. back. decs.
      - intros. back. decs.
      - back. decs.
      - back. decs.
      - back. decs.
      - back. decs.
      - intros r R1 R2 R3. rewrite C3, C2, C1, C0; auto.
        + intros <-. apply R3. left. reflexivity.
        + intros <-. contradiction. }
    cbn [app] in J. rewrite !app_nil_r in J. destruct J as [J1 J2 J3 J4 J5 J6 J7 J8 [J9 J10]].
    constructor; auto. split; [|auto].
    destruct (exists_last (l := cs)) as (c' & q & Ec); [discriminate|].
    exists c', q. split; [exact Ec|]. subst l1. cbn [dl_tail]. rewrite Ec, map_app. apply last_last.
  Qed.

  (** Looking for a place that the walk from the back never comes to. *)
  Lemma stuck_back : forall fuel h l, dl_tail l = PostFirst (dl_id l) ->
    prv h (PostFirst (dl_id l)) = Some Null ->
    pop_back_until fuel h l (PostLast (dl_id l)) = Diverge.
  Proof.
    intros fuel h l Ht P.
    assert (E : list_pop_back h l = Ok (h, l)).
    { unfold list_pop_back. rewrite Ht. unfold prv in P. unfold get.
      destruct (hp_cell h (PostFirst (dl_id l))) as [[a b v]|]; [|discriminate].
      cbn in P. injection P as ->. reflexivity. }
    induction fuel as [|f IH]; [reflexivity|]. cbn [pop_back_until].
    rewrite Ht, E. cbn [ptr_eqb bind fst snd]. exact IH.
  Qed.
  Lemma pop_single_tail : forall h l n v ext h' l', inv h l Whole [n] [v] ext ->
    list_pop_back h l = Ok (h', l') -> dl_tail l' = PostFirst (dl_id l').
  Proof.
    intros h l n v ext h' l' I E. destruct (shape_split _ _ _ _ _ _ I) as (T & Ch & Hh); [discriminate|].
    destruct (T eq_refl) as (z & t & Ez & Ht). destruct z as [|y z]; [|destruct z; discriminate].
    injection Ez as <-. unfold list_pop_back in E. rewrite Ht in E. unbn E c.
    apply get_prev in Q. unfold chain in Ch. cbn in Ch.
    assert (Ec : n_prev c = PostFirst (dl_id l)) by intuition congruence. rewrite Ec in E.
    cbn [ptr_eqb dl_id dl_head dl_tail] in E. unb E. unb E. unb E. injection E as <- <-. reflexivity.
  Qed.
  Lemma back_hangs : forall ns0 h l t vals fuel, inv h l Whole (ns0 ++ [t]) vals [] ->
    good (dl_id l) (fun _ => False) 0 h ->
    pop_back_until fuel h l (PostLast (dl_id l)) = Diverge.
  Proof.
    induction ns0 as [|u z IH] using rev_ind; intros h l t vals fuel I G;
      (destruct fuel as [|f]; [reflexivity|]); cbn [pop_back_until];
      pose proof (inv_len _ _ _ _ _ _ I) as L; rewrite !app_length in L; cbn in L;
      (assert (K : okl (dl_id l) l) by (split; [reflexivity|apply (head_good _ _ _ _ _ I)]));
      destruct (i_shape _ _ _ _ _ _ I) as ((y & t' & Et & Ht) & _);
      apply app_inj_tail in Et; destruct Et as (_ & <-); rewrite Ht; cbn [ptr_eqb].
    - destruct vals as [|v [|w vals]]; try (cbn in L; lia). cbn [app] in I.
      destruct (pop_back_single _ _ _ _ _ I) as (h1 & l1 & E & Id & _). rewrite E. cbn [bind fst snd].
      rewrite <- Id. apply stuck_back; [apply (pop_single_tail _ _ _ _ _ _ _ I E)|].
      destruct (pop_back_good _ _ _ _ _ _ G K E) as ((_ & P & _) & _). rewrite Id. exact P.
    - destruct (exists_last (l := vals)) as (v0 & v & Ev); [intros ->; cbn in L; lia|]. subst vals.
      rewrite <- app_assoc in I. cbn [app] in I.
      destruct (pop_back_ok _ _ _ _ _ _ _ _ I) as (h1 & l1 & E & Id & I1 & _).
      destruct (pop_back_good _ _ _ _ _ _ G K E) as (G1 & _). cbn [fst] in G1.
      rewrite E. cbn [bind fst snd]. rewrite <- Id. apply (IH _ _ _ _ _ I1). rewrite Id. exact G1.
  Qed.

  (** What a call outside [covered] does. *)
  Lemma uncovered_next : forall h l s ns vals fuel o,
    ninv h l s ns vals -> list_documented vals o -> covered vals s o = None -> S (length vals) < fuel ->
    match uncovered vals s o with
    | Works s' => exists h' l' ns', list_step fuel h l o = Ok (h', l') /\ dl_id l' = dl_id l
        /\ ninv h' l' s' ns' (list_seq_step vals o)
    | Spoils => exists h' l', list_step fuel h l o = Ok (h', l')
        /\ list_size fuel h' l' = UB /\ list_forward fuel h' l' = UB
    | Breaks => list_step fuel h l o = UB
    | Hangs => list_step fuel h l o = Diverge
    end.
  Proof.
    intros h l s ns vals fuel o NI Dc Cv F. pose proof NI as (I & G & Hp & T & U).
    pose proof (inv_len _ _ _ _ _ _ I) as L.
    destruct fuel as [|fuel]; [lia|].
    assert (K : okl (dl_id l) l) by (split; [reflexivity|exact Hp]).
    pose proof (i_null _ _ _ _ _ _ I) as ON.
    destruct s.
    - (* Untouched *)
      destruct (i_shape _ _ _ _ _ _ I) as (-> & Hh & Ht). destruct vals; [|discriminate].
      assert (It : forall i, position (A := A) [] i <= 0 -> exists q, iterator_at h l i = Ok q).
      { intros [[|i]|] Hi; cbn in Hi |- *; eauto; lia. }
      destruct o as [x|x|i x|i xs| | |i|i j|]; cbn [covered list_documented length] in Cv, Dc;
        try discriminate; try congruence; cbn [list_step].
      + destruct (It i Dc) as (q & ->). cbn [bind uncovered]. unfold list_insert, list_size. rewrite Hh.
        cbn [count_from ptr_eqb]. rewrite get_none by exact ON. reflexivity.
      + destruct (It i Dc) as (q & ->). cbn [bind]. destruct xs as [|x xs]; cbn [uncovered].
        * exists h, l, []. split; [reflexivity|]. split; [reflexivity|].
          replace (list_seq_step [] (LInsertRange i [])) with (@nil A); [exact NI|].
          cbn. rewrite firstn_nil, skipn_nil. reflexivity.
        * cbn [list_insert_range]. alloc (new_node_spec h x).
          destruct (make_chain_ok xs h0 (hp_fresh h)) as (h1 & E & K1 & K2 & K3 & K4 & K6 & K5).
          { back. decs. }
          { intros n. back. dec1; [injection e as e; lia|]. intros H.
            apply (i_fresh _ _ _ _ _ _ I) in H. lia. }
          rewrite E. cbn [bind]. unfold list_size. rewrite Hh. cbn [count_from ptr_eqb].
          rewrite get_none; [reflexivity|]. unfold obj. rewrite K3 by (intro; mem; congruence).
          rewrite C by discriminate. exact ON.
      + lia.
      + destruct i as [i|].
        { cbn [position] in Dc. assert (i = 0) by lia. subst i. cbn [Nat.eqb andb] in Cv.
          assert (Ej : position (A := A) [] j = 0) by lia. rewrite Ej in Cv. discriminate. }
        cbn [uncovered iterator_at bind]. destruct j as [j|]; cbn [iterator_at].
        * cbn in Dc. assert (j = 0) by lia. subst j. cbn [advance bind].
          unfold list_erase_range, list_begin, list_end. rewrite Hh. cbn [ptr_eqb].
          destruct (get_spec h (PostLast (dl_id l)) (i_last _ _ _ _ _ _ I)) as (c & E & _ & P & _).
          rewrite E. cbn [bind]. rewrite (U eq_refl) in P. injection P as <-.
          unfold set_next. rewrite get_none by exact ON. reflexivity.
        * cbn [bind]. unfold list_erase_range, list_begin, list_end. rewrite Hh, ptr_eqb_refl.
          cbn [ptr_eqb pop_back_until]. rewrite Ht. cbn [ptr_eqb]. unfold list_pop_back. rewrite Ht.
          rewrite get_none by exact ON. reflexivity.
    - (* Whole *)
      assert (Hs : Whole <> Untouched) by discriminate.
      destruct (shape_split _ _ _ _ _ _ I Hs) as (_ & _ & Hh).
      destruct (i_shape _ _ _ _ _ _ I) as ((ns0 & t & En & Ht) & _).
      assert (Nv : vals <> []). { intros ->. subst ns. rewrite app_length in L. cbn in L. lia. }
      destruct o as [x|x|i x|i xs| | |i|i j|]; cbn [covered list_documented] in Cv, Dc;
        try discriminate; cbn [list_step].
      + destruct vals as [|v vals]; [congruence|].
        destruct (Nat.leb_spec (position (v :: vals) i) (length (v :: vals))); [discriminate|lia].
      + destruct vals as [|v vals]; [congruence|].
        destruct (Nat.leb_spec (position (v :: vals) i) (length (v :: vals))); [discriminate|lia].
      + destruct (Nat.leb_spec 2 (length vals)) as [|V]; [discriminate|].
        destruct vals as [|v [|w vals]]; [congruence| |cbn in V; lia].
        destruct ns as [|n [|? ?]]; try discriminate. cbn [uncovered].
        destruct (pop_back_single _ _ _ _ _ I) as (h1 & l1 & E & Id & Hh1 & Dn & _).
        exists h1, l1. split; [exact E|]. apply walk_dead; rewrite Hh1; [exact Dn|discriminate].
      + destruct vals as [|v [|w vals]]; [congruence|discriminate|discriminate].
      + destruct (Nat.ltb_spec (position vals i) (length vals)); [|lia].
        destruct (S (position vals i) =? length vals); discriminate.
      + assert (Q : position vals i = length vals /\ position vals j = length vals).
        { destruct i as [i|]; [|cbn [position] in *; lia]. cbn [position] in *.
          destruct (Nat.ltb_spec i (length vals)) as [V|V]; [exfalso|lia].
          destruct (Nat.eqb_spec (position vals j) (length vals)) as [Ej|Ej].
          - destruct (Nat.eqb_spec i 0); cbn [andb] in Cv; [discriminate|].
            destruct (Nat.leb_spec i (position vals j)); [|lia].
            destruct (position vals j <? length vals); discriminate.
          - rewrite andb_false_r in Cv. destruct (Nat.leb_spec i (position vals j)); [|lia].
            destruct (Nat.ltb_spec (position vals j) (length vals)); [discriminate|lia]. }
        destruct Q as [Q1 Q2]. cbn [uncovered].
        rewrite (iterator_at_ok _ _ _ _ _ _ i I Hs), (iterator_at_ok _ _ _ _ _ _ j I Hs) by lia.
        cbn [bind]. rewrite Q1, Q2, <- L, skipn_all. cbn [head_of].
        unfold list_erase_range, list_begin, list_end. rewrite ptr_eqb_refl, Hh.
        rewrite ptr_eqb_neq by (subst ns; destruct ns0; discriminate).
        rewrite En in I. rewrite (back_hangs _ _ _ _ _ _ I); [reflexivity|].
        apply (good_weaken _ _ _ _ _ _ G); [tauto|lia].
    - (* FrontOnly *)
      assert (Hs : FrontOnly <> Untouched) by discriminate.
      destruct (shape_split _ _ _ _ _ _ I Hs) as (_ & _ & Hh).
      destruct (T eq_refl) as (t & Ht).
      destruct G as (G1 & G2 & G3 & G4). destruct (G3 t (conj eq_refl Ht)) as (Ft & Dt).
      pose proof (head_null _ _ _ _ _ I Hs) as Hn.
      assert (PB : list_pop_back h l = UB).
      { unfold list_pop_back. rewrite Ht, get_none by exact Dt. reflexivity. }
      assert (Sz : list_size (S fuel) h l = Ok (length vals)).
      { apply (size_ok _ _ _ _ _ _ _ I Hs). lia. }
      assert (Hv : vals <> [] -> dl_head l <> PostLast (dl_id l)).
      { intros Nv. rewrite Hh. destruct ns; [destruct vals; [congruence|discriminate]|discriminate]. }
      destruct o as [x|x|i x|i xs| | |i|i j|]; cbn [covered list_documented] in Cv, Dc;
        try discriminate; cbn [list_step].
      + cbn [uncovered]. apply (push_back_dangling h l t x); auto. lia.
      + rewrite (iterator_at_ok _ _ _ _ _ _ i I Hs) by exact Dc. cbn [bind uncovered].
        unfold list_insert. rewrite Sz. cbn [bind]. destruct vals as [|v vals].
        * cbn [length Nat.eqb]. alloc (new_node_spec h x). eexists h0, _. split; [reflexivity|].
          destruct fuel as [|fuel]; [cbn in F; lia|].
          apply (walk_null h0 _ fuel (hp_fresh h)); [reflexivity| | |]; back; decs.
        * destruct (Nat.ltb_spec (position (v :: vals) i) (length (v :: vals))) as [|V]; [discriminate|].
          cbn [length Nat.eqb]. replace (position (v :: vals) i) with (length ns) by lia.
          rewrite skipn_all. cbn [head_of]. unfold list_begin, list_end. rewrite ptr_eqb_refl.
          rewrite ptr_eqb_neq by (intros E; apply Hv; [discriminate|congruence]).
          apply (push_back_dangling h l t x); auto. lia.
      + rewrite (iterator_at_ok _ _ _ _ _ _ i I Hs) by exact Dc. cbn [bind].
        destruct xs as [|x xs]; cbn [uncovered].
        { exists h, l, ns. split; [reflexivity|]. split; [reflexivity|]. cbn [list_seq_step app].
          rewrite firstn_skipn. exact NI. }
        destruct vals as [|v vals].
        * destruct ns; [|discriminate].
          destruct (range_into_empty h l (head_of (dl_id l) (skipn (position (A := A) [] i) [])) x xs
                      (S fuel) I) as (h1 & l1 & ns1 & E & Id & I1); [lia|].
          exists h1, l1, ns1. split; [exact E|]. split; [exact Id|].
          assert (Sq : list_seq_step [] (LInsertRange i (x :: xs)) = x :: xs).
          { cbn [list_seq_step]. rewrite firstn_nil, skipn_nil, app_nil_r. reflexivity. }
          rewrite Sq. split; [exact I1|]. rewrite Id.
          assert (G0 : good (dl_id l) (fun _ => False) 0 h) by (split; [auto|split; [auto|split; [tauto|lia]]]).
          assert (Hq : head_of (dl_id l) (skipn (position (A := A) [] i) []) <> PostFirst (dl_id l))
            by (rewrite skipn_nil; discriminate).
          destruct (insert_range_good _ _ _ _ _ _ _ _ _ G0 K Hq E) as ((G5 & K5 & K6) & _).
          split; [|split; [exact K6|split; discriminate]].
          apply (good_weaken _ _ _ _ _ _ G5); [intros ? (? & _); discriminate|lia].
        * destruct (Nat.ltb_spec (position (v :: vals) i) (length (v :: vals))) as [|V]; [discriminate|].
          replace (position (v :: vals) i) with (length ns) by lia. rewrite skipn_all. cbn [head_of].
          cbn [list_insert_range]. alloc (new_node_spec h x).
          destruct (make_chain_ok xs h0 (hp_fresh h)) as (h1 & E & K1 & K2 & K3 & K4 & K6 & K5).
          { back. decs. }
          { intros n. back. dec1; [injection e as e; lia|]. intros H.
            apply (i_fresh _ _ _ _ _ _ I) in H. lia. }
          rewrite E. cbn [bind]. rewrite F0 in *.
          set (cs := hp_fresh h :: seq (S (hp_fresh h)) (length xs)) in *.
          assert (Rc : forall n, In n cs -> hp_fresh h <= n).
          { intros n [<-|Hn']; [lia|]. apply in_seq in Hn'. lia. }
          assert (Kc : forall r, ~ In r (map Heap cs) -> hp_cell h1 r = hp_cell h r).
          { intros r Hr. rewrite K3 by exact Hr. apply C. intros E'. apply Hr. left. exact E'. }
          assert (Old : forall r, obj h r <> None -> ~ In r (map Heap cs)).
          { intros r Hr M. apply in_map_iff in M. destruct M as (n & <- & Hn'). apply Rc in Hn'.
            apply (i_fresh _ _ _ _ _ _ I) in Hr. lia. }
          assert (Ch1 : chain h1 (dl_id l) ([] ++ ns)).
          { destruct (shape_split _ _ _ _ _ _ I Hs) as (_ & Ch & _).
            unfold chain in *. cbn [app]. apply seg_frame with (h := h); auto.
            - intros p Hp'. unfold nxt. rewrite Kc; auto. apply Old.
              destruct Hp' as [<-|Hp']; [apply (i_first _ _ _ _ _ _ I)|].
              apply in_map_iff in Hp'. destruct Hp' as (n & <- & Hn').
              apply (inv_in_live _ _ _ _ _ _ _ I Hn').
            - intros p Hp'. unfold prv. rewrite Kc; auto. apply Old.
              apply in_app_iff in Hp'. destruct Hp' as [Hp'|[<-|[]]]; [|apply (i_last _ _ _ _ _ _ I)].
              apply in_map_iff in Hp'. destruct Hp' as (n & <- & Hn').
              apply (inv_in_live _ _ _ _ _ _ _ I Hn'). }
          assert (Hsz : list_size (S fuel) h1 l = Ok (length ns)).
          { unfold list_size. rewrite Hh. apply (count_ok _ _ _ []); auto; [|lia].
            intros n Hn'. unfold obj. rewrite Kc.
            - apply (inv_in_live _ _ _ _ _ _ _ I Hn').
            - apply Old. apply (inv_in_live _ _ _ _ _ _ _ I Hn'). }
          rewrite Hsz, L. cbn [bind length Nat.eqb].
          unfold list_begin, list_end. rewrite ptr_eqb_refl.
          rewrite ptr_eqb_neq by (intros E'; apply Hv; [discriminate|congruence]).
          rewrite Ht. run (set_prev_spec h1 (Heap (hp_fresh h)) (Heap t)); [rewrite K4; back; decs|].
          unfold set_next at 1. rewrite get_none; [reflexivity|]. back. unfold obj. rewrite Kc; [exact Dt|].
          intros M. apply in_map_iff in M. destruct M as (n & En & Hn'). injection En as ->.
          apply Rc in Hn'. lia.
      + cbn [uncovered]. exact PB.
      + destruct vals as [|v [|w vals]]; [congruence|discriminate|discriminate].
      + destruct (Nat.ltb_spec (position vals i) (length vals)); [|lia].
        destruct (S (position vals i) =? length vals); discriminate.
      + rewrite (iterator_at_ok _ _ _ _ _ _ i I Hs), (iterator_at_ok _ _ _ _ _ _ j I Hs) by lia.
        cbn [bind uncovered]. destruct vals as [|v vals].
        * destruct ns; [|discriminate]. rewrite !skipn_nil. cbn [head_of] in *.
          unfold list_erase_range, list_begin, list_end. rewrite Hh, ptr_eqb_refl.
          destruct (clean_ok _ _ _ _ _ _ (S fuel) I) as (h1 & l1 & E & Id & I1 & _); [cbn; lia|].
          exists h1, l1, []. split; [exact E|]. split; [exact Id|].
          assert (Sq : list_seq_step (A := A) [] (LEraseRange i j) = []).
          { cbn [list_seq_step]. rewrite firstn_nil, skipn_nil. reflexivity. }
          rewrite Sq. split; [exact I1|]. rewrite Id.
          assert (G0 : good (dl_id l) (fun _ => False) 0 h) by (split; [auto|split; [auto|split; [tauto|lia]]]).
          destruct (clean_good _ _ _ _ _ _ _ G0 K E) as (G5 & K5 & K6).
          split; [apply (good_weaken _ _ _ _ _ _ G5); [intros ? (? & _); discriminate|lia]|].
          split; [exact K6|]. split; [discriminate|]. intros _. apply (clean_last _ _ _ _ E).
        * assert (Q : position (v :: vals) i <> 0 /\ position (v :: vals) j = length (v :: vals)).
          { destruct i as [i|]; [|cbn [position] in *; cbn [length] in *; lia]. cbn [position] in *.
            destruct (Nat.eqb_spec (position (v :: vals) j) (length (v :: vals))) as [Ej|Ej].
            - destruct (Nat.eqb_spec i 0); cbn [andb] in Cv; [discriminate|]. auto.
            - exfalso. rewrite andb_false_r in Cv.
              destruct (Nat.leb_spec i (position (v :: vals) j)); [|lia].
              destruct (Nat.ltb_spec (position (v :: vals) j) (length (v :: vals))); [|lia].
              destruct (Nat.ltb_spec i (length (v :: vals))); [discriminate|lia]. }
          destruct Q as [Q1 Q2]. rewrite Q2, <- L, skipn_all. cbn [head_of].
          unfold list_erase_range, list_begin, list_end. rewrite ptr_eqb_refl, Hh.
          set (p := position (v :: vals) i) in *.
          assert (NB : head_of (dl_id l) (skipn p ns) <> head_of (dl_id l) ns).
          { pose proof (i_nodup _ _ _ _ _ _ I) as ND. destruct ns as [|n ns]; [discriminate|].
            destruct p as [|p]; [congruence|]. cbn [skipn head_of].
            destruct (skipn p ns) as [|m ns'] eqn:Ek; cbn [head_of]; [discriminate|].
            intros E. injection E as ->. inversion ND as [|? ? N1 N2]; subst. apply N1.
            rewrite <- (firstn_skipn p ns), in_app_iff, Ek. cbn; auto. }
          rewrite (ptr_eqb_neq _ _ NB). cbn [pop_back_until]. rewrite Ht.
          rewrite ptr_eqb_neq.
          -- rewrite PB. reflexivity.
          -- destruct (head_of_cases (dl_id l) (skipn p ns)) as [(_ & ->)|(m & ns' & Ek & ->)];
               [discriminate|]. intros E. injection E as ->.
             apply (inv_in_live _ _ _ _ _ _ m I); [|exact Dt].
             rewrite <- (firstn_skipn p ns), in_app_iff, Ek. cbn; auto.
  Qed.

  Lemma story_done : forall (os : list (list_op A)) vals s done k,
    list_story vals s done os = Spoiled k -> done < k.
  Proof.
    induction os as [|o os IH]; intros vals s done k E; cbn [list_story] in E; [discriminate|].
    destruct (next_call vals s o); try discriminate.
    - apply IH in E. lia.
    - injection E as <-. lia.
  Qed.

  Lemma story_run : forall (os : list (list_op A)) s vals done, list_documented_run vals os ->
    exists N, forall fuel, N <= fuel -> forall h l ns, ninv h l s ns vals ->
      match list_story vals s done os with
      | AllWork s' => exists h' l' ns', list_run fuel h l os = Ok (h', l') /\ dl_id l' = dl_id l
          /\ ninv h' l' s' ns' (list_seq_run vals os)
      | Spoiled k => exists h' l', list_run fuel h l (firstn (k - done) os) = Ok (h', l')
          /\ list_size fuel h' l' = UB /\ list_forward fuel h' l' = UB
      | Broken => list_run fuel h l os = UB
      | Hung => list_run fuel h l os = Diverge
      end.
  Proof.
    induction os as [|o os IH]; intros s vals done Dc; cbn [list_story list_run].
    { exists 0. intros fuel _ h l ns NI. exists h, l, ns. auto. }
    destruct Dc as [D1 D2]. unfold next_call.
    assert (Hstep : forall fuel, S (length vals) < fuel -> forall h l ns, ninv h l s ns vals ->
      match (match covered vals s o with Some s' => Works s' | None => uncovered vals s o end) with
      | Works s' => exists h' l' ns', list_step fuel h l o = Ok (h', l') /\ dl_id l' = dl_id l
          /\ ninv h' l' s' ns' (list_seq_step vals o)
      | Spoils => exists h' l', list_step fuel h l o = Ok (h', l')
          /\ list_size fuel h' l' = UB /\ list_forward fuel h' l' = UB
      | Breaks => list_step fuel h l o = UB
      | Hangs => list_step fuel h l o = Diverge
      end).
    { intros fuel F h l ns NI. destruct (covered vals s o) as [s'|] eqn:Cv.
      - apply (covered_next _ _ _ _ _ _ _ _ NI Cv). lia.
      - apply (uncovered_next _ _ _ _ _ _ _ NI D1 Cv F). }
    destruct (match covered vals s o with Some s' => Works s' | None => uncovered vals s o end) as [s'| | |].
    - destruct (IH s' _ (S done) D2) as (N & HN).
      exists (N + S (S (length vals))). intros fuel F h l ns NI.
      destruct (Hstep fuel ltac:(lia) h l ns NI) as (h1 & l1 & ns1 & E1 & Id1 & N1).
      specialize (HN fuel ltac:(lia) _ _ _ N1).
      destruct (list_story (list_seq_step vals o) s' (S done) os) as [s2|k| |] eqn:Es.
      + destruct HN as (h2 & l2 & ns2 & E2 & Id2 & N2). exists h2, l2, ns2. rewrite E1. cbn [bind fst snd].
        split; [exact E2|]. split; [congruence|exact N2].
      + destruct HN as (h2 & l2 & E2 & W). exists h2, l2. apply story_done in Es.
        replace (k - done) with (S (k - S done)) by lia. cbn [firstn list_run]. rewrite E1. cbn [bind fst snd].
        auto.
      + rewrite E1. exact HN.
      + rewrite E1. exact HN.
    - exists (S (S (length vals))). intros fuel F h l ns NI.
      destruct (Hstep fuel ltac:(lia) h l ns NI) as (h1 & l1 & E1 & W).
      exists h1, l1. replace (S done - done) with 1 by lia. cbn [firstn list_run]. rewrite E1. auto.
    - exists (S (S (length vals))). intros fuel F h l ns NI. rewrite (Hstep fuel ltac:(lia) h l ns NI).
      reflexivity.
    - exists (S (S (length vals))). intros fuel F h l ns NI. rewrite (Hstep fuel ltac:(lia) h l ns NI).
      reflexivity.
  Qed.

  Lemma new_ninv : forall dflt : A,
    ninv (fst (list_new dflt empty_heap 0)) (snd (list_new dflt empty_heap 0)) Untouched [] [].
  Proof.
    intros dflt. split; [apply new_inv|]. split.
    - split; [|split; [reflexivity|split; [|lia]]].
      + intros [|o|o|n]; unfold nxt; cbn; try discriminate; destruct o; discriminate.
      + intros t (E & _). discriminate.
    - split; [discriminate|]. split; [discriminate|reflexivity].
  Qed.
End Next.

(** C17, the whole account of one list. Whatever calls of a sequence container are made on a new list, in
    whatever order, [list_story] says how it goes: when all of them work the walk forward gives the
    sequence, the walk back its reverse (unless the last element was removed by popFront() or erase(it))
    and the destructor leaves nothing; otherwise the first call that does not work makes the rest
    undefined, never returns, or returns and leaves a list that cannot be asked for its size or walked. *)
Theorem C17_exact_partial :
  forall (A : Type) (dflt : A) (os : list (list_op A)),
    list_documented_run [] os ->
    exists N, forall fuel, N <= fuel ->
      match list_story [] Untouched 0 os with
      | AllWork s => exists h l,
          list_history dflt fuel os = Ok (h, l)
          /\ (s = Untouched -> list_seq_run [] os = []
                /\ list_size fuel h l = UB /\ list_forward fuel h l = UB)
          /\ (s <> Untouched ->
                list_size fuel h l = Ok (length (list_seq_run [] os))
                /\ list_forward fuel h l = Ok (list_seq_run [] os))
          /\ (s = Whole -> list_backward fuel h l = Ok (rev (list_seq_run [] os)))
          /\ (s <> Whole -> list_backward fuel h l = UB)
          /\ node_count h (length (list_seq_run [] os))
          /\ (exists h' l', list_clean fuel h l = Ok (h', l') /\ no_nodes h')
      | Spoiled k => exists h l,
          list_history dflt fuel (firstn k os) = Ok (h, l)
          /\ list_size fuel h l = UB /\ list_forward fuel h l = UB
      | Broken => list_history dflt fuel os = UB
      | Hung => list_history dflt fuel os = Diverge
      end.
Proof.
  intros A dflt os Dc. destruct (story_run os Untouched [] 0 Dc) as (N & HN).
  exists (N + S (length (list_seq_run [] os))). intros fuel F.
  specialize (HN fuel ltac:(lia) _ _ _ (new_ninv dflt)).
  destruct (list_story [] Untouched 0 os) as [s|k| |].
  - destruct HN as (h & l & ns & R & _ & NI). destruct NI as (I & G & _ & T & _).
    exists h, l. split; [exact R|].
    destruct fuel as [|f]; [lia|].
    split; [|split; [|split; [|split; [|split]]]].
    + intros ->. destruct (i_shape _ _ _ _ _ _ I) as (-> & Hh & _).
      pose proof (i_vals _ _ _ _ _ _ I) as V. inversion V as [E|]. split; [reflexivity|].
      apply walk_dead; rewrite Hh; [apply (i_null _ _ _ _ _ _ I)|discriminate].
    + intros Hs. split; [apply (size_ok _ _ _ _ _ _ _ I Hs)|apply (forward_ok _ _ _ _ _ _ _ I Hs)]; lia.
    + intros ->. apply (backward_ok _ _ _ _ _ _ I). lia.
    + intros Hs. unfold list_backward. cbn [walk_back]. destruct s; [|congruence|].
      * destruct (i_shape _ _ _ _ _ _ I) as (_ & _ & ->). cbn [ptr_eqb].
        rewrite get_none by apply (i_null _ _ _ _ _ _ I). reflexivity.
      * destruct (T eq_refl) as (t & Ht). rewrite Ht. cbn [ptr_eqb].
        destruct G as (_ & _ & G & _). rewrite get_none by (apply (G t); split; auto). reflexivity.
    + apply (inv_count _ _ _ _ _ I).
    + destruct (clean_ok _ _ _ _ _ _ (S f) I) as (h' & l' & E & _ & I' & _); [lia|].
      exists h', l'. split; [exact E|]. apply (inv_none _ _ _ I').
  - rewrite Nat.sub_0_r in HN. exact HN.
  - exact HN.
  - exact HN.
Qed.

Example list_exact_case :
  list_documented_run [] [LPushBack 1; LPushFront 2; LPopFront; LErase (Some 0); LInsertRange None [3; 4];
                          LPopBack; LPushBack 5; LInsertRange (Some 1) []]
  /\ list_story [] Untouched 0 [LPushBack 1; LPushFront 2; LPopFront; LErase (Some 0);
       LInsertRange None [3; 4]; LPopBack; LPushBack 5; LInsertRange (Some 1) []] = AllWork Whole
  /\ list_documented_run [] [LPushBack 1; LPopFront; LInsert None 2; LPushBack 3]
  /\ list_story [] Untouched 0 [LPushBack 1; LPopFront; LInsert None 2; LPushBack 3] = Spoiled 3
  /\ list_documented_run [] [LPushBack 1; LPopBack]
  /\ list_story [] Untouched 0 [LPushBack 1; LPopBack] = Spoiled 2
  /\ list_documented_run [] [LPushBack 1; LPushBack 2; LEraseRange (Some 2) None; LPopBack]
  /\ list_story [] Untouched 0 [LPushBack 1; LPushBack 2; LEraseRange (Some 2) None; LPopBack] = Hung
  /\ list_documented_run [] [LInsert None 1]
  /\ list_story [] Untouched 0 [LInsert None 1] = Broken.
Proof. cbn. repeat split; try lia; discriminate. Qed.
Print Assumptions C17_exact_partial.
