(** Proofs about the List model, second part: walking, insertion and removal in the middle,
    clean(), and every call of the interface. *)
From Coq Require Import List Arith Bool Lia.
From Verif Require Import Base BaseLemmas ListModel ListSpec ListProofs.
Import ListNotations.

Section Ops.
  Context {A : Type}.
  Implicit Types h : heap A.

  Lemma chain_cut : forall h o ns1 ns2, chain h o (ns1 ++ ns2) ->
    nxt h (left_of o ns1) = Some (head_of o ns2) /\ prv h (head_of o ns2) = Some (left_of o ns1).
  Proof.
    intros h o ns1 ns2 Ch. apply chain_links in Ch. rewrite map_app, <- app_assoc in Ch.
    change (PostFirst o :: map Heap ns1 ++ map Heap ns2 ++ [PostLast o])
      with ((PostFirst o :: map Heap ns1) ++ (map Heap ns2 ++ [PostLast o])) in Ch.
    apply (links_cut h _ Null _ Null) in Ch; [|discriminate|destruct ns2; discriminate].
    rewrite <- (head_of_hd o ns2 Null) in Ch. tauto.
  Qed.

  Lemma chain_next : forall h o ns1 n ns2, chain h o (ns1 ++ n :: ns2) ->
    nxt h (Heap n) = Some (head_of o ns2).
  Proof.
    intros h o ns1 n ns2 Ch. replace (ns1 ++ n :: ns2) with ((ns1 ++ [n]) ++ ns2) in Ch
      by (rewrite <- app_assoc; reflexivity).
    apply chain_cut in Ch. destruct Ch as (Ch & _). unfold left_of in Ch.
    rewrite map_app in Ch. cbn [map] in Ch.
    change (PostFirst o :: map Heap ns1 ++ [Heap n]) with ((PostFirst o :: map Heap ns1) ++ [Heap n]) in Ch.
    rewrite last_last in Ch. exact Ch.
  Qed.

  Lemma left_of_snoc : forall o ns n, left_of o (ns ++ [n]) = Heap n.
  Proof.
    intros. unfold left_of. rewrite map_app. cbn [map].
    change (PostFirst o :: map Heap ns ++ [Heap n]) with ((PostFirst o :: map Heap ns) ++ [Heap n]).
    apply last_last.
  Qed.

  Lemma left_of_cases : forall o ns,
    (ns = [] /\ left_of o ns = PostFirst o)
    \/ (exists ns0 n, ns = ns0 ++ [n] /\ left_of o ns = Heap n).
  Proof.
    intros o ns. destruct ns as [|x ns] using rev_ind; [left; auto|].
    right. exists ns, x. split; [reflexivity|apply left_of_snoc].
  Qed.

  Lemma head_of_cases : forall o ns,
    (ns = [] /\ head_of o ns = PostLast o)
    \/ (exists n ns0, ns = n :: ns0 /\ head_of o ns = Heap n).
  Proof. intros o [|n ns]; [left; auto|right; eauto]. Qed.

  (** Walks. *)
  Lemma count_ok : forall h o ns pre fuel, chain h o (pre ++ ns) ->
    (forall n, In n ns -> obj h (Heap n) <> None) -> length ns < fuel ->
    count_from fuel h o (head_of o ns) = Ok (length ns).
  Proof.
    intros h o. induction ns as [|n ns IH]; intros pre fuel Ch L F;
      (destruct fuel as [|f]; [cbn in F; lia|]); cbn [count_from head_of].
    - rewrite ptr_eqb_refl. reflexivity.
    - rewrite ptr_eqb_neq by discriminate. peek (get_spec h (Heap n)); [apply L; left; reflexivity|].
      rewrite (chain_next _ _ _ _ _ Ch) in GN. injection GN as GN. rewrite <- GN.
      rewrite (IH (pre ++ [n])).
      + reflexivity.
      + rewrite <- app_assoc. exact Ch.
      + intros k Hk. apply L. right; exact Hk.
      + cbn in F. lia.
  Qed.

  Lemma walk_ok : forall h o ns vals pre fuel, chain h o (pre ++ ns) ->
    Forall2 (fun n v => obj h (Heap n) = Some v) ns vals -> length ns < fuel ->
    walk_from fuel h (PostLast o) (head_of o ns) = Ok vals.
  Proof.
    intros h o. induction ns as [|n ns IH]; intros vals pre fuel Ch V F;
      (destruct fuel as [|f]; [cbn in F; lia|]); inversion V; subst; cbn [walk_from head_of].
    - rewrite ptr_eqb_refl. reflexivity.
    - rewrite ptr_eqb_neq by discriminate. peek (get_spec h (Heap n)); [congruence|].
      rewrite (chain_next _ _ _ _ _ Ch) in GN. injection GN as GN. rewrite <- GN.
      rewrite (IH l' (pre ++ [n])).
      + cbn [bind]. congruence.
      + rewrite <- app_assoc. exact Ch.
      + assumption.
      + cbn in F. lia.
  Qed.

  Lemma walk_back_ok : forall h o ns vals suf fuel, chain h o (ns ++ suf) ->
    Forall2 (fun n v => obj h (Heap n) = Some v) ns vals -> length ns < fuel ->
    walk_back fuel h (PostFirst o) (left_of o ns) = Ok (rev vals).
  Proof.
    intros h o. induction ns as [|n ns IH] using rev_ind; intros vals suf fuel Ch V F;
      (destruct fuel as [|f]; [rewrite ?app_length in F; cbn in F; lia|]).
    - inversion V; subst. cbn [walk_back left_of map last]. unfold left_of. cbn [map last].
      rewrite ptr_eqb_refl. reflexivity.
    - apply Forall2_app_inv_l in V. destruct V as (v1 & v2 & V1 & V2 & ->).
      inversion V2 as [|? v ? ? V3 V4]; subst. inversion V4; subst.
      rewrite left_of_snoc. cbn [walk_back]. rewrite ptr_eqb_neq by discriminate.
      peek (get_spec h (Heap n)); [congruence|].
      rewrite <- app_assoc in Ch.
      pose proof (chain_cut _ _ _ _ Ch) as (_ & K). cbn [app head_of] in K.
      rewrite K in GP. injection GP as GP. rewrite <- GP.
      rewrite (IH v1 ([n] ++ suf)); auto.
      + cbn [bind]. rewrite rev_app_distr. cbn. congruence.
      + rewrite app_length in F. cbn in F. lia.
  Qed.

  Lemma advance_ok : forall h o ns i pre, chain h o (pre ++ ns) ->
    (forall n, In n ns -> obj h (Heap n) <> None) -> i <= length ns ->
    advance h (head_of o ns) i = Ok (head_of o (skipn i ns)).
  Proof.
    intros h o ns i. revert ns. induction i as [|i IH]; intros ns pre Ch L Hi; [reflexivity|].
    destruct ns as [|n ns]; [cbn in Hi; lia|]. cbn [advance head_of skipn].
    peek (get_spec h (Heap n)); [apply L; left; reflexivity|].
    rewrite (chain_next _ _ _ _ _ Ch) in GN. injection GN as GN. rewrite <- GN.
    apply (IH ns (pre ++ [n])).
    - rewrite <- app_assoc. exact Ch.
    - intros k Hk. apply L. right; exact Hk.
    - cbn in Hi. lia.
  Qed.

  (** Nodes [mid] are gone, everything else is as before. *)
  Definition removed h (mid : list nat) h' : Prop :=
    (forall n, In n mid -> hp_cell h' (Heap n) = None)
    /\ (forall r, ~ In r (map Heap mid) -> hp_cell h' r = hp_cell h r)
    /\ hp_fresh h' = hp_fresh h.

  Lemma removed_cell : forall h mid h', removed h mid h' -> forall r, ~ In r (map Heap mid) ->
    nxt h' r = nxt h r /\ prv h' r = prv h r /\ obj h' r = obj h r.
  Proof. intros h mid h' (_ & H & _) r Hr. unfold nxt, prv, obj. rewrite H by exact Hr. auto. Qed.

  Lemma removed_gone : forall h mid h' n, removed h mid h' -> In n mid -> obj h' (Heap n) = None.
  Proof. intros h mid h' n (H & _) Hn. unfold obj. rewrite H by exact Hn. reflexivity. Qed.

  Lemma delete_until_ok : forall o mid h rest fuel,
    (forall m1 n m2, mid = m1 ++ n :: m2 -> nxt h (Heap n) = Some (head_of o (m2 ++ rest))) ->
    (forall n, In n mid -> obj h (Heap n) <> None) -> NoDup (mid ++ rest) -> length mid < fuel ->
    exists h', delete_until fuel h (head_of o (mid ++ rest)) (head_of o rest) = Ok h'
      /\ removed h mid h'.
  Proof.
    intros o. induction mid as [|n mid IH]; intros h rest fuel Hn L ND F;
      (destruct fuel as [|f]; [cbn in F; lia|]); cbn [delete_until].
    - cbn [app]. rewrite ptr_eqb_refl. exists h. split; [reflexivity|].
      split; [intros n []|]. split; auto.
    - cbn [app head_of] in *. inversion ND as [|? ? N1 N2]; subst.
      rewrite ptr_eqb_neq.
      2:{ destruct rest as [|k rest]; [discriminate|]. cbn. intros E. injection E as ->.
          apply N1, in_app_iff. cbn; auto. }
      peek (get_spec h (Heap n)); [apply L; left; reflexivity|].
      rewrite (Hn [] n mid eq_refl) in GN. injection GN as GN.
      run (delete_spec h n); [apply L; left; reflexivity|].
      rewrite <- GN.
      destruct (IH h0 rest f) as (h' & E & R1 & R2 & R3).
      + intros m1 k m2 ->. back. decs.
        apply (Hn (n :: m1) k m2). reflexivity.
      + intros k Hk. back. decs.
        apply L. right; exact Hk.
      + exact N2.
      + cbn in F. lia.
      + exists h'. split; [exact E|]. split; [|split].
        * intros k [<-|Hk]; [|apply R1; exact Hk].
          rewrite R2.
          -- clear - O. specialize (O (Heap n)). unfold obj in O.
             destruct (ptr_dec (Heap n) (Heap n)); [|congruence].
             destruct (hp_cell h0 (Heap n)); [discriminate|reflexivity].
          -- intros M. apply N1. rewrite in_app_iff. mem; subst; auto.
        * intros r Hr. cbn in Hr. rewrite R2 by tauto. apply C. tauto.
        * congruence.
  Qed.

  Lemma clean_from_ok : forall o mid h fuel,
    (forall m1 n m2, mid = m1 ++ n :: m2 -> nxt h (Heap n) = Some (head_of o m2)) ->
    (forall n, In n mid -> obj h (Heap n) <> None) -> NoDup mid -> length mid < fuel ->
    exists h', clean_from fuel h o (head_of o mid) = Ok h' /\ removed h mid h'.
  Proof.
    intros o. induction mid as [|n mid IH]; intros h fuel Hn L ND F;
      (destruct fuel as [|f]; [cbn in F; lia|]); cbn [clean_from].
    - cbn [head_of]. rewrite ptr_eqb_refl, orb_true_r. exists h. split; [reflexivity|].
      split; [intros n []|]. split; auto.
    - cbn [head_of] in *. inversion ND as [|? ? N1 N2]; subst. cbn [ptr_eqb orb].
      peek (get_spec h (Heap n)); [apply L; left; reflexivity|].
      rewrite (Hn [] n mid eq_refl) in GN. injection GN as GN.
      run (delete_spec h n); [apply L; left; reflexivity|].
      rewrite <- GN.
      destruct (IH h0 f) as (h' & E & R1 & R2 & R3).
      + intros m1 k m2 ->. back. decs.
        apply (Hn (n :: m1) k m2). reflexivity.
      + intros k Hk. back. decs.
        apply L. right; exact Hk.
      + exact N2.
      + cbn in F. lia.
      + exists h'. split; [exact E|]. split; [|split].
        * intros k [<-|Hk]; [|apply R1; exact Hk].
          rewrite R2.
          -- clear - O. specialize (O (Heap n)). unfold obj in O.
             destruct (ptr_dec (Heap n) (Heap n)); [|congruence].
             destruct (hp_cell h0 (Heap n)); [discriminate|reflexivity].
          -- intros M. apply N1. mem; subst; auto.
        * intros r Hr. cbn in Hr. rewrite R2 by tauto. apply C. tauto.
        * congruence.
  Qed.

  (** clean(). *)
  Lemma clean_ok : forall h l s ns vals ext fuel,
    inv h l s ns vals ext -> length vals < fuel ->
    post h l ns ext (list_clean fuel h l) Untouched [] [].
  Proof.
    intros h l s ns vals ext fuel I F.
    rewrite <- (inv_len _ _ _ _ _ _ I) in F.
    assert (R : exists h', clean_from fuel h (dl_id l) (dl_head l) = Ok h' /\ removed h ns h').
    { destruct s eqn:Es.
      - destruct (i_shape _ _ _ _ _ _ I) as (-> & Hh & _). rewrite Hh.
        exists h. destruct fuel; [cbn in F; lia|]. split; [reflexivity|].
        split; [intros n []|]. split; auto.
      - destruct (shape_split _ _ _ _ _ _ I) as (_ & Ch & Hh); [discriminate|]. rewrite Hh.
        apply clean_from_ok; auto.
        + intros m1 n m2 ->. apply chain_next in Ch. exact Ch.
        + intros n Hn. apply (inv_in_live _ _ _ _ _ _ _ I Hn).
        + apply (i_nodup _ _ _ _ _ _ I).
      - destruct (shape_split _ _ _ _ _ _ I) as (_ & Ch & Hh); [discriminate|]. rewrite Hh.
        apply clean_from_ok; auto.
        + intros m1 n m2 ->. apply chain_next in Ch. exact Ch.
        + intros n Hn. apply (inv_in_live _ _ _ _ _ _ _ I Hn).
        + apply (i_nodup _ _ _ _ _ _ I). }
    destruct R as (h0 & E & R). unfold list_clean. rewrite E. cbn [bind]. clear E.
    pose proof (removed_cell _ _ _ R) as RC.
    assert (NF : ~ In (PostFirst (dl_id l)) (map Heap ns)) by (intro; mem; congruence).
    assert (NL : ~ In (PostLast (dl_id l)) (map Heap ns)) by (intro; mem; congruence).
    assert (NN : ~ In Null (map Heap ns)) by (intro; mem; congruence).
    assert (L1 : obj h0 (PostFirst (dl_id l)) <> None).
    { destruct (RC _ NF) as (_ & _ & ->). apply (i_first _ _ _ _ _ _ I). }
    assert (L2 : obj h0 (PostLast (dl_id l)) <> None).
    { destruct (RC _ NL) as (_ & _ & ->). apply (i_last _ _ _ _ _ _ I). }
    unfold clean_links. cbn [dl_id].
    run (set_prev_spec h0 (PostFirst (dl_id l)) Null); [exact L1|].
    run (set_next_spec h1 (PostFirst (dl_id l)) Null); [back; decs|].
    run (set_prev_spec h2 (PostLast (dl_id l)) Null); [back; decs|].
    run (set_next_spec h3 (PostLast (dl_id l)) Null); [back; decs|].
    eexists h4, _. split; [reflexivity|]. split; [reflexivity|]. split.
    - constructor; cbn [dl_id dl_head dl_tail].
      + back; decs.
      + back; decs.
      + back. destruct (RC _ NN) as (_ & _ & ->). apply (i_null _ _ _ _ _ _ I).
      + constructor.
      + intros n [].
      + intros n. back. destruct (in_dec Nat.eq_dec n ns) as [Hn|Hn].
        * rewrite (removed_gone _ _ _ _ R Hn). split; [congruence|]. intros [[]|H].
          exfalso. apply (i_ext _ _ _ _ _ _ I n Hn H).
        * destruct (RC (Heap n)) as (_ & _ & ->); [intro; mem; subst; contradiction|].
          rewrite (i_live _ _ _ _ _ _ I). cbn. tauto.
      + intros n. back. destruct R as (R1 & R2 & R3). rewrite R3.
        destruct (in_dec Nat.eq_dec n ns) as [Hn|Hn].
        * unfold obj. rewrite R1 by exact Hn. cbn. congruence.
        * destruct (RC (Heap n)) as (_ & _ & ->); [intro; mem; subst; contradiction|].
          apply (i_fresh _ _ _ _ _ _ I).
      + constructor.
      + auto.
    - intros p (O4 & O5 & O6) L. rewrite C2, C1, C0, C by congruence.
      destruct R as (R1 & R2 & R3). apply R2. intros M. mem. subst. apply (O6 x); auto.
  Qed.

  (** The nodes of a range, linked to each other. *)
  Lemma make_chain_ok : forall xs h f,
    obj h (Heap f) <> None -> (forall n, obj h (Heap n) <> None -> n < hp_fresh h) ->
    exists h', make_chain h (Heap f) xs
        = Ok (h', last (map Heap (f :: seq (hp_fresh h) (length xs))) Null)
      /\ links h' (map Heap (f :: seq (hp_fresh h) (length xs)))
      /\ Forall2 (fun n v => obj h' (Heap n) = Some v) (seq (hp_fresh h) (length xs)) xs
      /\ (forall r, ~ In r (map Heap (f :: seq (hp_fresh h) (length xs))) ->
            hp_cell h' r = hp_cell h r)
      /\ obj h' (Heap f) = obj h (Heap f)
      /\ prv h' (Heap f) = prv h (Heap f)
      /\ hp_fresh h' = hp_fresh h + length xs.
  Proof.
    induction xs as [|x xs IH]; intros h f L Fr.
    - exists h. cbn. repeat split; auto.
    - cbn [make_chain]. alloc (new_node_spec h x).
      assert (Ef : f < hp_fresh h) by (apply Fr; exact L).
      run (set_next_spec h0 (Heap f) (Heap (hp_fresh h))); [back; decs|].
      run (set_prev_spec h1 (Heap (hp_fresh h)) (Heap f)); [back; decs|].
      assert (F2 : hp_fresh h2 = S (hp_fresh h)) by congruence.
      destruct (IH h2 (hp_fresh h)) as (h' & E & K1 & K2 & K3 & K4 & K6 & K5).
      + back. decs.
      + intros n. back. dec1; [injection e as e; lia|]. intros H. apply Fr in H. lia.
      + assert (NI : forall n, n <= hp_fresh h -> n <> hp_fresh h ->
          ~ In (Heap n) (map Heap (hp_fresh h :: seq (hp_fresh h2) (length xs)))).
        { intros n H1 H2 M. apply in_map_iff in M. destruct M as (y & Ey & M). injection Ey as ->.
          destruct M as [M|M]; [lia|apply in_seq in M; lia]. }
        exists h'. cbn [length seq]. rewrite F2 in *.
        split; [exact E|]. split; [|split; [|split; [|split; [|split]]]].
        * assert (Nf : ~ In (Heap f) (map Heap (hp_fresh h :: seq (S (hp_fresh h)) (length xs))))
            by (apply NI; lia).
          cbn [map] in *. rewrite links_cons. split; [|split; [|exact K1]].
          -- unfold nxt. rewrite K3 by exact Nf. change (nxt h2 (Heap f) = Some (Heap (hp_fresh h))).
             back. decs.
          -- rewrite K6. back. decs.
        * constructor; [|exact K2]. rewrite K4. back. decs.
        * intros r Hr. cbn [map In] in *. rewrite K3 by tauto. rewrite C1, C0, C; tauto.
        * unfold obj at 1. rewrite K3 by (apply NI; lia).
          change (obj h2 (Heap f) = obj h (Heap f)). back. decs; injection e as e; lia.
        * unfold prv at 1. rewrite K3 by (apply NI; lia).
          change (prv h2 (Heap f) = prv h (Heap f)). back. decs; injection e as e; lia.
        * lia.
  Qed.

  Lemma left_of_live : forall h l s ns1 ns2 vals ext, inv h l s (ns1 ++ ns2) vals ext ->
    obj h (left_of (dl_id l) ns1) <> None.
  Proof.
    intros h l s ns1 ns2 vals ext I.
    destruct (left_of_cases (dl_id l) ns1) as [(_ & ->)|(ns0 & n & -> & ->)].
    - apply (i_first _ _ _ _ _ _ I).
    - apply (inv_in_live _ _ _ _ _ _ _ I). rewrite !in_app_iff. cbn; auto.
  Qed.

  Lemma head_of_live' : forall h l s ns1 ns2 vals ext, inv h l s (ns1 ++ ns2) vals ext ->
    obj h (head_of (dl_id l) ns2) <> None.
  Proof.
    intros h l s ns1 ns2 vals ext I.
    destruct (head_of_cases (dl_id l) ns2) as [(_ & ->)|(n & ns0 & -> & ->)].
    - apply (i_last _ _ _ _ _ _ I).
    - apply (inv_in_live _ _ _ _ _ _ _ I). rewrite in_app_iff. cbn; auto.
  Qed.

  Lemma splice_inv : forall h l s ns1 ns2 v1 v2 ext cs xs h1 h2 l',
    inv h l s (ns1 ++ ns2) (v1 ++ v2) ext -> s <> Untouched -> length ns1 = length v1 ->
    cs <> [] -> NoDup cs -> (forall n, In n cs -> hp_fresh h <= n < hp_fresh h1) ->
    hp_fresh h <= hp_fresh h1 ->
    links h1 (map Heap cs) ->
    Forall2 (fun n v => obj h1 (Heap n) = Some v) cs xs ->
    (forall r, ~ In r (map Heap cs) -> hp_cell h1 r = hp_cell h r) ->
    (forall r, obj h2 r = obj h1 r) -> hp_fresh h2 = hp_fresh h1 ->
    (forall r, r <> left_of (dl_id l) ns1 -> r <> last (map Heap cs) Null -> nxt h2 r = nxt h1 r) ->
    (forall r, r <> head_of (dl_id l) ns2 -> r <> hd Null (map Heap cs) -> prv h2 r = prv h1 r) ->
    nxt h2 (left_of (dl_id l) ns1) = Some (hd Null (map Heap cs)) ->
    prv h2 (hd Null (map Heap cs)) = Some (left_of (dl_id l) ns1) ->
    nxt h2 (last (map Heap cs) Null) = Some (head_of (dl_id l) ns2) ->
    prv h2 (head_of (dl_id l) ns2) = Some (last (map Heap cs) Null) ->
    (forall r, r <> left_of (dl_id l) ns1 -> r <> head_of (dl_id l) ns2 -> ~ In r (map Heap cs) ->
       hp_cell h2 r = hp_cell h1 r) ->
    dl_id l' = dl_id l -> dl_head l' = head_of (dl_id l) (ns1 ++ cs ++ ns2) ->
    tail_ok s l' (ns1 ++ cs ++ ns2) ->
    inv h2 l' s (ns1 ++ cs ++ ns2) (v1 ++ xs ++ v2) ext /\ frame h (dl_id l) (ns1 ++ ns2) h2.
  Proof.
    intros h l s ns1 ns2 v1 v2 ext cs xs h1 h2 l' I Hs Len Hc NDc Rc Fle Lc Vc K O2 F2
      HN HP J1 J2 J3 J4 HC Eid Eh Et.
    destruct (shape_split _ _ _ _ _ _ I Hs) as (T & Ch & Hh).
    destruct I as [If Il Inull Ind Ie Ilive Ifr Iv _].
    assert (Kobj : forall r, ~ In r (map Heap cs) -> obj h2 r = obj h r).
    { intros r Hr. rewrite O2. unfold obj. rewrite K by exact Hr. reflexivity. }
    assert (Dead : forall n, In n cs -> obj h (Heap n) = None).
    { intros n Hn. destruct (obj h (Heap n)) eqn:E; auto. specialize (Rc n Hn).
      assert (n < hp_fresh h) by (apply Ifr; congruence). lia. }
    assert (Dis : forall n, In n cs -> ~ In n (ns1 ++ ns2)).
    { intros n Hn M. apply (Ilive n); auto. }
    assert (Dis2 : forall n, In n cs -> ~ In n ext).
    { intros n Hn M. apply (Ilive n); auto. }
    assert (NC : forall n, In (Heap n) (map Heap cs) -> In n cs).
    { intros n M. apply in_map_iff in M. destruct M as (y & E & M). injection E as ->. exact M. }
    assert (NF : ~ In (PostFirst (dl_id l)) (map Heap cs)) by (intro; mem; congruence).
    assert (NL : ~ In (PostLast (dl_id l)) (map Heap cs)) by (intro; mem; congruence).
    assert (NN : ~ In Null (map Heap cs)) by (intro; mem; congruence).
    assert (ND : NoDup (ns1 ++ cs ++ ns2)).
    { apply nodup_app in Ind. destruct Ind as (N1 & N2 & N3). apply nodup_app.
      split; [exact N1|]. split.
      - apply nodup_app. split; [exact NDc|]. split; [exact N2|].
        intros n Hn M. apply (Dis n Hn). apply in_app_iff; auto.
      - intros n Hn M. apply in_app_iff in M. destruct M as [M|M].
        + apply (Dis n M). apply in_app_iff; auto.
        + apply (N3 n); auto. }
    split.
    - constructor; rewrite ?Eid.
      + rewrite Kobj; auto.
      + rewrite Kobj; auto.
      + rewrite Kobj; auto.
      + exact ND.
      + intros n Hn. rewrite !in_app_iff in Hn.
        destruct Hn as [Hn|[Hn|Hn]]; [apply Ie, in_app_iff; auto|apply (Dis2 n Hn)|apply Ie, in_app_iff; auto].
      + intros n. destruct (in_dec Nat.eq_dec n cs) as [Hn|Hn].
        * split; [intros _; rewrite !in_app_iff; auto|]. intros _. rewrite O2.
          apply in_split in Hn. destruct Hn as (c1 & c2 & ->).
          apply Forall2_app_inv_l in Vc. destruct Vc as (x1 & x2 & _ & V2 & ->).
          inversion V2; subst. congruence.
        * rewrite Kobj by (intro M; apply Hn, NC, M). rewrite Ilive, !in_app_iff. tauto.
      + intros n Hn. rewrite F2. destruct (in_dec Nat.eq_dec n cs) as [Hc'|Hc'].
        * apply Rc. exact Hc'.
        * rewrite Kobj in Hn by (intro M; apply Hc', NC, M). apply Ifr in Hn. lia.
      + apply Forall2_app_inv_l in Iv. destruct Iv as (w1 & w2 & W1 & W2 & W3).
        assert (E : length w1 = length v1).
        { rewrite <- Len. symmetry. clear - W1. induction W1; cbn; congruence. }
        assert (w1 = v1 /\ w2 = v2).
        { clear - W3 E. revert v1 E W3. induction w1 as [|a w1 IH]; intros [|b v1] E W3;
            cbn in *; try lia; [auto|]. injection W3 as -> W3.
          destruct (IH v1) as (-> & ->); auto. }
        destruct H as (-> & ->).
        apply Forall2_app; [|apply Forall2_app].
        * apply vals_frame with (h := h); auto. intros n Hn. apply Kobj.
          intros M. apply NC in M. apply (Dis n M). apply in_app_iff; auto.
        * apply vals_frame with (h := h1); auto.
        * apply vals_frame with (h := h); auto. intros n Hn. apply Kobj.
          intros M. apply NC in M. apply (Dis n M). apply in_app_iff; auto.
      + rewrite <- Eid. apply shape_join; rewrite ?Eid; auto.
        apply splice with (h := h1); auto.
        unfold chain in *. apply seg_frame with (h := h); auto.
        * intros p Hp. unfold nxt. rewrite K; auto. intros M.
          destruct Hp as [<-|Hp]; [contradiction|].
          apply in_map_iff in Hp. destruct Hp as (n & <- & Hn). apply NC in M.
          apply (Dis n M Hn).
        * intros p Hp. unfold prv. rewrite K; auto. intros M.
          apply in_app_iff in Hp. destruct Hp as [Hp|[<-|[]]]; [|contradiction].
          apply in_map_iff in Hp. destruct Hp as (n & <- & Hn). apply NC in M.
          apply (Dis n M Hn).
    - intros p (O4 & O5 & O6) L.
      assert (Np : ~ In p (map Heap cs)).
      { intros M. apply in_map_iff in M. destruct M as (n & <- & Hn). apply Dead in Hn.
        unfold obj in Hn. destruct (hp_cell h (Heap n)); [discriminate|congruence]. }
      rewrite HC, K; auto; intros ->.
      + destruct (left_of_cases (dl_id l) ns1) as [(_ & E)|(ns0 & n & -> & E)]; [congruence|].
        apply (O6 n E). rewrite !in_app_iff. cbn; auto.
      + destruct (head_of_cases (dl_id l) ns2) as [(_ & E)|(n & ns0 & -> & E)]; [congruence|].
        apply (O6 n E). rewrite in_app_iff. cbn; auto.
  Qed.

  Lemma insert_range_ok : forall h l s ns1 ns2 v1 v2 ext x xs fuel,
    inv h l s (ns1 ++ ns2) (v1 ++ v2) ext -> s <> Untouched -> length ns1 = length v1 ->
    ns1 ++ ns2 <> [] -> (ns2 = [] -> s = Whole) -> length (v1 ++ v2) < fuel ->
    post h l (ns1 ++ ns2) ext (list_insert_range fuel h l (head_of (dl_id l) ns2) (x :: xs))
      s (ns1 ++ seq (hp_fresh h) (length (x :: xs)) ++ ns2) (v1 ++ (x :: xs) ++ v2).
  Proof.
    intros h l s ns1 ns2 v1 v2 ext x xs fuel I Hs Len NE Hend F.
    rewrite <- (inv_len _ _ _ _ _ _ I) in F.
    destruct (shape_split _ _ _ _ _ _ I Hs) as (T & Ch & Hh).
    destruct (fresh_dead _ _ _ _ _ _ I) as (D & Dn & De & Dc).
    pose proof (left_of_live _ _ _ _ _ _ _ I) as LL.
    pose proof (head_of_live' _ _ _ _ _ _ _ I) as LR.
    cbn [list_insert_range]. alloc (new_node_spec h x).
    destruct (make_chain_ok xs h0 (hp_fresh h)) as (h1 & E & K1 & K2 & K3 & K4 & K6 & K5).
    { back. decs. }
    { intros n. back. dec1; [injection e as e; lia|]. intros H.
      apply (i_fresh _ _ _ _ _ _ I) in H. lia. }
    rewrite E. cbn [bind]. clear E.
    cbn [length seq]. rewrite F0 in *.
    set (cs := hp_fresh h :: seq (S (hp_fresh h)) (length xs)) in *.
    assert (Vc : Forall2 (fun n v => obj h1 (Heap n) = Some v) cs (x :: xs)).
    { constructor; [|exact K2]. rewrite K4. back. decs. }
    assert (Rc : forall n, In n cs -> hp_fresh h <= n < hp_fresh h1).
    { intros n [<-|Hn]; [lia|]. apply in_seq in Hn. lia. }
    assert (NDc : NoDup cs).
    { change cs with (seq (hp_fresh h) (S (length xs))). apply seq_NoDup. }
    assert (K : forall r, ~ In r (map Heap cs) -> hp_cell h1 r = hp_cell h r).
    { intros r Hr. rewrite K3 by exact Hr. apply C. intros E. apply Hr. left. exact E. }
    assert (Old : forall r, obj h r <> None -> ~ In r (map Heap cs)).
    { intros r Hr M. apply in_map_iff in M. destruct M as (n & <- & Hn). apply Rc in Hn.
      apply (i_fresh _ _ _ _ _ _ I) in Hr. lia. }
    assert (Oobj : forall r, obj h r <> None -> obj h1 r <> None).
    { intros r Hr. unfold obj. rewrite K by (apply Old; exact Hr). exact Hr. }
    assert (Hc1 : obj h1 (hd Null (map Heap cs)) <> None) by (inversion Vc; cbn; congruence).
    assert (Hc2 : obj h1 (last (map Heap cs) Null) <> None).
    { destruct (exists_last (l := cs)) as (c' & m & Ec); [discriminate|].
      rewrite Ec in Vc |- *. rewrite map_app. cbn [map]. rewrite last_last.
      apply Forall2_app_inv_l in Vc. destruct Vc as (? & ? & _ & V & _). inversion V; congruence. }
    assert (Ch1 : chain h1 (dl_id l) (ns1 ++ ns2)).
    { unfold chain in *. apply seg_frame with (h := h); auto.
      - intros p Hp. unfold nxt. rewrite K; auto. apply Old.
        destruct Hp as [<-|Hp]; [apply (i_first _ _ _ _ _ _ I)|].
        apply in_map_iff in Hp. destruct Hp as (n & <- & Hn).
        apply (inv_in_live _ _ _ _ _ _ _ I Hn).
      - intros p Hp. unfold prv. rewrite K; auto. apply Old.
        apply in_app_iff in Hp. destruct Hp as [Hp|[<-|[]]]; [|apply (i_last _ _ _ _ _ _ I)].
        apply in_map_iff in Hp. destruct Hp as (n & <- & Hn).
        apply (inv_in_live _ _ _ _ _ _ _ I Hn). }
    assert (Hsz : list_size fuel h1 l = Ok (length (ns1 ++ ns2))).
    { unfold list_size. rewrite Hh. apply (count_ok _ _ _ []); auto.
      intros n Hn. apply Oobj. apply (inv_in_live _ _ _ _ _ _ _ I Hn). }
    rewrite Hsz. cbn [bind]. clear Hsz.
    replace (length (ns1 ++ ns2) =? 0) with false
      by (destruct (ns1 ++ ns2); [congruence|reflexivity]).
    unfold list_begin, list_end. rewrite Hh.
    pose proof (Old _ LL) as NL. pose proof (Old _ LR) as NR.
    assert (HD : hd Null (map Heap cs) = Heap (hp_fresh h)) by reflexivity.
    assert (HDin : In (Heap (hp_fresh h)) (map Heap cs)) by (left; reflexivity).
    assert (LAin : In (last (map Heap cs) Null) (map Heap cs)) by (apply last_in; discriminate).
    assert (LRne : left_of (dl_id l) ns1 <> head_of (dl_id l) ns2).
    { destruct (left_of_cases (dl_id l) ns1) as [(_ & ->)|(ns0 & n & -> & ->)];
      destruct (head_of_cases (dl_id l) ns2) as [(_ & ->)|(m & ns3 & -> & ->)]; try discriminate.
      intros E. injection E as ->. pose proof (i_nodup _ _ _ _ _ _ I) as ND.
      apply nodup_app in ND. destruct ND as (_ & _ & ND). apply (ND m); [|left; reflexivity].
      apply in_app_iff. cbn; auto. }
    rewrite HD in Hc1.
    assert (Ne1 : left_of (dl_id l) ns1 <> last (map Heap cs) Null)
      by (intro Q; apply NL; rewrite Q; exact LAin).
    assert (Ne2 : left_of (dl_id l) ns1 <> Heap (hp_fresh h))
      by (intro Q; apply NL; rewrite Q; exact HDin).
    assert (Ne3 : head_of (dl_id l) ns2 <> last (map Heap cs) Null)
      by (intro Q; apply NR; rewrite Q; exact LAin).
    assert (Ne4 : head_of (dl_id l) ns2 <> Heap (hp_fresh h))
      by (intro Q; apply NR; rewrite Q; exact HDin).
    destruct ns1 as [|n0 ns1'].
    - (* at begin() *)
      cbn [app] in *. rewrite ptr_eqb_refl.
      change (left_of (dl_id l) []) with (PostFirst (dl_id l)) in *.
      run (set_next_spec h1 (last (map Heap cs) Null) (head_of (dl_id l) ns2)); [exact Hc2|].
      run (set_prev_spec h2 (head_of (dl_id l) ns2) (last (map Heap cs) Null)); [back; auto|].
      unfold update_head_links. cbn [dl_id dl_head dl_tail].
      run (set_next_spec h3 (PostFirst (dl_id l)) (Heap (hp_fresh h))); [back; auto|].
      run (set_prev_spec h4 (Heap (hp_fresh h)) (PostFirst (dl_id l))); [back; auto|].
      eexists h5, _. split; [reflexivity|]. split; [reflexivity|].
      apply (splice_inv h l s [] ns2 v1 v2 ext cs (x :: xs) h1 h5); auto; try discriminate; try lia.
      + intros r. back. reflexivity.
      + change (left_of (dl_id l) []) with (PostFirst (dl_id l)). intros. back. decs.
      + rewrite HD. intros. back. decs.
      + change (left_of (dl_id l) []) with (PostFirst (dl_id l)). rewrite HD. back. decs.
      + change (left_of (dl_id l) []) with (PostFirst (dl_id l)). rewrite HD. back. decs.
      + back. decs.
      + back. decs.
      + change (left_of (dl_id l) []) with (PostFirst (dl_id l)). intros r R1 R2 R3.
        rewrite C3, C2, C1, C0; auto; congruence.
      + intros Hw. destruct (T Hw) as (z & t & -> & Ht). exists (cs ++ z), t.
        split; [rewrite <- app_assoc; reflexivity|exact Ht].
    - assert (NB : head_of (dl_id l) ns2 <> head_of (dl_id l) ((n0 :: ns1') ++ ns2)).
      { destruct (head_of_cases (dl_id l) ns2) as [(_ & ->)|(m & ns3 & -> & ->)]; [discriminate|].
        cbn. intros E. injection E as ->. pose proof (i_nodup _ _ _ _ _ _ I) as ND.
        cbn in ND. inversion ND as [|? ? N1 N2]; subst. apply N1, in_app_iff. cbn; auto. }
      rewrite (ptr_eqb_neq _ _ NB).
      set (ns1 := n0 :: ns1') in *.
      destruct ns2 as [|m ns2'].
      + (* at end() *)
        cbn [head_of] in *. rewrite ptr_eqb_refl.
        destruct (T (Hend eq_refl)) as (z & t & Ez & Ht). rewrite app_nil_r in Ez.
        assert (LT : left_of (dl_id l) ns1 = Heap t) by (rewrite Ez; apply left_of_snoc).
        rewrite LT in *. rewrite Ht.
        run (set_prev_spec h1 (Heap (hp_fresh h)) (Heap t)); [exact Hc1|].
        run (set_next_spec h2 (Heap t) (Heap (hp_fresh h))); [back; auto|].
        unfold update_tail_links. cbn [dl_id dl_head dl_tail].
        run (set_prev_spec h3 (PostLast (dl_id l)) (last (map Heap cs) Null)); [back; auto|].
        run (set_next_spec h4 (last (map Heap cs) Null) (PostLast (dl_id l))); [back; auto|].
        eexists h5, _. split; [reflexivity|]. split; [reflexivity|].
        apply (splice_inv h l s ns1 [] v1 v2 ext cs (x :: xs) h1 h5); auto; try discriminate;
          try lia; rewrite ?LT, ?HD; cbn [head_of dl_id dl_head dl_tail].
        * intros r. back. reflexivity.
        * intros. back. decs.
        * intros. back. decs.
        * back. decs.
        * back. decs.
        * back. decs.
        * back. decs.
        * intros r R1 R2 R3. rewrite C3, C2, C1, C0; auto; congruence.
        * intros Hw. destruct (exists_last (l := cs)) as (c' & q & Ec); [discriminate|].
          exists (ns1 ++ c'), q. rewrite Ec, app_nil_r. split; [rewrite app_assoc; reflexivity|].
          cbn [dl_tail]. rewrite map_app. cbn [map]. apply last_last.
      + (* in the middle *)
        cbn [head_of] in *. rewrite ptr_eqb_neq by discriminate.
        peek (get_spec h1 (Heap m)); [auto|].
        pose proof (chain_cut _ _ _ _ Ch1) as (_ & Pm). cbn [head_of] in Pm.
        rewrite Pm in GP. injection GP as GP. rewrite <- GP.
        run (set_next_spec h1 (left_of (dl_id l) ns1) (Heap (hp_fresh h))); [auto|].
        run (set_prev_spec h2 (Heap (hp_fresh h)) (left_of (dl_id l) ns1)); [back; auto|].
        run (set_prev_spec h3 (Heap m) (last (map Heap cs) Null)); [back; auto|].
        run (set_next_spec h4 (last (map Heap cs) Null) (Heap m)); [back; auto|].
        eexists h5, _. split; [reflexivity|]. split; [reflexivity|].
        apply (splice_inv h l s ns1 (m :: ns2') v1 v2 ext cs (x :: xs) h1 h5); auto;
          try discriminate; try lia; rewrite ?HD; cbn [head_of dl_id dl_head dl_tail].
        * intros r. back. reflexivity.
        * intros. back. decs.
        * intros. back. decs.
        * back. decs.
        * back. decs.
        * back. decs.
        * back. decs.
        * intros r R1 R2 R3. rewrite C3, C2, C1, C0; auto; congruence.
        * intros Hw. destruct (T Hw) as (z & t & Ez & Ht).
          destruct (exists_last (l := m :: ns2')) as (c' & q & Ec); [discriminate|].
          rewrite Ec in Ez |- *. rewrite app_assoc in Ez. apply app_inj_tail in Ez.
          destruct Ez as (_ & ->). exists (ns1 ++ cs ++ c'), t.
          rewrite !app_assoc. auto.
  Qed.

  Lemma size_ok : forall h l s ns vals ext fuel,
    inv h l s ns vals ext -> s <> Untouched -> length vals < fuel ->
    list_size fuel h l = Ok (length vals).
  Proof.
    intros h l s ns vals ext fuel I Hs F. destruct (shape_split _ _ _ _ _ _ I Hs) as (_ & Ch & Hh).
    rewrite <- (inv_len _ _ _ _ _ _ I) in *. unfold list_size. rewrite Hh.
    apply (count_ok _ _ _ []); auto. intros n Hn. apply (inv_in_live _ _ _ _ _ _ _ I Hn).
  Qed.

  Lemma insert_ok : forall h l s ns1 ns2 v1 v2 ext x fuel,
    inv h l s (ns1 ++ ns2) (v1 ++ v2) ext -> s <> Untouched -> length ns1 = length v1 ->
    ns1 ++ ns2 <> [] -> (ns2 = [] -> s = Whole) -> length (v1 ++ v2) < fuel ->
    post h l (ns1 ++ ns2) ext (list_insert fuel h l (head_of (dl_id l) ns2) x)
      s (ns1 ++ [hp_fresh h] ++ ns2) (v1 ++ [x] ++ v2).
  Proof.
    intros h l s ns1 ns2 v1 v2 ext x fuel I Hs Len NE Hend F.
    destruct (shape_split _ _ _ _ _ _ I Hs) as (T & Ch & Hh).
    unfold list_insert. rewrite (size_ok _ _ _ _ _ _ _ I Hs F). cbn [bind].
    rewrite <- (inv_len _ _ _ _ _ _ I).
    replace (length (ns1 ++ ns2) =? 0) with false
      by (destruct (ns1 ++ ns2); [congruence|reflexivity]).
    unfold list_begin, list_end. rewrite Hh.
    destruct ns1 as [|n0 ns1'].
    - destruct v1; [|discriminate]. cbn [app] in *. rewrite ptr_eqb_refl.
      pose proof (push_front_ok _ _ _ _ _ _ x I) as P. destruct s; [congruence|exact P|exact P].
    - assert (NB : head_of (dl_id l) ns2 <> head_of (dl_id l) ((n0 :: ns1') ++ ns2)).
      { destruct (head_of_cases (dl_id l) ns2) as [(_ & ->)|(m & ns3 & -> & ->)]; [discriminate|].
        cbn. intros E. injection E as ->. pose proof (i_nodup _ _ _ _ _ _ I) as ND.
        cbn in ND. inversion ND as [|? ? N1 N2]; subst. apply N1, in_app_iff. cbn; auto. }
      rewrite (ptr_eqb_neq _ _ NB).
      destruct ns2 as [|m ns2'].
      + cbn [head_of]. rewrite ptr_eqb_refl. rewrite (Hend eq_refl) in *.
        assert (v2 = []).
        { pose proof (inv_len _ _ _ _ _ _ I) as E. rewrite !app_length, Len in E. cbn in E.
          destruct v2; [reflexivity|cbn in E; lia]. }
        subst. rewrite !app_nil_r in *.
        apply (push_back_ok _ _ _ _ _ _ x I). discriminate.
      + pose proof (insert_range_ok h l s _ _ _ _ _ x [] fuel I Hs Len NE Hend F) as Q.
        cbn [list_insert_range make_chain bind length seq] in Q.
        cbn [head_of] in *. change (ptr_eqb (Heap m) (PostLast (dl_id l))) with false.
        destruct (fresh_dead _ _ _ _ _ _ I) as (D & Dn & De & Dc).
        destruct (new_node_spec h x) as (h0 & E0 & N0 & P0 & O0 & F0 & C0).
        rewrite E0 in *.
        assert (Hsz : list_size fuel h0 l = Ok (length ((n0 :: ns1') ++ m :: ns2'))).
        { unfold list_size. rewrite Hh. rewrite <- (inv_len _ _ _ _ _ _ I) in F.
          apply (count_ok _ _ _ []); auto.
          - unfold chain in *. apply seg_frame with (h := h); auto.
            + intros p Hp. back. decs.
            + intros p Hp. back. decs.
          - intros n Hn. back. dec1; [congruence|]. apply (inv_in_live _ _ _ _ _ _ _ I Hn). }
        rewrite Hsz in Q. cbn [bind] in Q. cbn [app length Nat.eqb] in Q.
        unfold list_begin, list_end in Q. rewrite Hh in Q. cbn [app head_of] in Q, NB.
        rewrite (ptr_eqb_neq _ _ NB) in Q. cbn [ptr_eqb] in Q.
        exact Q.
  Qed.

  Lemma vals_split : forall h ns1 ns2 (v1 v2 : list A),
    Forall2 (fun n v => obj h (Heap n) = Some v) (ns1 ++ ns2) (v1 ++ v2) ->
    length ns1 = length v1 ->
    Forall2 (fun n v => obj h (Heap n) = Some v) ns1 v1
    /\ Forall2 (fun n v => obj h (Heap n) = Some v) ns2 v2.
  Proof.
    intros h. induction ns1 as [|n ns1 IH]; intros ns2 [|v v1] v2 H L; cbn in *; try discriminate.
    - auto.
    - inversion H; subst. injection L as L. destruct (IH ns2 v1 v2); auto.
  Qed.

  Lemma unlink_inv : forall h l s ns1 mid ns2 v1 vm v2 ext h1 h2,
    inv h l s (ns1 ++ mid ++ ns2) (v1 ++ vm ++ v2) ext -> s <> Untouched ->
    length ns1 = length v1 -> length mid = length vm -> ns1 <> [] ->
    (forall r, obj h1 r = obj h r) -> hp_fresh h1 = hp_fresh h ->
    (forall r, r <> left_of (dl_id l) ns1 -> nxt h1 r = nxt h r) ->
    (forall r, r <> head_of (dl_id l) ns2 -> prv h1 r = prv h r) ->
    nxt h1 (left_of (dl_id l) ns1) = Some (head_of (dl_id l) ns2) ->
    prv h1 (head_of (dl_id l) ns2) = Some (left_of (dl_id l) ns1) ->
    (forall r, r <> left_of (dl_id l) ns1 -> r <> head_of (dl_id l) ns2 ->
       hp_cell h1 r = hp_cell h r) ->
    removed h1 mid h2 ->
    inv h2 l (match ns2 with [] => match mid with [] => s | _ => FrontOnly end | _ => s end)
      (ns1 ++ ns2) (v1 ++ v2) ext /\ frame h (dl_id l) (ns1 ++ mid ++ ns2) h2.
  Proof.
    intros h l s ns1 mid ns2 v1 vm v2 ext h1 h2 I Hs Len1 Len2 NE O1 F1 HN HP J1 J2 HC R.
    destruct (shape_split _ _ _ _ _ _ I Hs) as (T & Ch & Hh).
    pose proof (left_of_live _ _ _ _ _ _ _ I) as LL.
    destruct I as [If Il Inull Ind Ie Ilive Ifr Iv _].
    pose proof (removed_cell _ _ _ R) as RC.
    assert (NC : forall n, In (Heap n) (map Heap mid) -> In n mid).
    { intros n M. apply in_map_iff in M. destruct M as (y & E & M). injection E as ->. exact M. }
    assert (NF : ~ In (PostFirst (dl_id l)) (map Heap mid)) by (intro; mem; congruence).
    assert (NL : ~ In (PostLast (dl_id l)) (map Heap mid)) by (intro; mem; congruence).
    assert (NN : ~ In Null (map Heap mid)) by (intro; mem; congruence).
    pose proof Ind as Ind0.
    apply nodup_app in Ind. destruct Ind as (N1 & N2 & N3).
    apply nodup_app in N2. destruct N2 as (N4 & N5 & N6).
    assert (ND : NoDup (ns1 ++ ns2)).
    { apply nodup_app. split; [exact N1|]. split; [exact N5|]. intros n H1 H2.
      apply (N3 n H1). apply in_app_iff; auto. }
    assert (NA : forall n, In n (ns1 ++ ns2) -> ~ In n mid).
    { intros n Hn M. apply in_app_iff in Hn. destruct Hn as [Hn|Hn].
      - apply (N3 n Hn). apply in_app_iff; auto.
      - apply (N6 n M Hn). }
    assert (Kobj : forall r, ~ In r (map Heap mid) -> obj h2 r = obj h r).
    { intros r Hr. destruct (RC r Hr) as (_ & _ & ->). apply O1. }
    assert (NLm : ~ In (left_of (dl_id l) ns1) (map Heap mid)).
    { destruct (left_of_cases (dl_id l) ns1) as [(_ & ->)|(ns0 & n & E & ->)]; [exact NF|].
      intros M. apply NC in M. apply (NA n); auto. rewrite E, !in_app_iff. cbn; auto. }
    assert (NRm : ~ In (head_of (dl_id l) ns2) (map Heap mid)).
    { destruct (head_of_cases (dl_id l) ns2) as [(_ & ->)|(n & ns0 & E & ->)]; [exact NL|].
      intros M. apply NC in M. apply (NA n); auto. rewrite E, !in_app_iff. cbn; auto. }
    split.
    - constructor.
      + rewrite Kobj; auto.
      + rewrite Kobj; auto.
      + rewrite Kobj; auto.
      + exact ND.
      + intros n Hn. apply Ie. rewrite !in_app_iff in *. tauto.
      + intros n. destruct (in_dec Nat.eq_dec n mid) as [Hn|Hn].
        * rewrite (removed_gone _ _ _ _ R Hn). split; [congruence|]. intros [M|M].
          -- exfalso. apply (NA n M Hn).
          -- exfalso. apply (Ie n); auto. rewrite !in_app_iff; auto.
        * rewrite Kobj by (intro M; apply Hn, NC, M). rewrite Ilive, !in_app_iff. tauto.
      + intros n Hn. destruct R as (R1 & R2 & R3). rewrite R3, F1.
        destruct (in_dec Nat.eq_dec n mid) as [Hm|Hm].
        * exfalso. apply Hn. unfold obj. rewrite R1 by exact Hm. reflexivity.
        * rewrite Kobj in Hn by (intro M; apply Hm, NC, M). apply Ifr in Hn. exact Hn.
      + apply vals_split in Iv; auto. destruct Iv as (V1 & V2).
        apply vals_split in V2; auto. destruct V2 as (V2 & V3).
        apply Forall2_app; apply vals_frame with (h := h); auto;
          intros n Hn; apply Kobj; intro M; apply NC in M; apply (NA n); auto;
          apply in_app_iff; auto.
      + assert (Ch2 : chain h2 (dl_id l) (ns1 ++ ns2)).
        { apply (unlink h h2 (dl_id l) ns1 mid ns2); auto.
          - intros r R1 R2. destruct (RC r R2) as (-> & _ & _). apply HN. exact R1.
          - intros r R1 R2. destruct (RC r R2) as (_ & -> & _). apply HP. exact R1.
          - destruct (RC _ NLm) as (-> & _ & _). exact J1.
          - destruct (RC _ NRm) as (_ & -> & _). exact J2. }
        assert (Hh2 : dl_head l = head_of (dl_id l) (ns1 ++ ns2)).
        { rewrite Hh. destruct ns1; [congruence|reflexivity]. }
        destruct ns2 as [|k ns2].
        * destruct mid as [|k mid].
          -- apply shape_join; auto.
          -- auto.
        * apply shape_join; auto. intros Hw. destruct (T Hw) as (z & t & Ez & Ht).
          destruct (exists_last (l := k :: ns2)) as (c' & q & Ec); [discriminate|].
          rewrite Ec in Ez |- *. rewrite !app_assoc in Ez. apply app_inj_tail in Ez.
          destruct Ez as (_ & ->). exists (ns1 ++ c'), t.
          rewrite !app_assoc. auto.
    - intros p (O4 & O5 & O6) L.
      assert (Np : ~ In p (map Heap mid)).
      { intros M. apply in_map_iff in M. destruct M as (n & <- & Hn). apply (O6 n eq_refl).
        rewrite !in_app_iff; auto. }
      destruct R as (R1 & R2 & R3). rewrite R2 by exact Np. apply HC; intros ->.
      + destruct (left_of_cases (dl_id l) ns1) as [(_ & E)|(ns0 & n & E' & E)]; [congruence|].
        apply (O6 n E). rewrite E', !in_app_iff. cbn; auto.
      + destruct (head_of_cases (dl_id l) ns2) as [(_ & E)|(n & ns0 & E' & E)]; [congruence|].
        apply (O6 n E). rewrite E', !in_app_iff. cbn; auto.
  Qed.

  Lemma erase_ok : forall h l s ns1 n ns2 v1 v v2 ext,
    inv h l s (ns1 ++ n :: ns2) (v1 ++ v :: v2) ext -> s <> Untouched -> length ns1 = length v1 ->
    post h l (ns1 ++ n :: ns2) ext (list_erase h l (Heap n))
      (match ns2 with [] => FrontOnly | _ => s end) (ns1 ++ ns2) (v1 ++ v2).
  Proof.
    intros h l s ns1 n ns2 v1 v v2 ext I Hs Len.
    destruct (shape_split _ _ _ _ _ _ I Hs) as (T & Ch & Hh).
    unfold list_erase, list_begin, list_end. rewrite Hh.
    destruct ns1 as [|n0 ns1'].
    - destruct v1; [|discriminate]. cbn [app head_of] in *. rewrite ptr_eqb_refl.
      exact (pop_front_ok _ _ _ _ _ _ _ _ I Hs).
    - pose proof (i_nodup _ _ _ _ _ _ I) as ND.
      rewrite ptr_eqb_neq.
      2:{ cbn. intros E. injection E as ->. cbn in ND. inversion ND as [|? ? N1 N2]; subst.
          apply N1, in_app_iff. cbn; auto. }
      rewrite ptr_eqb_neq by discriminate.
      set (ns1 := n0 :: ns1') in *.
      assert (NE : ns1 <> []) by discriminate. clearbody ns1. clear n0 ns1'.
      pose proof (left_of_live h l s ns1 (n :: ns2) _ _ I) as LL.
      assert (LR : obj h (head_of (dl_id l) ns2) <> None).
      { apply (head_of_live' h l s (ns1 ++ [n]) ns2 (v1 ++ v :: v2) ext).
        rewrite <- app_assoc. exact I. }
      peek (get_spec h (Heap n)).
      { apply (inv_in_live _ _ _ _ _ _ _ I). apply in_app_iff. cbn; auto. }
      rewrite (chain_next _ _ _ _ _ Ch) in GN. injection GN as GN. rewrite <- GN.
      pose proof (chain_cut _ _ _ _ Ch) as (_ & Pm). cbn [head_of] in Pm.
      rewrite Pm in GP. injection GP as GP. rewrite <- GP.
      run (set_next_spec h (left_of (dl_id l) ns1) (head_of (dl_id l) ns2)); [exact LL|].
      run (set_prev_spec h0 (head_of (dl_id l) ns2) (left_of (dl_id l) ns1)); [back; exact LR|].
      run (delete_spec h1 n).
      { back. apply (inv_in_live _ _ _ _ _ _ _ I). apply in_app_iff. cbn; auto. }
      exists h2, l. split; [reflexivity|]. split; [reflexivity|].
      pose proof (unlink_inv h l s ns1 [n] ns2 v1 [v] v2 ext h1 h2) as U.
      destruct ns2 as [|k ns2].
      all: apply U; auto; try congruence.
      all: try (intros; back; decs; fail).
      all: try (intros r R1 R2; rewrite C0, C; auto; fail).
      all: try (split; [|split]; [intros k' [<-|[]]|intros r Hr; apply C1; cbn in Hr; tauto|congruence];
        specialize (O1 (Heap n)); unfold obj in O1;
        destruct (ptr_dec (Heap n) (Heap n)); [|congruence];
        destruct (hp_cell h2 (Heap n)); [discriminate|reflexivity]).
  Qed.
End Ops.
