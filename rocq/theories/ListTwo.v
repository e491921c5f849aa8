(** Proofs about the List model, fourth part: histories, and two lists in one memory. *)
From Coq Require Import List Arith Bool Lia.
From Verif Require Import Base BaseLemmas ListModel ListSpec ListProofs ListOps ListRun.
Import ListNotations.

Section Two.
  Context {A : Type}.
  Variable dflt : A.
  Implicit Types h : heap A.

  Lemma run_ok : forall os h l s ns vals ext s',
    inv h l s ns vals ext -> covered_run vals s os = Some s' ->
    exists N, forall fuel, N <= fuel -> exists h' l' ns',
      list_run fuel h l os = Ok (h', l') /\ dl_id l' = dl_id l
      /\ inv h' l' s' ns' (list_seq_run vals os) ext.
  Proof.
    intros os h l s ns vals ext s' I Cv.
    assert (Q : exists N, forall fuel, N <= fuel -> forall h l ns, inv h l s ns vals ext ->
      exists h' l' ns', list_run fuel h l os = Ok (h', l') /\ dl_id l' = dl_id l
        /\ inv h' l' s' ns' (list_seq_run vals os) ext).
    { clear h l ns I. revert s vals Cv. induction os as [|o os IH]; intros s vals Cv.
      - exists 0. intros fuel _ h l ns I. inversion Cv; subst. exists h, l, ns. auto.
      - cbn [covered_run] in Cv. destruct (covered vals s o) as [s1|] eqn:E1; [|discriminate].
        destruct (IH _ _ Cv) as (N & HN).
        exists (N + S (length vals)). intros fuel F h l ns I.
        destruct (step_ok _ _ _ _ _ _ fuel _ _ I E1) as (ns1 & h1 & l1 & R1 & Id1 & I1 & _); [lia|].
        cbn [list_run]. rewrite R1. cbn [bind fst snd].
        destruct (HN fuel ltac:(lia) _ _ _ I1) as (h' & l' & ns' & R & Id & I').
        change (list_seq_run vals (o :: os)) with (list_seq_run (list_seq_step vals o) os).
        exists h', l', ns'. split; [exact R|]. split; [congruence|exact I']. }
    destruct Q as (N & Q). exists N. intros fuel F. apply Q with (1 := F) (2 := I).
  Qed.

  Lemma forward_ok : forall h l s ns vals ext fuel,
    inv h l s ns vals ext -> s <> Untouched -> length vals < fuel ->
    list_forward fuel h l = Ok vals.
  Proof.
    intros h l s ns vals ext fuel I Hs F. destruct (shape_split _ _ _ _ _ _ I Hs) as (_ & Ch & Hh).
    unfold list_forward, list_begin, list_end. rewrite Hh.
    apply (walk_ok _ _ _ _ []); auto.
    - apply (i_vals _ _ _ _ _ _ I).
    - rewrite (inv_len _ _ _ _ _ _ I). exact F.
  Qed.

  Lemma backward_ok : forall h l ns vals ext fuel,
    inv h l Whole ns vals ext -> length vals < fuel ->
    list_backward fuel h l = Ok (rev vals).
  Proof.
    intros h l ns vals ext fuel I F. destruct (shape_split _ _ _ _ _ _ I) as (T & Ch & Hh); [discriminate|].
    destruct (T eq_refl) as (z & t & Ez & Ht). unfold list_backward. rewrite Ht.
    replace (Heap t) with (left_of (dl_id l) ns) by (rewrite Ez; apply left_of_snoc).
    apply (walk_back_ok _ _ _ _ []); auto.
    - rewrite app_nil_r. exact Ch.
    - apply (i_vals _ _ _ _ _ _ I).
    - rewrite (inv_len _ _ _ _ _ _ I). exact F.
  Qed.

  Lemma new_inv : inv (fst (list_new dflt empty_heap 0)) (snd (list_new dflt empty_heap 0))
    Untouched [] [] [].
  Proof.
    constructor; cbn; try discriminate; auto.
    - constructor.
    - intros n. cbn. split; [congruence|]. intros [[]|[]].
    - intros n. cbn. congruence.
  Qed.

  (** A list keeps its contents while another list changes. *)
  Lemma inv_other : forall h h' l1 l2 s1 s2 s2' ns ms ms' v1 v2 v2',
    inv h l1 s1 ns v1 ms -> inv h l2 s2 ms v2 ns -> dl_id l1 <> dl_id l2 ->
    forall l2', dl_id l2' = dl_id l2 -> inv h' l2' s2' ms' v2' ns -> frame h (dl_id l2) ms h' ->
    inv h' l1 s1 ns v1 ms'.
  Proof.
    intros h h' l1 l2 s1 s2 s2' ns ms ms' v1 v2 v2' I1 I2 Hne l2' Id I2' F.
    assert (Cells : forall p, p = PostFirst (dl_id l1) \/ p = PostLast (dl_id l1)
              \/ (exists n, p = Heap n /\ In n ns) -> hp_cell h' p = hp_cell h p).
    { intros p Hp. apply F.
      - split; [|split].
        + destruct Hp as [->|[->|(n & -> & _)]]; congruence.
        + destruct Hp as [->|[->|(n & -> & _)]]; congruence.
        + intros n -> M. destruct Hp as [Hp|[Hp|(k & Hk & Hin)]]; try discriminate.
          injection Hk as ->. apply (i_ext _ _ _ _ _ _ I1 k Hin M).
      - assert (obj h p <> None) as H.
        { destruct Hp as [->|[->|(n & -> & Hn)]].
          - apply (i_first _ _ _ _ _ _ I1).
          - apply (i_last _ _ _ _ _ _ I1).
          - apply (inv_in_live _ _ _ _ _ _ _ I1 Hn). }
        unfold obj in H. destruct (hp_cell h p); [discriminate|]. intros _. apply H. reflexivity. }
    assert (Hf : obj h' (PostFirst (dl_id l1)) = obj h (PostFirst (dl_id l1)))
      by (unfold obj; rewrite Cells; auto).
    assert (Hl : obj h' (PostLast (dl_id l1)) = obj h (PostLast (dl_id l1)))
      by (unfold obj; rewrite Cells; auto).
    assert (Ho : forall n, In n ns -> obj h' (Heap n) = obj h (Heap n))
      by (intros n Hn; unfold obj; rewrite Cells; eauto).
    constructor.
    - rewrite Hf. apply (i_first _ _ _ _ _ _ I1).
    - rewrite Hl. apply (i_last _ _ _ _ _ _ I1).
    - apply (i_null _ _ _ _ _ _ I2').
    - apply (i_nodup _ _ _ _ _ _ I1).
    - intros n Hn M. apply (i_ext _ _ _ _ _ _ I2' n M Hn).
    - intros n. rewrite (i_live _ _ _ _ _ _ I2'). tauto.
    - apply (i_fresh _ _ _ _ _ _ I2').
    - apply vals_frame with (h := h); auto. apply (i_vals _ _ _ _ _ _ I1).
    - assert (Hch : chain h (dl_id l1) ns -> chain h' (dl_id l1) ns).
      { unfold chain. apply seg_frame.
        - intros p Hp. unfold nxt. rewrite Cells; auto. destruct Hp as [<-|Hp]; auto.
          apply in_map_iff in Hp. destruct Hp as (n & <- & Hn). eauto.
        - intros p Hp. unfold prv. rewrite Cells; auto. apply in_app_iff in Hp.
          destruct Hp as [Hp|[<-|[]]]; auto.
          apply in_map_iff in Hp. destruct Hp as (n & <- & Hn). eauto. }
      pose proof (i_shape _ _ _ _ _ _ I1) as Sh. destruct s1; tauto.
  Qed.

  (** Two lists side by side. *)
  Definition both h l1 s1 v1 l2 s2 v2 : Prop :=
    exists ns ms, inv h l1 s1 ns v1 ms /\ inv h l2 s2 ms v2 ns /\ dl_id l1 <> dl_id l2.

  Lemma run2_ok : forall os s1 v1 s2 v2 s1' s2',
    covered_run v1 s1 (calls_on true os) = Some s1' ->
    covered_run v2 s2 (calls_on false os) = Some s2' ->
    exists N, forall fuel, N <= fuel -> forall h l1 l2, both h l1 s1 v1 l2 s2 v2 ->
      exists h' l1' l2', list_run2 fuel h l1 l2 os = Ok (h', l1', l2')
        /\ both h' l1' s1' (list_seq_run v1 (calls_on true os))
                   l2' s2' (list_seq_run v2 (calls_on false os)).
  Proof.
    induction os as [|[w o] os IH]; intros s1 v1 s2 v2 s1' s2' C1 C2.
    - exists 0. intros fuel _ h l1 l2 B. inversion C1; inversion C2; subst.
      exists h, l1, l2. auto.
    - destruct w; unfold calls_on in *; cbn [filter map fst snd Bool.eqb covered_run] in *.
      + destruct (covered v1 s1 o) as [s3|] eqn:E; [|discriminate].
        destruct (IH _ _ _ _ _ _ C1 C2) as (N & HN).
        exists (N + S (length v1)). intros fuel F h l1 l2 (ns & ms & I1 & I2 & Hne).
        destruct (step_ok _ _ _ _ _ _ fuel _ _ I1 E) as (ns1 & h1 & l3 & R1 & Id1 & I3 & Fr); [lia|].
        cbn [list_run2]. rewrite R1. cbn [bind fst snd].
        apply HN; [lia|]. exists ns1, ms. split; [exact I3|]. split; [|congruence].
        eapply inv_other with (1 := I2) (2 := I1); eauto.
      + destruct (covered v2 s2 o) as [s3|] eqn:E; [|discriminate].
        destruct (IH _ _ _ _ _ _ C1 C2) as (N & HN).
        exists (N + S (length v2)). intros fuel F h l1 l2 (ns & ms & I1 & I2 & Hne).
        destruct (step_ok _ _ _ _ _ _ fuel _ _ I2 E) as (ms1 & h1 & l3 & R1 & Id1 & I3 & Fr); [lia|].
        cbn [list_run2]. rewrite R1. cbn [bind fst snd].
        apply HN; [lia|]. exists ns, ms1. split; [|split; [exact I3|congruence]].
        eapply inv_other with (1 := I1) (2 := I2); eauto.
  Qed.

  (** A new list object beside an existing one. *)
  Lemma put_cell : forall h p n r, hp_cell (put h p n) r = if ptr_dec p r then n else hp_cell h r.
  Proof.
    intros h p n r. unfold put. cbn [hp_cell].
    destruct (ptr_eqb_spec p r); destruct (ptr_dec p r); congruence.
  Qed.

  Lemma sentinels_cell : forall h o r, r <> PostFirst o -> r <> PostLast o ->
    hp_cell (with_sentinels dflt h o) r = hp_cell h r.
  Proof.
    intros h o r H1 H2. unfold with_sentinels. rewrite !put_cell.
    destruct (ptr_dec (PostLast o) r); [congruence|].
    destruct (ptr_dec (PostFirst o) r); congruence.
  Qed.

  Lemma sentinels_live : forall h o,
    obj (with_sentinels dflt h o) (PostFirst o) <> None
    /\ obj (with_sentinels dflt h o) (PostLast o) <> None.
  Proof.
    intros h o. unfold obj, with_sentinels. rewrite !put_cell. split.
    - destruct (ptr_dec (PostLast o) (PostFirst o)); [discriminate|].
      destruct (ptr_dec (PostFirst o) (PostFirst o)); [cbn; discriminate|congruence].
    - destruct (ptr_dec (PostLast o) (PostLast o)); [cbn; discriminate|congruence].
  Qed.

  Lemma new_beside_nodes : forall h l s ns vals o,
    inv h l s ns vals [] -> dl_id l <> o ->
    inv (fst (list_new dflt h o)) l s ns vals []
    /\ inv (fst (list_new dflt h o)) (snd (list_new dflt h o)) Untouched [] [] ns
    /\ dl_id l <> dl_id (snd (list_new dflt h o)).
  Proof.
    intros h l s ns vals o I Hne. unfold list_new. cbn [fst snd].
    destruct (sentinels_live h o) as (S1 & S2).
    assert (Hc : forall r, r <> PostFirst o -> r <> PostLast o ->
              hp_cell (with_sentinels dflt h o) r = hp_cell h r) by (apply sentinels_cell).
    assert (Ho : forall r, r <> PostFirst o -> r <> PostLast o ->
              obj (with_sentinels dflt h o) r = obj h r) by (intros; unfold obj; rewrite Hc; auto).
    split; [|split; [|exact Hne]].
    - destruct I as [If Il Inull Ind Ie Ilive Ifr Iv Ish].
      constructor; auto.
      + rewrite Ho; congruence.
      + rewrite Ho; congruence.
      + assert (Hch : chain h (dl_id l) ns -> chain (with_sentinels dflt h o) (dl_id l) ns).
        { unfold chain. apply seg_frame.
          - intros p Hp. unfold nxt. rewrite Hc; auto; intros ->;
              (destruct Hp as [Hp|Hp]; [congruence|mem; congruence]).
          - intros p Hp. unfold prv. rewrite Hc; auto; intros ->;
              (apply in_app_iff in Hp; destruct Hp as [Hp|[Hp|[]]]; [mem|]; congruence). }
        destruct s; tauto.
    - constructor; auto; cbn [dl_id].
      + rewrite Ho; try congruence. apply (i_null _ _ _ _ _ _ I).
      + constructor.
      + intros n. rewrite Ho by congruence. rewrite (i_live _ _ _ _ _ _ I). tauto.
      + intros n. rewrite Ho by congruence. apply (i_fresh _ _ _ _ _ _ I).
  Qed.
  Lemma new_beside : forall h l s ns vals o,
    inv h l s ns vals [] -> dl_id l <> o ->
    both (fst (list_new dflt h o)) l s vals (snd (list_new dflt h o)) Untouched [].
  Proof. intros h l s ns vals o I Hne. exists ns, []. apply new_beside_nodes; auto. Qed.

  Lemma push_all_ok : forall xs h l1 s1 v1 l2 s2 v2,
    both h l1 s1 v1 l2 s2 v2 -> s2 <> FrontOnly -> xs <> [] ->
    exists h' l2', push_all h l2 xs = Ok (h', l2') /\ both h' l1 s1 v1 l2' Whole (v2 ++ xs).
  Proof.
    induction xs as [|x xs IH]; intros h l1 s1 v1 l2 s2 v2 (ns & ms & I1 & I2 & Hne) Hs NE;
      [congruence|].
    destruct (push_back_ok _ _ _ _ _ _ x I2 Hs) as (h1 & l3 & R & Id & I3 & Fr).
    cbn [push_all]. rewrite R. cbn [bind fst snd].
    assert (B : both h1 l1 s1 v1 l3 Whole (v2 ++ [x])).
    { eexists ns, _. split; [|split; [exact I3|congruence]].
      eapply inv_other with (1 := I1) (2 := I2); eauto. }
    destruct xs as [|y xs].
    - exists h1, l3. split; [reflexivity|exact B].
    - destruct (IH h1 l1 s1 v1 l3 Whole (v2 ++ [x])) as (h' & l2' & R' & B'); auto; try discriminate.
      exists h', l2'. split; [exact R'|]. rewrite <- app_assoc in B'. exact B'.
  Qed.

  (** updateHeadLinks() on a list whose links are right changes nothing. *)
  Lemma update_head_ok : forall h l1 s1 v1 l2 v2,
    both h l1 s1 v1 l2 Whole v2 ->
    exists h', update_head_links h l2 = Ok h' /\ both h' l1 s1 v1 l2 Whole v2.
  Proof.
    intros h l1 s1 v1 l2 v2 (ns & ms & I1 & I2 & Hne).
    destruct (shape_split _ _ _ _ _ _ I2) as (T & Ch & Hh); [discriminate|].
    pose proof (head_of_live _ _ _ _ _ _ I2) as Lh.
    unfold update_head_links. rewrite Hh.
    run (set_next_spec h (PostFirst (dl_id l2)) (head_of (dl_id l2) ms));
      [apply (i_first _ _ _ _ _ _ I2)|].
    destruct (set_prev_spec h0 (head_of (dl_id l2) ms) (PostFirst (dl_id l2)))
      as (h1 & E1 & N1 & P1 & O1 & F1 & C1); [back; exact Lh|].
    rewrite E1. exists h1. split; [reflexivity|].
    pose proof (chain_cut h (dl_id l2) [] ms Ch) as (X1 & X2).
    change (left_of (dl_id l2) []) with (PostFirst (dl_id l2)) in X1, X2.
    assert (I2' : inv h1 l2 Whole ms v2 ns).
    { destruct I2 as [If Il Inull Ind Ie Ilive Ifr Iv Ish].
      constructor; auto.
      - back; auto.
      - back; auto.
      - back; auto.
      - intros n. back. apply Ilive.
      - intros n. back. apply Ifr.
      - apply vals_frame with (h := h); auto. intros n Hn. back. reflexivity.
      - split; [apply T; reflexivity|]. split; [|exact Hh].
        unfold chain in *. apply seg_frame with (h := h); auto.
        + intros p Hp. back. dec1; congruence.
        + intros p Hp. back. dec1; congruence. }
    exists ns, ms. split; [|split; [exact I2'|exact Hne]].
    eapply inv_other with (1 := I1) (2 := I2) (l2' := l2); eauto.
    intros p (O3 & O4 & O5) L. rewrite C1, C; auto.
    intros <-. destruct (head_of_cases (dl_id l2) ms) as [(_ & E)|(n & z & -> & E)]; [congruence|].
    apply (O5 n E). left; reflexivity.
  Qed.

  Lemma copy_ok : forall h l s ns vals o fuel,
    inv h l s ns vals [] -> dl_id l <> o -> s <> Untouched -> vals <> [] -> length vals < fuel ->
    exists h' l', list_copy dflt fuel h o l = Ok (h', l') /\ both h' l s vals l' Whole vals.
  Proof.
    intros h l s ns vals o fuel I Hne Hs NE F.
    pose proof (new_beside _ _ _ _ _ _ I Hne) as B.
    unfold list_copy. destruct (list_new dflt h o) as (h0 & l0). cbn [fst snd] in B.
    pose proof B as (ns0 & ms0 & I0 & _ & _).
    rewrite (size_ok _ _ _ _ _ _ _ I0 Hs F). cbn [bind].
    replace (length vals =? 0) with false by (destruct vals; [congruence|reflexivity]).
    rewrite (forward_ok _ _ _ _ _ _ _ I0 Hs F). cbn [bind].
    destruct (push_all_ok vals h0 l s vals l0 Untouched []) as (h1 & l1 & R1 & B1); auto;
      try discriminate.
    rewrite R1. cbn [bind fst snd].
    destruct (update_head_ok _ _ _ _ _ _ B1) as (h2 & R2 & B2). rewrite R2. cbn [bind].
    exists h2, l1. auto.
  Qed.

  Lemma move_nodes_ok : forall h l ns1 vals o,
    inv h l Whole ns1 vals [] -> dl_id l <> o ->
    exists h' l' src', list_move dflt h o l = Ok (h', l', src')
      /\ inv h' l' Whole ns1 vals [] /\ inv h' src' Untouched [] [] ns1 /\ dl_id l' <> dl_id src'.
  Proof.
    intros h l ns1 vals o I Hne.
    pose proof (new_beside_nodes _ _ _ _ _ _ I Hne) as (I1 & I2 & _).
    cbn [list_new fst snd] in *.
    destruct (shape_split _ _ _ _ _ _ I1) as (T & Ch & Hh); [discriminate|].
    destruct (T eq_refl) as (z & t & Ez & Ht).
    unfold list_move. set (h0 := with_sentinels dflt h o) in *.
    unfold clean_links. cbn [dl_id].
    run (set_prev_spec h0 (PostFirst (dl_id l)) Null); [apply (i_first _ _ _ _ _ _ I1)|].
    run (set_next_spec h1 (PostFirst (dl_id l)) Null); [back; apply (i_first _ _ _ _ _ _ I1)|].
    run (set_prev_spec h2 (PostLast (dl_id l)) Null); [back; apply (i_last _ _ _ _ _ _ I1)|].
    run (set_next_spec h3 (PostLast (dl_id l)) Null); [back; apply (i_last _ _ _ _ _ _ I1)|].
    unfold update_links, update_head_links, update_tail_links. cbn [dl_id dl_head dl_tail].
    rewrite Hh, Ht.
    destruct ns1 as [|n ns1]; [destruct z; discriminate|]. cbn [head_of].
    assert (Lo1 : obj h0 (PostFirst o) <> None) by (apply (i_first _ _ _ _ _ _ I2)).
    assert (Lo2 : obj h0 (PostLast o) <> None) by (apply (i_last _ _ _ _ _ _ I2)).
    assert (Ln : obj h0 (Heap n) <> None) by (apply (inv_in_live _ _ _ _ _ _ _ I1); left; reflexivity).
    assert (Lt : obj h0 (Heap t) <> None).
    { apply (inv_in_live _ _ _ _ _ _ _ I1). rewrite Ez, in_app_iff. cbn; auto. }
    run (set_next_spec h4 (PostFirst o) (Heap n)); [back; auto|].
    run (set_prev_spec h5 (Heap n) (PostFirst o)); [back; auto|].
    run (set_prev_spec h6 (PostLast o) (Heap t)); [back; auto|].
    run (set_next_spec h7 (Heap t) (PostLast o)); [back; auto|].
    eexists h8, _, _. split; [reflexivity|].
    destruct I1 as [If Il Inull Ind Ie Ilive Ifr Iv Ish].
    split; [|split; [|cbn; congruence]].
    - constructor; cbn [dl_id dl_head dl_tail]; auto.
      + back; auto.
      + back; auto.
      + back; auto.
      + intros k. back. apply Ilive.
      + intros k. back. apply Ifr.
      + apply vals_frame with (h := h0); auto. intros k Hk. back. reflexivity.
      + split; [exists z, t; auto|]. split; [|reflexivity].
        clear T Ish. apply chain_links. apply chain_links in Ch. rewrite Ez in Ch |- *.
        rewrite map_app in *. cbn [map] in *. rewrite <- app_assoc in *. cbn [app] in *.
        assert (NDz : NoDup (z ++ [t])) by (rewrite <- Ez; exact Ind).
        apply nodup_snoc_inv in NDz. destruct NDz as (NDz & Nt).
        destruct z as [|y z].
        * injection Ez as -> ->. cbn. back. decs. auto.
        * injection Ez as <- ->. cbn [map app] in *. inversion NDz; subst.
          rewrite links_cons. split; [back; decs|]. split; [back; decs|].
          rewrite links_cons in Ch. destruct Ch as (_ & _ & Ch).
          change (Heap n :: map Heap z ++ [Heap t; PostLast (dl_id l)])
            with ((Heap n :: map Heap z) ++ [Heap t; PostLast (dl_id l)]) in Ch.
          change (Heap n :: map Heap z ++ [Heap t; PostLast o])
            with ((Heap n :: map Heap z) ++ [Heap t; PostLast o]).
          replace ((Heap n :: map Heap z) ++ [Heap t; PostLast (dl_id l)])
            with (((Heap n :: map Heap z) ++ [Heap t]) ++ [PostLast (dl_id l)]) in Ch
            by (rewrite <- app_assoc; reflexivity).
          replace ((Heap n :: map Heap z) ++ [Heap t; PostLast o])
            with (((Heap n :: map Heap z) ++ [Heap t]) ++ [PostLast o])
            by (rewrite <- app_assoc; reflexivity).
          apply (links_cut _ _ Null _ Null) in Ch; [|discriminate|discriminate].
          apply (links_cut _ _ Null _ Null); [discriminate|discriminate|].
          destruct Ch as (Ch1 & _ & _ & _). rewrite last_last in *. cbn [hd].
          split; [|split; [exact Logic.I|split; back; decs]].
          apply links_frame with (h := h0); auto.
          -- intros r Hr. rewrite removelast_last in Hr. back. decs.
          -- intros r Hr. cbn [tl app] in Hr. back. decs.
    - constructor; cbn [dl_id dl_head dl_tail]; auto.
      + back; auto.
      + back; auto.
      + back; auto.
      + constructor.
      + intros k. back. rewrite Ilive. cbn. tauto.
      + intros k. back. apply Ifr.
  Qed.
  Lemma move_ok : forall h l ns vals o,
    inv h l Whole ns vals [] -> dl_id l <> o ->
    exists h' l' src', list_move dflt h o l = Ok (h', l', src')
      /\ both h' l' Whole vals src' Untouched [].
  Proof.
    intros h l ns vals o I Hne. destruct (move_nodes_ok h l ns vals o I Hne) as (h' & l' & src' & E & B).
    exists h', l', src'. split; [exact E|]. exists ns, []. exact B.
  Qed.
  (** operator=(List &&): the target takes over the links, the source is emptied. *)
  Lemma move_assign_nodes_ok : forall h l s ns0 v src ms0 vals fuel,
    inv h l s ns0 v ms0 -> inv h src Whole ms0 vals ns0 -> dl_id l <> dl_id src -> length v < fuel ->
    exists h' l' src', list_move_assign fuel h l src = Ok (h', l', src')
      /\ dl_id l' = dl_id l /\ dl_id src' = dl_id src
      /\ inv h' l' Whole ms0 vals [] /\ inv h' src' Untouched [] [] ms0 /\ dl_id l' <> dl_id src'.
  Proof.
    intros h l s ns0 v src ms0 vals fuel J1 J2 Hne F.
    destruct (clean_ok _ _ _ _ _ _ fuel J1 F) as (h0 & l0 & R & Id & I2 & Fr).
    assert (I1 : inv h0 src Whole ms0 vals []).
    { eapply inv_other with (1 := J2) (2 := J1); eauto. }
    clear J1 J2 Fr. rename ms0 into ns1.
    destruct (shape_split _ _ _ _ _ _ I1) as (T & Ch & Hh); [discriminate|].
    destruct (T eq_refl) as (z & t & Ez & Ht).
    unfold list_move_assign. rewrite R. cbn [bind fst]. clear R.
    rewrite <- Id in Hne |- *. set (o := dl_id l0) in *.
    unfold update_links, update_head_links, update_tail_links, clean_links. cbn [dl_id dl_head dl_tail].
    rewrite Hh, Ht.
    destruct ns1 as [|n ns1]; [destruct z; discriminate|]. cbn [head_of].
    assert (Lo1 : obj h0 (PostFirst o) <> None) by (apply (i_first _ _ _ _ _ _ I2)).
    assert (Lo2 : obj h0 (PostLast o) <> None) by (apply (i_last _ _ _ _ _ _ I2)).
    assert (Ln : obj h0 (Heap n) <> None) by (apply (inv_in_live _ _ _ _ _ _ _ I1); left; reflexivity).
    assert (Lt : obj h0 (Heap t) <> None).
    { apply (inv_in_live _ _ _ _ _ _ _ I1). rewrite Ez, in_app_iff. cbn; auto. }
    run (set_next_spec h0 (PostFirst o) (Heap n)); [back; auto|].
    run (set_prev_spec h1 (Heap n) (PostFirst o)); [back; auto|].
    run (set_prev_spec h2 (PostLast o) (Heap t)); [back; auto|].
    run (set_next_spec h3 (Heap t) (PostLast o)); [back; auto|].
    run (set_prev_spec h4 (PostFirst (dl_id src)) Null); [back; apply (i_first _ _ _ _ _ _ I1)|].
    run (set_next_spec h5 (PostFirst (dl_id src)) Null); [back; apply (i_first _ _ _ _ _ _ I1)|].
    run (set_prev_spec h6 (PostLast (dl_id src)) Null); [back; apply (i_last _ _ _ _ _ _ I1)|].
    run (set_next_spec h7 (PostLast (dl_id src)) Null); [back; apply (i_last _ _ _ _ _ _ I1)|].
    eexists h8, _, _. split; [reflexivity|]. split; [reflexivity|]. split; [reflexivity|].
    destruct I1 as [If Il Inull Ind Ie Ilive Ifr Iv Ish].
    split; [|split; [|cbn; congruence]].
    - constructor; cbn [dl_id dl_head dl_tail]; auto.
      + back; auto.
      + back; auto.
      + back; auto.
      + intros k. back. apply Ilive.
      + intros k. back. apply Ifr.
      + apply vals_frame with (h := h0); auto. intros k Hk. back. reflexivity.
      + split; [exists z, t; auto|]. split; [|reflexivity].
        clear T Ish. apply chain_links. apply chain_links in Ch. rewrite Ez in Ch |- *.
        rewrite map_app in *. cbn [map] in *. rewrite <- app_assoc in *. cbn [app] in *.
        assert (NDz : NoDup (z ++ [t])) by (rewrite <- Ez; exact Ind).
        apply nodup_snoc_inv in NDz. destruct NDz as (NDz & Nt).
        destruct z as [|y z].
        * injection Ez as -> ->. cbn. back. decs. auto.
        * injection Ez as <- ->. cbn [map app] in *. inversion NDz; subst.
          rewrite links_cons. split; [back; decs|]. split; [back; decs|].
          rewrite links_cons in Ch. destruct Ch as (_ & _ & Ch).
          change (Heap n :: map Heap z ++ [Heap t; PostLast (dl_id src)])
            with ((Heap n :: map Heap z) ++ [Heap t; PostLast (dl_id src)]) in Ch.
          change (Heap n :: map Heap z ++ [Heap t; PostLast o])
            with ((Heap n :: map Heap z) ++ [Heap t; PostLast o]).
          replace ((Heap n :: map Heap z) ++ [Heap t; PostLast (dl_id src)])
            with (((Heap n :: map Heap z) ++ [Heap t]) ++ [PostLast (dl_id src)]) in Ch
            by (rewrite <- app_assoc; reflexivity).
          replace ((Heap n :: map Heap z) ++ [Heap t; PostLast o])
            with (((Heap n :: map Heap z) ++ [Heap t]) ++ [PostLast o])
            by (rewrite <- app_assoc; reflexivity).
          apply (links_cut _ _ Null _ Null) in Ch; [|discriminate|discriminate].
          apply (links_cut _ _ Null _ Null); [discriminate|discriminate|].
          destruct Ch as (Ch1 & _ & _ & _). rewrite last_last in *. cbn [hd].
          split; [|split; [exact Logic.I|split; back; decs]].
          apply links_frame with (h := h0); auto.
          -- intros r Hr. rewrite removelast_last in Hr. back. decs.
          -- intros r Hr. cbn [tl app] in Hr. back. decs.
    - constructor; cbn [dl_id dl_head dl_tail]; auto.
      + back; auto.
      + back; auto.
      + back; auto.
      + constructor.
      + intros k. back. rewrite Ilive. cbn. tauto.
      + intros k. back. apply Ifr.
  Qed.
  Lemma move_assign_ok : forall h l s v src vals fuel,
    both h l s v src Whole vals -> length v < fuel ->
    exists h' l' src', list_move_assign fuel h l src = Ok (h', l', src')
      /\ dl_id l' = dl_id l /\ dl_id src' = dl_id src
      /\ both h' l' Whole vals src' Untouched [].
  Proof.
    intros h l s v src vals fuel (ns & ms & J1 & J2 & Hne) F.
    destruct (move_assign_nodes_ok h l s ns v src ms vals fuel J1 J2 Hne F) as (h' & l' & src' & E & D1 & D2 & B).
    exists h', l', src'. split; [exact E|]. split; [exact D1|]. split; [exact D2|]. exists ms, []. exact B.
  Qed.
End Two.
