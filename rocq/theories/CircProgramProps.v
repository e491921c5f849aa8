(** Property C236: programs with any number of CircularArrays of objects with destructors. *)
From Coq Require Import List Arith Lia Bool.
From Verif Require Import Base BaseLemmas Store StoreLemmas StaticVectorModel CircularArrayModel CircularArraySpec.
From Verif Require Import CircularArrayProofs CircProgramModel CircProgramSpec.
Import ListNotations.

Lemma upd_put {T} (l : list T) : forall i x, upd l i x = put l i x.
Proof. induction l as [|y l IH]; intros [|i] x; cbn; congruence. Qed.

Section Proofs.
  Context {A : Type}.
  Variable moved : A -> A.
  Variable cap : nat.
  Implicit Types (c d : circ A).

  (** The same object with another count in its buffer. *)
  Definition setk (c : circ A) (k : nat) : circ A :=
    Circ (SVec (ca_store c) k) (ca_head c) (ca_tail c).

  Lemma setk_same c : setk c (sv_tail (ca_buffer c)) = c.
  Proof. destruct c as [[s t] h l]. reflexivity. Qed.
  Lemma setk_setk c j k : setk (setk c j) k = setk c k.
  Proof. reflexivity. Qed.

  Lemma place_setk m c k x :
    ca_place m (setk c k) x = let! c' := ca_place m c x in Ok (setk c' k).
  Proof.
    unfold ca_place, ca_N, ca_store, setk, ca_store. cbn [ca_buffer sv_store ca_head ca_tail sv_tail].
    destruct (st_construct m _ _ x); reflexivity.
  Qed.
  Lemma place_tail m c x c' : ca_place m c x = Ok c' ->
    sv_tail (ca_buffer c') = sv_tail (ca_buffer c) /\ ca_head c' = ca_head c.
  Proof.
    unfold ca_place. intros E. apply bind_Ok in E as (s & _ & E). injection E as <-. auto.
  Qed.
  Lemma place_all_setk m k xs : forall c,
    ca_place_all m (setk c k) xs = let! c' := ca_place_all m c xs in Ok (setk c' k).
  Proof.
    induction xs as [|x xs IH]; intros c; cbn [ca_place_all bind]; auto.
    rewrite place_setk. destruct (ca_place m c x) as [c1| |]; cbn [bind]; auto.
  Qed.
  Lemma place_all_tail m xs : forall c c', ca_place_all m c xs = Ok c' ->
    sv_tail (ca_buffer c') = sv_tail (ca_buffer c) /\ ca_head c' = ca_head c.
  Proof.
    induction xs as [|x xs IH]; intros c c' E; cbn [ca_place_all] in E.
    - injection E as <-. auto.
    - apply bind_Ok in E as (c1 & E1 & E). apply place_tail in E1. apply IH in E.
      destruct E, E1. split; congruence.
  Qed.

  Lemma elements_setk (c : circ A) k : ca_elements (setk c k) = ca_elements c.
  Proof. reflexivity. Qed.

  Lemma step_setk m c k op :
    ca_step m (setk c k) op = let! c' := ca_step m c op in Ok (setk c' k).
  Proof.
    destruct op; cbn [ca_step].
    1-2: unfold ca_emplaceBack, ca_pushBack;
      change (ca_size (setk c k)) with (ca_size c);
      change (ca_capacity (setk c k)) with (ca_capacity c);
      destruct (ca_size c =? ca_capacity c); [reflexivity|apply place_setk].
    - unfold ca_pushBack_range.
      change (ca_size (setk c k)) with (ca_size c).
      change (ca_capacity (setk c k)) with (ca_capacity c).
      destruct (length xs <=? ca_capacity c - ca_size c); [apply place_all_setk|reflexivity].
    - unfold ca_popFront, ca_N, ca_store, setk, ca_store. cbn [ca_buffer sv_store ca_head ca_tail sv_tail].
      destruct (ca_head c =? ca_tail c); [reflexivity|].
      destruct (st_destroy m _ _); reflexivity.
    - unfold ca_clean. rewrite elements_setk. destruct (ca_elements c) as [xs| |]; cbn [bind]; auto.
      destruct m, xs; reflexivity.
  Qed.

  Lemma step_tail m c op c' : ca_step m c op = Ok c' ->
    sv_tail (ca_buffer c') = sv_tail (ca_buffer c).
  Proof.
    destruct op; cbn [ca_step].
    1-2: unfold ca_emplaceBack, ca_pushBack; destruct (_ =? _); intros E;
      [injection E as <-; auto | apply place_tail in E; tauto].
    - unfold ca_pushBack_range. destruct (_ <=? _); intros E;
        [apply place_all_tail in E; tauto | injection E as <-; auto].
    - unfold ca_popFront. destruct (_ =? _); intros E. { injection E as <-; auto. }
      apply bind_Ok in E as (s & _ & E). injection E as <-. reflexivity.
    - unfold ca_clean. intros E. apply bind_Ok in E as (xs & _ & E).
      destruct m, xs; try discriminate; injection E as <-; reflexivity.
  Qed.

  (** The object is as described. *)
  Record orep (c : circ A) (o : queue A) : Prop := ORep
    { o_holds : holds cap c (q_list o);
      o_neat : neat cap (setk c 0) (q_list o);
      o_at : ca_head c = q_at o;
      o_made : sv_tail (ca_buffer c) = 0 <-> q_made o = false }.

  Lemma head_step m c c' q op : holds cap c q -> ca_step m c op = Ok c' ->
    ca_head c' = match op with
                 | CPop => if is_empty q then ca_head c else (ca_head c + 1) mod (cap + 1)
                 | CClean => 0
                 | _ => ca_head c end.
  Proof.
    intros H. destruct op; cbn [ca_step].
    1-2: unfold ca_emplaceBack, ca_pushBack; destruct (_ =? _); intros E;
      [injection E as <-; auto | apply place_tail in E; tauto].
    - unfold ca_pushBack_range. destruct (_ <=? _); intros E;
        [apply place_all_tail in E; tauto | injection E as <-; auto].
    - destruct H as [HN Hh Hlen Ht Hc]. unfold ca_popFront. destruct q as [|x q]; cbn [is_empty length] in *.
      + rewrite ix_0 in Ht by lia. rewrite Ht, Nat.eqb_refl. intros E. injection E as <-. auto.
      + destruct (Nat.eqb_spec (ca_head c) (ca_tail c)) as [E|E].
        { rewrite Ht in E. rewrite <- (ix_0 (S cap) (ca_head c)) in E at 1 by lia.
          apply ix_inj in E; lia. }
        intros E'. apply bind_Ok in E' as (s & _ & E'). injection E' as <-. cbn [ca_head].
        rewrite HN. unfold updateTerminal. replace (cap + 1) with (S cap) by lia.
        destruct (Nat.eqb_spec (S (ca_head c)) (S cap)) as [E2|E2].
        * replace (ca_head c + 1) with (S cap) by lia. rewrite Nat.mod_same; lia.
        * rewrite Nat.mod_small; lia.
    - unfold ca_clean. intros E. apply bind_Ok in E as (xs & _ & E).
      destruct m, xs; try discriminate; injection E as <-; reflexivity.
  Qed.

  Lemma holds_setk c k q : holds cap c q -> holds cap (setk c k) q.
  Proof. intros [HN Hh Hlen Ht Hc]. constructor; auto. Qed.

  Lemma queue_do_step (o : queue A) op o' : queue_do cap o op = Some o' ->
    q_list o' = q_step cap (q_list o) op /\ q_made o' = q_made o
    /\ (op = CClean -> q_list o = [])
    /\ q_at o' = match op with
                 | CPop => if is_empty (q_list o) then q_at o else (q_at o + 1) mod (cap + 1)
                 | CClean => 0
                 | _ => q_at o end.
  Proof.
    destruct op; cbn [queue_do]; intros E; try (injection E as <-; repeat split; auto; discriminate).
    destruct o as [[|x q] a d]; cbn in *; [|discriminate]. injection E as <-. auto.
  Qed.

  Lemma do_ok c o op : orep c o ->
    match queue_do cap o op with
    | Some o' => exists c', ca_step Tracked c op = Ok c' /\ orep c' o'
    | None => ca_step Tracked c op = UB
    end.
  Proof.
    intros [H N Ha Hm]. destruct (queue_do cap o op) as [o'|] eqn:Eo.
    - destruct (queue_do_step _ _ _ Eo) as (E1 & E2 & E3 & E4).
      destruct (step_ok Tracked cap c (q_list o) op H (or_intror E3)) as (c' & Ec & H' & _).
      exists c'. split; auto.
      destruct (step_ok Tracked cap (setk c 0) (q_list o) op (holds_setk _ _ _ H) (or_intror E3))
        as (c2 & Ec2 & _ & N2).
      rewrite step_setk, Ec in Ec2. cbn [bind] in Ec2. injection Ec2 as <-.
      constructor.
      + rewrite E1. exact H'.
      + rewrite E1. apply N2; auto.
      + rewrite (head_step _ _ _ _ _ H Ec), E4, Ha. reflexivity.
      + rewrite (step_tail _ _ _ _ Ec), E2. exact Hm.
    - destruct op; cbn [queue_do] in Eo; try discriminate. cbn [ca_step].
      unfold ca_clean. rewrite (elements_ok _ _ _ H). cbn [bind].
      destruct o as [[|x q] a d]; cbn in *; [discriminate|reflexivity].
  Qed.

  Lemma load_all_raw (s : store A) i is_ : In i is_ -> nth_error (st_cells s) i = Some None ->
    load_all s is_ = UB.
  Proof.
    intros Hi Hn. induction is_ as [|j is_ IH]; [destruct Hi|]. cbn [load_all].
    destruct (Nat.eq_dec j i) as [->|Hji].
    - unfold st_load. rewrite Hn. reflexivity.
    - destruct Hi as [->|Hi]; [congruence|]. unfold st_load at 1.
      destruct (nth_error (st_cells s) j) as [[x|]|]; cbn [bind]; auto.
      rewrite (IH Hi). reflexivity.
  Qed.

  Lemma celements_exact c o : orep c o ->
    ca_celements c = if (is_empty (q_list o) || (q_at o =? 0))%bool then Ok (q_list o) else UB.
  Proof.
    intros [H N Ha _]. destruct o as [q a d]. cbn [q_list q_at] in *. subst a.
    destruct q as [|x q]; cbn [is_empty orb].
    - rewrite (celements_prefix _ _ _ H). reflexivity.
    - destruct (Nat.eqb_spec (ca_head c) 0) as [E|E]. { apply (celements_ok _ _ _ H E). }
      rewrite (celements_prefix _ _ _ H). destruct N as [Hr _ _]. destruct H as [HN Hh Hlen Ht Hc].
      cbn [setk ca_head] in Hr. unfold setk, ca_store in Hr. cbn [ca_buffer sv_store] in Hr. fold (ca_store c) in Hr.
      set (l := length (x :: q)) in *. assert (0 < l) by (cbn; lia). clearbody l.
      destruct (Nat.le_gt_cases (ca_head c + l) (S cap)) as [Hw|Hw].
      + apply (load_all_raw _ 0); [apply in_seq; lia|].
        rewrite <- (Hr (S cap - ca_head c)) by lia. f_equal. ix_cases; lia.
      + apply (load_all_raw _ (ca_head c + l - S cap)); [apply in_seq; lia|].
        rewrite <- (Hr l) by lia. f_equal. ix_cases; lia.
  Qed.

  (** The object a copy or a move makes of the queue [q]. *)
  Lemma fill_orep q : length q <= cap ->
    exists b, sv_push_all Tracked (sv_new (S cap)) q = Ok b
      /\ orep (Circ b 0 (length q)) (Queue q 0 (negb (is_empty q))).
  Proof.
    intros Hl. destruct (fill_ok Tracked cap q Hl) as (b & Eb & Hb & Ht & Hn).
    destruct (Hn eq_refl) as [Hk Hr]. exists b. split; auto. constructor; cbn [q_list q_at q_made ca_head ca_buffer]; auto.
    - constructor; auto. cbn [setk ca_head ca_buffer]. intros i Hi.
      unfold setk, ca_store. cbn [ca_buffer sv_store]. rewrite <- (Hr i) by lia. f_equal. ix_cases; lia.
    - rewrite Ht. destruct q; cbn; split; intros; auto; discriminate.
  Qed.

  Lemma copy_ok c o : orep c o ->
    if (is_empty (q_list o) || (q_at o =? 0))%bool
    then exists d, ca_copy Tracked c = Ok d
           /\ orep d (Queue (q_list o) 0 (negb (is_empty (q_list o))))
    else ca_copy Tracked c = UB.
  Proof.
    intros R. unfold ca_copy. rewrite (celements_exact _ _ R).
    destruct (is_empty (q_list o) || (q_at o =? 0))%bool; cbn [bind]; auto.
    destruct R as [H _ _ _]. rewrite (h_N _ _ _ H), (holds_size _ _ _ H).
    destruct (fill_orep (q_list o) (h_len _ _ _ H)) as (b & Eb & Rb).
    rewrite Eb. cbn [bind]. eauto.
  Qed.

  Lemma move_out_ok (is_ : list nat) : NoDup is_ -> forall s : store A,
    (forall i, In i is_ -> exists x, nth_error (st_cells s) i = Some (Some x)) ->
    exists s', move_out Tracked moved s is_ = Ok s' /\ st_leaks s' = st_leaks s
      /\ length (st_cells s') = length (st_cells s)
      /\ (forall i x, In i is_ -> nth_error (st_cells s) i = Some (Some x) ->
                      nth_error (st_cells s') i = Some (Some (moved x)))
      /\ (forall i, ~ In i is_ -> nth_error (st_cells s') i = nth_error (st_cells s) i).
  Proof.
    intros HD. induction HD as [|i is_ Hni HD IH]; intros s H; cbn [move_out].
    - exists s. repeat split; auto. intros i x [].
    - destruct (H i (or_introl eq_refl)) as [x Hx].
      unfold st_load, st_assign. rewrite Hx. cbn [bind].
      assert (i < length (st_cells s)) as Hlt by (apply nth_error_Some; congruence).
      destruct (IH (St (upd (st_cells s) i (Some (moved x))) (st_leaks s))) as (s' & E & K & L & HI & HO).
      { intros j Hj. cbn [st_cells]. rewrite nth_error_upd_neq by congruence. apply H. right; auto. }
      exists s'. split; auto. split; auto. cbn [st_cells] in *. rewrite upd_length in L. split; auto. split.
      + intros j y [<-|Hj] Hy.
        * rewrite HO by auto. rewrite nth_error_upd_eq by auto. congruence.
        * apply HI; auto. rewrite nth_error_upd_neq by congruence. auto.
      + intros j Hj. rewrite HO. { apply nth_error_upd_neq. intros ->. apply Hj; left; auto. }
        intros Hin. apply Hj. right; auto.
  Qed.

  Lemma indices_nodup c q : holds cap c q -> NoDup (map (ix (S cap) (ca_head c)) (seq 0 (length q))).
  Proof.
    intros []. apply nodup_map_in; [|apply seq_NoDup].
    intros i j Hi Hj Eij. apply in_seq in Hi. apply in_seq in Hj. apply ix_inj in Eij; lia.
  Qed.

  Lemma take_ok c o : orep c o ->
    exists d c', ca_take Tracked moved c = Ok (d, c')
      /\ orep d (Queue (q_list o) 0 (negb (is_empty (q_list o))))
      /\ orep c' (Queue (map moved (q_list o)) (q_at o) (q_made o)).
  Proof.
    intros [H N Ha Hm]. unfold ca_take, ca_move. rewrite (elements_ok _ _ _ H). cbn [bind].
    rewrite (h_N _ _ _ H), (holds_size _ _ _ H).
    destruct (fill_orep (q_list o) (h_len _ _ _ H)) as (b & Eb & Rb). rewrite Eb. cbn [bind].
    rewrite (indices_ok _ _ _ H). cbn [bind].
    destruct (move_out_ok _ (indices_nodup _ _ H) (ca_store c)) as (s' & E & K & L & HI & HO).
    { intros i Hi. apply in_map_iff in Hi as (k & <- & Hin). apply in_seq in Hin.
      destruct (holds_nth _ _ _ k H) as (x & _ & Hx); [lia|]. eauto. }
    rewrite E. cbn [bind]. do 2 eexists. split; [reflexivity|]. split; auto.
    destruct N as [Hr Hk _]. destruct H as [HN Hh Hlen Ht Hc].
    constructor; cbn [q_list q_at q_made ca_head ca_buffer sv_tail]; auto.
    - constructor; cbn [ca_head ca_tail]; rewrite ?map_length; auto.
      + unfold ca_N, ca_store. cbn [ca_buffer sv_store]. rewrite L. exact HN.
      + intros i y Hy. rewrite nth_error_map in Hy.
        destruct (nth_error (q_list o) i) as [x|] eqn:Ex; [|discriminate]. cbn in Hy. injection Hy as <-.
        unfold ca_store. cbn [ca_buffer sv_store]. apply HI; auto.
        apply in_map, in_seq. assert (i < length (q_list o)) by (apply nth_error_Some; congruence). lia.
    - constructor; auto.
      + cbn [setk ca_head]. rewrite map_length. intros i Hi. unfold setk, ca_store. cbn [ca_buffer sv_store].
        rewrite HO.
        * apply (Hr i Hi).
        * intros Hin. apply in_map_iff in Hin as (k & Ek & Hin). apply in_seq in Hin. apply ix_inj in Ek; lia.
      + unfold setk, ca_store in *. cbn [ca_buffer sv_store] in *. congruence.
  Qed.

  Lemma count_raw n : count_live (raw A n) = 0.
  Proof. unfold count_live, raw. induction n; cbn; auto. Qed.

  Lemma drop_ok c o : orep c o ->
    if q_made o then ca_destructor Tracked c = UB
    else exists s, ca_destructor Tracked c = Ok s /\ st_leaks s = 0 /\ count_live (st_cells s) = 0.
  Proof.
    intros [H N Ha Hm].
    destruct (destructor_ok Tracked cap (setk c 0) (q_list o) eq_refl (holds_setk _ _ _ H) N)
      as (s & Es & Hk & Hc).
    destruct (q_made o) eqn:Ed.
    - unfold ca_destructor in *. change (ca_indices (setk c 0)) with (ca_indices c) in Es.
      rewrite (indices_ok _ _ _ H) in Es |- *. cbn [bind] in Es |- *.
      change (ca_store (setk c 0)) with (ca_store c) in Es.
      apply bind_Ok in Es as (s1 & E1 & Es). rewrite E1. cbn [bind].
      cbn [setk ca_buffer sv_tail] in Es. unfold sv_destructor in *. cbn [sv_tail sv_store destroy_range] in *.
      injection Es as <-.
      destruct (sv_tail (ca_buffer c)) as [|k]. { destruct Hm as [Hm _]. discriminate (Hm eq_refl). }
      cbn [destroy_range]. unfold st_destroy. rewrite Hc. reflexivity.
    - assert (setk c 0 = c) as E0.
      { rewrite <- (setk_same c) at 2. f_equal. symmetry. apply Hm. reflexivity. }
      rewrite E0 in Es. exists s. split; auto. split; auto. rewrite Hc. apply count_raw.
  Qed.

  (** All the objects. *)
  Definition rep1 (c : option (circ A)) (o : option (queue A)) : Prop :=
    match c, o with Some c, Some o => orep c o | None, None => True | _, _ => False end.

  Lemma at_ok cs os i : Forall2 rep1 cs os ->
    match the os i with
    | Some o => exists c, circ_at cs i = Ok c /\ orep c o
    | None => circ_at cs i = UB
    end.
  Proof.
    intros F. unfold the, circ_at. revert i. induction F as [|c o cs os R F IH]; intros [|i]; cbn; auto.
    - destruct c as [c|], o as [o|]; cbn in R; try contradiction; eauto.
    - apply IH.
  Qed.

  Lemma put_ok cs os i (c : option (circ A)) (o : option (queue A)) : Forall2 rep1 cs os -> rep1 c o -> Forall2 rep1 (put cs i c) (put os i o).
  Proof.
    intros F R. revert i. induction F as [|c0 o0 cs os R0 F IH]; intros [|i]; cbn; constructor; auto.
  Qed.

  Lemma step_rep cs os lost call : Forall2 rep1 cs os ->
    match spec_step moved cap os call with
    | Some os' => exists cs', program_step Tracked moved cap (CaState cs lost) call = Ok (CaState cs' lost)
                              /\ Forall2 rep1 cs' os'
    | None => program_step Tracked moved cap (CaState cs lost) call = UB
    end.
  Proof.
    intros F. destruct call as [|i op|i|i|i j|i]; cbn [spec_step program_step ca_objects ca_lost].
    - eexists. split; [reflexivity|]. apply Forall2_app; auto. constructor; auto. cbn.
      constructor; cbn; [apply holds_new|apply neat_new|auto|tauto].
    - pose proof (at_ok cs os i F) as G. destruct (the os i) as [o|]; [|rewrite G; reflexivity].
      destruct G as (c & E & R). rewrite E. cbn [bind]. pose proof (do_ok c o op R) as D.
      destruct (queue_do cap o op) as [o'|]; [|rewrite D; reflexivity].
      destruct D as (c' & E' & R'). rewrite E'. cbn [bind]. eexists. split; [reflexivity|].
      rewrite upd_put. apply put_ok; auto.
    - pose proof (at_ok cs os i F) as G. destruct (the os i) as [o|]; [|rewrite G; reflexivity].
      destruct G as (c & E & R). rewrite E. cbn [bind]. pose proof (copy_ok c o R) as D.
      destruct (_ || _)%bool; [|rewrite D; reflexivity].
      destruct D as (d & E' & R'). rewrite E'. cbn [bind]. eexists. split; [reflexivity|].
      apply Forall2_app; auto.
    - pose proof (at_ok cs os i F) as G. destruct (the os i) as [o|]; [|rewrite G; reflexivity].
      destruct G as (c & E & R). rewrite E. cbn [bind].
      destruct (take_ok c o R) as (d & c' & E' & Rd & Rc). rewrite E'. cbn [bind fst snd].
      eexists. split; [reflexivity|]. apply Forall2_app; auto. rewrite upd_put. apply put_ok; auto.
    - pose proof (at_ok cs os i F) as G. destruct (the os i) as [o|]; [|rewrite G; reflexivity].
      destruct G as (c & E & R). rewrite E. cbn [bind].
      pose proof (at_ok cs os j F) as G. destruct (the os j) as [o2|]; [|rewrite G; reflexivity].
      destruct G as (d & E2 & R2). rewrite E2. cbn [bind]. unfold ca_assign.
      pose proof (do_ok c o CClean R) as D. cbn [queue_do] in D.
      destruct (is_empty (q_list o)); [|cbn [ca_step] in D; rewrite D; reflexivity].
      destruct D as (c' & E' & R'). cbn [ca_step] in E'. rewrite E'. cbn [bind].
      rewrite (celements_exact _ _ R2). destruct (_ || _)%bool; cbn [bind]; auto.
      destruct (place_all_ok Tracked cap (q_list o2) c' []) as (c2 & E3 & _).
      { exact (o_holds _ _ R'). }
      { cbn. exact (h_len _ _ _ (o_holds _ _ R2)). }
      rewrite E3. reflexivity.
    - pose proof (at_ok cs os i F) as G. destruct (the os i) as [o|]; [|rewrite G; reflexivity].
      destruct G as (c & E & R). rewrite E. cbn [bind]. pose proof (drop_ok c o R) as D.
      destruct (q_made o); [rewrite D; reflexivity|].
      destruct D as (s & E' & Hk & Hc). rewrite E'. cbn [bind]. rewrite Hk, Hc, !Nat.add_0_r.
      eexists. split; [reflexivity|]. rewrite upd_put. apply put_ok; cbn; auto.
  Qed.

  Lemma run_rep calls : forall cs os lost, Forall2 rep1 cs os ->
    match spec_run moved cap os calls with
    | Some os' => exists cs', program_run Tracked moved cap (CaState cs lost) calls = Ok (CaState cs' lost)
                              /\ Forall2 rep1 cs' os'
    | None => program_run Tracked moved cap (CaState cs lost) calls = UB
    end.
  Proof.
    induction calls as [|call calls IH]; intros cs os lost F; cbn [spec_run program_run].
    - eauto.
    - pose proof (step_rep cs os lost call F) as S1.
      destruct (spec_step moved cap os call) as [os'|]; [|rewrite S1; reflexivity].
      destruct S1 as (cs' & E & F'). rewrite E. cbn [bind]. apply IH. exact F'.
  Qed.

  Lemma rep_shows (c : option (circ A)) (o : option (queue A)) : rep1 c o -> shows cap c o.
  Proof.
    destruct c as [c|], o as [o|]; cbn; auto. intros [H _ _ _].
    split; [eapply elements_ok; eauto|]. split; [eapply holds_size; eauto|].
    split; [eapply holds_capacity; eauto|]. apply (h_len _ _ _ H).
  Qed.
End Proofs.

(** ** C236 *)

(** Every program with CircularArrays of objects: it is defined exactly if the specification allows each of its
    calls, and then every object shows its queue and the destroyed objects left no element behind. *)
Theorem C236_program_partial : forall (A : Type) (moved : A -> A) (cap : nat) (calls : list (ca_call A)),
  match spec_run moved cap [] calls with
  | Some os => exists cs, program_run Tracked moved cap (CaState [] 0) calls = Ok (CaState cs 0)
                          /\ Forall2 (shows cap) cs os
  | None => program_run Tracked moved cap (CaState [] 0) calls = UB
  end.
Proof.
  intros A moved cap calls.
  pose proof (run_rep moved cap calls [] [] 0 (Forall2_nil _)) as R.
  destruct (spec_run moved cap [] calls) as [os|]; auto.
  destruct R as (cs & E & F). exists cs. split; auto.
  clear E. induction F; constructor; auto. apply rep_shows; auto.
Qed.

Example C236_case :
  let calls := [PNew; PDo 0 (CPushRange [1; 2; 3]); PDo 0 CPop; PMove 0; PDo 0 CPop; PDo 1 (CPush 9);
                PCopy 1; PDo 2 CPop; PDrop 0] in
  spec_run (fun _ => 0) 4 [] calls
  = Some [None; Some (Queue [2; 3; 9] 0 true); Some (Queue [3; 9] 1 true)]
  /\ exists cs, program_run Tracked (fun _ => 0) 4 (CaState [] 0) calls = Ok (CaState cs 0) /\ length cs = 3.
Proof. cbn zeta. split; [reflexivity|]. eexists. split; vm_compute; reflexivity. Qed.

(** Whatever is done with an object made by copying or moving a container that was not empty, destroying it is
    undefined: emptying it first does not help. *)
Theorem C236_destroy_refuted : forall (A : Type) (moved : A -> A) (cap : nat) (calls : list (ca_call A))
  (os : list (option (queue A))) (i : nat) (o : queue A),
  spec_run moved cap [] calls = Some os -> nth_error os i = Some (Some o) -> q_made o = true ->
  exists st, program_run Tracked moved cap (CaState [] 0) calls = Ok st
    /\ program_step Tracked moved cap st (PDrop i) = UB.
Proof.
  intros A moved cap calls os i o E Ho Hd.
  pose proof (run_rep moved cap calls [] [] 0 (Forall2_nil _)) as R. rewrite E in R.
  destruct R as (cs & Er & F). eexists. split; [exact Er|].
  pose proof (step_rep moved cap cs os 0 (PDrop i) F) as S1. cbn [spec_step] in S1.
  unfold the in S1. rewrite Ho, Hd in S1. exact S1.
Qed.

(** The shortest such program: one element, one copy (or move), the copy emptied and destroyed. *)
Theorem C236_copy_refuted : forall (A : Type) (moved : A -> A) (cap : nat) (x : A), 0 < cap ->
  program_run Tracked moved cap (CaState [] 0) [PNew; PDo 0 (CPush x); PCopy 0; PDo 1 CPop; PDrop 1] = UB
  /\ program_run Tracked moved cap (CaState [] 0) [PNew; PDo 0 (CPush x); PMove 0; PDo 1 CPop; PDrop 1] = UB.
Proof.
  intros A moved [|cap] x Hc; [lia|].
  split; [set (calls := [PNew; PDo 0 (CPush x); PCopy 0; PDo 1 CPop; PDrop 1])
         |set (calls := [PNew; PDo 0 (CPush x); PMove 0; PDo 1 CPop; PDrop 1])];
    pose proof (C236_program_partial A moved (S cap) calls) as P; exact P.
Qed.

(** A container whose head has left cell 0 cannot be copied: push, pop, push. *)
Theorem C236_rotated_refuted : forall (A : Type) (moved : A -> A) (cap : nat) (x y : A), 0 < cap ->
  program_run Tracked moved cap (CaState [] 0)
    [PNew; PDo 0 (CPush x); PDo 0 CPop; PDo 0 (CPush y); PCopy 0] = UB.
Proof.
  intros A moved [|cap] x y Hc; [lia|].
  pose proof (C236_program_partial A moved (S cap)
    [PNew; PDo 0 (CPush x); PDo 0 CPop; PDo 0 (CPush y); PCopy 0]) as P.
  cbn [spec_run spec_step app the nth_error queue_do q_list q_at q_made q_step length Nat.ltb Nat.leb put tl
       is_empty] in P.
  rewrite Nat.mod_small in P by lia. exact P.
Qed.

Print Assumptions C236_program_partial.
Print Assumptions C236_destroy_refuted.
Print Assumptions C236_copy_refuted.
Print Assumptions C236_rotated_refuted.
