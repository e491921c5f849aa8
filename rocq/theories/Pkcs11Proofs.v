(** Proofs about the PKCS#11 wrapper. *)
From Coq Require Import List Arith Bool Lia.
From Verif Require Import Base BaseLemmas Store StaticVectorModel VectorModel Pkcs11Model Pkcs11Spec.
Import ListNotations.

Lemma handle_functions : forall B l (f : unit -> B) g none,
  handle (get_functions l) f g none = if is_ok (p_status l) then f tt else none.
Proof.
  intros. unfold get_functions, create_expected. destruct (is_ok (p_status l)); reflexivity.
Qed.

Lemma is_ok_true : forall r, is_ok r = true -> r = ROk.
Proof. destruct r; cbn; congruence. Qed.

Lemma upd_same : forall (l : list nat) k x, nth_error l k = Some x -> upd l k x = l.
Proof.
  induction l as [|y l IH]; intros [|k] x N; cbn in *; try discriminate.
  - congruence.
  - f_equal. apply IH. exact N.
Qed.

(** The world keeps to: a library that counts as initialised has its function list. *)
Definition linked (l : plib) : Prop := is_ok (p_status l) = true -> p_functions l = true.

Section Proofs.
  Variable mem : memory.
  Hypothesis Hmem : mem <> NoMemory.

  Lemma reserve_new : forall n, exists v : vec nat,
    vec_reserve Trivial mem vec_new n = Ok v /\ vc_capacity v = n /\ vc_tail v = 0
    /\ length (st_cells (vc_store v)) = n.
  Proof.
    intros [|n].
    - exists vec_new. cbn. auto.
    - unfold vec_reserve. cbn [vec_new vc_capacity Nat.ltb Nat.leb].
      destruct mem; [| |congruence].
      + eexists. split; [reflexivity|]. cbn. rewrite repeat_length. auto.
      + cbn. eexists. split; [reflexivity|]. cbn. rewrite repeat_length. auto.
  Qed.

  Lemma resize_same : forall v f,
    vec_resize Trivial 0 mem (S f) v (vc_capacity v) = Ok v.
  Proof.
    intros v f. cbn [vec_resize]. destruct (_ <? _); auto. rewrite Nat.ltb_irrefl. reflexivity.
  Qed.

  Lemma write_cells_ok : forall xs c, length xs <= length c ->
    exists c', write_cells c xs = Ok c' /\ length c' = length c.
  Proof.
    induction xs as [|x xs IH]; intros [|y c] H; cbn in *; try lia; eauto.
    destruct (IH c ltac:(lia)) as (c' & E & L). rewrite E. cbn. eexists; split; [reflexivity|].
    cbn. lia.
  Qed.

  Lemma fill_ok : forall v xs, length xs <= length (st_cells (vc_store v)) ->
    exists v', fill v xs = Ok v' /\ vc_tail v' = vc_tail v /\ vc_capacity v' = vc_capacity v.
  Proof.
    intros v xs H. destruct (write_cells_ok xs _ H) as (c & E & _). unfold fill. rewrite E. cbn.
    eexists. split; [reflexivity|]. auto.
  Qed.

  Lemma elements_empty : forall v : vec nat, vc_tail v = 0 -> vec_elements v = Ok [].
  Proof. intros v H. unfold vec_elements. rewrite H. reflexivity. Qed.

  (** ** Each function *)

  Lemma call_linked : forall l e, linked l -> is_ok (p_status l) = true -> call l e = Ok (set_log l e).
  Proof. intros l e L S. unfold call. rewrite (L S). reflexivity. Qed.

  Lemma count_eq : forall l r slots, linked l ->
    slot_count l r slots =
      if is_ok (p_status l) then
        Ok (set_log l (CGetSlotList r), if is_ok r then EResult (length slots) else ENone)
      else Ok (l, EResult 0).
  Proof.
    intros l r slots L. unfold slot_count, c_slot_count.
    destruct (is_ok r) eqn:R; rewrite handle_functions; destruct (is_ok (p_status l)) eqn:S;
      try rewrite (call_linked _ _ L S); cbn [bind]; try reflexivity.
    - apply is_ok_true in R. subst. reflexivity.
    - unfold create_expected. rewrite R. reflexivity.
  Qed.

  (** The second call of the list, seen from the first. *)
  Definition room (n : nat) : option nat := if n =? 0 then None else Some n.

  Lemma list_eq : forall f l r1 s1 r2 s2, linked l ->
    slot_list mem (S f) l r1 s1 r2 s2 =
      if is_ok (p_status l) then
        if is_ok r1 then
          let r := fst (c_slot_list r2 s2 (room (length s1))) in
          Ok (set_log (set_log l (CGetSlotList r1)) (CGetSlotList r),
              if is_ok r then EResult [] else ENone)
        else Ok (set_log l (CGetSlotList r1), EResult [])
      else Ok (l, EResult []).
  Proof.
    intros f l r1 s1 r2 s2 L. unfold slot_list. rewrite (count_eq _ _ _ L).
    destruct (is_ok (p_status l)) eqn:St; cbn [bind].
    - destruct (is_ok r1) eqn:R1; cbn [handle].
      + destruct (reserve_new (length s1)) as (v & E & C & T & N). rewrite E. cbn [bind].
        assert (ER : vec_resize Trivial 0 mem (S f) v (length s1) = Ok v)
          by (rewrite <- C; apply resize_same).
        rewrite ER. cbn [bind]. fold (room (length s1)). rewrite C. fold (room (length s1)).
        destruct (c_slot_list r2 s2 (room (length s1))) as [r stored] eqn:EC.
        rewrite handle_functions. cbn [set_log p_status fst]. rewrite St.
        assert (L' : linked (set_log l (CGetSlotList r1))) by exact L.
        rewrite (call_linked _ _ L') by exact St. cbn [bind].
        assert (LE : length stored <= length (st_cells (vc_store v))).
        { rewrite N. revert EC. unfold c_slot_list, room. destruct (is_ok r2).
          - destruct (length s1 =? 0).
            + injection 1 as <- <-. cbn. lia.
            + destruct (Nat.ltb_spec (length s1) (length s2)); injection 1 as <- <-; cbn; lia.
          - injection 1 as <- <-. cbn. lia. }
        destruct (fill_ok v stored LE) as (v' & F & T' & _). rewrite F. cbn [bind].
        destruct (is_ok r); [|reflexivity].
        rewrite (elements_empty v') by congruence. reflexivity.
      + reflexivity.
    - unfold get_functions, create_expected. rewrite St. unfold c_slot_list.
      destruct (is_ok r2); reflexivity.
  Qed.

  Lemma finalize_eq : forall l r, linked l ->
    finalize l r = if is_ok (p_status l) then Ok (set_log l (CFinalize r), r) else Ok (l, ROk).
  Proof.
    intros l r L. unfold finalize. rewrite handle_functions.
    destruct (is_ok (p_status l)) eqn:St; [|reflexivity].
    rewrite (call_linked _ _ L St). reflexivity.
  Qed.

  Lemma info_eq : forall l id r info, linked l ->
    slot_info l id r info =
      if is_ok (p_status l) then
        Ok (set_log l (CGetSlotInfo id r), if is_ok r then EResult info else ENone)
      else Ok (l, ENone).
  Proof.
    intros l id r info L. unfold slot_info. rewrite handle_functions.
    destruct (is_ok (p_status l)) eqn:St; [|reflexivity].
    rewrite (call_linked _ _ L St). cbn [bind]. destruct (is_ok r); reflexivity.
  Qed.

  Lemma wait_eq : forall l id r i, linked l ->
    wait_event l id r i =
      if is_ok (p_status l) then
        Ok (set_log l (CWaitForSlotEvent r), (if is_ok r then i else id), r)
      else Ok (l, id, ROk).
  Proof.
    intros l id r i L. unfold wait_event. rewrite handle_functions.
    destruct (is_ok (p_status l)) eqn:St; [|reflexivity].
    rewrite (call_linked _ _ L St). reflexivity.
  Qed.

  (** initialize: what it returns, the state it leaves and the calls it makes. *)
  Lemma init_cases : forall l args a, linked l -> answers_fit (PInit args a) ->
    exists l' r, initialize mem l args a = Ok (l', r) /\ linked l'
      /\ p_status l' = (if is_ok r then ROk else p_status l)
      /\ ((r <> ROk /\ p_log l' = p_log l)
          \/ (r = ia_init a /\ r <> ROk /\ p_log l' = p_log l ++ [CInitialize args r])
          \/ (ia_init a = ROk /\ r = fst (ia_info a) /\ p_info l' = snd (ia_info a)
              /\ p_log l' = p_log l ++ [CInitialize args ROk; CGetInfo r])).
  Proof.
    intros l args [fs ifs ini [ri info]] L F. unfold initialize. cbn [ia_functions ia_ifaces ia_init ia_info].
    assert (HF : exists l1 r1, initialize_functions l fs = (l1, r1) /\ linked l1
              /\ p_status l1 = p_status l /\ p_log l1 = p_log l /\ (is_ok r1 = true -> p_functions l1 = true)).
    { destruct fs as [r|]; cbn [initialize_functions].
      - destruct (is_ok r) eqn:R.
        + eexists _, _. split; [reflexivity|]. cbn. unfold linked. cbn. auto.
        + eexists _, _. split; [reflexivity|]. rewrite R. cbn. intuition discriminate.
      - eexists _, _. split; [reflexivity|]. auto. }
    destruct HF as (l1 & r1 & -> & L1 & S1 & G1 & P1).
    destruct (is_ok r1) eqn:R1; cbn [negb].
    2: { exists l1, r1. split; [reflexivity|]. split; [exact L1|]. rewrite R1. split; [exact S1|].
         left. split; [intros ->; discriminate|exact G1]. }
    assert (HI : exists l2 r2, initialize_ifaces mem l1 ifs = Ok (l2, r2)
              /\ p_functions l2 = p_functions l1 /\ p_status l2 = p_status l1 /\ p_log l2 = p_log l1).
    { destruct ifs as [[[q1 count] [q2 stored]]|]; cbn [initialize_ifaces].
      - destruct (is_ok q1); [|eauto 6]. destruct (count =? 0); [eauto 6|].
        destruct (reserve_new count) as (v & E & C & T & N). rewrite E. cbn [bind].
        assert (Hs : length stored <= length (st_cells (vc_store v)))
          by (rewrite N; exact F).
        destruct (fill_ok v stored Hs) as (v' & E' & _). rewrite E'. cbn [bind].
        destruct (is_ok q2); eexists _, _; (split; [reflexivity|]); auto.
      - eauto 6. }
    destruct HI as (l2 & r2 & -> & P2 & S2 & G2). cbn [bind].
    destruct (negb (is_ok r2) && negb (is_not_supported r2)) eqn:R2.
    { exists l2, r2. split; [reflexivity|]. unfold linked. rewrite P2, S2.
      split; [exact L1|]. apply andb_true_iff in R2. destruct R2 as [R2 _].
      apply negb_true_iff in R2. rewrite R2. split; [congruence|]. left.
      split; [intros ->; discriminate|congruence]. }
    unfold call. rewrite P2, (P1 eq_refl). cbn [bind].
    destruct (is_ok ini) eqn:Ri; cbn [negb].
    2: { eexists _, _. split; [reflexivity|]. unfold linked. cbn [set_log p_status p_functions p_log].
         rewrite P2, S2, S1, Ri. split; [intros _; apply P1; reflexivity|]. split; [reflexivity|].
         right. left. rewrite G2, G1. split; [reflexivity|]. split; [intros ->; discriminate|reflexivity]. }
    cbn [set_log p_functions]. rewrite P2, (P1 eq_refl). cbn [bind].
    apply is_ok_true in Ri. subst ini.
    destruct (is_ok ri) eqn:Rr; cbn [negb].
    - apply is_ok_true in Rr. subst ri. eexists _, _. split; [reflexivity|].
      cbn [set_log p_status p_functions p_log p_info is_ok]. unfold linked. cbn.
      split; [intros _; rewrite P2; apply P1; reflexivity|]. split; [reflexivity|]. right. right. rewrite G2, G1, <- app_assoc.
      split; [reflexivity|]. split; [reflexivity|]. split; reflexivity.
    - eexists _, _. split; [reflexivity|]. rewrite Rr. unfold linked.
      cbn [set_log p_status p_functions p_log p_info].
      split; [intros _; rewrite P2; apply P1; reflexivity|].
      split; [congruence|]. right. right. rewrite G2, G1, <- app_assoc.
      split; [reflexivity|]. split; [reflexivity|]. split; reflexivity.
  Qed.

  (** ** One call *)

  Definition step_ok (n : nat) (c : pcall) : Prop :=
    answers_fit c /\ match c with PSlotInfo k _ _ | PWait k _ _ => k < n | _ => True end.

  (** The events a call other than initialize adds. *)
  Definition events_of (c : pcall) : list event :=
    match c with
    | PInit _ _ | PInfo | PFunctions | PIfaces | PSlot _ => []
    | PFinalize r => [CFinalize r]
    | PSlotCount r _ => [CGetSlotList r]
    | PSlotList r1 s1 r2 s2 =>
        if is_ok r1 then [CGetSlotList r1; CGetSlotList (fst (c_slot_list r2 s2 (room (length s1))))]
        else [CGetSlotList r1]
    | PSlotInfo k r _ => []
    | PWait _ r _ => [CWaitForSlotEvent r]
    end.

  Definition is_init (c : pcall) : bool := match c with PInit _ _ => true | _ => false end.

  Lemma step_other : forall f w c, linked (w_lib w) -> step_ok (length (w_slots w)) c ->
    is_init c = false ->
    exists w' v added, pstep mem (S f) w c = Ok (w', v)
      /\ p_status (w_lib w') = p_status (w_lib w)
      /\ p_functions (w_lib w') = p_functions (w_lib w)
      /\ p_info (w_lib w') = p_info (w_lib w)
      /\ p_log (w_lib w') = p_log (w_lib w) ++ added
      /\ (is_ok (p_status (w_lib w)) = false -> added = [])
      /\ (forall e, In e added -> is_initialize e = false)
      /\ (forall e, In e added -> is_finalize e = true -> exists r, c = PFinalize r /\ e = CFinalize r)
      /\ ~ holds_error v.
  Proof.
    intros f [l sl] c L [F K] I. cbn [w_lib w_slots] in *.
    destruct c; try discriminate; cbn [pstep w_lib w_slots].
    - rewrite (finalize_eq _ _ L). destruct (is_ok (p_status l)) eqn:St; cbn [bind].
      + eexists _, _, [_]. split; [reflexivity|]. cbn. intuition (try discriminate; subst; eauto).
      + eexists _, _, []. split; [reflexivity|]. rewrite app_nil_r. cbn. intuition.
    - eexists _, _, []. split; [reflexivity|]. rewrite app_nil_r. cbn. unfold get_info, create_expected.
      destruct (is_ok (p_status l)); cbn; intuition.
    - eexists _, _, []. split; [reflexivity|]. rewrite app_nil_r. cbn. unfold get_functions, create_expected.
      destruct (is_ok (p_status l)); cbn; intuition.
    - unfold get_ifaces. destruct (handle (p_ifaces l) _ _ _); eexists _, _, [];
        (split; [reflexivity|]); rewrite app_nil_r; cbn; intuition.
    - rewrite (count_eq _ _ _ L). destruct (is_ok (p_status l)) eqn:St; cbn [bind].
      + eexists _, _, [_]. split; [reflexivity|]. cbn. destruct (is_ok r); cbn;
        intuition (try discriminate; subst; cbn in *; try discriminate; eauto).
      + eexists _, _, []. split; [reflexivity|]. rewrite app_nil_r. cbn. intuition.
    - rewrite (list_eq _ _ _ _ _ _ L). destruct (is_ok (p_status l)) eqn:St; cbn [bind].
      + destruct (is_ok r1); cbn [bind].
        * eexists _, _, [_; _]. split; [reflexivity|]. cbn [w_lib set_log p_status p_functions p_info p_log].
          rewrite <- app_assoc. destruct (is_ok (fst _)); cbn;
          intuition (try discriminate; subst; cbn in *; try discriminate; eauto).
        * eexists _, _, [_]. split; [reflexivity|]. cbn.
          intuition (try discriminate; subst; cbn in *; try discriminate; eauto).
      + eexists _, _, []. split; [reflexivity|]. rewrite app_nil_r. cbn. intuition.
    - eexists _, _, []. split; [reflexivity|]. rewrite app_nil_r. cbn. intuition.
    - unfold read. destruct (nth_error sl k) as [id|] eqn:N; [|apply nth_error_None in N; lia].
      cbn [bind]. rewrite (info_eq _ _ _ _ L). destruct (is_ok (p_status l)) eqn:St; cbn [bind].
      + eexists _, _, [_]. split; [reflexivity|]. cbn. destruct (is_ok r); cbn;
        intuition (try discriminate; subst; cbn in *; try discriminate; eauto).
      + eexists _, _, []. split; [reflexivity|]. rewrite app_nil_r. cbn. intuition.
    - unfold read. destruct (nth_error sl k) as [id|] eqn:N; [|apply nth_error_None in N; lia].
      cbn [bind]. rewrite (wait_eq _ _ _ _ L). destruct (is_ok (p_status l)) eqn:St; cbn [bind].
      + eexists _, _, [_]. split; [reflexivity|]. cbn.
        intuition (try discriminate; subst; cbn in *; try discriminate; eauto).
      + eexists _, _, []. split; [reflexivity|]. rewrite app_nil_r. cbn. intuition.
  Qed.

  Lemma step_slots : forall f w c w' v, pstep mem f w c = Ok (w', v) ->
    length (w_slots w') = match c with PSlot _ => S (length (w_slots w)) | _ => length (w_slots w) end.
  Proof.
    intros f [l sl] c w' v E. destruct c; cbn [pstep w_lib w_slots] in E.
    - destruct (initialize _ _ _ _) as [[? ?]| |]; cbn in E; try discriminate. injection E as <- _. reflexivity.
    - destruct (finalize _ _) as [[? ?]| |]; cbn in E; try discriminate. injection E as <- _. reflexivity.
    - injection E as <- _. reflexivity.
    - injection E as <- _. reflexivity.
    - destruct (get_ifaces _). injection E as <- _. reflexivity.
    - destruct (slot_count _ _ _) as [[? ?]| |]; cbn in E; try discriminate. injection E as <- _. reflexivity.
    - destruct (slot_list _ _ _ _ _ _ _) as [[? ?]| |]; cbn in E; try discriminate. injection E as <- _. reflexivity.
    - injection E as <- _. cbn. rewrite app_length. cbn. lia.
    - destruct (read _ _); cbn in E; try discriminate.
      destruct (slot_info _ _ _ _) as [[? ?]| |]; cbn in E; try discriminate. injection E as <- _. reflexivity.
    - destruct (read _ _); cbn in E; try discriminate.
      destruct (wait_event _ _ _ _) as [[[? ?] ?]| |]; cbn in E; try discriminate. injection E as <- _.
      cbn. apply upd_length.
  Qed.

  (** One call, whichever it is. *)
  Lemma step_any : forall f w c, linked (w_lib w) -> step_ok (length (w_slots w)) c ->
    exists w' v, pstep mem (S f) w c = Ok (w', v) /\ linked (w_lib w') /\ ~ holds_error v.
  Proof.
    intros f w c L K. destruct (is_init c) eqn:I.
    - destruct c; try discriminate. cbn [pstep].
      destruct (init_cases (w_lib w) args a L (proj1 K)) as (l' & r & E & L' & _). rewrite E. cbn [bind].
      eexists _, _. split; [reflexivity|]. cbn. auto.
    - destruct (step_other f w c L K I) as (w' & v & added & E & S1 & S2 & _ & _ & _ & _ & _ & H).
      exists w', v. split; [exact E|]. split; [|exact H]. unfold linked. rewrite S1, S2. exact L.
  Qed.

  Lemma run_ok : forall f cs w, linked (w_lib w) -> Forall answers_fit cs ->
    slots_exist (length (w_slots w)) cs ->
    exists w' vs, prun mem (S f) w cs = Ok (w', vs) /\ linked (w_lib w')
      /\ (forall v, In v vs -> ~ holds_error v).
  Proof.
    intros f. induction cs as [|c cs IH]; intros w L F K; cbn [prun].
    - exists w, []. split; [reflexivity|]. split; [exact L|]. intros v [].
    - destruct K as [K1 K2]. inversion F as [|? ? F1 F2]; subst.
      destruct (step_any f w c L (conj F1 K1)) as (w1 & v & E & L1 & H). rewrite E. cbn [bind].
      rewrite <- (step_slots _ _ _ _ _ E) in K2.
      destruct (IH w1 L1 F2 K2) as (w2 & vs & E2 & L2 & H2). rewrite E2. cbn [bind].
      exists w2, (v :: vs). split; [reflexivity|]. split; [exact L2|]. intros u [<-|U]; auto.
  Qed.

  (** ** The order of the calls *)

  Lemma disciplined_app : forall l1 l2 b,
    disciplined b (l1 ++ l2) <-> disciplined b l1 /\ disciplined (fold_left after l1 b) l2.
  Proof.
    induction l1 as [|e l1 IH]; intros l2 b; cbn; [tauto|]. rewrite IH. tauto.
  Qed.
  Lemma initialized_app : forall l1 l2, initialized (l1 ++ l2) = fold_left after l2 (initialized l1).
  Proof. intros. unfold initialized. apply fold_left_app. Qed.

  Definition orderly (l : plib) : Prop :=
    linked l /\ disciplined false (p_log l) /\ (is_ok (p_status l) = true -> initialized (p_log l) = true).

  Definition no_finalize (c : pcall) : Prop := match c with PFinalize ROk => False | _ => True end.

  Lemma quiet_events : forall added, (forall e, In e added -> is_initialize e = false) ->
    (forall e, In e added -> is_finalize e = true -> e <> CFinalize ROk) ->
    disciplined true added /\ fold_left after added true = true.
  Proof.
    induction added as [|e added IH]; intros H1 H2; cbn; [auto|].
    destruct (IH (fun e' H => H1 e' (or_intror H)) (fun e' H => H2 e' (or_intror H))) as [D A].
    assert (E : after true e = true).
    { destruct e; cbn; try reflexivity; destruct r; try reflexivity.
      exfalso. apply (H2 (CFinalize ROk)); cbn; auto. }
    rewrite E. split; [|exact A]. split; [|exact D]. destruct e; auto.
  Qed.

  Lemma orderly_step : forall f w c w' v, orderly (w_lib w) -> step_ok (length (w_slots w)) c ->
    no_finalize c -> pstep mem (S f) w c = Ok (w', v) -> orderly (w_lib w').
  Proof.
    intros f w c w' v (L & D & I) K N E. destruct (is_init c) eqn:C.
    - destruct c; try discriminate. cbn [pstep] in E.
      destruct (init_cases (w_lib w) args a L (proj1 K)) as (l' & r & E' & L' & S' & H).
      rewrite E' in E. cbn in E. injection E as <- <-. cbn [w_lib].
      split; [exact L'|].
      destruct H as [(R & G)|[(_ & R & G)|(R1 & R2 & _ & G)]]; rewrite G.
      + split; [exact D|]. rewrite S'. destruct r; auto; congruence.
      + rewrite disciplined_app, initialized_app. cbn. destruct r; try congruence; cbn in S' |- *;
          rewrite S'; auto.
      + rewrite disciplined_app, initialized_app. cbn. destruct r; cbn; auto.
    - destruct (step_other f w c L K C) as (w1 & v1 & added & E1 & S1 & S2 & _ & G & Z & Q1 & Q2 & _).
      rewrite E1 in E. injection E as <- <-. unfold orderly, linked. rewrite S1, S2, G.
      split; [exact L|]. rewrite disciplined_app, initialized_app.
      destruct (is_ok (p_status (w_lib w))) eqn:St.
      + specialize (I eq_refl). fold (initialized (p_log (w_lib w))). rewrite I.
        destruct (quiet_events added Q1) as [D1 A1].
        { intros e He Hf ->. destruct (Q2 _ He Hf) as (r & -> & Hr). injection Hr as <-. exact N. }
        auto.
      + rewrite (Z eq_refl). cbn. auto.
  Qed.

  Lemma orderly_run : forall f cs w w' vs, orderly (w_lib w) -> Forall answers_fit cs ->
    slots_exist (length (w_slots w)) cs -> Forall no_finalize cs ->
    prun mem (S f) w cs = Ok (w', vs) -> orderly (w_lib w').
  Proof.
    intros f. induction cs as [|c cs IH]; intros w w' vs O F K N E; cbn [prun] in E.
    - injection E as <- _. exact O.
    - destruct K as [K1 K2]. inversion F as [|? ? F1 F2]; subst. inversion N as [|? ? N1 N2]; subst.
      destruct (step_any f w c (proj1 O) (conj F1 K1)) as (w1 & v & E1 & _). rewrite E1 in E.
      cbn [bind] in E. destruct (prun mem (S f) w1 cs) as [[w2 vs2]| |] eqn:E2; try discriminate.
      injection E as <- _. rewrite <- (step_slots _ _ _ _ _ E1) in K2.
      apply (IH w1 w2 vs2); [|exact F2|exact K2|exact N2|exact E2].
      exact (orderly_step f w c w1 v O (conj F1 K1) N1 E1).
  Qed.

  (** ** The status *)

  (** No initialize in the history succeeded: the library is as good as new. *)
  Lemma run_status : forall f cs w w' vs, linked (w_lib w) -> Forall answers_fit cs ->
    slots_exist (length (w_slots w)) cs -> prun mem (S f) w cs = Ok (w', vs) ->
    is_ok (p_status (w_lib w)) = true -> is_ok (p_status (w_lib w')) = true.
  Proof.
    intros f. induction cs as [|c cs IH]; intros w w' vs L F K E St; cbn [prun] in E.
    - injection E as <- _. exact St.
    - destruct K as [K1 K2]. inversion F as [|? ? F1 F2]; subst.
      destruct (step_any f w c L (conj F1 K1)) as (w1 & v & E1 & L1 & _). rewrite E1 in E.
      cbn [bind] in E. destruct (prun mem (S f) w1 cs) as [[w2 vs2]| |] eqn:E2; try discriminate.
      injection E as <- _. rewrite <- (step_slots _ _ _ _ _ E1) in K2.
      apply (IH w1 w2 vs2 L1 F2 K2 E2). destruct (is_init c) eqn:C.
      + destruct c; try discriminate. cbn [pstep] in E1.
        destruct (init_cases (w_lib w) args a L F1) as (l' & r & E' & _ & S' & _).
        rewrite E' in E1. cbn in E1. injection E1 as <- <-. cbn [w_lib]. rewrite S'.
        destruct (is_ok r); auto.
      + destruct (step_other f w c L (conj F1 K1) C) as (w3 & v3 & added & E3 & S1 & _).
        rewrite E3 in E1. injection E1 as <- <-. congruence.
  Qed.

  (** Histories without initialize that start from a library in use. *)
  Lemma run_quiet : forall f cs w w' vs, linked (w_lib w) -> Forall answers_fit cs ->
    slots_exist (length (w_slots w)) cs -> Forall (fun c => is_init c = false) cs ->
    (forall r, ~ In (PFinalize r) cs) ->
    prun mem (S f) w cs = Ok (w', vs) ->
    p_status (w_lib w') = p_status (w_lib w) /\ p_info (w_lib w') = p_info (w_lib w)
    /\ exists added, p_log (w_lib w') = p_log (w_lib w) ++ added
      /\ (forall e, In e added -> is_initialize e = false /\ is_finalize e = false).
  Proof.
    intros f. induction cs as [|c cs IH]; intros w w' vs L F K C NF E; cbn [prun] in E.
    - injection E as <- _. split; [reflexivity|]. split; [reflexivity|]. exists [].
      rewrite app_nil_r. split; [reflexivity|]. intros e [].
    - destruct K as [K1 K2]. inversion F as [|? ? F1 F2]; subst. inversion C as [|? ? C1 C2]; subst.
      destruct (step_other f w c L (conj F1 K1) C1)
        as (w1 & v & added & E1 & S1 & S2 & I1 & G & _ & Q1 & Q2 & _).
      rewrite E1 in E.
      cbn [bind] in E. destruct (prun mem (S f) w1 cs) as [[w2 vs2]| |] eqn:E2; try discriminate.
      injection E as <- _. rewrite <- (step_slots _ _ _ _ _ E1) in K2.
      assert (L1 : linked (w_lib w1)) by (unfold linked; rewrite S1, S2; exact L).
      destruct (IH w1 w2 vs2 L1 F2 K2 C2 (fun r H => NF r (or_intror H)) E2) as (T1 & T2 & added2 & G2 & Q).
      split; [congruence|]. split; [congruence|]. exists (added ++ added2).
      split; [rewrite G2, G, app_assoc; reflexivity|].
      intros e He. apply in_app_or in He. destruct He as [He|He]; [|apply Q; exact He].
      split; [apply Q1; exact He|]. destruct (is_finalize e) eqn:Fe; [|reflexivity].
      destruct (Q2 e He Fe) as (r & -> & _). exfalso. apply (NF r). left. reflexivity.
  Qed.

  (** ** Slots *)

  Lemma ids_step : forall f w c w' v, pstep mem f w c = Ok (w', v) ->
    match c with PWait k ROk i => nth_error (w_slots w) k = Some i | _ => True end ->
    linked (w_lib w) ->
    w_slots w' = match c with PSlot id => w_slots w ++ [id] | _ => w_slots w end.
  Proof.
    intros f [l sl] c w' v E H L. destruct c; cbn [pstep w_lib w_slots] in *.
    - destruct (initialize _ _ _ _) as [[? ?]| |]; cbn in E; try discriminate. injection E as <- _. reflexivity.
    - destruct (finalize _ _) as [[? ?]| |]; cbn in E; try discriminate. injection E as <- _. reflexivity.
    - injection E as <- _. reflexivity.
    - injection E as <- _. reflexivity.
    - destruct (get_ifaces _). injection E as <- _. reflexivity.
    - destruct (slot_count _ _ _) as [[? ?]| |]; cbn in E; try discriminate. injection E as <- _. reflexivity.
    - destruct (slot_list _ _ _ _ _ _ _) as [[? ?]| |]; cbn in E; try discriminate. injection E as <- _. reflexivity.
    - injection E as <- _. reflexivity.
    - destruct (read _ _); cbn in E; try discriminate.
      destruct (slot_info _ _ _ _) as [[? ?]| |]; cbn in E; try discriminate. injection E as <- _. reflexivity.
    - unfold read in E. destruct (nth_error sl k) as [id|] eqn:N; cbn [bind] in E; [|discriminate].
      rewrite (wait_eq _ _ _ _ L) in E. destruct (is_ok (p_status l)); cbn in E; injection E as <- _; cbn.
      + destruct (is_ok r) eqn:R.
        * apply is_ok_true in R. subst r. apply upd_same. congruence.
        * apply upd_same. exact N.
      + apply upd_same. exact N.
  Qed.

  Lemma ids_run : forall f cs w w' vs, linked (w_lib w) -> Forall answers_fit cs ->
    slots_exist (length (w_slots w)) cs -> own_events (w_slots w) cs ->
    prun mem (S f) w cs = Ok (w', vs) -> w_slots w' = w_slots w ++ made_ids cs.
  Proof.
    intros f. induction cs as [|c cs IH]; intros w w' vs L F K O E; cbn [prun] in E.
    - injection E as <- _. cbn. rewrite app_nil_r. reflexivity.
    - destruct K as [K1 K2]. destruct O as [O1 O2]. inversion F as [|? ? F1 F2]; subst.
      destruct (step_any f w c L (conj F1 K1)) as (w1 & v & E1 & L1 & _). rewrite E1 in E.
      cbn [bind] in E. destruct (prun mem (S f) w1 cs) as [[w2 vs2]| |] eqn:E2; try discriminate.
      injection E as <- _. pose proof (ids_step _ _ _ _ _ E1 O1 L) as I.
      rewrite <- (step_slots _ _ _ _ _ E1) in K2. rewrite <- I in O2.
      rewrite (IH w1 w2 vs2 L1 F2 K2 O2 E2), I. unfold made_ids. cbn [flat_map].
      destruct c; cbn [app]; try reflexivity. rewrite <- app_assoc. reflexivity.
  Qed.
End Proofs.

Lemma start_linked : linked (w_lib pw_start).
Proof. intros H. discriminate. Qed.
