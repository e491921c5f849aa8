(** An object whose operations are guarded by its lock is linearizable. *)
From Coq Require Import List Arith Lia.
From Verif Require Import Base ConcModel ConcSpec.
Import ListNotations.

Lemma In_skipn_add (X : Type) (x : X) : forall a b l,
  In x (skipn (a + b) l) -> In x (skipn a l).
Proof.
  assert (Z : forall b (l : list X), In x (skipn b l) -> In x l).
  { induction b as [|b IHb]; intros l Hx; [exact Hx|].
    destruct l; [exact Hx|]. right. apply IHb, Hx. }
  induction a as [|a IHa]; intros b l Hx; cbn in *; [exact (Z b l Hx)|].
  destruct l as [|y l]; [destruct Hx|]. eapply IHa, Hx.
Qed.

Section Generic.
  Variables M Op R S : Type.
  Variable code : Op -> prog M R.
  Variable effect : S -> Op -> S * R.
  Variable initial : S.
  (** Which calls are made. *)
  Variable allowed : Op -> Prop.
  (** The memory represents the abstract state. *)
  Variable rep : M -> S -> Prop.

  (** The rest of a critical section runs to its end. *)
  Inductive finishes : prog M R -> M -> M -> R -> Prop :=
  | F_release r m : finishes (Release (Done r)) m m r
  | F_get (A : Type) (g : M -> outcome A) k m a m' r :
      g m = Ok a -> finishes (k a) m m' r -> finishes (Get g k) m m' r
  | F_set f k m m1 m' r :
      f m = Ok m1 -> finishes k m1 m' r -> finishes (Set_ f k) m m' r.

  Definition sequential : Prop := forall o, allowed o ->
    exists body, code o = Acquire body /\
      forall m s, rep m s -> exists m',
        finishes body m m' (snd (effect s o)) /\ rep m' (fst (effect s o)).

  Definition thread_ok (w : option nat) (c : config M R) (s : S) (st : nat -> status Op R)
    (t : nat) : Prop :=
    match c_threads c t with
    | None => st t = Idle /\ w <> Some t
    | Some p =>
        (exists r, p = Done r /\ st t = Finished r /\ w <> Some t) \/
        (exists o, allowed o /\ p = code o /\ st t = Waiting o /\ w <> Some t) \/
        (exists o m' r s', w = Some t /\ st t = Waiting o /\ finishes p (c_mem c) m' r /\
           effect s o = (s', r) /\ rep m' s')
    end.

  Definition good (c : config M R) (h : list (event Op R)) : Prop :=
    exists w s st order,
      atomic effect initial Inv Res s st h order /\
      (forall t, thread_ok w c s st t) /\
      c_lock c = match w with Some _ => true | None => false end /\
      (w = None -> rep (c_mem c) s).

  Lemma fupd_same {X} (f : nat -> X) t x : fupd f t x t = x.
  Proof. unfold fupd. rewrite Nat.eqb_refl. reflexivity. Qed.
  Lemma fupd_other {X} (f : nat -> X) t x u : u <> t -> fupd f t x u = f u.
  Proof. intros N. unfold fupd. destruct (Nat.eqb_spec u t); congruence. Qed.
  Lemma st_same (f : nat -> status Op R) t x : set_status f t x t = x.
  Proof. unfold set_status. rewrite Nat.eqb_refl. reflexivity. Qed.
  Lemma st_other (f : nat -> status Op R) t x u : u <> t -> set_status f t x u = f u.
  Proof. intros N. unfold set_status. destruct (Nat.eqb_spec u t); congruence. Qed.

  (** Moving thread [t] alone keeps the others, as long as nothing they depend on changes. *)
  Lemma others w c s st t c' s' st' w' u :
    thread_ok w c s st u -> u <> t ->
    c_threads c' u = c_threads c u -> st' u = st u ->
    (w = Some u -> w' = Some u /\ c_mem c' = c_mem c /\ s' = s) ->
    (w <> Some u -> w' <> Some u) ->
    thread_ok w' c' s' st' u.
  Proof.
    intros H N ET ES HW HN. unfold thread_ok in *. rewrite ET, ES.
    destruct (c_threads c u) as [p|]; [|destruct H; auto].
    destruct H as [(r & -> & E & W)|[(o & A & -> & E & W)|(o & m' & r & s1 & W & E & F & Q & P)]].
    - left. exists r. auto.
    - right; left. exists o. auto.
    - right; right. destruct (HW W) as (W' & EM & ->). exists o, m', r, s1. rewrite EM. auto.
  Qed.

  Hypothesis SEQ : sequential.

  Lemma step_good c h mv :
    good c h -> (match mv with Call _ o => allowed o | Tick _ => True end) ->
    exists c' e, step code c mv = Ok (c', e) /\ good c' (h ++ e).
  Proof.
    intros (w & s & st & order & AT & TH & LK & RP) AL.
    destruct mv as [t o|t]; cbn [step].
    - pose proof (TH t) as Ht. unfold thread_ok in Ht.
      destruct (c_threads c t) as [p|] eqn:ET.
      + exists c, []. split; [reflexivity|]. rewrite app_nil_r. exists w, s, st, order. auto.
      + destruct Ht as [Hi Hw]. eexists _, _. split; [reflexivity|].
        exists w, s, (set_status st t (Waiting o)), order.
        split; [apply at_invocation; auto|]. split; [|split; [exact LK|exact RP]].
        intros u. destruct (Nat.eq_dec u t) as [->|N].
        * unfold thread_ok. cbn [set_thread c_threads]. rewrite fupd_same, st_same.
          right; left. exists o. auto.
        * apply (others w c s st t); auto; cbn [set_thread c_threads].
          -- apply fupd_other, N.
          -- apply st_other, N.
    - pose proof (TH t) as Ht. unfold thread_ok in Ht.
      destruct (c_threads c t) as [p|] eqn:ET.
      2:{ exists c, []. split; [reflexivity|]. rewrite app_nil_r. exists w, s, st, order. auto. }
      destruct Ht as [(r & -> & E & W)|[(o & A & -> & E & W)|(o & m' & r & s1 & W & E & F & Q & P)]].
      + eexists _, _. split; [reflexivity|].
        exists w, s, (set_status st t Idle), order.
        split; [apply at_return; auto|]. split; [|split; [exact LK|exact RP]].
        intros u. destruct (Nat.eq_dec u t) as [->|N].
        * unfold thread_ok. cbn [set_thread c_threads]. rewrite fupd_same, st_same. auto.
        * apply (others w c s st t); auto; cbn [set_thread c_threads].
          -- apply fupd_other, N.
          -- apply st_other, N.
      + destruct (SEQ o A) as (body & -> & B).
        destruct w as [v|]; rewrite LK.
        * exists c, []. split; [reflexivity|]. rewrite app_nil_r. exists (Some v), s, st, order. auto.
        * eexists _, _. split; [reflexivity|]. rewrite app_nil_r.
          exists (Some t), s, st, order. split; [exact AT|].
          split; [|split; [reflexivity|discriminate]].
          intros u. destruct (Nat.eq_dec u t) as [->|N].
          -- unfold thread_ok. cbn [c_threads c_mem]. rewrite fupd_same.
             right; right. destruct (B (c_mem c) s (RP eq_refl)) as (m' & F & P).
             exists o, m', (snd (effect s o)), (fst (effect s o)).
             split; [reflexivity|]. split; [exact E|]. split; [exact F|].
             split; [apply surjective_pairing|exact P].
          -- apply (others None c s st t); auto; cbn [c_threads].
             ++ apply fupd_other, N.
             ++ discriminate.
             ++ intros _ [=]. congruence.
      + subst w. remember (c_mem c) as mm eqn:EM. destruct F as [r0 m0|X g k m0 a m1 r0 G F|f k m0 m1 m2 r0 G F].
        * eexists _, _. split; [reflexivity|]. rewrite app_nil_r.
          exists None, s1, (set_status st t (Finished r0)), (order ++ [(t, o, r0)]).
          split; [eapply at_effect; eauto|]. split; [|split; [reflexivity|intros _; exact P]].
          intros u. destruct (Nat.eq_dec u t) as [->|N].
          -- unfold thread_ok. cbn [c_threads]. rewrite fupd_same, st_same.
             left. exists r0. repeat split; auto. discriminate.
          -- apply (others (Some t) c s st t); auto; cbn [c_threads].
             ++ apply fupd_other, N.
             ++ apply st_other, N.
             ++ intros [=]. congruence.
             ++ discriminate.
        * rewrite ?EM in *. rewrite G. cbn [bind]. eexists _, _. split; [reflexivity|]. rewrite app_nil_r.
          exists (Some t), s, st, order. split; [exact AT|].
          split; [|split; [exact LK|discriminate]].
          intros u. destruct (Nat.eq_dec u t) as [->|N].
          -- unfold thread_ok. cbn [set_thread c_threads c_mem]. rewrite fupd_same.
             right; right. exists o, m1, r0, s1. auto.
          -- apply (others (Some t) c s st t); auto; cbn [set_thread c_threads];
               try (intros [=]; congruence).
             apply fupd_other, N.
        * rewrite ?EM in *. rewrite G. cbn [bind]. eexists _, _. split; [reflexivity|]. rewrite app_nil_r.
          exists (Some t), s, st, order. split; [exact AT|].
          split; [|split; [exact LK|discriminate]].
          intros u. destruct (Nat.eq_dec u t) as [->|N].
          -- unfold thread_ok. cbn [c_threads c_mem]. rewrite fupd_same.
             right; right. exists o, m2, r0, s1. auto.
          -- apply (others (Some t) c s st t); auto; cbn [c_threads].
             ++ apply fupd_other, N.
             ++ intros [=]. congruence.
  Qed.

  Definition calls_allowed (moves : list (move Op)) : Prop :=
    Forall (fun mv => match mv with Call _ o => allowed o | Tick _ => True end) moves.

  Lemma run_good : forall moves c h, good c h -> calls_allowed moves ->
    exists c' h', run code c h moves = Ok (c', h') /\ good c' h'.
  Proof.
    induction moves as [|mv moves IH]; intros c h G A; cbn [run].
    - eauto.
    - inversion A; subst. destruct (step_good c h mv G H1) as (c' & e & -> & G').
      cbn [bind fst snd]. apply IH; auto.
  Qed.

  Lemma start_good m : rep m initial -> good (quiet m) [].
  Proof.
    intros H. exists None, initial, (fun _ => Idle), [].
    split; [constructor|]. split; [|split; [reflexivity|auto]].
    intros t. cbn. split; [reflexivity|discriminate].
  Qed.

  Lemma good_linearizable c h : good c h -> linearizable effect initial Inv Res h.
  Proof. intros (w & s & st & order & AT & _). exists s, st, order. exact AT. Qed.

  (** Only one thread is in the critical section. *)
  Lemma good_inside c h t u : good c h -> inside c t -> inside c u -> t = u.
  Proof.
    assert (K : forall w s st v, thread_ok w c s st v -> inside c v -> w = Some v).
    { intros w s st v H I. unfold thread_ok, inside in *.
      destruct (c_threads c v) as [p|]; [|contradiction].
      destruct H as [(r & -> & _)|[(o & A & -> & _)|(o & m' & r & s' & W & _)]].
      - contradiction.
      - destruct (SEQ o A) as (body & EC & _). rewrite EC in I. contradiction.
      - exact W. }
    intros (w & s & st & order & AT & TH & _) It Iu.
    pose proof (K _ _ _ _ (TH t) It). pose proof (K _ _ _ _ (TH u) Iu). congruence.
  Qed.

  Lemma accessing_inside (c : config M R) t : accessing c t -> inside c t.
  Proof.
    unfold accessing, inside. destruct (c_threads c t) as [[| | | |]|]; auto.
  Qed.

  (** The lock is free exactly when nobody is inside. *)
  Lemma good_lock c h : good c h -> (c_lock c = true <-> exists t, inside c t).
  Proof.
    intros (w & s & st & order & AT & TH & LK & _). split.
    - intros L. destruct w as [t|]; [|congruence]. exists t.
      specialize (TH t). unfold thread_ok, inside in *.
      destruct (c_threads c t) as [p|]; [|destruct TH; congruence].
      destruct TH as [(r & _ & _ & W)|[(o & _ & _ & _ & W)|(o & m' & r & s' & W & _ & F & _)]];
        try congruence. destruct F; exact I.
    - intros [t I]. specialize (TH t). unfold thread_ok, inside in *.
      destruct (c_threads c t) as [p|]; [|contradiction].
      destruct TH as [(r & -> & _)|[(o & A & -> & _)|(o & m' & r & s' & W & _)]].
      + contradiction.
      + destruct (SEQ o A) as (body & EC & _). rewrite EC in I. contradiction.
      + subst w. exact LK.
  Qed.

  (** A thread inside can run to its return on its own. *)
  Lemma finish_inside c h t p :
    c_threads c t = Some p -> forall m' r, finishes p (c_mem c) m' r ->
    exists n c', run code c h (repeat (Tick t) n) = Ok (c', h ++ [Res t r]) /\
      c_lock c' = false /\ (forall u, c_threads c' u = fupd (c_threads c) t None u).
  Proof.
    intros ET m' r F. remember (c_mem c) as m eqn:EM. revert c h ET EM.
    induction F as [r m|X g k m a m1 r G F IH|f k m m1 m2 r G F IH]; intros c h ET EM.
    - exists 2. eexists. cbn [repeat run step]. rewrite ET. cbn [bind fst snd step c_threads].
      rewrite fupd_same. cbn [bind fst snd]. rewrite app_nil_r.
      split; [reflexivity|]. split; [reflexivity|]. intros u. unfold set_thread, fupd.
      cbn [c_threads]. destruct (u =? t); reflexivity.
    - destruct (IH (set_thread c t (Some (k a))) h) as (n & c' & E & L & T).
      { cbn. apply fupd_same. }
      { exact EM. }
      exists (Datatypes.S n), c'. cbn [repeat run step]. rewrite ET, <- EM, G. cbn [bind fst snd].
      rewrite app_nil_r. split; [exact E|]. split; [exact L|].
      intros u. rewrite T. unfold set_thread, fupd. cbn [c_threads].
      destruct (u =? t); reflexivity.
    - destruct (IH (Cfg m1 (c_lock c) (fupd (c_threads c) t (Some k))) h) as (n & c' & E & L & T).
      { cbn. apply fupd_same. }
      { reflexivity. }
      exists (Datatypes.S n), c'. cbn [repeat run step]. rewrite ET, <- EM, G. cbn [bind fst snd].
      rewrite app_nil_r. split; [exact E|]. split; [exact L|].
      intros u. rewrite T. unfold fupd. cbn [c_threads].
      destruct (u =? t); reflexivity.
  Qed.

  (** A waiting thread, when the lock is free, can run to its return on its own. *)
  Lemma finish_waiting c h w s st order t o :
    atomic effect initial Inv Res s st h order ->
    (forall t, thread_ok w c s st t) -> (w = None -> rep (c_mem c) s) ->
    c_lock c = false -> w = None ->
    allowed o -> c_threads c t = Some (code o) ->
    exists n c', run code c h (repeat (Tick t) n) = Ok (c', h ++ [Res t (snd (effect s o))]) /\
      c_lock c' = false /\ c_threads c' t = None.
  Proof.
    intros AT TH RP LK W A ET. destruct (SEQ o A) as (body & EC & B).
    destruct (B (c_mem c) s (RP W)) as (m' & F & P).
    destruct (finish_inside (Cfg (c_mem c) true (fupd (c_threads c) t (Some body))) h t body)
      with (m' := m') (r := snd (effect s o)) as (n & c' & E & L & T).
    { cbn. apply fupd_same. }
    { exact F. }
    exists (Datatypes.S n), c'. cbn [repeat run step]. rewrite ET, EC, LK. cbn [bind fst snd].
    rewrite app_nil_r. split; [exact E|]. split; [exact L|]. rewrite T. apply fupd_same.
  Qed.

  (** From every reachable state every pending call can still return. *)
  Lemma good_can_finish c h t p : good c h -> c_threads c t = Some p ->
    exists moves c' h' r, run code c h moves = Ok (c', h') /\ calls_allowed moves /\
      In (Res t r) (skipn (length h) h').
  Proof.
    assert (RA : forall n u, calls_allowed (repeat (Tick u) n)).
    { intros n u. unfold calls_allowed. rewrite Forall_forall. intros mv HIn.
      apply repeat_spec in HIn. subst mv. exact I. }
    assert (SK : forall (X : Type) (l e : list X), skipn (length l) (l ++ e) = e).
    { intros X l e. rewrite skipn_app, skipn_all, Nat.sub_diag. reflexivity. }
    assert (RUN : forall a b c h c1 h1, run code c h a = Ok (c1, h1) ->
      run code c h (a ++ b) = run code c1 h1 b).
    { induction a as [|mv a IH]; intros b c0 h0 c1 h1 E; cbn [run app] in *.
      - injection E as -> ->. reflexivity.
      - destruct (step code c0 mv) as [[c2 e]| |]; cbn [bind] in *; try discriminate. auto. }
    assert (FREE : forall c h t p, good c h -> c_lock c = false -> c_threads c t = Some p ->
      exists moves c' h' r, run code c h moves = Ok (c', h') /\ calls_allowed moves /\
        In (Res t r) (skipn (length h) h')).
    { clear c h t p. intros c h t p (w & s & st & order & AT & TH & LK & RP) L ET.
      destruct w as [v|]; [congruence|].
      pose proof (TH t) as Ht. unfold thread_ok in Ht. rewrite ET in Ht.
      destruct Ht as [(r & -> & E & _)|[(o & A & -> & E & _)|(o & m' & r & s1 & W & _)]];
        [| |discriminate].
      - exists [Tick t]. eexists _, _, r. cbn [run step]. rewrite ET. cbn [bind fst snd].
        split; [reflexivity|]. split; [exact (RA 1 t)|]. rewrite SK. left. reflexivity.
      - destruct (finish_waiting c h None s st order t o AT TH RP L eq_refl A ET)
          as (n & c' & E' & _).
        exists (repeat (Tick t) n), c', (h ++ [Res t (snd (effect s o))]), (snd (effect s o)).
        split; [exact E'|]. split; [apply RA|]. rewrite SK. left. reflexivity. }
    intros G ET. destruct (c_lock c) eqn:L; [|eapply FREE; eauto].
    pose proof G as (w & s & st & order & AT & TH & LK & RP).
    destruct w as [v|]; [|congruence].
    pose proof (TH v) as Hv. unfold thread_ok in Hv.
    destruct (c_threads c v) as [q|] eqn:EV; [|destruct Hv; congruence].
    destruct Hv as [(r & _ & _ & W)|[(o & _ & _ & _ & W)|(o & m' & r & s1 & _ & _ & F & _)]];
      try congruence.
    destruct (finish_inside c h v q EV m' r F) as (n & c1 & E1 & L1 & T1).
    destruct (Nat.eq_dec t v) as [->|N].
    - exists (repeat (Tick v) n), c1, (h ++ [Res v r]), r.
      split; [exact E1|]. split; [apply RA|]. rewrite SK. left. reflexivity.
    - destruct (run_good (repeat (Tick v) n) c h G (RA n v)) as (c1' & h1 & E1' & G1).
      rewrite E1 in E1'. injection E1' as <- <-.
      destruct (FREE c1 (h ++ [Res v r]) t p G1 L1) as (mv & c2 & h2 & r2 & E2 & A2 & I2).
      { rewrite T1, fupd_other by exact N. exact ET. }
      exists (repeat (Tick v) n ++ mv), c2, h2, r2. split; [|split].
      + rewrite (RUN _ _ _ _ _ _ E1). exact E2.
      + apply Forall_app. split; [apply RA|exact A2].
      + rewrite app_length in I2. cbn [length] in I2.
        eapply In_skipn_add, I2.
  Qed.

  (** * Signals *)
  Lemma istep_good c h mv :
    good (i_base c) h ->
    (match mv with ICall _ o | ISignal _ _ o => allowed o | ITick _ => True end) ->
    exists c' e, istep code c mv = Ok (c', e) /\ good (i_base c') (h ++ e).
  Proof.
    intros G A. destruct mv as [t o|t|t b o]; cbn [istep].
    - destruct (suspended c t).
      + eexists _, _. split; [reflexivity|]. rewrite app_nil_r. exact G.
      + destruct (step_good _ h (Call t o) G A) as (c' & e & -> & G').
        eexists _, _. split; [reflexivity|exact G'].
    - destruct (suspended c t).
      + eexists _, _. split; [reflexivity|]. rewrite app_nil_r. exact G.
      + destruct (step_good _ h (Tick t) G I) as (c' & e & -> & G').
        eexists _, _. split; [reflexivity|exact G'].
    - destruct (suspended c t).
      { eexists _, _. split; [reflexivity|]. rewrite app_nil_r. exact G. }
      destruct (c_threads (i_base c) b) eqn:EB.
      { eexists _, _. split; [reflexivity|]. rewrite app_nil_r. exact G. }
      destruct (t =? b).
      { eexists _, _. split; [reflexivity|]. rewrite app_nil_r. exact G. }
      destruct (step_good _ h (Call b o) G A) as (c' & e & -> & G').
      eexists _, _. split; [reflexivity|exact G'].
  Qed.

  Definition icalls_allowed (moves : list (imove Op)) : Prop :=
    Forall (fun mv => match mv with
                      | ICall _ o | ISignal _ _ o => allowed o
                      | ITick _ => True
                      end) moves.

  Lemma irun_good : forall moves c h, good (i_base c) h -> icalls_allowed moves ->
    exists c' h', irun code c h moves = Ok (c', h') /\ good (i_base c') h'.
  Proof.
    induction moves as [|mv moves IH]; intros c h G A; cbn [irun].
    - eauto.
    - inversion A; subst. destruct (istep_good c h mv G H1) as (c' & e & -> & G').
      cbn [bind fst snd]. apply IH; auto.
  Qed.
End Generic.
