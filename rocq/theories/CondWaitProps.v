(** C224: theorems about ConditionVariable::wait(functor). *)
From Coq Require Import List Arith Lia Bool.
From Verif Require Import Base LockModel LockProofs CondVarModel CondVarSpec CondVarProofs
  CondWaitModel CondWaitSpec.
Import ListNotations.

Lemma loop_same f t b : set_loop f t b t = b.
Proof. unfold set_loop. rewrite Nat.eqb_refl. reflexivity. Qed.
Lemma loop_other f t b u : u <> t -> set_loop f t b u = f u.
Proof. intros D. unfold set_loop. rewrite (proj2 (Nat.eqb_neq u t)) by exact D. reflexivity. Qed.

Lemma frun_app M a b : forall c c1 h1, frun M c a = Ok (c1, h1) ->
  frun M c (a ++ b) = (let! r := frun M c1 b in Ok (fst r, h1 ++ snd r)).
Proof.
  induction a as [|mv a IH]; intros c c1 h1 E; cbn [app frun] in *.
  - injection E as <- <-. destruct (frun M c b) as [[c2 h2]| |]; reflexivity.
  - destruct (fstep M c mv) as [[c' e]| |]; try discriminate. cbn [bind fst snd] in *.
    destruct (frun M c' a) as [[c2 h2]| |] eqn:E2; try discriminate. cbn [bind fst snd] in E.
    injection E as <- <-. rewrite (IH _ _ _ E2).
    destruct (frun M c2 b) as [[c3 h3]| |]; cbn [bind fst snd]; [rewrite app_assoc|..]; reflexivity.
Qed.
Lemma tests_app t a b : tests t (a ++ b) = tests t a + tests t b.
Proof. induction a as [|[e|u|u x|u] a IH]; cbn [app tests]; lia. Qed.
Lemma freturned_app t a b : freturned t (a ++ b) = freturned t a + freturned t b.
Proof. induction a as [|[e|u|u x|u] a IH]; cbn [app freturned]; lia. Qed.
Lemma fnotified_app a b : fnotified (a ++ b) = fnotified a + fnotified b.
Proof.
  induction a as [|[e|u|u x|u] a IH]; cbn [app fnotified]; try exact IH; [reflexivity|].
  destruct e as [u o|u r]; [destruct o|]; lia.
Qed.

(** * C224: wait(functor) *)

(** In every schedule with any threads and calls, wait(functor) returns immediately after its
    functor gave true, and at no other time. *)
Lemma fstep_events M c mv c' e : fstep M c mv = Ok (c', e) ->
  (forall t, ~ In (FRes t) e /\ ~ In (FTest t true) e) \/ exists t, e = [FTest t true; FRes t].
Proof.
  assert (N : forall l : list vevent, forall t, ~ In (FRes t) (map FEv l) /\ ~ In (FTest t true) (map FEv l)).
  { intros l t. split; intros IN; apply in_map_iff in IN; destruct IN as (x & H & _); discriminate. }
  intros E. destruct mv as [mv|t|t b]; cbn [fstep] in E.
  - destruct (f_loop c (who mv)); [injection E as <- <-; left; intros t; split; intros []|].
    destruct (vstep M (f_cv c) mv) as [[c1 e1]| |]; try discriminate. injection E as <- <-.
    left. apply N.
  - left. destruct (f_loop c t); [injection E as <- <-; intros u; split; intros []|].
    destruct (cv_threads (f_cv c) t); [injection E as <- <-; intros u; split; intros []|].
    destruct (vstep M (f_cv c) _) as [[c1 e1]| |]; try discriminate. injection E as <- <-.
    intros u. split; intros [H|[]]; discriminate.
  - destruct (f_loop c t); [|left; injection E as <- <-; intros u; split; intros []].
    assert (G : (let! r := vstep M (f_cv c) (VTick t) in Ok (FC (fst r) (f_loop c), [])) = Ok (c', e) ->
                forall t, ~ In (FRes t) e /\ ~ In (FTest t true) e).
    { intros G. destruct (vstep M (f_cv c) (VTick t)) as [[c1 e1]| |]; try discriminate.
      injection G as <- <-. intros u. split; intros []. }
    destruct (cv_threads (f_cv c) t) as [[]|]; auto.
    destruct (vstep M (f_cv c) (VTick t)) as [[c1 e1]| |]; try discriminate. cbn [bind fst snd] in E.
    destruct b; [injection E as <- <-; right; eauto|].
    destruct (vstep M c1 _) as [[c2 e2]| |]; try discriminate. injection E as <- <-.
    left. intros u. split; intros [H|[]]; discriminate.
Qed.

Lemma frun_events M : forall moves c c' h, frun M c moves = Ok (c', h) ->
  forall t h1 h2, (h = h1 ++ FRes t :: h2 -> exists h0, h1 = h0 ++ [FTest t true]) /\
                  (h = h1 ++ FTest t true :: h2 -> exists h3, h2 = FRes t :: h3).
Proof.
  induction moves as [|mv moves IH]; intros c c' h E t h1 h2; cbn [frun] in E.
  { injection E as <- <-. split; intros E; destruct h1; discriminate. }
  destruct (fstep M c mv) as [[c1 e]| |] eqn:E1; try discriminate. cbn [bind fst snd] in E.
  destruct (frun M c1 moves) as [[c2 h']| |] eqn:E2; try discriminate. injection E as <- <-.
  specialize (IH _ _ _ E2).
  destruct (fstep_events _ _ _ _ _ E1) as [N|(u & ->)].
  - assert (S : forall x, ~ In x e -> forall a b, e ++ h' = a ++ x :: b -> exists a', a = e ++ a' /\ h' = a' ++ x :: b).
    { clear. induction e as [|y e IHe]; intros x NI a b H; [exists a; auto|].
      destruct a as [|z a]; cbn [app] in H; injection H as -> H.
      - destruct NI. left. reflexivity.
      - destruct (IHe x (fun I => NI (or_intror I)) a b H) as (a' & -> & ->). exists a'. auto. }
    destruct (N t) as (N1 & N2). split; intros H.
    + destruct (S _ N1 _ _ H) as (a' & -> & Ha). destruct (proj1 (IH t a' h2) Ha) as (h0 & ->).
      exists (e ++ h0). rewrite app_assoc. reflexivity.
    + destruct (S _ N2 _ _ H) as (a' & -> & Ha). exact (proj2 (IH t a' h2) Ha).
  - cbn [app]. split; intros H.
    + destruct h1 as [|x [|y h1]]; cbn [app] in H; try discriminate.
      * injection H as <- <- H. exists []. reflexivity.
      * injection H as <- <- H. destruct (proj1 (IH t h1 h2) H) as (h0 & ->).
        exists (FTest u true :: FRes u :: h0). reflexivity.
    + destruct h1 as [|x [|y h1]]; cbn [app] in H; try discriminate.
      * injection H as <- <-. eauto.
      * injection H as <- <- H. exact (proj2 (IH t h1 h2) H).
Qed.

Theorem C224_condition_partial : forall modulus k n moves c h,
  frun modulus (f_new k n) moves = Ok (c, h) ->
  (forall t h1 h2, h = h1 ++ FRes t :: h2 -> exists h0, h1 = h0 ++ [FTest t true]) /\
  (forall t h1 h2, h = h1 ++ FTest t true :: h2 -> exists h3, h2 = FRes t :: h3).
Proof.
  intros M k n moves c h E.
  split; intros t h1 h2; apply (frun_events M moves _ _ _ E t h1 h2).
Qed.

(** ** One thread waits, one notifies *)

Definition proj (mv : fmove) : vmove :=
  match mv with FOther mv => mv | FCall t => VCall t Wait | FTick t _ => VTick t end.

Section Pair.
  Variables (M w n : nat).
  Hypothesis WN : w <> n.

  (** [w] is in a call exactly if it is in wait(functor). *)
  Definition in_step (c : fconfig) : Prop :=
    f_loop c n = false /\
    (f_loop c w = false -> cv_threads (f_cv c) w = None) /\
    (f_loop c w = true -> cv_threads (f_cv c) w <> None).

  Lemma vstep_keeps c t u c' e mv : vstep M c mv = Ok (c', e) -> u <> t -> who mv = t ->
    cv_threads c' u = cv_threads c u.
  Proof.
    intros E D W. destruct mv as [x o|x]; cbn [who] in W; subst x; cbn [vstep] in E.
    - destruct (cv_threads c t); injection E as <- <-; [reflexivity|].
      cbn [cv_threads]. apply set_other. exact D.
    - destruct (cv_threads c t) as [p|]; [|injection E as <- <-; reflexivity].
      destruct p; try (destruct (pstep M t _ (cv_mem c)) as [[m q]| |]; try discriminate;
        injection E as <- <-; cbn [cv_threads]; apply set_other; exact D).
      injection E as <- <-. cbn [cv_threads]. apply set_other. exact D.
  Qed.

  Lemma proj_step c mv c1 e : in_step c -> waiter_notifier w n [mv] ->
    vstep M (f_cv c) (proj mv) = Ok (c1, e) ->
    exists c' e', fstep M c mv = Ok (c', e') /\ f_cv c' = c1 /\ in_step c' /\
      freturned w e' = returned w e /\ tests w e' = returned w e /\ fnotified e' = notified e.
  Proof.
    intros (LN & L0 & L1) A E. inversion A as [|? ? A1 _]; subst. clear A.
    destruct mv as [mv|t|t b]; cbn [proj fstep] in *.
    - assert (W : who mv = n) by (destruct mv as [t o|t]; cbn; tauto).
      rewrite W, LN, E. cbn [bind fst snd]. eexists _, _. split; [reflexivity|]. split; [reflexivity|].
      split.
      { unfold in_step. cbn [f_loop f_cv]. rewrite (vstep_keeps _ n w _ _ _ E WN W). auto. }
      assert (R : returned w e = 0 /\ tests w (map FEv e) = 0 /\ freturned w (map FEv e) = 0).
      { assert (NR : forall r, ~ In (VRes w r) e).
        { intros r IN. destruct mv as [t o|t]; cbn [who] in W; subst t; cbn [vstep] in E.
          - destruct (cv_threads _ n); injection E as <- <-; [destruct IN|destruct IN as [H|[]]; discriminate].
          - destruct (cv_threads _ n) as [p|]; [|injection E as <- <-; destruct IN].
            destruct p; try (destruct (pstep M n _ _) as [[m q]| |]; try discriminate;
              injection E as <- <-; destruct IN).
            injection E as <- <-. destruct IN as [[= H _]|[]]. congruence. }
        clear - NR. induction e as [|[u o|u r] e IH]; cbn; auto.
        - apply IH. intros r IN. exact (NR r (or_intror IN)).
        - destruct (Nat.eqb_spec u w) as [->|_]; [destruct (NR r); left; reflexivity|].
          apply IH. intros r' IN. exact (NR r' (or_intror IN)). }
      destruct R as (R1 & R2 & R3). rewrite R1, R2, R3. repeat (split; [reflexivity|]).
      clear. induction e as [|[u o|u r] e IH]; cbn; auto. destruct o; auto.
    - subst t. cbn [vstep] in E. destruct (f_loop c w) eqn:LW.
      + destruct (cv_threads (f_cv c) w) as [p|] eqn:TW; [|destruct (L1 eq_refl eq_refl)].
        injection E as <- <-. eexists _, _. split; [reflexivity|]. split; [reflexivity|].
        split; [|cbn; auto]. unfold in_step. rewrite LW, TW, LN. auto.
      + specialize (L0 eq_refl). rewrite L0 in *. injection E as <- <-. cbn [vstep]. rewrite L0.
        cbn [bind fst snd]. eexists _, _. split; [reflexivity|]. split; [reflexivity|].
        split; [|cbn; auto]. unfold in_step. cbn [f_loop f_cv cv_threads].
        rewrite loop_same, loop_other, set_same by congruence. split; [exact LN|].
        split; [discriminate|intros _; discriminate].
    - destruct A1 as (-> & ->). destruct (f_loop c w) eqn:LW.
      + destruct (cv_threads (f_cv c) w) as [p|] eqn:TW; [|destruct (L1 eq_refl eq_refl)].
        destruct (is_return p) eqn:R.
        * destruct p; try discriminate. rewrite E. cbn [vstep] in E. rewrite TW in E. injection E as <- <-.
          cbn [bind fst snd]. eexists _, _. split; [reflexivity|]. split; [reflexivity|].
          split.
          { unfold in_step. cbn [f_loop f_cv cv_threads]. rewrite loop_same, loop_other, set_same by congruence.
            split; [exact LN|]. split; [reflexivity|discriminate]. }
          cbn. rewrite Nat.eqb_refl. auto.
        * assert (F : fstep M c (FTick w true) = Ok (FC c1 (f_loop c), [])).
          { cbn [fstep]. rewrite LW, TW, E. destruct p; try discriminate R; reflexivity. }
          cbn [fstep] in F. rewrite LW, TW in F. rewrite F.
          eexists _, _. split; [reflexivity|]. split; [reflexivity|].
          rewrite (vstep_tick _ _ _ p TW R) in E.
          destruct (pstep M w p _) as [[m q]| |]; try discriminate. injection E as <- <-.
          split; [|cbn; auto]. unfold in_step. cbn [f_loop f_cv cv_threads fst snd]. rewrite LW, set_same.
          split; [exact LN|]. split; [discriminate|intros _; discriminate].
      + cbn [vstep] in E. rewrite (L0 eq_refl) in E. injection E as <- <-.
        eexists _, _. split; [reflexivity|]. split; [reflexivity|]. split; [|cbn; auto].
        unfold in_step. rewrite LW, LN. auto.
  Qed.

  Lemma proj_run : forall moves c c1 h, in_step c -> waiter_notifier w n moves ->
    vrun M (f_cv c) (map proj moves) = Ok (c1, h) ->
    exists c' h', frun M c moves = Ok (c', h') /\ f_cv c' = c1 /\ in_step c' /\
      freturned w h' = returned w h /\ tests w h' = returned w h /\ fnotified h' = notified h.
  Proof.
    induction moves as [|mv moves IH]; intros c c1 h IS A E; cbn [map vrun] in E.
    { injection E as <- <-. exists c, []. auto 10. }
    inversion A as [|? ? A1 A2]; subst.
    destruct (vstep M (f_cv c) (proj mv)) as [[c2 e]| |] eqn:E1; try discriminate.
    cbn [bind fst snd] in E. destruct (vrun M c2 _) as [[c3 h3]| |] eqn:E2; try discriminate.
    injection E as <- <-.
    destruct (proj_step c mv c2 e IS (Forall_cons _ A1 (Forall_nil _)) E1)
      as (c' & e' & F1 & EC & IS' & R1 & R2 & R3).
    rewrite <- EC in E2. destruct (IH _ _ _ IS' A2 E2) as (c'' & h'' & F2 & EC2 & IS2 & Q1 & Q2 & Q3).
    exists c'', (e' ++ h''). cbn [frun]. rewrite F1. cbn [bind fst snd]. rewrite F2.
    split; [reflexivity|]. split; [exact EC2|]. split; [exact IS2|].
    rewrite freturned_app, tests_app, fnotified_app, returned_app, notified_app. lia.
  Qed.

  Lemma proj_two : forall moves, waiter_notifier w n moves -> two_threads w n (map proj moves).
  Proof.
    induction moves as [|mv moves IH]; intros A; [constructor|].
    inversion A as [|? ? A1 A2]; subst. constructor; [|exact (IH A2)].
    destruct mv as [[t o|t]|t|t b]; cbn; auto.
  Qed.

  Lemma proj_polite : forall moves c, in_step c -> waiter_notifier w n moves ->
    fpolite M w n c moves -> polite M w n (f_cv c) (map proj moves).
  Proof.
    induction moves as [|mv moves IH]; intros c IS A P; [exact I|].
    destruct P as (P1 & P2). inversion A as [|? ? A1 A2]; subst. cbn [map polite]. split.
    - intros EQ. apply P1. destruct mv as [[t o|t]|t|t b]; cbn in EQ; try discriminate.
      + injection EQ as -> ->. destruct A1 as (_ & H). discriminate.
      + injection EQ as ->. reflexivity.
    - intros c1 e E. destruct (proj_step c mv c1 e IS (Forall_cons _ A1 (Forall_nil _)) E)
        as (c' & e' & F1 & <- & IS' & _).
      apply IH; eauto.
  Qed.
End Pair.

Lemma in_step_new k w n : in_step w n (f_new k n).
Proof. split; [reflexivity|]. split; [reflexivity|discriminate]. Qed.

(** One thread calls wait(functor) again and again with a functor that gives true, another one
    notifies, and wait(functor) is not called while a notify() is running: in every interleaving
    there is no undefined behaviour, the functor is called once for each return, and there have
    been at most as many returns as calls of notify(). *)
Theorem C224_one_waiter_partial : forall modulus k w n moves,
  2 <= modulus -> w <> n ->
  waiter_notifier w n moves -> fpolite modulus w n (f_new k n) moves ->
  exists c h, frun modulus (f_new k n) moves = Ok (c, h) /\
    freturned w h <= fnotified h /\ tests w h = freturned w h.
Proof.
  intros M k w n moves M2 WN A P.
  pose proof (in_step_new k w n) as IS.
  destruct (joined_run M k w n M2 WN (map proj moves) _ 0 0 (joined_new M k w n M2 WN)
              (proj_two w n moves A) (proj_polite M w n WN moves _ IS A P))
    as (c & h & E & (_ & need & _ & LE)).
  destruct (proj_run M w n WN moves _ _ _ IS A E) as (c' & h' & F & _ & _ & R1 & R2 & R3).
  exists c', h'. split; [exact F|]. lia.
Qed.

(** A thread is blocked in wait(functor), the functor gives true from now on, another thread
    calls notify(): in every schedule that goes on to give steps to both, both calls return. *)
Theorem C224_wakes_partial : forall modulus k w n moves rounds c h,
  2 <= modulus -> w <> n ->
  waiter_notifier w n moves -> fpolite modulus w n (f_new k n) moves ->
  frun modulus (f_new k n) moves = Ok (c, h) ->
  f_loop c w = true -> cv_threads (f_cv c) w = Some WLock -> cv_threads (f_cv c) n = None ->
  Forall (fround w n) rounds -> 17 <= length rounds ->
  exists c' h', frun modulus c (FOther (VCall n Notify) :: concat rounds) = Ok (c', h') /\
    In (FRes w) h' /\ f_loop c' w = false /\
    cv_threads (f_cv c') w = None /\ cv_threads (f_cv c') n = None.
Proof.
  intros M k w n moves rounds c h M2 WN A P F LW TW TN R L.
  pose proof (in_step_new k w n) as IS.
  destruct (joined_run M k w n M2 WN (map proj moves) _ 0 0 (joined_new M k w n M2 WN)
              (proj_two w n moves A) (proj_polite M w n WN moves _ IS A P))
    as (c0 & h0 & E & J).
  destruct (proj_run M w n WN moves _ _ _ IS A E) as (c' & h' & F' & EC & IS' & _).
  rewrite F in F'. injection F' as <- <-. subst c0.
  destruct (joined_call M k w n M2 WN _ _ _ n Notify J (or_intror (conj eq_refl eq_refl)))
    as (c1 & e & E1 & J1).
  assert (EX : c1 = CV (cv_mem (f_cv c)) (set_at (cv_threads (f_cv c)) n (Some NCurrent))).
  { cbn [vstep] in E1. rewrite TN in E1. injection E1 as <- <-. reflexivity. }
  assert (T1 : cv_threads c1 n = Some NCurrent) by (subst c1; apply set_same).
  assert (T2 : cv_threads c1 w = Some WLock).
  { subst c1. cbn [cv_threads]. rewrite set_other by exact WN. exact TW. }
  assert (R' : Forall (round w n) (map (map proj) rounds)).
  { apply Forall_forall. intros r IN. apply in_map_iff in IN. destruct IN as (fr & <- & IN).
    rewrite Forall_forall in R. destruct (R _ IN) as (R1 & R2 & R3). split; [|split].
    - intros mv IM. apply in_map_iff in IM. destruct IM as (fm & <- & IM).
      destruct (R1 _ IM) as [->| ->]; cbn; eauto.
    - apply in_map_iff. exists (FTick w true). auto.
    - apply in_map_iff. exists (FOther (VTick n)). auto. }
  destruct (rounds_ok M k w n M2 WN _ c1 _ _ J1 R') as (c2 & h2 & E2 & J2 & N2 & W2).
  - rewrite T1, T2. right. right. exists NCurrent.
    split; [reflexivity|]. split; [reflexivity|]. discriminate.
  - pose proof (total_bound M k w n M2 WN c1 _ _ J1). rewrite map_length. lia.
  - assert (A' : waiter_notifier w n (FOther (VCall n Notify) :: concat rounds)).
    { constructor; [auto|]. clear - R. induction R as [|r rs (R1 & _ & _) _ IH]; [constructor|].
      cbn [concat]. apply Forall_app. split; [|exact IH]. apply Forall_forall. intros mv IM.
      destruct (R1 _ IM) as [->| ->]; auto. }
    destruct (proj_run M w n WN _ c c2 (e ++ h2) IS' A') as (c3 & h3 & F3 & EC3 & IS3 & Q1 & _).
    { cbn [map proj vrun]. rewrite E1. cbn [bind fst snd]. rewrite concat_map, E2. reflexivity. }
    exists c3, h3. split; [exact F3|]. subst c2.
    destruct (idle_returned _ _ _ _ _ _ _ E2 T2 W2) as (r & IN).
    split.
    + assert (POS : 0 < freturned w h3).
      { rewrite Q1, returned_app. clear - IN. enough (0 < returned w h2) by lia.
        induction h2 as [|[u o|u x] h2 IH]; cbn; [destruct IN|..].
        - apply IH. destruct IN as [H|H]; [discriminate|exact H].
        - destruct IN as [[= -> ->]|IN]; [rewrite Nat.eqb_refl; lia|]. specialize (IH IN). lia. }
      clear - POS. induction h3 as [|[x|u|u b|u] h3 IH]; cbn in POS; try (right; auto; fail); [lia|].
      destruct (Nat.eqb_spec u w) as [->|_]; [left; reflexivity|right; auto].
    + split; [|auto]. destruct IS3 as (_ & _ & L3). destruct (f_loop c3 w); [|reflexivity].
      destruct (L3 eq_refl). exact W2.
Qed.

(** A thread is blocked in wait(functor) and is then notified. *)
Definition f_blocked : list fmove := [FCall 1; FTick 1 true; FTick 1 true].
Example C224_wakes_case : forall k,
  waiter_notifier 1 0 f_blocked /\ fpolite 256 1 0 (f_new k 0) f_blocked /\
  exists c h, frun 256 (f_new k 0) f_blocked = Ok (c, h) /\
    f_loop c 1 = true /\ cv_threads (f_cv c) 1 = Some WLock /\ cv_threads (f_cv c) 0 = None /\
    Forall (fround 1 0) (repeat [FOther (VTick 0); FTick 1 true] 17).
Proof.
  intros k. split; [|split].
  - unfold waiter_notifier, f_blocked. repeat (apply Forall_cons; [cbn; auto|]). apply Forall_nil.
  - destruct k; unfold f_blocked; cbn [fpolite];
      repeat (split; [discriminate || (intros _; vm_compute; reflexivity)|];
              let c' := fresh in let e := fresh in let E := fresh in
              intros c' e E; vm_compute in E; injection E as <- <-); exact I.
  - destruct k; (eexists _, _; split; [vm_compute; reflexivity|]);
      (split; [reflexivity|]; split; [reflexivity|]; split; [reflexivity|]);
      apply Forall_forall; intros r IN; apply repeat_spec in IN; subst r;
      (split; [intros mv [<-|[<-|[]]]; auto|split; cbn; auto]).
Qed.

(** ** The condition is true, and the thread blocks *)

Definition fpast (k : lock_kind) (n : nat) (c : fconfig) : Prop :=
  cv_mem (f_cv c) = CVar (taken k n) true 0 /\ (forall t, cv_threads (f_cv c) t = None) /\
  forall t, f_loop c t = false.

Lemma fpast_notify M k n c : fpast k n c ->
  exists c', frun M c [FOther (VCall n Notify); FOther (VTick n); FOther (VTick n)]
    = Ok (c', [FEv (VInv n Notify); FEv (VRes n RVoid)]) /\ fpast k n c'.
Proof.
  intros (EM & T & L). destruct c as [[m th] lo]. cbn [f_cv cv_mem cv_threads f_loop] in *. subst m.
  cbn [frun fstep who f_loop f_cv]. rewrite L. cbn [vstep cv_threads cv_mem]. rewrite T.
  cbn [bind fst snd f_loop f_cv]. rewrite L. cbn [cv_threads start]. rewrite set_same.
  cbn [pstep cv_mem v_counter Nat.eqb bind fst snd f_loop f_cv]. rewrite L. cbn [cv_threads].
  rewrite set_same. cbn [bind fst snd map app]. eexists. split; [reflexivity|].
  split; [reflexivity|]. split; [|exact L].
  intros t. cbn [f_cv cv_threads]. destruct (Nat.eq_dec t n) as [->|D]; [apply set_same|].
  rewrite !set_other by exact D. apply T.
Qed.

Lemma fblocked_step M k n d c mv : blocked M k n d (f_cv c) ->
  (forall t, f_loop c t = true -> cv_threads (f_cv c) t = Some WIncrement \/ past (cv_threads (f_cv c) t)) ->
  d + fwaits [mv] < M -> unnotified [mv] ->
  exists c' e, fstep M c mv = Ok (c', e) /\ blocked M k n (d + fwaits [mv]) (f_cv c') /\
    (forall t, f_loop c' t = true -> cv_threads (f_cv c') t = Some WIncrement \/ past (cv_threads (f_cv c') t)) /\
    (forall t b, ~ In (FTest t b) e) /\ (forall t, ~ In (FRes t) e).
Proof.
  intros B LP L A. inversion A as [|? ? A1 _]; subst.
  assert (STAY : exists c' e, Ok (c, []) = Ok (c', e) /\ blocked M k n (d + fwaits [mv]) (f_cv c') /\
    (forall t, f_loop c' t = true -> cv_threads (f_cv c') t = Some WIncrement \/ past (cv_threads (f_cv c') t)) /\
    (forall t b, ~ In (FTest t b) e) /\ (forall t, ~ In (FRes t) e)).
  { exists c, []. split; [reflexivity|]. split; [|split; [exact LP|split; [intros t b []|intros t []]]].
    destruct B as (B1 & B2 & B3 & W & L' & NW & NL & LW & EC & IW & IL).
    split; [exact B1|]. split; [exact B2|]. split; [exact B3|]. exists W, L'.
    repeat (split; [assumption|]). split; [lia|]. auto. }
  destruct mv as [mv|t|t b]; cbn [fstep fwaits] in *.
  - destruct (f_loop c (who mv)) eqn:LW; [exact STAY|].
    assert (WE : (match mv with VCall _ Wait => 1 | _ => 0 end) = waits [mv]).
    { destruct mv as [t []|t]; reflexivity. }
    assert (WE' : (match mv with VCall _ Wait => 1 + 0 | _ => 0 end) = waits [mv]).
    { destruct mv as [t []|t]; reflexivity. }
    assert (D : d + waits [mv] < M) by (destruct mv as [t []|t]; cbn in *; lia).
    destruct (blocked_step M k n d (f_cv c) mv B D) as (c1 & e & E & B1 & _).
    { destruct mv; auto. }
    rewrite E. cbn [bind fst snd]. eexists _, _. split; [reflexivity|]. cbn [f_cv f_loop].
    split; [destruct mv as [t []|t]; exact B1|]. split.
    { intros u LU. assert (U : u <> who mv) by (intros ->; congruence).
      rewrite (vstep_keeps M _ (who mv) u _ _ _ E U eq_refl). apply LP. exact LU. }
    split; intros u; [intros b|]; intros IN; apply in_map_iff in IN; destruct IN as (x & H & _); discriminate.
  - destruct (f_loop c t) eqn:LT; [exact STAY|].
    destruct (cv_threads (f_cv c) t) eqn:T; [exact STAY|].
    destruct (blocked_step M k n d (f_cv c) (VCall t Wait) B) as (c1 & e & E & B1 & _);
      [cbn; lia|auto|].
    rewrite E. cbn [bind fst snd]. eexists _, _. split; [reflexivity|]. cbn [f_cv f_loop].
    split; [exact B1|]. split.
    { intros u LU. destruct (Nat.eq_dec u t) as [->|D].
      - cbn [vstep] in E. rewrite T in E. injection E as <- <-. left. cbn [cv_threads start]. apply set_same.
      - rewrite loop_other in LU by exact D. rewrite (vstep_keeps M _ t u _ _ _ E D eq_refl). auto. }
    split; [intros u b [H|[]]|intros u [H|[]]]; discriminate.
  - destruct (f_loop c t) eqn:LT; [|exact STAY].
    destruct (blocked_step M k n d (f_cv c) (VTick t) B) as (c1 & e & E & B1 & R1); [cbn; lia|exact I|].
    assert (G : exists p, cv_threads (f_cv c) t = Some p /\ is_return p = false /\
                  (cv_threads c1 t = Some WIncrement \/ past (cv_threads c1 t))).
    { destruct (LP t LT) as [T|[T|T]]; rewrite T; (eexists; split; [reflexivity|]; split; [reflexivity|]).
      - cbn [vstep] in E. rewrite T in E. cbn [pstep bind fst snd] in E. injection E as <- <-.
        right. left. cbn [cv_threads]. apply set_same.
      - destruct B1 as (_ & _ & B3 & _). destruct (B3 t) as [X|[X|[X|[X|(b' & X)]]]]; auto; exfalso;
          cbn [vstep] in E; rewrite T in E; cbn [pstep bind fst snd] in E; injection E as <- <-;
          cbn [cv_threads] in X; rewrite set_same in X; destruct (v_counter _ =? 0); discriminate.
      - cbn [vstep] in E. rewrite T in E. cbn [pstep] in E. destruct B as (EL & _ & _).
        rewrite EL, acquire_taken in E. cbn [bind fst snd] in E. injection E as <- <-.
        right. right. cbn [cv_threads]. apply set_same. }
    destruct G as (p & T & NR & T').
    assert (F : fstep M c (FTick t b) = Ok (FC c1 (f_loop c), [])).
    { cbn [fstep]. rewrite LT, T, E. destruct p; try discriminate NR; reflexivity. }
    cbn [fstep] in F. rewrite LT in F. rewrite F. eexists _, _. split; [reflexivity|].
    cbn [f_cv f_loop]. split; [exact B1|]. split.
    { intros u LU. destruct (Nat.eq_dec u t) as [->|D]; [exact T'|].
      rewrite (vstep_keeps M _ t u _ _ _ E D eq_refl). auto. }
    split; [intros u x []|intros u []].
Qed.

Lemma fblocked_run M k n : forall moves d c, blocked M k n d (f_cv c) ->
  (forall t, f_loop c t = true -> cv_threads (f_cv c) t = Some WIncrement \/ past (cv_threads (f_cv c) t)) ->
  d + fwaits moves < M -> unnotified moves ->
  exists c' h, frun M c moves = Ok (c', h) /\
    (forall t b, ~ In (FTest t b) h) /\ (forall t, ~ In (FRes t) h).
Proof.
  induction moves as [|mv moves IH]; intros d c B LP L A.
  { exists c, []. split; [reflexivity|]. split; [intros t b []|intros t []]. }
  assert (WE : fwaits (mv :: moves) = fwaits [mv] + fwaits moves).
  { destruct mv as [[t []|t]|t|t b]; reflexivity. }
  inversion A as [|? ? A1 A2]; subst.
  destruct (fblocked_step M k n d c mv B LP ltac:(lia) (Forall_cons _ A1 (Forall_nil _)))
    as (c1 & e & E1 & B1 & LP1 & N1 & N2).
  destruct (IH _ _ B1 LP1 ltac:(lia) A2) as (c2 & h & E2 & N3 & N4).
  exists c2, (e ++ h). cbn [frun]. rewrite E1. cbn [bind fst snd]. rewrite E2. split; [reflexivity|].
  split; [intros t b IN|intros t IN]; apply in_app_or in IN; destruct IN as [IN|IN].
  - exact (N1 t b IN).
  - exact (N3 t b IN).
  - exact (N2 t IN).
  - exact (N4 t IN).
Qed.

(** The condition may have been true all the time, and may have been announced by any number of
    calls of notify() that have returned: a wait(functor) that begins now does not call the
    functor and does not return, whatever the functor would give and however the schedule goes
    on, as long as nobody calls notify() again. *)
Theorem C224_already_true_refuted : forall modulus k n j moves,
  unnotified moves -> fwaits moves < modulus ->
  exists c h,
    frun modulus (f_new k n)
      (concat (repeat [FOther (VCall n Notify); FOther (VTick n); FOther (VTick n)] j) ++ moves)
    = Ok (c, concat (repeat [FEv (VInv n Notify); FEv (VRes n RVoid)] j) ++ h) /\
    (forall t b, ~ In (FTest t b) h) /\ (forall t, ~ In (FRes t) h).
Proof.
  intros M k n j moves A L.
  assert (X : exists c, frun M (f_new k n)
      (concat (repeat [FOther (VCall n Notify); FOther (VTick n); FOther (VTick n)] j))
      = Ok (c, concat (repeat [FEv (VInv n Notify); FEv (VRes n RVoid)] j)) /\ fpast k n c).
  { assert (S : fpast k n (f_new k n)) by (repeat split).
    revert S. generalize (f_new k n). clear. induction j as [|j IH]; intros c S; [exists c; auto|].
    destruct (fpast_notify M k n c S) as (c1 & E1 & S1). destruct (IH c1 S1) as (c2 & E2 & S2).
    exists c2. cbn [repeat concat]. rewrite (frun_app _ _ _ _ _ _ E1), E2. auto. }
  destruct X as (c & E & (EM & T & LO)).
  destruct (fblocked_run M k n moves 0 c) as (c' & h & E2 & N1 & N2).
  - unfold blocked. rewrite EM. split; [reflexivity|]. split; [reflexivity|].
    split; [intros t; left; apply T|].
    exists [], []. split; [constructor|]. split; [constructor|]. split; [auto|].
    split; [reflexivity|]. split; intros t; rewrite T; (split; [intros []|]).
    + intros [H|[H|H]]; discriminate.
    + intros [H|H]; discriminate.
  - intros t H. rewrite LO in H. discriminate.
  - exact L.
  - exact A.
  - exists c', h. rewrite (frun_app _ _ _ _ _ _ E), E2. auto.
Qed.
(** One thread waits, with a functor that would give true. *)
Example C224_already_true_case : forall ticks,
  unnotified (FCall 1 :: repeat (FTick 1 true) ticks) /\
  fwaits (FCall 1 :: repeat (FTick 1 true) ticks) = 1.
Proof.
  intros ticks. split.
  - constructor; [exact I|]. apply Forall_forall. intros mv IN. apply repeat_spec in IN. subst mv. exact I.
  - cbn. induction ticks; cbn in *; congruence.
Qed.

(** ** One notification, any number of calls of the functor *)

Definition spin_start : list fmove :=
  [FCall 1; FTick 1 false; FTick 1 false; FOther (VCall 0 Notify);
   FOther (VTick 0); FOther (VTick 0); FOther (VTick 0)].
Definition spin_round : list fmove := repeat (FTick 1 false) 8 ++ [FOther (VTick 0)].

Lemma frun_cons M c mv rest c1 e c2 h : fstep M c mv = Ok (c1, e) -> frun M c1 rest = Ok (c2, h) ->
  frun M c (mv :: rest) = Ok (c2, e ++ h).
Proof. intros E1 E2. cbn [frun]. rewrite E1. cbn [bind fst snd]. rewrite E2. reflexivity. Qed.

Lemma fstep_tick M m th lo t b p m' q : lo t = true -> th t = Some p -> is_return p = false ->
  pstep M t p m = Ok (m', q) ->
  fstep M (FC (CV m th) lo) (FTick t b) = Ok (FC (CV m' (set_at th t (Some q))) lo, []).
Proof.
  intros L T R E. cbn [fstep f_loop f_cv cv_threads]. rewrite L, T.
  rewrite (vstep_tick M (CV m th) t p T R). cbn [cv_mem]. rewrite E. cbn [bind fst snd cv_threads].
  destruct p; try discriminate R; reflexivity.
Qed.

Lemma fstep_again M m th lo t r : lo t = true -> th t = Some (Return r) ->
  fstep M (FC (CV m th) lo) (FTick t false)
  = Ok (FC (CV m (set_at (set_at th t None) t (Some WIncrement))) lo, [FTest t false]).
Proof.
  intros L T. cbn [fstep f_loop f_cv cv_threads vstep]. rewrite L, T. cbn [bind fst snd cv_threads vstep].
  rewrite set_same. reflexivity.
Qed.

Lemma spins k : forall c, f_loop c 0 = false -> f_loop c 1 = true ->
  cv_mem (f_cv c) = CVar (free k) false 1 ->
  cv_threads (f_cv c) 0 = Some (NSpin 1) -> cv_threads (f_cv c) 1 = Some WLock ->
  exists c', frun 256 c spin_round = Ok (c', [FTest 1 false]) /\
    f_loop c' 0 = false /\ f_loop c' 1 = true /\
    cv_mem (f_cv c') = CVar (free k) false 1 /\
    cv_threads (f_cv c') 0 = Some (NSpin 1) /\ cv_threads (f_cv c') 1 = Some WLock.
Proof.
  intros [[m th] lo] L0 L1 EM T0 T1. cbn [f_cv f_loop cv_mem cv_threads] in *. subst m.
  unfold spin_round. cbn [repeat app].
  assert (X : exists th', frun 256 (FC (CV (CVar (free k) false 1) th) lo)
            (repeat (FTick 1 false) 8 ++ [FOther (VTick 0)])
            = Ok (FC (CV (CVar (free k) false 1) th') lo, [FTest 1 false]) /\
            th' 0 = Some (NSpin 1) /\ th' 1 = Some WLock).
  { eexists. split.
    - cbn [repeat app].
      change [FTest 1 false] with ([] ++ [] ++ [] ++ [] ++ [] ++ [FTest 1 false] ++ [] ++ [] ++ [] ++ @nil fevent).
      eapply frun_cons.
      { apply (fstep_tick _ _ _ _ _ _ WLock (CVar (taken k 1) false 1) WSetLocked); auto. }
      eapply frun_cons.
      { apply (fstep_tick _ _ _ _ _ _ WSetLocked (CVar (taken k 1) true 1) WUnlock); auto; apply set_same. }
      eapply frun_cons.
      { apply (fstep_tick _ _ _ _ _ _ WUnlock (CVar (free k) true 1) WClearLocked); auto.
        cbn [pstep v_lock]. rewrite unlock_taken. reflexivity. }
      eapply frun_cons.
      { apply (fstep_tick _ _ _ _ _ _ WClearLocked (CVar (free k) false 1) WDecrement); auto; apply set_same. }
      eapply frun_cons.
      { apply (fstep_tick _ _ _ _ _ _ WDecrement (CVar (free k) false 0) (Return RVoid)); auto; apply set_same. }
      eapply frun_cons.
      { apply (fstep_again _ _ _ _ _ RVoid); auto; apply set_same. }
      eapply frun_cons.
      { apply (fstep_tick _ _ _ _ _ _ WIncrement (CVar (free k) false 1) WCurrent); auto; apply set_same. }
      eapply frun_cons.
      { apply (fstep_tick _ _ _ _ _ _ WCurrent (CVar (free k) false 1) WLock); auto; apply set_same. }
      eapply frun_cons; [|reflexivity].
      cbn [fstep who f_loop f_cv vstep cv_threads]. rewrite L0, !set_other, T0 by discriminate.
      cbn [pstep cv_mem v_counter Nat.eqb Nat.sub bind fst snd map]. reflexivity.
    - split; [apply set_same|]. rewrite set_other by discriminate. apply set_same. }
  destruct X as (th' & E & T0' & T1'). eexists. split; [exact E|]. auto.
Qed.

(** A thread is blocked in wait(functor), the functor gives false; another thread notifies once.
    There are schedules, with steps of both threads in every round, in which the functor is
    called any number of times and the one call of notify() does not return. *)
Theorem C224_spins_refuted : forall k j, exists c h,
  frun 256 (f_new k 0) (spin_start ++ concat (repeat spin_round j)) = Ok (c, h) /\
  fnotified h = 1 /\ tests 1 h = j /\ (forall r, ~ In (FEv (VRes 0 r)) h) /\
  cv_threads (f_cv c) 0 <> None.
Proof.
  intros k j.
  assert (S : exists c, frun 256 (f_new k 0) spin_start = Ok (c, [FInv 1; FEv (VInv 0 Notify)]) /\
    f_loop c 0 = false /\ f_loop c 1 = true /\ cv_mem (f_cv c) = CVar (free k) false 1 /\
    cv_threads (f_cv c) 0 = Some (NSpin 1) /\ cv_threads (f_cv c) 1 = Some WLock).
  { destruct k; (eexists; split; [vm_compute; reflexivity|]; repeat split). }
  destruct S as (c & E & L0 & L1 & EM & T0 & T1).
  assert (X : exists c', frun 256 c (concat (repeat spin_round j)) = Ok (c', repeat (FTest 1 false) j) /\
    cv_threads (f_cv c') 0 = Some (NSpin 1)).
  { clear E. revert c L0 L1 EM T0 T1. induction j as [|j IH]; intros c L0 L1 EM T0 T1.
    - exists c. auto.
    - destruct (spins k c L0 L1 EM T0 T1) as (c1 & E1 & L0' & L1' & EM' & T0' & T1').
      destruct (IH c1 L0' L1' EM' T0' T1') as (c2 & E2 & T2). exists c2.
      cbn [repeat concat]. rewrite (frun_app _ _ _ _ _ _ E1), E2. auto. }
  destruct X as (c' & E' & T'). eexists _, _. rewrite (frun_app _ _ _ _ _ _ E), E'.
  split; [reflexivity|]. cbn [fst snd app].
  assert (R : fnotified (repeat (FTest 1 false) j) = 0 /\ tests 1 (repeat (FTest 1 false) j) = j).
  { clear. induction j as [|j (I1 & I2)]; [auto|]. cbn. rewrite I2. auto. }
  destruct R as (R1 & R2). cbn [fnotified tests]. rewrite R1, R2.
  split; [reflexivity|]. split; [reflexivity|]. split; [|rewrite T'; discriminate].
  intros r [H|[H|H]]; try discriminate. apply repeat_spec in H. discriminate.
Qed.
Print Assumptions C224_condition_partial.
Print Assumptions C224_one_waiter_partial.
Print Assumptions C224_wakes_partial.
Print Assumptions C224_already_true_refuted.
Print Assumptions C224_spins_refuted.
