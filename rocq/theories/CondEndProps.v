(** C225: theorems about the destructor of ConditionVariable. *)
From Coq Require Import List Arith Lia Bool.
From Verif Require Import Base LockModel LockProofs CondVarModel CondVarSpec CondVarProofs
  CondWaitModel CondWaitSpec.
Import ListNotations.

Lemma drun_app M a b : forall c c1 h1, drun M c a = Ok (c1, h1) ->
  drun M c (a ++ b) = (let! r := drun M c1 b in Ok (fst r, h1 ++ snd r)).
Proof.
  induction a as [|mv a IH]; intros c c1 h1 E; cbn [app drun] in *.
  - injection E as <- <-. destruct (drun M c b) as [[c2 h2]| |]; reflexivity.
  - destruct (dstep M c mv) as [[c' e]| |]; try discriminate. cbn [bind fst snd] in *.
    destruct (drun M c' a) as [[c2 h2]| |] eqn:E2; try discriminate. cbn [bind fst snd] in E.
    injection E as <- <-. rewrite (IH _ _ _ E2).
    destruct (drun M c2 b) as [[c3 h3]| |]; cbn [bind fst snd]; [rewrite app_assoc|..]; reflexivity.
Qed.

Lemma free_taken k : can_be_taken (free k).
Proof. intros t. rewrite acquire_free. discriminate. Qed.

Section End.
  Variables (M : nat) (k : lock_kind) (w n : nat).
  Hypothesis M2 : 2 <= M.
  Hypothesis WN : w <> n.

  (** The steps of the destructor after notify(), with what the members are. *)
  Inductive ending : dphase -> cvar -> Prop :=
  | E1 : ending (DRead n) (CVar (taken k n) true 0)
  | E2 : ending (DUnlock n) (CVar (taken k n) true 0)
  | E3 : ending (DClear n) (CVar (free k) true 0)
  | E4 : ending DGone (CVar (free k) false 0).

  Definition left (p : dphase) : nat :=
    match p with DRead _ => 3 | DUnlock _ => 2 | DClear _ => 1 | _ => 0 end.

  Definition tail (c : dconfig) : Prop :=
    ending (d_phase c) (cv_mem (d_cv c)) /\
    (cv_threads (d_cv c) w = None \/ exists r, cv_threads (d_cv c) w = Some (Return r)) /\
    (forall t, t <> w -> cv_threads (d_cv c) t = None).

  Definition dtick (mv : dmove) : Prop := mv = DTick n \/ exists t, t <> n /\ mv = DMove (VTick t).

  Fixpoint dticks (l : list dmove) : nat :=
    match l with
    | [] => 0
    | DTick t :: l => (if t =? n then 1 else 0) + dticks l
    | _ :: l => dticks l
    end.
  Lemma dticks_app (a b : list dmove) : dticks (a ++ b) = dticks a + dticks b.
  Proof. clear M2 WN. induction a as [|[mv|t|t] a IH]; cbn [app dticks]; lia. Qed.

  Lemma tail_run : forall l c, tail c -> (forall mv, In mv l -> dtick mv) ->
    exists c' h, drun M c l = Ok (c', h) /\ tail c' /\
      left (d_phase c') = left (d_phase c) - dticks l /\
      (0 < left (d_phase c) <= dticks l -> In (DRes n) h) /\
      (In (DMove (VTick w)) l -> cv_threads (d_cv c') w = None) /\
      (cv_threads (d_cv c) w = None -> cv_threads (d_cv c') w = None) /\
      (cv_threads (d_cv c) w <> None -> cv_threads (d_cv c') w = None ->
         exists r, In (DEv (VRes w r)) h).
  Proof.
    induction l as [|mv l IH]; intros c T A.
    { exists c, []. cbn [drun dticks]. split; [reflexivity|]. split; [exact T|]. split; [lia|].
      split; [lia|]. split; [intros []|]. split; auto. intros H1 H2. destruct (H1 H2). }
    pose proof T as (EN & TW & OT). destruct c as [[m th] p].
    cbn [d_phase d_cv cv_mem cv_threads] in *.
    assert (ND : forall t, t <> n -> is_destroyer p t = false).
    { intros t D. inversion EN; subst; cbn; try reflexivity; apply Nat.eqb_neq; congruence. }
    destruct (A mv (or_introl eq_refl)) as [->|(t & D & ->)].
    - assert (S : exists c1 e, dstep M (DC (CV m th) p) (DTick n) = Ok (c1, e) /\ tail c1 /\
                cv_threads (d_cv c1) = th /\ left (d_phase c1) = left p - 1 /\
                (left p = 1 -> e = [DRes n])).
      { cbn [dstep d_phase d_cv cv_mem cv_threads]. unfold is_destroyer.
        inversion EN; subst; cbn [destroyer v_locked v_lock]; rewrite ?Nat.eqb_refl;
          rewrite ?unlock_taken; cbn [bind];
          (eexists _, _; split; [reflexivity|]; split; [|split; [reflexivity|split; [reflexivity|]]]);
          try (unfold tail; cbn [d_phase d_cv cv_mem cv_threads];
               split; [constructor|split; [exact TW|exact OT]]);
          cbn [left]; try lia; auto. }
      destruct S as (c1 & e & E & T1 & ET & EL & ER). destruct c1 as [[m1 th1] p1].
      cbn [d_phase d_cv cv_threads] in *. subst th1.
      destruct (IH _ T1 (fun mv H => A mv (or_intror H))) as (c' & h & E' & T' & L' & R' & W1 & W2 & W3).
      exists c', (e ++ h). cbn [drun]. rewrite E. cbn [bind fst snd]. rewrite E'. split; [reflexivity|].
      split; [exact T'|]. cbn [dticks d_phase d_cv cv_threads] in *. rewrite Nat.eqb_refl.
      split; [lia|]. split.
      { intros H. apply in_or_app. destruct (Nat.eq_dec (left p) 1) as [H1|H1].
        - left. rewrite (ER H1). left. reflexivity.
        - right. apply R'. lia. }
      split. { intros [H|H]; [discriminate|auto]. }
      split; [exact W2|]. intros H1 H2. destruct (W3 H1 H2) as (r & IN). exists r. apply in_or_app. auto.
    - assert (S : exists m1 th1 e, dstep M (DC (CV m th) p) (DMove (VTick t)) = Ok (DC (CV m1 th1) p, e) /\
                m1 = m /\ (forall u, u <> t -> th1 u = th u) /\ th1 t = None /\
                (th t <> None -> exists r, e = [DEv (VRes t r)])).
      { cbn [dstep d_phase d_cv who]. rewrite (ND t D).
        assert (X : th t = None \/ exists r, th t = Some (Return r)).
        { destruct (Nat.eq_dec t w) as [->|DW]; [exact TW|left; apply OT; exact DW]. }
        cbn [touches vstep cv_threads cv_mem].
        destruct X as [X|(r & X)]; rewrite X; cbn [bind fst snd map];
          exists m; eexists _, _.
        - split; [destruct p; reflexivity|]. split; [reflexivity|]. split; [reflexivity|]. split; [exact X|].
          intros H. destruct H. reflexivity.
        - split; [destruct p; reflexivity|]. split; [reflexivity|].
          split; [intros u DU; apply set_other; exact DU|]. split; [apply set_same|]. eauto. }
      destruct S as (m1 & th1 & e & E & -> & ET & TT & ER).
      assert (T1 : tail (DC (CV m th1) p)).
      { split; [exact EN|]. cbn [d_cv cv_threads]. split.
        - destruct (Nat.eq_dec w t) as [->|DW]; [left; exact TT|]. rewrite (ET w DW). exact TW.
        - intros u DU. destruct (Nat.eq_dec u t) as [->|D2]; [exact TT|]. rewrite (ET u D2). auto. }
      destruct (IH _ T1 (fun mv H => A mv (or_intror H))) as (c' & h & E' & T' & L' & R' & W1 & W2 & W3).
      exists c', (e ++ h). cbn [drun]. rewrite E. cbn [bind fst snd]. rewrite E'. split; [reflexivity|].
      split; [exact T'|]. cbn [dticks d_phase d_cv cv_threads] in *.
      split; [exact L'|]. split; [intros H; apply in_or_app; right; auto|].
      assert (W2' : th w = None -> cv_threads (d_cv c') w = None).
      { intros H. apply W2. destruct (Nat.eq_dec w t) as [->|DW]; [exact TT|]. rewrite (ET w DW). exact H. }
      split. { intros [[= ->]|H]; [apply W2; exact TT|auto]. }
      split; [exact W2'|].
      intros H1 H2. destruct (Nat.eq_dec w t) as [<-|DW].
      + destruct (ER H1) as (r & ->). exists r. left. reflexivity.
      + rewrite (ET w DW) in W3. destruct (W3 H1 H2) as (r & IN). exists r. apply in_or_app. auto.
  Qed.

  Definition dproj (mv : dmove) : vmove :=
    match mv with DMove mv => mv | DBegin t => VCall t Notify | DTick t => VTick t end.

  (** In notify(): the run goes on as one of CondVarModel, or notify() returned in it. *)
  Lemma notify_run : forall l c c' h, (forall mv, In mv l -> dtick mv) ->
    cv_threads c n <> None -> vrun M c (map dproj l) = Ok (c', h) ->
    (cv_threads c' n <> None /\ exists h', drun M (DC c (DNotify n)) l = Ok (DC c' (DNotify n), h')) \/
    (exists a b c1 h1 h1', l = a ++ b /\ vrun M c (map dproj a) = Ok (c1, h1) /\
       cv_threads c1 n = None /\ drun M (DC c (DNotify n)) a = Ok (DC c1 (DRead n), h1') /\
       (forall r, In (VRes w r) h1 -> In (DEv (VRes w r)) h1')).
  Proof.
    induction l as [|mv l IH]; intros c c' h A TN E; cbn [map vrun] in E.
    { injection E as <- <-. left. split; [exact TN|]. exists []. reflexivity. }
    destruct (vstep M c (dproj mv)) as [[c1 e]| |] eqn:V1; try discriminate. cbn [bind fst snd] in E.
    destruct (vrun M c1 (map dproj l)) as [[c2 h2]| |] eqn:V2; try discriminate. injection E as <- <-.
    assert (S : exists e', dstep M (DC c (DNotify n)) mv
                = Ok (DC c1 (match cv_threads c1 n with None => DRead n | Some _ => DNotify n end), e') /\
                (forall r, In (VRes w r) e -> In (DEv (VRes w r)) e')).
    { destruct (A mv (or_introl eq_refl)) as [->|(t & D & ->)]; cbn [dproj] in V1.
      - cbn [dstep d_phase d_cv is_destroyer destroyer]. unfold is_destroyer. cbn [destroyer].
        rewrite Nat.eqb_refl, V1. cbn [bind fst]. eexists. split; [reflexivity|].
        intros r IN. exfalso. cbn [vstep] in V1. destruct (cv_threads c n) as [p|]; [|destruct (TN eq_refl)].
        destruct p; try (destruct (pstep M n _ _) as [[m q]| |]; try discriminate;
          injection V1 as <- <-; destruct IN).
        injection V1 as <- <-. destruct IN as [[= H _]|[]]. congruence.
      - cbn [dstep d_phase d_cv who]. unfold is_destroyer. cbn [destroyer].
        rewrite (proj2 (Nat.eqb_neq n t)) by congruence. rewrite V1. cbn [bind fst snd].
        assert (K : cv_threads c1 n = cv_threads c n).
        { clear - V1 D. cbn [vstep] in V1. destruct (cv_threads c t) as [p|]; [|injection V1 as <- <-; reflexivity].
          destruct p; try (destruct (pstep M t _ (cv_mem c)) as [[m q]| |]; try discriminate;
            injection V1 as <- <-; cbn [cv_threads]; apply set_other; congruence).
          injection V1 as <- <-. cbn [cv_threads]. apply set_other. congruence. }
        rewrite K. destruct (cv_threads c n) eqn:TN'; [|destruct (TN eq_refl)].
        eexists. split; [reflexivity|]. intros r IN. apply in_map. exact IN. }
    destruct S as (e' & E1' & RE).
    destruct (cv_threads c1 n) eqn:TN1.
    - destruct (IH c1 c2 h2 (fun mv H => A mv (or_intror H)) ltac:(congruence) V2)
        as [(T2 & h' & E2')|(a & b & c3 & h3 & h3' & -> & V3 & T3 & E3' & R3)].
      + left. split; [exact T2|]. exists (e' ++ h'). cbn [drun]. rewrite E1'. cbn [bind fst snd].
        rewrite E2'. reflexivity.
      + right. exists (mv :: a), b, c3, (e ++ h3), (e' ++ h3'). split; [reflexivity|].
        cbn [map vrun drun]. rewrite V1. cbn [bind fst snd]. rewrite V3. split; [reflexivity|].
        split; [exact T3|]. rewrite E1'. cbn [bind fst snd]. rewrite E3'. split; [reflexivity|].
        intros r IN. apply in_or_app. apply in_app_or in IN. destruct IN; auto.
    - right. exists [mv], l, c1, (e ++ []), (e' ++ []). split; [reflexivity|].
      cbn [map vrun drun]. rewrite V1. split; [reflexivity|]. split; [exact TN1|].
      rewrite E1'. split; [reflexivity|]. intros r IN. rewrite app_nil_r in *. auto.
  Qed.
End End.

Lemma dstep_read M lk th t :
  dstep M (DC (CV (CVar lk true 0) th) (DRead t)) (DTick t) = Ok (DC (CV (CVar lk true 0) th) (DUnlock t), []).
Proof. cbn. unfold is_destroyer. cbn. rewrite Nat.eqb_refl. reflexivity. Qed.
Lemma dstep_unlock M lk th t :
  dstep M (DC (CV (CVar lk true 0) th) (DUnlock t)) (DTick t)
  = (let! x := unlock_data lk t in Ok (DC (CV (CVar x true 0) th) (DClear t), [])).
Proof. cbn. unfold is_destroyer. cbn. rewrite Nat.eqb_refl. reflexivity. Qed.
Lemma dstep_clear M lk th t :
  dstep M (DC (CV (CVar lk true 0) th) (DClear t)) (DTick t) = Ok (DC (CV (CVar lk false 0) th) DGone, [DRes t]).
Proof. cbn. unfold is_destroyer. cbn. rewrite Nat.eqb_refl. reflexivity. Qed.

Lemma end_idle M lk th t : th t = None ->
  exists th', drun M (DC (CV (CVar lk true 0) th) DNone) [DBegin t; DTick t; DTick t]
    = Ok (DC (CV (CVar lk true 0) th') (DRead t), [DInv t]).
Proof.
  intros T. exists (set_at (set_at (set_at th t (Some NCurrent)) t (Some (Return RVoid))) t None).
  assert (D1 : dstep M (DC (CV (CVar lk true 0) th) DNone) (DBegin t)
               = Ok (DC (CV (CVar lk true 0) (set_at th t (Some NCurrent))) (DNotify t), [DInv t])).
  { cbn [dstep d_phase d_cv cv_threads vstep]. rewrite T. reflexivity. }
  assert (D2 : forall th, th t = Some NCurrent ->
               dstep M (DC (CV (CVar lk true 0) th) (DNotify t)) (DTick t)
               = Ok (DC (CV (CVar lk true 0) (set_at th t (Some (Return RVoid)))) (DNotify t), [])).
  { intros th0 T0. cbn [dstep d_phase d_cv cv_threads vstep]. unfold is_destroyer. cbn [destroyer].
    rewrite Nat.eqb_refl, T0. cbn [pstep cv_mem v_counter Nat.eqb bind fst snd cv_threads].
    rewrite set_same. reflexivity. }
  assert (D3 : forall th, th t = Some (Return RVoid) ->
               dstep M (DC (CV (CVar lk true 0) th) (DNotify t)) (DTick t)
               = Ok (DC (CV (CVar lk true 0) (set_at th t None)) (DRead t), [])).
  { intros th0 T0. cbn [dstep d_phase d_cv cv_threads vstep]. unfold is_destroyer. cbn [destroyer].
    rewrite Nat.eqb_refl, T0. cbn [bind fst snd cv_threads]. rewrite set_same. reflexivity. }
  cbn [drun]. rewrite D1. cbn [bind fst snd]. rewrite D2 by apply set_same. cbn [bind fst snd].
  rewrite D3 by apply set_same. reflexivity.
Qed.

Lemma idle_mem k w n pw m need : joint k w n None pw m need ->
  pw = None \/ pw = Some (Return RVoid) -> m = CVar (taken k n) true 0.
Proof.
  intros J P. inversion J; subst; auto;
    repeat match goal with
      | H : _ \/ _ |- _ => destruct H
      | H : (_, _) = (_, _) |- _ => injection H as ? ?
      end; congruence.
Qed.

(** * C225: the destructor lets the waiting threads go, gives the lock back and returns *)

(** After any polite history of a waiting and a notifying thread, when no call is being executed:
    the destructor returns after five steps and the lock is free. *)
Theorem C225_idle_partial : forall modulus k w n moves c h,
  2 <= modulus -> w <> n ->
  two_threads w n moves -> polite modulus w n (condvar_new k n) moves ->
  vrun modulus (condvar_new k n) moves = Ok (c, h) ->
  cv_threads c w = None -> cv_threads c n = None ->
  exists c', drun modulus (DC c DNone) (DBegin n :: repeat (DTick n) 5) = Ok (c', [DInv n; DRes n]) /\
    d_phase c' = DGone /\ can_be_taken (v_lock (cv_mem (d_cv c'))).
Proof.
  intros M k w n moves c h M2 WN TT PO E TW TN.
  destruct (joined_run M k w n M2 WN moves _ 0 0 (joined_new M k w n M2 WN) TT PO)
    as (c0 & h0 & E0 & (_ & need & J & _)). rewrite E in E0. injection E0 as <- <-.
  rewrite TW, TN in J.
  assert (EM : cv_mem c = CVar (taken k n) true 0).
  { exact (idle_mem k w n _ _ _ J (or_introl eq_refl)). }
  destruct c as [m th]. cbn [cv_mem cv_threads] in *. subst m.
  destruct (end_idle M (taken k n) th n TN) as (th' & E1).
  change (repeat (DTick n) 5) with ([DTick n; DTick n] ++ [DTick n; DTick n; DTick n]).
  rewrite app_comm_cons, (drun_app _ _ _ _ _ _ E1).
  eexists. split.
  - cbn [drun]. rewrite dstep_read. cbn [bind fst snd drun]. rewrite dstep_unlock, unlock_taken. cbn [bind fst snd drun].
    rewrite dstep_clear. reflexivity.
  - split; [reflexivity|]. apply free_taken.
Qed.

(** One thread is blocked in wait() when the destructor begins: in every schedule that goes on
    to give steps to both threads, the wait and the destructor return, the lock is free, and the
    object is not used after its destruction. *)
Theorem C225_one_waiter_partial : forall modulus k w n moves rounds c h,
  2 <= modulus -> w <> n ->
  two_threads w n moves -> polite modulus w n (condvar_new k n) moves ->
  vrun modulus (condvar_new k n) moves = Ok (c, h) ->
  cv_threads c w = Some WLock -> cv_threads c n = None ->
  Forall (dround w n) rounds -> 20 <= length rounds ->
  exists c' h', drun modulus (DC c DNone) (DBegin n :: concat rounds) = Ok (c', h') /\
    (exists r, In (DEv (VRes w r)) h') /\ In (DRes n) h' /\
    d_phase c' = DGone /\ cv_threads (d_cv c') w = None /\
    can_be_taken (v_lock (cv_mem (d_cv c'))).
Proof.
  intros M k w n moves rounds c h M2 WN TT PO E TW TN R L.
  destruct (joined_run M k w n M2 WN moves _ 0 0 (joined_new M k w n M2 WN) TT PO)
    as (c0 & h0 & E0 & J). rewrite E in E0. injection E0 as <- <-.
  destruct (joined_call M k w n M2 WN c _ _ n Notify J (or_intror (conj eq_refl eq_refl)))
    as (c1 & e & V1 & J1).
  assert (EX : c1 = CV (cv_mem c) (set_at (cv_threads c) n (Some NCurrent))).
  { cbn [vstep] in V1. rewrite TN in V1. injection V1 as <- <-. reflexivity. }
  assert (T1 : cv_threads c1 n = Some NCurrent) by (subst c1; apply set_same).
  assert (T2 : cv_threads c1 w = Some WLock).
  { subst c1. cbn [cv_threads]. rewrite set_other by exact WN. exact TW. }
  assert (D1 : dstep M (DC c DNone) (DBegin n) = Ok (DC c1 (DNotify n), [DInv n])).
  { cbn [dstep d_phase d_cv]. rewrite TN, V1. reflexivity. }
  set (r1 := firstn 17 rounds). set (r2 := skipn 17 rounds).
  assert (RS : rounds = r1 ++ r2) by (symmetry; apply firstn_skipn).
  assert (L1 : length r1 = 17) by (apply firstn_length_le; lia).
  assert (L2 : 3 <= length r2) by (unfold r2; rewrite skipn_length; lia).
  rewrite RS in R. apply Forall_app in R. destruct R as (R1 & R2).
  assert (TK : forall rs, Forall (dround w n) rs -> forall mv, In mv (concat rs) -> dtick n mv).
  { clear. induction rs as [|r rs IH]; intros F mv IN; [destruct IN|].
    inversion F as [|? ? (F1 & _) F2]; subst. cbn [concat] in IN. apply in_app_or in IN.
    destruct IN as [IN|IN]; [exact (F1 _ IN)|exact (IH F2 _ IN)]. }
  assert (R1' : Forall (round w n) (map (map dproj) r1)).
  { apply Forall_forall. intros r IN. apply in_map_iff in IN. destruct IN as (dr & <- & IN).
    rewrite Forall_forall in R1. destruct (R1 _ IN) as (A1 & A2 & A3). split; [|split].
    - intros mv IM. apply in_map_iff in IM. destruct IM as (dm & <- & IM).
      destruct (A1 _ IM) as [->|(t & _ & ->)]; cbn; eauto.
    - apply in_map_iff. exists (DMove (VTick w)). auto.
    - apply in_map_iff. exists (DTick n). auto. }
  assert (SV : served (cv_threads c1 n) (cv_threads c1 w)).
  { rewrite T1, T2. right. right. exists NCurrent.
    split; [reflexivity|]. split; [reflexivity|]. discriminate. }
  destruct (rounds_ok M k w n M2 WN _ c1 _ _ J1 R1' SV) as (c2 & h2 & V2 & J2 & N2 & W2).
  { pose proof (total_bound M k w n M2 WN c1 _ _ J1). rewrite map_length. lia. }
  rewrite <- concat_map in V2.
  destruct (notify_run M w n WN (concat r1) c1 c2 h2 (TK _ R1) ltac:(congruence) V2)
    as [(X & _)|(a & b & c3 & h3 & h3' & EQ & V3 & T3 & D3 & RE)]; [congruence|].
  (* the state when notify() has returned *)
  destruct (round_ok M k w n M2 WN (map dproj a) c1 _ _ J1) as (c4 & h4 & V4 & J4 & SV4 & _).
  { intros mv IM. apply in_map_iff in IM. destruct IM as (dm & <- & IM).
    destruct (TK _ R1 dm) as [->|(t & _ & ->)]; [rewrite EQ; apply in_or_app; auto|..]; cbn; eauto. }
  rewrite V3 in V4. injection V4 as <- <-. specialize (SV4 SV).
  assert (WI : cv_threads c3 w = None \/ cv_threads c3 w = Some (Return RVoid)).
  { eapply idle_served; eassumption. }
  destruct J4 as (OT & need & J4 & _). rewrite T3 in J4.
  assert (EM : cv_mem c3 = CVar (taken k n) true 0).
  { exact (idle_mem k w n _ _ _ J4 WI). }
  assert (TL : tail k w n (DC c3 (DRead n))).
  { split; [cbn [d_phase d_cv]; rewrite EM; constructor|]. cbn [d_cv]. split.
    - destruct WI as [H|H]; [left; exact H|right; eauto].
    - intros t D. destruct (Nat.eq_dec t n) as [->|D2]; [exact T3|auto]. }
  destruct (tail_run M k w n M2 WN (b ++ concat r2) _ TL) as (c5 & h5 & D5 & T5 & L5 & Q1 & Q2 & Q3 & Q4).
  { intros mv IN. apply in_app_or in IN. destruct IN as [IN|IN].
    - apply (TK _ R1). rewrite EQ. apply in_or_app. auto.
    - exact (TK _ R2 _ IN). }
  assert (DT : 3 <= dticks n (b ++ concat r2)).
  { rewrite (dticks_app n). enough (length r2 <= dticks n (concat r2)) by lia. clear - R2.
    induction R2 as [|r rs (_ & _ & H) _ IH]; [auto|]. cbn [concat length]. rewrite (dticks_app n).
    enough (1 <= dticks n r) by lia. clear - H. induction r as [|mv r IH]; [destruct H|].
    destruct H as [->|H]; cbn [dticks]; [rewrite Nat.eqb_refl; lia|].
    specialize (IH H). destruct mv; lia. }
  assert (IW : In (DMove (VTick w)) (b ++ concat r2)).
  { apply in_or_app. right. destruct r2 as [|r rs]; [cbn in L2; lia|].
    apply Forall_inv in R2. destruct R2 as (_ & H & _). cbn [concat]. apply in_or_app. auto. }
  exists c5, (DInv n :: h3' ++ h5). cbn [d_phase left] in *.
  assert (ALL : concat rounds = a ++ (b ++ concat r2)).
  { rewrite RS, concat_app, EQ, app_assoc. reflexivity. }
  rewrite ALL. cbn [drun]. rewrite D1. cbn [bind fst snd]. rewrite (drun_app _ _ _ _ _ _ D3), D5.
  split; [reflexivity|]. split.
  { destruct (cv_threads c3 w) eqn:W3.
    - destruct Q4 as (r & IN); [cbn [d_cv]; congruence|auto|]. exists r.
      right. apply in_or_app. right. exact IN.
    - destruct (idle_returned _ _ _ _ _ _ _ V3 T2 W3) as (r & IN). exists r. right.
      apply in_or_app. left. auto. }
  split. { right. apply in_or_app. right. apply Q1. split; [lia|exact DT]. }
  destruct T5 as (EN & _ & _).
  assert (PG : d_phase c5 = DGone).
  { inversion EN as [H|H|H|H]; rewrite <- H in L5; cbn [left] in L5; try lia. reflexivity. }
  split; [exact PG|]. split; [auto|]. rewrite PG in EN. inversion EN. apply free_taken.
Qed.
Example C225_one_waiter_case : forall k,
  exists c h, vrun 256 (condvar_new k 0) [VCall 1 Wait; VTick 1; VTick 1] = Ok (c, h) /\
    cv_threads c 1 = Some WLock /\ cv_threads c 0 = None /\
    Forall (dround 1 0) (repeat [DTick 0; DMove (VTick 2); DMove (VTick 1)] 20).
Proof.
  intros k. destruct k; (eexists _, _; split; [vm_compute; reflexivity|]);
    (split; [reflexivity|]; split; [reflexivity|]);
    apply Forall_forall; intros r IN; apply repeat_spec in IN; subst r;
    (split; [intros mv [<-|[<-|[<-|[]]]]; [left; reflexivity|right..]; eexists; (split; [|reflexivity]); discriminate
            |split; cbn; auto]).
Qed.

(** ** Two threads are blocked *)

Definition two_blocked : list dmove :=
  [DMove (VCall 1 Wait); DMove (VTick 1); DMove (VTick 1);
   DMove (VCall 2 Wait); DMove (VTick 2); DMove (VTick 2)].

(** Both waits return before the destructor looks at the counter again: the destructor does not
    return, however the schedule goes on. *)
Theorem C225_never_returns_refuted : forall k, exists c,
  drun 256 (DC (condvar_new k 0) DNone)
    (two_blocked ++ DBegin 0 :: repeat (DTick 0) 3 ++ repeat (DMove (VTick 1)) 6
     ++ repeat (DMove (VTick 2)) 6)
  = Ok (c, [DEv (VInv 1 Wait); DEv (VInv 2 Wait); DInv 0; DEv (VRes 1 RVoid); DEv (VRes 2 RVoid)]) /\
  forall ticks, (forall mv, In mv ticks -> exists t, mv = DTick t \/ mv = DMove (VTick t)) ->
  exists c', drun 256 c ticks = Ok (c', []) /\ d_phase c' = DNotify 0.
Proof.
  intros k.
  assert (X : exists th, drun 256 (DC (condvar_new k 0) DNone)
    (two_blocked ++ DBegin 0 :: repeat (DTick 0) 3 ++ repeat (DMove (VTick 1)) 6
     ++ repeat (DMove (VTick 2)) 6)
    = Ok (DC (CV (CVar (free k) false 0) th) (DNotify 0),
          [DEv (VInv 1 Wait); DEv (VInv 2 Wait); DInv 0; DEv (VRes 1 RVoid); DEv (VRes 2 RVoid)]) /\
    th 0 = Some (NSpin 2) /\ (forall t, t <> 0 -> th t = None)).
  { destruct k; eexists; (split; [vm_compute; reflexivity|]); (split; [reflexivity|]);
      intros [|[|[|t]]] D; try reflexivity; congruence. }
  destruct X as (th & E & T0 & OT). eexists. split; [exact E|]. clear E.
  intros ticks. revert th T0 OT.
  induction ticks as [|mv ticks IH]; intros th T0 OT A; [eexists; split; reflexivity|].
  destruct (A mv (or_introl eq_refl)) as (t & [->| ->]); cbn [drun dstep d_phase d_cv who];
    unfold is_destroyer; cbn [destroyer]; destruct (Nat.eqb_spec 0 t) as [<-|D].
  - cbn [vstep cv_threads]. rewrite T0. cbn [pstep cv_mem v_counter Nat.eqb Nat.sub bind fst snd cv_threads].
    rewrite set_same. cbn [bind fst snd].
    destruct (IH (set_at th 0 (Some (NSpin 2)))) as (c' & E' & P');
      [apply set_same|intros u DU; rewrite set_other by exact DU; auto|auto using in_cons|].
    exists c'. rewrite E'. auto.
  - cbn [bind fst snd]. destruct (IH th T0 OT) as (c' & E' & P'); [auto using in_cons|].
    exists c'. rewrite E'. auto.
  - cbn [bind fst snd]. destruct (IH th T0 OT) as (c' & E' & P'); [auto using in_cons|].
    exists c'. rewrite E'. auto.
  - cbn [vstep cv_threads]. rewrite (OT t) by congruence. cbn [bind fst snd map].
    destruct (IH th T0 OT) as (c' & E' & P'); [auto using in_cons|].
    exists c'. rewrite E'. auto.
Qed.

(** One of them goes, the destructor returns, and the other one, still inside wait(), takes the
    lock and uses the object that is gone. *)
Theorem C225_used_after_refuted : forall k,
  (exists c h, drun 256 (DC (condvar_new k 0) DNone)
     (two_blocked ++ DBegin 0 :: repeat (DTick 0) 3 ++ repeat (DMove (VTick 1)) 6 ++ repeat (DTick 0) 9)
   = Ok (c, h) /\ In (DRes 0) h /\ d_phase c = DGone /\ cv_threads (d_cv c) 2 = Some WLock) /\
  drun 256 (DC (condvar_new k 0) DNone)
    (two_blocked ++ DBegin 0 :: repeat (DTick 0) 3 ++ repeat (DMove (VTick 1)) 6 ++ repeat (DTick 0) 9
     ++ [DMove (VTick 2)])
  = UB.
Proof.
  intros k. split.
  - destruct k; (eexists _, _; split; [vm_compute; reflexivity|]);
      (split; [cbn; auto 10|]; split; reflexivity).
  - destruct k; vm_compute; reflexivity.
Qed.

(** With a Mutex or a Spin the destructor must run in the thread that constructed the condition
    variable. *)
Theorem C225_other_thread_refuted : forall modulus k n t, k <> KSemaphore -> t <> n ->
  drun modulus (DC (condvar_new k n) DNone) (DBegin t :: repeat (DTick t) 4) = UB.
Proof.
  intros M k n t K D.
  destruct (end_idle M (v_lock (cv_mem (condvar_new k n))) (fun _ => None) t eq_refl) as (th' & E1).
  change (repeat (DTick t) 4) with ([DTick t; DTick t] ++ [DTick t; DTick t]).
  rewrite app_comm_cons. unfold condvar_new in *. cbn [cv_mem v_lock] in E1.
  rewrite (drun_app _ _ _ _ _ _ E1). cbn [drun]. rewrite dstep_read. cbn [bind fst snd drun].
  rewrite dstep_unlock. unfold unlock_data. cbn [l_kind].
  destruct k; try (destruct (K eq_refl); fail); cbn [release l_kind l_owner];
    rewrite (proj2 (Nat.eqb_neq n t)) by congruence; reflexivity.
Qed.

Print Assumptions C225_idle_partial.
Print Assumptions C225_one_waiter_partial.
Print Assumptions C225_never_returns_refuted.
Print Assumptions C225_used_after_refuted.
Print Assumptions C225_other_thread_refuted.
