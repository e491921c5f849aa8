(** C159: which semaphores of the system are open after any proper history of Semaphore objects on
    Windows, with assignments to any objects. *)
From Coq Require Import List Arith ZArith Bool Lia.
From Verif Require Import Base WinLockModel WinMutexModel WinMutexSpec WinMutexProofs.
Import ListNotations.

(** * Specification *)

(** The variable has this handle. *)
Definition holds (s : xstate) (v n : nat) : Prop := exists st, xs_vars s v = Some (XLock (Handle n) st).
(** The handle is an open semaphore. *)
Definition opened (s : xstate) (n : nat) : Prop := exists c m, xs_kernel s n = Some (Sem c m).
(** The history has an assignment to a variable which had this handle at that time. *)
Definition overwritten (h : list xcall) (n : nat) : Prop :=
  exists h1 v p h2 s rs, h = h1 ++ XAssign v p :: h2 /\
    lrun KSemaphore xs_start h1 = Ok (s, rs) /\ holds s v n.

(** * Proofs *)

(** The handle of a variable, and whether a handle is an open semaphore. *)
Definition hv (s : xstate) (v : nat) : option nat :=
  match xs_vars s v with Some (XLock (Handle n) _) => Some n | _ => None end.
Definition sm (s : xstate) (n : nat) : bool :=
  match xs_kernel s n with Some (Sem _ _) => true | _ => false end.

Lemma hv_holds s v n : hv s v = Some n <-> holds s v n.
Proof.
  unfold hv, holds. destruct (xs_vars s v) as [[[| |i] st]|]; split; intros H; try discriminate;
    try (destruct H as (st' & H); congruence).
  injection H as ->. eauto.
Qed.
Lemma sm_opened s n : sm s n = true <-> opened s n.
Proof.
  unfold sm, opened. destruct (xs_kernel s n) as [[c m|]|]; split; intros H; try discriminate; eauto;
    destruct H as (? & ? & ?); discriminate.
Qed.

(** What a call does to both. *)
Definition hv_after (s : xstate) (c : xcall) : nat -> option nat :=
  match c with
  | XNew v value offer _ => set (hv s) v (create s offer value)
  | XMove v p | XAssign v p => set (set (hv s) v (hv s p)) p None
  | XDelete v => set (hv s) v None
  | _ => hv s
  end.
Definition sm_after (s : xstate) (c : xcall) (n : nat) : bool :=
  match c with
  | XNew v value offer _ => match create s offer value with Some i => (n =? i) || sm s n | None => sm s n end
  | XDelete v => match hv s v with Some i => negb (n =? i) && sm s n | None => sm s n end
  | _ => sm s n
  end.

Lemma step_effect s c live : lives s live -> can_call live c ->
  (forall v n, hv s v = Some n -> sm s n = true) ->
  exists s' r, lstep KSemaphore s c = Ok (s', r) /\ lives s' (alive_after live c) /\
    (forall u, hv s' u = hv_after s c u) /\ (forall n, sm s' n = sm_after s c n).
Proof.
  intros L CC H.
  assert (LV : forall v, live v = true -> exists o, xs_vars s v = Some o).
  { intros v E. rewrite (L v) in E. destruct (xs_vars s v); [eauto|discriminate]. }
  assert (LN : forall v, live v = false -> xs_vars s v = None).
  { intros v E. rewrite (L v) in E. destruct (xs_vars s v); [discriminate|reflexivity]. }
  assert (SEM : forall v n st, xs_vars s v = Some (XLock (Handle n) st) -> exists c m, xs_kernel s n = Some (Sem c m)).
  { intros v n st E. apply sm_opened, (H v n). unfold hv. rewrite E. reflexivity. }
  assert (LS : forall v o o' k, xs_vars s v = Some o -> lives (XState (set (xs_vars s) v (Some o')) k) live).
  { intros v o o' k E u. cbn. destruct (set_cases (xs_vars s) v (Some o') u) as [[-> ->]|[D ->]]; [rewrite (L v), E; reflexivity|apply L]. }
  assert (HS : forall v o st k u, xs_vars s v = Some o ->
            hv (XState (set (xs_vars s) v (Some (XLock (xl_handle o) st))) k) u = hv s u).
  { intros v o st k u E. unfold hv. cbn [xs_vars].
    destruct (set_cases (xs_vars s) v (Some (XLock (xl_handle o) st)) u) as [[-> ->]|[D ->]]; [|reflexivity].
    rewrite E. destruct o as [[| |i] st0]; reflexivity. }
  assert (KS : forall v i c m c' m' n, xs_kernel s i = Some (Sem c m) ->
            sm (XState v (set (xs_kernel s) i (Some (Sem c' m')))) n = sm s n).
  { intros v i c0 m c' m' n E. unfold sm. cbn [xs_kernel].
    destruct (set_cases (xs_kernel s) i (Some (Sem c' m')) n) as [[-> ->]|[D ->]]; [|reflexivity].
    rewrite E. reflexivity. }
  destruct c as [v value offer e|v p|v p|v|v|v|v|v|n|n]; cbn [can_call] in CC; cbn [lstep hv_after sm_after alive_after].
  - rewrite (LN v CC). destruct (create s offer value) as [n|] eqn:EC;
      (do 2 eexists; split; [reflexivity|]; split; [|split]).
    + intros u. cbn. destruct (Nat.eq_dec u v) as [->|D]; [rewrite !set_same; reflexivity|].
      rewrite !set_other by exact D. apply L.
    + intros u. unfold hv. cbn. unfold set. destruct (u =? v); reflexivity.
    + intros i. unfold sm. cbn. unfold set. destruct (i =? n); reflexivity.
    + intros u. cbn. destruct (Nat.eq_dec u v) as [->|D]; [rewrite !set_same; reflexivity|].
      rewrite !set_other by exact D. apply L.
    + intros u. unfold hv. cbn. unfold set. destruct (u =? v); reflexivity.
    + reflexivity.
  - destruct CC as (C1 & C2). rewrite (LN v C1). destruct (LV p C2) as (q & EP).
    assert (D : v <> p) by (intros ->; congruence).
    destruct (Nat.eqb_spec v p) as [|_]; [contradiction|].
    unfold xassign. cbn [set_var xs_vars]. rewrite set_same, (set_other _ v _ p) by congruence. rewrite EP.
    cbn [xl_handle is_invalid close_handle xs_vars set_var]. rewrite (set_other _ v _ p), EP by congruence.
    cbn [bind]. do 2 eexists. split; [reflexivity|]. split; [|split; [|reflexivity]].
    + intros u. cbn. unfold set. destruct (Nat.eqb_spec u p) as [->|].
      * rewrite C2. destruct (p =? v); reflexivity.
      * destruct (u =? v); [reflexivity|apply L].
    + intros u. unfold hv. cbn. rewrite EP. unfold set. destruct (u =? p); [reflexivity|]. destruct (u =? v); reflexivity.
  - destruct CC as (C1 & C2). destruct (LV v C1) as (o & EO). destruct (LV p C2) as (q & EP).
    unfold xassign. rewrite EO, EP.
    assert (X : (if is_invalid (xl_handle o) then close_handle s (xl_handle o) else s) = s)
      by (destruct o as [[| |i] st]; reflexivity).
    rewrite X, EP. cbn [bind]. do 2 eexists. split; [reflexivity|]. split; [|split; [|reflexivity]].
    + intros u. cbn. unfold set. destruct (Nat.eqb_spec u p) as [->|]; [exact C2|].
      destruct (Nat.eqb_spec u v) as [->|]; [exact C1|apply L].
    + intros u. unfold hv. cbn. rewrite EP. unfold set. destruct (u =? p); [reflexivity|]. destruct (u =? v); reflexivity.
  - destruct (LV v CC) as (o & EO). rewrite EO. destruct o as [[| |n] st] eqn:O; cbn [xl_handle].
    + do 2 eexists. split; [reflexivity|]. unfold xl_set, set_var.
      split; [apply (LS _ _ _ _ EO)|]. split; [|reflexivity]. intros u. apply (HS _ _ _ _ u EO).
    + do 2 eexists. split; [reflexivity|]. auto.
    + destruct (SEM _ _ _ EO) as ([|c0] & m & X); rewrite X.
      * do 2 eexists. split; [reflexivity|]. auto.
      * do 2 eexists. split; [reflexivity|]. unfold xl_set, set_var, set_kernel. cbn [xs_vars xs_kernel].
        split; [apply (LS _ _ _ _ EO)|]. split; intros u; [apply (HS _ _ _ _ u EO)|apply (KS _ _ _ _ _ _ u X)].
  - destruct (LV v CC) as (o & EO). rewrite EO. destruct o as [[| |n] st] eqn:O; cbn [xl_handle].
    + do 2 eexists. split; [reflexivity|]. unfold xl_set, set_var.
      split; [apply (LS _ _ _ _ EO)|]. split; [|reflexivity]. intros u. apply (HS _ _ _ _ u EO).
    + do 2 eexists. split; [reflexivity|]. auto.
    + destruct (SEM _ _ _ EO) as ([|c0] & m & X); rewrite X.
      * do 2 eexists. split; [reflexivity|]. auto.
      * do 2 eexists. split; [reflexivity|]. unfold set_kernel. cbn [xs_vars xs_kernel].
        split; [exact L|]. split; [reflexivity|]. intros u. apply (KS _ _ _ _ _ _ u X).
  - destruct (LV v CC) as (o & EO). rewrite EO. destruct o as [[| |n] st] eqn:O; cbn [xl_handle].
    + do 2 eexists. split; [reflexivity|]. unfold xl_set, set_var.
      split; [apply (LS _ _ _ _ EO)|]. split; [|reflexivity]. intros u. apply (HS _ _ _ _ u EO).
    + do 2 eexists. split; [reflexivity|]. unfold xl_set, set_var.
      split; [apply (LS _ _ _ _ EO)|]. split; [|reflexivity]. intros u. apply (HS _ _ _ _ u EO).
    + destruct (SEM _ _ _ EO) as (c0 & m & X); rewrite X. destruct (c0 <? m);
        (do 2 eexists; split; [reflexivity|]; unfold xl_set, set_var, set_kernel; cbn [xs_vars xs_kernel];
         split; [apply (LS _ _ _ _ EO)|]; split; intros u; [apply (HS _ _ _ _ u EO)|]);
        [apply (KS _ _ _ _ _ _ u X)|reflexivity].
  - destruct (LV v CC) as (o & EO). rewrite EO. do 2 eexists. split; [reflexivity|]. auto.
  - destruct (LV v CC) as (o & EO). rewrite EO. do 2 eexists. split; [reflexivity|].
    unfold hv at 3. rewrite EO.
    destruct o as [[| |n] st]; cbn [xl_handle is_invalid close_handle]; (split; [|split]);
      try (intros u; unfold hv; cbn; unfold set; destruct (u =? v); reflexivity); try reflexivity;
      try (intros u; cbn; unfold set; destruct (u =? v); [reflexivity|apply L]).
    intros i. unfold sm. cbn. unfold set. destruct (i =? n); reflexivity.
  - do 2 eexists. split; [reflexivity|]. destruct (xs_kernel s n) as [x|] eqn:E; [auto|].
    split; [exact L|]. split; [reflexivity|]. intros i. unfold sm. cbn.
    destruct (Nat.eq_dec i n) as [->|D]; [rewrite set_same, E; reflexivity|]. rewrite set_other by exact D. reflexivity.
  - do 2 eexists. split; [reflexivity|]. destruct (xs_kernel s n) as [[c0 m|]|] eqn:E; auto.
    split; [exact L|]. split; [reflexivity|]. intros i. unfold sm. cbn.
    destruct (Nat.eq_dec i n) as [->|D]; [rewrite set_same, E; reflexivity|]. rewrite set_other by exact D. reflexivity.
Qed.

(** What holds after each call; [lost]: the handles that were overwritten. *)
Record sinv (s : xstate) (lost : nat -> Prop) : Prop := {
  si_has : forall v n, hv s v = Some n -> sm s n = true /\ ~ lost n;
  si_one : forall v w n, hv s v = Some n -> hv s w = Some n -> v = w;
  si_all : forall n, sm s n = true -> (exists v, hv s v = Some n) \/ lost n;
  si_lost : forall n, lost n -> sm s n = true
}.

Lemma create_free s offer value i : create s offer value = Some i -> xs_kernel s i = None.
Proof.
  unfold create. destruct offer as [n|]; [|discriminate]. destruct (xs_kernel s n) eqn:E; [discriminate|].
  destruct (0 <? value); [|discriminate]. intros [= <-]. exact E.
Qed.

Lemma sinv_step s s' c lost live : lives s live -> can_call live c -> sinv s lost ->
  (forall u, hv s' u = hv_after s c u) -> (forall n, sm s' n = sm_after s c n) ->
  sinv s' (fun n => lost n \/ exists v p, c = XAssign v p /\ hv s v = Some n).
Proof.
  intros LI CC [A B C D] EH ES.
  assert (LN : forall v, live v = false -> hv s v = None).
  { intros v E. rewrite (LI v) in E. unfold hv. destruct (xs_vars s v); [discriminate|reflexivity]. }
  assert (SAME : (forall u, hv s' u = hv s u) -> (forall n, sm s' n = sm s n) ->
                 (forall v p, c <> XAssign v p) ->
                 sinv s' (fun n => lost n \/ exists v p, c = XAssign v p /\ hv s v = Some n)).
  { intros E1 E2 NA. split.
    - intros v n E. rewrite E1 in E. rewrite E2. destruct (A _ _ E) as (X & Y). split; [exact X|].
      intros [Z|(? & ? & Z & _)]; [auto|exact (NA _ _ Z)].
    - intros v w n. rewrite !E1. apply B.
    - intros n E. rewrite E2 in E. destruct (C n E) as [(v & X)|X]; [left; exists v; rewrite E1; exact X|auto].
    - intros n [X|(? & ? & Z & _)]; [rewrite E2; auto|destruct (NA _ _ Z)]. }
  destruct c as [v value offer e|v p|v p|v|v|v|v|v|n|n]; cbn [can_call hv_after sm_after] in *;
    try (apply SAME; [exact EH|exact ES|congruence]).
  - destruct (create s offer value) as [i|] eqn:EC.
    + pose proof (create_free _ _ _ _ EC) as F.
      assert (FI : sm s i = false) by (unfold sm; rewrite F; reflexivity).
      assert (NI : forall u, hv s u <> Some i) by (intros u X; destruct (A _ _ X); congruence).
      assert (LI' : ~ lost i) by (intros X; specialize (D _ X); congruence).
      split.
      * intros u n E. rewrite EH in E. rewrite ES.
        destruct (set_cases (hv s) v (Some i) u) as [[-> R]|[N R]]; rewrite R in E.
        -- injection E as <-. rewrite Nat.eqb_refl. split; [reflexivity|].
           intros [X|(? & ? & X & _)]; [auto|discriminate].
        -- destruct (A _ _ E) as (X & Y). rewrite X, orb_true_r. split; [reflexivity|].
           intros [Z|(? & ? & Z & _)]; [auto|discriminate].
      * intros u w n E1 E2. rewrite EH in E1, E2.
        destruct (set_cases (hv s) v (Some i) u) as [[-> R1]|[N1 R1]]; rewrite R1 in E1;
        destruct (set_cases (hv s) v (Some i) w) as [[-> R2]|[N2 R2]]; rewrite R2 in E2; try reflexivity.
        -- injection E1 as <-. destruct (NI _ E2).
        -- injection E2 as <-. destruct (NI _ E1).
        -- eapply B; eassumption.
      * intros n E. rewrite ES in E. destruct (Nat.eq_dec n i) as [X|N].
        -- left. exists v. rewrite EH, X. apply set_same.
        -- assert (N' : (n =? i) = false) by (apply Nat.eqb_neq; exact N). rewrite N' in E. cbn [orb] in E.
           destruct (C n E) as [(u & X)|X]; [|auto]. left. exists u. rewrite EH, set_other; [exact X|].
           intros ->. rewrite (LN v CC) in X. discriminate.
      * intros n [X|(? & ? & X & _)]; [|discriminate]. rewrite ES, (D _ X). apply orb_true_r.
    + apply SAME; [|exact ES|congruence]. intros u. rewrite EH.
      destruct (set_cases (hv s) v None u) as [[-> R]|[N R]]; rewrite R; [|reflexivity]. rewrite (LN v CC). reflexivity.
  - destruct CC as (C1 & C2). assert (HV := LN v C1).
    assert (N0 : v <> p) by (intros ->; congruence).
    assert (W : forall u n, hv s' u = Some n -> (u = v /\ hv s p = Some n) \/ (u <> v /\ u <> p /\ hv s u = Some n)).
    { intros u n E. rewrite EH in E. unfold set in E. destruct (Nat.eqb_spec u p); [discriminate|].
      destruct (Nat.eqb_spec u v); auto. }
    split.
    + intros u n E. rewrite ES. destruct (W _ _ E) as [(-> & X)|(_ & _ & X)]; destruct (A _ _ X) as (Y & Z);
        (split; [exact Y|]); (intros [Q|(? & ? & Q & _)]; [auto|discriminate]).
    + intros u w n E1 E2. destruct (W _ _ E1) as [(-> & X1)|(N1 & N1' & X1)], (W _ _ E2) as [(-> & X2)|(N2 & N2' & X2)].
      * reflexivity.
      * destruct (N2' (B _ _ _ X2 X1)).
      * destruct (N1' (B _ _ _ X1 X2)).
      * eapply B; eassumption.
    + intros n E. rewrite ES in E. destruct (C n E) as [(u & X)|X]; [|auto]. left.
      destruct (Nat.eq_dec u p) as [->|N].
      * exists v. rewrite EH. rewrite set_other by exact N0. rewrite set_same. exact X.
      * exists u. rewrite EH. rewrite !set_other; [exact X| |exact N]. intros ->. congruence.
    + intros n [X|(? & ? & X & _)]; [|discriminate]. rewrite ES. auto.
  - assert (W : forall u n, hv s' u = Some n ->
              (u = v /\ v <> p /\ hv s p = Some n) \/ (u <> v /\ u <> p /\ hv s u = Some n)).
    { intros u n E. rewrite EH in E. unfold set in E. destruct (Nat.eqb_spec u p); [discriminate|].
      destruct (Nat.eqb_spec u v); subst; auto. }
    split.
    + intros u n E. rewrite ES. destruct (W _ _ E) as [(-> & N & X)|(N1 & N2 & X)]; destruct (A _ _ X) as (Y & Z);
        (split; [exact Y|]); (intros [Q|(v' & p' & Q & O)]; [auto|]); injection Q as <- <-.
      * apply N. eapply B; eassumption.
      * apply N1. eapply B; eassumption.
    + intros u w n E1 E2. destruct (W _ _ E1) as [(-> & _ & X1)|(N1 & N1' & X1)], (W _ _ E2) as [(-> & _ & X2)|(N2 & N2' & X2)].
      * reflexivity.
      * destruct (N2' (B _ _ _ X2 X1)).
      * destruct (N1' (B _ _ _ X1 X2)).
      * eapply B; eassumption.
    + intros n E. rewrite ES in E. destruct (C n E) as [(u & X)|X]; [|auto].
      destruct (Nat.eq_dec u v) as [->|N]; [right; right; eauto|]. left.
      destruct (Nat.eq_dec u p) as [->|N'].
      * exists v. rewrite EH. rewrite set_other by congruence. rewrite set_same. exact X.
      * exists u. rewrite EH. rewrite !set_other; [exact X|exact N|exact N'].
    + intros n [X|(v' & p' & _ & X)]; rewrite ES; [auto|]. apply (A _ _ X).
  - destruct (hv s v) as [i|] eqn:E0.
    + assert (W : forall u n, hv s' u = Some n -> u <> v /\ hv s u = Some n).
      { intros u n E. rewrite EH in E. unfold set in E. destruct (Nat.eqb_spec u v); [discriminate|auto]. }
      split.
      * intros u n E. destruct (W _ _ E) as (N & X). rewrite ES. destruct (A _ _ X) as (Y & Z). rewrite Y.
        destruct (Nat.eqb_spec n i) as [->|_]; [destruct (N (B _ _ _ X E0))|]. split; [reflexivity|].
        intros [Q|(? & ? & Q & _)]; [auto|discriminate].
      * intros u w n E1 E2. destruct (W _ _ E1), (W _ _ E2). eapply B; eassumption.
      * intros n E. rewrite ES in E. apply andb_true_iff in E. destruct E as (E1 & E2).
        destruct (Nat.eqb_spec n i) as [|N]; [discriminate|].
        destruct (C n E2) as [(u & X)|X]; [|auto]. left. exists u. rewrite EH, set_other; [exact X|]. congruence.
      * intros n [X|(? & ? & X & _)]; [|discriminate]. rewrite ES, (D _ X), andb_true_r.
        destruct (Nat.eqb_spec n i) as [->|]; [|reflexivity]. destruct (A _ _ E0). contradiction.
    + apply SAME; [|exact ES|congruence]. intros u. rewrite EH.
      destruct (set_cases (hv s) v None u) as [[-> R]|[N R]]; rewrite R; congruence.
Qed.

Lemma sinv_ext s l l' : (forall n, l n <-> l' n) -> sinv s l -> sinv s l'.
Proof.
  intros E [A B C D]. split.
  - intros v n X. destruct (A _ _ X). split; [auto|]. intros Y. apply E in Y. auto.
  - exact B.
  - intros n X. destruct (C n X) as [Y|Y]; [auto|]. right. apply E, Y.
  - intros n X. apply D, E, X.
Qed.

Lemma lrun_snoc k : forall h s c, lrun k s (h ++ [c]) =
  let! r := lrun k s h in let! r' := lstep k (fst r) c in Ok (fst r', snd r ++ [snd r']).
Proof.
  induction h as [|d h IH]; intros s c; cbn [app lrun].
  - cbn [bind fst snd app]. destruct (lstep k s c) as [r| |]; reflexivity.
  - destruct (lstep k s d) as [r| |]; cbn [bind]; try reflexivity. rewrite IH.
    destruct (lrun k (fst r) h) as [r'| |]; cbn [bind fst snd]; try reflexivity.
    destruct (lstep k (fst r') c); reflexivity.
Qed.

Lemma proper_app : forall h live h', proper live (h ++ h') <->
  proper live h /\ proper (fold_left alive_after h live) h'.
Proof.
  induction h as [|c h IH]; intros live h'; cbn [app proper fold_left]; [tauto|]. rewrite IH. tauto.
Qed.

Lemma snoc_split {A} (l : list A) c l1 d l2 : l ++ [c] = l1 ++ d :: l2 ->
  (l1 = l /\ d = c /\ l2 = []) \/ (exists l2', l = l1 ++ d :: l2' /\ l2 = l2' ++ [c]).
Proof.
  intros E. destruct l2 as [|x l2 _] using rev_ind.
  - apply app_inj_tail in E. destruct E as (-> & ->). auto.
  - right. exists l2. replace (l1 ++ d :: l2 ++ [x]) with ((l1 ++ d :: l2) ++ [x]) in E by (rewrite <- app_assoc; reflexivity).
    apply app_inj_tail in E. destruct E as (-> & ->). auto.
Qed.

(** * C159 *)

(** Any proper history, also one that assigns to objects that are in use (or an object to
    itself): a semaphore of the system is open exactly if a variable has it or a variable that
    had it was assigned to; in the second case nobody has it, and it is open for ever. *)
Theorem C159_exact_partial : forall h, proper (fun _ => false) h ->
  exists s rs, lrun KSemaphore xs_start h = Ok (s, rs) /\
    (forall n, opened s n <-> (exists v, holds s v n) \/ overwritten h n) /\
    (forall v n, holds s v n -> ~ overwritten h n) /\
    (forall v w n, holds s v n -> holds s w n -> v = w).
Proof.
  assert (K : forall h, proper (fun _ => false) h ->
    exists s rs, lrun KSemaphore xs_start h = Ok (s, rs) /\
      lives s (fold_left alive_after h (fun _ => false)) /\ sinv s (overwritten h)).
  { induction h as [|c h IH] using rev_ind; intros P.
    - exists xs_start, []. split; [reflexivity|]. split; [intros v; reflexivity|].
      assert (N : forall n, ~ overwritten [] n).
      { intros n (h1 & v & p & h2 & s & rs & E & _). destruct h1; discriminate. }
      split; try (intros; discriminate). intros n X. destruct (N n X).
    - apply proper_app in P. destruct P as (P & (CC & _)).
      destruct (IH P) as (s & rs & E & L & V).
      destruct (step_effect s c _ L CC (fun v n X => proj1 (si_has _ _ V v n X))) as (s' & r & E' & L' & EH & ES).
      exists s', (rs ++ [r]). split; [|split].
      + rewrite lrun_snoc, E. cbn [bind fst snd]. rewrite E'. reflexivity.
      + rewrite fold_left_app. exact L'.
      + eapply sinv_ext; [|exact (sinv_step _ _ _ _ _ L CC V EH ES)].
        intros n. split.
        * intros [(h1 & v & p & h2 & s1 & rs1 & X & Y & Z)|(v & p & -> & X)].
          -- exists h1, v, p, (h2 ++ [c]), s1, rs1. subst h. rewrite <- app_assoc. auto.
          -- exists h, v, p, [], s, rs. split; [reflexivity|]. split; [exact E|]. apply hv_holds, X.
        * intros (h1 & v & p & h2 & s1 & rs1 & X & Y & Z).
          destruct (snoc_split _ _ _ _ _ X) as [(-> & <- & _)|(h2' & -> & _)].
          -- right. exists v, p. split; [reflexivity|]. rewrite E in Y. injection Y as <- _. apply hv_holds, Z.
          -- left. exists h1, v, p, h2', s1, rs1. auto. }
  intros h P. destruct (K h P) as (s & rs & E & _ & [A B C D]). exists s, rs. split; [exact E|].
  split; [|split].
  - intros n. split.
    + intros O. apply sm_opened in O. destruct (C n O) as [(v & X)|X]; [left; exists v; apply hv_holds, X|auto].
    + intros [(v & X)|X]; apply sm_opened; [apply hv_holds in X; apply (A _ _ X)|auto].
  - intros v n X. apply hv_holds in X. apply (A _ _ X).
  - intros v w n X Y. apply hv_holds in X, Y. exact (B _ _ _ X Y).
Qed.

(** 7 is overwritten, and also 9, by a self-assignment; 8 is closed by the destructor of the
    variable that took it. *)
Example C159_exact_case :
  let h := [XNew 1 2 (Some 7) 0; XNew 2 1 (Some 8) 0; XAssign 1 2; XNew 3 1 (Some 9) 0; XAssign 3 3;
            XTry 1; XDelete 1; XDelete 2; XDelete 3] in
  proper (fun _ => false) h /\ overwritten h 7 /\ overwritten h 9 /\
  exists s rs, lrun KSemaphore xs_start h = Ok (s, rs) /\ opened s 7 /\ opened s 9 /\ xs_kernel s 8 = None.
Proof.
  cbv zeta. split; [cbn; tauto|]. split; [|split].
  - exists [XNew 1 2 (Some 7) 0; XNew 2 1 (Some 8) 0], 1, 2,
      [XNew 3 1 (Some 9) 0; XAssign 3 3; XTry 1; XDelete 1; XDelete 2; XDelete 3]. do 2 eexists.
    split; [reflexivity|]. split; [reflexivity|]. eexists. reflexivity.
  - exists [XNew 1 2 (Some 7) 0; XNew 2 1 (Some 8) 0; XAssign 1 2; XNew 3 1 (Some 9) 0], 3, 3,
      [XTry 1; XDelete 1; XDelete 2; XDelete 3]. do 2 eexists.
    split; [reflexivity|]. split; [reflexivity|]. eexists. reflexivity.
  - do 2 eexists. split; [vm_compute; reflexivity|]. split; [|split; [|reflexivity]];
      (eexists; eexists; reflexivity).
Qed.

Print Assumptions C159_exact_partial.
