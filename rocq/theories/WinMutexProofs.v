(** Lemmas about mutexes on Windows. *)
From Coq Require Import List Arith ZArith Bool Lia.
From Verif Require Import Base WinLockModel WinLockProps WinMutexModel WinMutexSpec.
Import ListNotations.

(** * One Mutex *)

(** Locks that are on the way: taken and not yet returned, or about to be given back. *)
Definition mcarried (p : option mpc) : Z :=
  match p with Some (PWaited _) | Some PRelease => 1 | _ => 0 end.
Definition sound_pc (p : option mpc) : Prop :=
  match p with
  | None | Some PWait | Some PTry | Some PRelease | Some PGet => True
  | Some (PWaited s) | Some (PReleased s) => s = 0%Z
  | _ => False
  end.

Definition minv (c : tconfig wmutex mpc) (hs : list nat) : Prop :=
  wm_open (tc_mem c) = true /\ (forall t, sound_pc (tc_threads c t)) /\
  exists N, (forall t, N <= t -> tc_threads c t = None) /\
    (Z.of_nat (wm_count (tc_mem c)) + sum (fun t => mcarried (tc_threads c t)) N + Z.of_nat (length hs) = 1)%Z.

Lemma sum_nonneg (f : nat -> Z) N : (forall t, (0 <= f t)%Z) -> (0 <= sum f N)%Z.
Proof. intros H. induction N as [|N IH]; cbn; [lia|]. specialize (H N). lia. Qed.
Lemma carried_nonneg p : (0 <= mcarried p)%Z.
Proof. destruct p as [[]|]; cbn; lia. Qed.
Lemma sum_ge (f : nat -> Z) t N : (forall t, (0 <= f t)%Z) -> t < N -> (f t <= sum f N)%Z.
Proof.
  intros H. induction N as [|N IH]; [lia|]. cbn. intros L. pose proof (H N). pose proof (sum_nonneg f N H).
  destruct (Nat.eq_dec t N) as [->|D]; [lia|]. assert (t < N) by lia. specialize (IH H2). lia.
Qed.

Lemma minv_set c hs t m x hs' : minv c hs ->
  wm_open m = true -> sound_pc x ->
  (Z.of_nat (wm_count m) + mcarried x + Z.of_nat (length hs')
   = Z.of_nat (wm_count (tc_mem c)) + mcarried (tc_threads c t) + Z.of_nat (length hs))%Z ->
  minv (TC m (tset (tc_threads c) t x)) hs'.
Proof.
  intros (_ & SP & N & I & E) O SX D. split; [exact O|]. split.
  - intros u. cbn [tc_threads]. destruct (Nat.eq_dec u t) as [->|NE]; [rewrite tset_same; exact SX|].
    rewrite tset_other by exact NE. apply SP.
  - exists (Nat.max N (S t)). split.
    + intros u L. cbn [tc_threads]. rewrite tset_other by lia. apply I. lia.
    + cbn [tc_mem tc_threads]. rewrite sum_set by lia.
      rewrite (sum_more _ N) by (intros; rewrite ?I by lia; reflexivity || lia).
      cbn beta in *. lia.
Qed.

Lemma minv_new : minv (tquiet (mutex_new None)) [].
Proof.
  split; [reflexivity|]. split; [intros t; exact I|]. exists 0. split; [reflexivity|]. reflexivity.
Qed.

Lemma minv_bound c hs t : minv c hs ->
  (Z.of_nat (wm_count (tc_mem c)) + mcarried (tc_threads c t) + Z.of_nat (length hs) <= 1)%Z.
Proof.
  intros (_ & _ & N & I & E).
  destruct (le_lt_dec N t) as [L|L].
  - rewrite (I t L). cbn. pose proof (sum_nonneg (fun t => mcarried (tc_threads c t)) N (fun t => carried_nonneg _)). lia.
  - pose proof (sum_ge (fun t => mcarried (tc_threads c t)) t N (fun t => carried_nonneg _) L). cbn beta in *. lia.
Qed.

Lemma holders_app hs a b : holders hs (a ++ b) = holders (holders hs a) b.
Proof. unfold holders. apply fold_left_app. Qed.
Lemma fair_app : forall a b hs, fair_use hs (a ++ b) <-> fair_use hs a /\ fair_use (holders hs a) b.
Proof.
  induction a as [|e a IH]; intros b hs; cbn; [tauto|]. rewrite IH. unfold holders. cbn. tauto.
Qed.

Lemma minv_step c hs mv : minv c hs -> fair_use hs (snd (tstep mstart mpstep c mv)) ->
  minv (fst (tstep mstart mpstep c mv)) (holders hs (snd (tstep mstart mpstep c mv))).
Proof.
  intros V F. pose proof V as (O & SP & _). pose proof (minv_bound c hs) as BD.
  destruct mv as [t o|t]; cbn [tstep] in *; specialize (BD t V).
  - destruct (tc_threads c t) as [p|] eqn:T; [exact V|]. cbn [fst snd] in *.
    cbn [fair_use] in F. destruct F as (A & _).
    destruct o; cbn [allowed holders fold_left holders_after mstart] in *;
      try (apply (minv_set c hs); cbn [holders holders_after fold_left sound_pc set_wm_count set_wm_status touch wm_open wm_count]; auto; rewrite T; cbn [mcarried length]; lia).
    apply (minv_set c hs); cbn [holders holders_after fold_left sound_pc set_wm_count set_wm_status touch wm_open wm_count]; auto. rewrite T. cbn.
      destruct hs as [|a [|b hs]]; cbn in A, BD |- *; [contradiction| |lia].
      destruct A as [->|[]]. destruct (Nat.eq_dec t t); [cbn [mcarried length]; lia|congruence].
  - specialize (SP t). destruct (tc_threads c t) as [p|] eqn:T; [|exact V].
    destruct p; cbn [mpstep sound_pc] in *; try contradiction;
      cbn [touch wm_open wm_count] in *; rewrite ?O in *; cbn [mcarried] in *.
    + destruct (wm_count (tc_mem c)) as [|n] eqn:EC; cbn [fst snd] in *;
        apply (minv_set c hs); cbn [holders holders_after fold_left sound_pc set_wm_count set_wm_status touch wm_open wm_count]; auto; rewrite ?T, ?EC; cbn [mcarried length]; lia.
    + subst s. cbn [fst snd] in *. apply (minv_set c hs); cbn [holders holders_after fold_left sound_pc set_wm_count set_wm_status touch wm_open wm_count]; auto; rewrite ?T; cbn [mcarried length]; lia.
    + destruct (wm_count (tc_mem c)) as [|n] eqn:EC; cbn [fst snd] in *;
        apply (minv_set c hs); cbn [holders holders_after fold_left sound_pc set_wm_count set_wm_status touch wm_open wm_count]; auto; rewrite ?T, ?EC; cbn [mcarried length]; lia.
    + assert (EC : wm_count (tc_mem c) = 0) by lia. rewrite EC in *. cbn [fst snd] in *.
      apply (minv_set c hs); cbn [holders holders_after fold_left sound_pc set_wm_count set_wm_status touch wm_open wm_count]; auto; rewrite ?T, ?EC; cbn [mcarried length]; lia.
    + subst s. cbn [fst snd] in *. apply (minv_set c hs); cbn [holders holders_after fold_left sound_pc set_wm_count set_wm_status touch wm_open wm_count]; auto; rewrite ?T; cbn [mcarried length]; lia.
    + cbn [fst snd] in *. apply (minv_set c hs); cbn [holders holders_after fold_left sound_pc set_wm_count set_wm_status touch wm_open wm_count]; auto; rewrite ?T; cbn [mcarried length]; lia.
Qed.

Lemma minv_run : forall moves c hs c' h, minv c hs ->
  mrun c moves = (c', h) -> fair_use hs h -> minv c' (holders hs h).
Proof.
  induction moves as [|mv moves IH]; intros c hs c' h V E F; unfold mrun in *; cbn [trun] in E.
  - injection E as <- <-. exact V.
  - injection E as E1 E2. rewrite <- E2 in *. rewrite holders_app. rewrite fair_app in F.
    destruct F as (F1 & F2).
    refine (IH _ _ _ _ (minv_step c hs mv V F1) _ F2).
    rewrite <- E1. apply surjective_pairing.
Qed.

(** * The life of objects *)

Lemma set_same {A} (f : nat -> A) v x : set f v x v = x.
Proof. unfold set. rewrite Nat.eqb_refl. reflexivity. Qed.
Lemma set_other {A} (f : nat -> A) v x u : u <> v -> set f v x u = f u.
Proof. intros N. unfold set. destruct (Nat.eqb_spec u v); congruence. Qed.
Lemma set_cases {A} (f : nat -> A) v x u : (u = v /\ set f v x u = x) \/ (u <> v /\ set f v x u = f u).
Proof. unfold set. destruct (Nat.eqb_spec u v); auto. Qed.

Record linv (k : wkind) (s : xstate) : Prop := {
  li_has : forall v n st, xs_vars s v = Some (XLock (Handle n) st) ->
    exists c m, xs_kernel s n = Some (Sem c m) /\ c <= m /\ 1 <= m /\ (k = KMutex -> m = 1);
  li_one : forall v w n st st', xs_vars s v = Some (XLock (Handle n) st) ->
    xs_vars s w = Some (XLock (Handle n) st') -> v = w;
  li_all : forall n c m, xs_kernel s n = Some (Sem c m) ->
    exists v st, xs_vars s v = Some (XLock (Handle n) st)
}.

Lemma linv_start k : linv k xs_start.
Proof. split; cbn; congruence. Qed.

(** A new object. *)
Lemma linv_new k s v n c m : linv k s -> xs_vars s v = None -> xs_kernel s n = None ->
  c <= m -> 1 <= m -> (k = KMutex -> m = 1) ->
  linv k (set_var (set_kernel s n (Some (Sem c m))) v (Some (XLock (Handle n) 0))).
Proof.
  intros [A B C] FV FK L1 L2 KM. split; cbn.
  - intros u i st E. destruct (set_cases (xs_vars s) v (Some (XLock (Handle n) 0)) u) as [[-> R]|[D R]]; rewrite R in E.
    + injection E as <- _. rewrite set_same. eauto 10.
    + rewrite set_other; [eauto|]. intros ->. destruct (A _ _ _ E) as (c' & m' & X & _). congruence.
  - intros u w i st st' E1 E2.
    destruct (set_cases (xs_vars s) v (Some (XLock (Handle n) 0)) u) as [[-> R1]|[D1 R1]]; rewrite R1 in E1;
    destruct (set_cases (xs_vars s) v (Some (XLock (Handle n) 0)) w) as [[-> R2]|[D2 R2]]; rewrite R2 in E2;
      try reflexivity; eauto.
    + injection E1 as <- _. destruct (A _ _ _ E2) as (c' & m' & X & _). congruence.
    + injection E2 as <- _. destruct (A _ _ _ E1) as (c' & m' & X & _). congruence.
  - intros i c' m' E. destruct (Nat.eq_dec i n) as [->|D].
    + exists v, 0%Z. apply set_same.
    + rewrite set_other in E by exact D. destruct (C _ _ _ E) as (u & st & X). exists u, st.
      rewrite set_other; [exact X|]. congruence.
Qed.

(** An object is replaced by one without a handle, or by one with the same handle; if it loses
    its handle, the handle is closed. *)
Lemma linv_same k s v o st : linv k s -> xs_vars s v = Some o ->
  linv k (set_var s v (Some (XLock (xl_handle o) st))).
Proof.
  intros [A B C] E0. destruct o as [h0 st0]. cbn [xl_handle]. 
  assert (W : forall u n x, xs_vars (set_var s v (Some (XLock h0 st))) u = Some (XLock (Handle n) x) ->
              exists y, xs_vars s u = Some (XLock (Handle n) y)).
  { cbn. intros u n x E. destruct (set_cases (xs_vars s) v (Some (XLock h0 st)) u) as [[-> R]|[D R]]; rewrite R in E; [|eauto].
    injection E as -> _. eauto. }
  split.
  - intros u n x E. destruct (W _ _ _ E) as (y & E'). exact (A _ _ _ E').
  - intros u w n x y E1 E2. destruct (W _ _ _ E1) as (? & ?). destruct (W _ _ _ E2) as (? & ?). eauto.
  - intros n c m E. destruct (C _ _ _ E) as (u & x & X). exists u. cbn.
    destruct (set_cases (xs_vars s) v (Some (XLock h0 st)) u) as [[-> R]|[D R]]; rewrite R; [|eauto].
    rewrite E0 in X. injection X as -> _. eauto.
Qed.

Lemma linv_count k s n c m c' : linv k s -> xs_kernel s n = Some (Sem c m) -> c' <= m ->
  linv k (set_kernel s n (Some (Sem c' m))).
Proof.
  intros [A B C] E0 L. split; cbn.
  - intros v i st E. destruct (A _ _ _ E) as (c1 & m1 & X & L1 & L2 & KM).
    destruct (Nat.eq_dec i n) as [->|D]; [|rewrite set_other by exact D; eauto 10].
    rewrite set_same. rewrite E0 in X. injection X as -> ->. eauto 10.
  - exact B.
  - intros i c1 m1 E. destruct (Nat.eq_dec i n) as [->|D]; [eauto|].
    rewrite set_other in E by exact D. eauto.
Qed.

(** An object without a handle appears, disappears or changes. *)
Definition no_handle (x : option xlock) : Prop :=
  match x with Some (XLock (Handle _) _) => False | _ => True end.
Lemma linv_nothing k s v x : linv k s -> no_handle (xs_vars s v) -> no_handle x -> linv k (set_var s v x).
Proof.
  intros [A B C] N1 N2.
  assert (W : forall u n y, set (xs_vars s) v x u = Some (XLock (Handle n) y) -> xs_vars s u = Some (XLock (Handle n) y)).
  { intros u n y E. destruct (set_cases (xs_vars s) v x u) as [[-> R]|[D R]]; rewrite R in E; [|exact E].
    rewrite E in N2. contradiction. }
  split; cbn.
  - intros u n y E. eauto.
  - intros u w n y z E1 E2. eauto.
  - intros n c m E. destruct (C _ _ _ E) as (u & y & X). exists u, y.
    rewrite set_other; [exact X|]. intros ->. rewrite X in N1. contradiction.
Qed.

(** An object with a handle loses it, and it is closed. *)
Lemma linv_close k s v n st x : linv k s -> xs_vars s v = Some (XLock (Handle n) st) -> no_handle x ->
  linv k (set_var (set_kernel s n None) v x).
Proof.
  intros [A B C] E0 N2.
  assert (W : forall u i y, set (xs_vars s) v x u = Some (XLock (Handle i) y) ->
              u <> v /\ xs_vars s u = Some (XLock (Handle i) y)).
  { intros u i y E. destruct (set_cases (xs_vars s) v x u) as [[-> R]|[D R]]; rewrite R in E; [|auto].
    rewrite E in N2. contradiction. }
  split; cbn.
  - intros u i y E. destruct (W _ _ _ E) as (D & E'). rewrite set_other; [eauto|].
    intros ->. apply D. eauto.
  - intros u w i y z E1 E2. destruct (W _ _ _ E1), (W _ _ _ E2). eauto.
  - intros i c m E. destruct (Nat.eq_dec i n) as [->|D]; [rewrite set_same in E; discriminate|].
    rewrite set_other in E by exact D. destruct (C _ _ _ E) as (u & y & X). exists u, y.
    rewrite set_other; [exact X|]. congruence.
Qed.

(** An object takes over what another one has. *)
Lemma linv_take k s v p q : linv k s -> no_handle (xs_vars s v) -> xs_vars s p = Some q -> v <> p ->
  linv k (set_var (set_var s v (Some q)) p (Some (XLock Invalid 0))).
Proof.
  intros [A B C] N1 EP D0.
  assert (W : forall u n y, set (set (xs_vars s) v (Some q)) p (Some (XLock Invalid 0)) u = Some (XLock (Handle n) y) ->
              (u = v /\ q = XLock (Handle n) y) \/ (u <> v /\ u <> p /\ xs_vars s u = Some (XLock (Handle n) y))).
  { intros u n y E. destruct (Nat.eq_dec u p) as [->|D1]; [rewrite set_same in E; discriminate|].
    rewrite set_other in E by exact D1. destruct (Nat.eq_dec u v) as [->|D2].
    - rewrite set_same in E. left. split; congruence.
    - rewrite set_other in E by exact D2. auto. }
  split; cbn.
  - intros u n y E. destruct (W _ _ _ E) as [[-> ->]|(_ & _ & E')]; eauto.
  - intros u w n y z E1 E2.
    destruct (W _ _ _ E1) as [[-> X1]|(D1 & D1' & X1)], (W _ _ _ E2) as [[-> X2]|(D2 & D2' & X2)].
    + reflexivity.
    + exfalso. apply D2'. subst q. eauto.
    + exfalso. apply D1'. subst q. eauto.
    + eauto.
  - intros n c m E. destruct (C _ _ _ E) as (u & y & X).
    destruct (Nat.eq_dec u p) as [->|D1].
    + exists v, y. rewrite set_other by exact D0. rewrite set_same. congruence.
    + exists u, y. rewrite set_other by exact D1. rewrite set_other; [exact X|].
      intros ->. rewrite X in N1. contradiction.
Qed.

(** Which variables hold an object; which are known to have been moved away. *)
Definition lives (s : xstate) (live : nat -> bool) : Prop :=
  forall v, live v = match xs_vars s v with Some _ => true | None => false end.
Definition knows_moved (s : xstate) (moved : nat -> bool) : Prop :=
  forall v, moved v = true ->
    match xs_vars s v with Some o => xl_handle o = Invalid | None => True end.

Lemma vars_close s h : xs_vars (close_handle s h) = xs_vars s.
Proof. destruct h; reflexivity. Qed.

Lemma linv_ext k s s' : (forall u, xs_vars s' u = xs_vars s u) ->
  (forall n, xs_kernel s' n = xs_kernel s n) -> linv k s -> linv k s'.
Proof.
  intros E1 E2 [A B C]. split; intros *; rewrite ?E1, ?E2; eauto.
  intros E. destruct (C _ _ _ E) as (u & y & X). exists u, y. rewrite E1. exact X.
Qed.

(** What an assignment does. *)
Lemma assign_ok k s v p o q : linv k s -> xs_vars s v = Some o -> xs_vars s p = Some q ->
  (k = KSemaphore -> match xl_handle o with Handle _ => False | _ => True end) ->
  exists s', xassign k s v p = Ok s' /\ linv k s' /\
    xs_vars s' = set (set (xs_vars s) v (Some q)) p (Some (XLock Invalid 0)) /\
    (forall n, xs_kernel s' n =
       match xl_handle o with Handle m => if n =? m then None else xs_kernel s n | _ => xs_kernel s n end).
Proof.
  intros V EV EP KS. unfold xassign. rewrite EV, EP.
  destruct o as [h st]. cbn [xl_handle] in *.
  assert (P : forall s1, xs_vars s1 = xs_vars s ->
    match xs_vars s1 p with
    | Some q => Ok (set_var (set_var s1 v (Some q)) p (Some (XLock Invalid 0)))
    | None => UB
    end = Ok (set_var (set_var s1 v (Some q)) p (Some (XLock Invalid 0)))).
  { intros s1 ->. rewrite EP. reflexivity. }
  destruct (Nat.eq_dec v p) as [<-|D].
  - rewrite EV in EP. injection EP as <-.
    assert (Q : forall s1 x y u, xs_vars (set_var (set_var s1 v x) v y) u = xs_vars (set_var s1 v y) u).
    { intros s1 x y u. cbn. unfold set. destruct (u =? v); reflexivity. }
    destruct k, h; cbn [is_invalid negb close_handle];
      try (rewrite P by reflexivity; eexists; split; [reflexivity|]; split; [|split; [reflexivity|reflexivity]];
           apply (linv_ext k (set_var s v (Some (XLock Invalid 0)))); [apply Q|reflexivity|];
           apply linv_nothing; [exact V|rewrite EV; exact I|exact I]).
    + rewrite P by reflexivity. eexists. split; [reflexivity|]. split; [|split; [reflexivity|reflexivity]].
      apply (linv_ext KMutex (set_var s v (Some (XLock Invalid 0)))); [apply Q|reflexivity|].
      apply linv_nothing; [exact V|rewrite EV; exact I|exact I].
    + rewrite P by reflexivity. eexists. split; [reflexivity|]. split; [|split; [reflexivity|reflexivity]].
      apply (linv_ext KMutex (set_var s v (Some (XLock Invalid 0)))); [apply Q|reflexivity|].
      apply linv_nothing; [exact V|rewrite EV; exact I|exact I].
    + rewrite P by reflexivity. eexists. split; [reflexivity|]. split; [|split; [reflexivity|reflexivity]].
      apply (linv_ext KMutex (set_var (set_kernel s n None) v (Some (XLock Invalid 0)))); [apply Q|reflexivity|].
      apply (linv_close KMutex s v n st); [exact V|exact EV|exact I].
    + rewrite P by reflexivity. eexists. split; [reflexivity|]. split; [|split; [reflexivity|reflexivity]].
      apply (linv_ext KSemaphore (set_var s v (Some (XLock Invalid 0)))); [apply Q|reflexivity|].
      apply linv_nothing; [exact V|rewrite EV; exact I|exact I].
    + rewrite P by reflexivity. eexists. split; [reflexivity|]. split; [|split; [reflexivity|reflexivity]].
      apply (linv_ext KSemaphore (set_var s v (Some (XLock Invalid 0)))); [apply Q|reflexivity|].
      apply linv_nothing; [exact V|rewrite EV; exact I|exact I].
    + destruct (KS eq_refl).
  - assert (T : no_handle (xs_vars s v) -> linv k (set_var (set_var s v (Some q)) p (Some (XLock Invalid 0)))).
    { intros NH. apply linv_take; assumption. }
    rewrite EV in T.
    assert (TC : forall n, h = Handle n ->
      linv k (set_var (set_var (set_kernel s n None) v (Some q)) p (Some (XLock Invalid 0)))).
    { intros n ->.
      apply (linv_ext k (set_var (set_var (set_var (set_kernel s n None) v (Some (XLock Null 0))) v (Some q)) p (Some (XLock Invalid 0)))).
      - intros u. cbn. unfold set. destruct (u =? p), (u =? v); reflexivity.
      - reflexivity.
      - apply linv_take.
        + apply (linv_close k s v n st); [exact V|exact EV|exact I].
        + cbn. rewrite set_same. exact I.
        + cbn. rewrite set_other by congruence. exact EP.
        + exact D. }
    destruct k, h; cbn [is_invalid negb close_handle]; try (destruct (KS eq_refl); fail);
      rewrite P by reflexivity; (eexists; split; [reflexivity|]; split; [auto|split; [reflexivity|reflexivity]]);
      try (apply T; exact I).
Qed.

Definition kmoved (k : wkind) (moved : nat -> bool) (c : xcall) : Prop :=
  k = KSemaphore -> match c with XAssign v _ => moved v = true | _ => True end.

Lemma lstep_ok k s c live moved : linv k s -> lives s live -> knows_moved s moved ->
  can_call live c -> kmoved k moved c ->
  exists s' r, lstep k s c = Ok (s', r) /\ linv k s' /\ lives s' (alive_after live c) /\
    knows_moved s' (moved_after moved c) /\
    (forall n, xs_kernel s n = Some Foreign -> c <> XForeignClose n -> xs_kernel s' n = Some Foreign).
Proof.
  intros V L M CC KM.
  assert (LV : forall v, live v = true -> exists o, xs_vars s v = Some o).
  { intros v E. rewrite (L v) in E. destruct (xs_vars s v); [eauto|discriminate]. }
  assert (LN : forall v, live v = false -> xs_vars s v = None).
  { intros v E. rewrite (L v) in E. destruct (xs_vars s v); [discriminate|reflexivity]. }
  assert (LS : forall v o o', xs_vars s v = Some o -> lives (set_var s v (Some o')) live).
  { intros v o o' E u. cbn. destruct (set_cases (xs_vars s) v (Some o') u) as [[-> ->]|[D ->]]; [rewrite (L v), E; reflexivity|apply L]. }
  assert (MS : forall v o st, xs_vars s v = Some o -> knows_moved (set_var s v (Some (XLock (xl_handle o) st))) moved).
  { intros v o st E u H. specialize (M u H). cbn.
    destruct (set_cases (xs_vars s) v (Some (XLock (xl_handle o) st)) u) as [[-> ->]|[D ->]]; [rewrite E in M; exact M|exact M]. }
  assert (SEM : forall v n st, xs_vars s v = Some (XLock (Handle n) st) -> exists c m, xs_kernel s n = Some (Sem c m) /\ c <= m).
  { intros v n st E. destruct (li_has k s V _ _ _ E) as (c0 & m & X & LE & _). eauto. }
  assert (FK : forall n c0 m x i, xs_kernel s n = Some (Sem c0 m) -> xs_kernel s i = Some Foreign -> set (xs_kernel s) n x i = Some Foreign).
  { intros n c0 m x i E1 E2. rewrite set_other; [exact E2|congruence]. }
  destruct c as [v value offer e|v p|v p|v|v|v|v|v|n|n]; cbn [can_call] in CC; cbn [lstep].
  - rewrite (LN v CC).
    set (val := match k with KMutex => 1 | KSemaphore => value end).
    assert (K0 : forall x, lives (set_var s v (Some x)) (alive_after live (XNew v value offer e))).
    { intros x u. cbn. destruct (Nat.eq_dec u v) as [->|D]; [rewrite !set_same; reflexivity|].
      rewrite !set_other by exact D. apply L. }
    assert (K1 : forall x, knows_moved (set_var s v (Some x)) (moved_after moved (XNew v value offer e))).
    { intros x u. cbn. destruct (Nat.eq_dec u v) as [->|D]; [rewrite !set_same; discriminate|].
      rewrite !set_other by exact D. apply M. }
    destruct (create s offer val) as [n|] eqn:EC.
    + assert (KN : xs_kernel s n = None /\ 0 < val).
      { unfold create in EC. destruct offer as [i|]; [|discriminate]. destruct (xs_kernel s i) eqn:EK; [discriminate|].
        destruct (Nat.ltb_spec 0 val); [|discriminate]. injection EC as ->. auto. }
      destruct KN as (KN & PV).
      do 2 eexists. split; [reflexivity|]. split; [|split; [apply K0|split; [apply K1|]]].
      * apply linv_new; auto. unfold val. intros ->. reflexivity.
      * intros i E _. cbn. rewrite set_other; [exact E|congruence].
    + do 2 eexists. split; [reflexivity|]. split; [|split; [apply K0|split; [apply K1|]]].
      * apply linv_nothing; [exact V|rewrite (LN v CC); exact I|exact I].
      * intros i E _. exact E.
  - destruct CC as (C1 & C2). rewrite (LN v C1). destruct (LV p C2) as (q & EP).
    assert (D : v <> p) by (intros ->; congruence).
    destruct (Nat.eqb_spec v p) as [|_]; [contradiction|].
    set (x := XLock (match k with KMutex => Null | KSemaphore => Invalid end) 0).
    destruct (assign_ok k (set_var s v (Some x)) v p x q) as (s' & E & V' & EV & EK).
    + apply linv_nothing; [exact V|rewrite (LN v C1); exact I|]. unfold x. destruct k; exact I.
    + cbn. apply set_same.
    + cbn. rewrite set_other by congruence. exact EP.
    + intros ->. exact I.
    + rewrite E. cbn [bind]. do 2 eexists. split; [reflexivity|]. split; [exact V'|]. split; [|split].
      * intros u. rewrite EV. cbn. unfold set. destruct (Nat.eqb_spec u p) as [->|].
        -- rewrite C2. destruct (p =? v); reflexivity.
        -- destruct (u =? v); [reflexivity|apply L].
      * intros u H. rewrite EV. cbn in H |- *. unfold set in *. destruct (u =? p); [reflexivity|].
        destruct (u =? v); [|apply M, H]. specialize (M p H). rewrite EP in M. exact M.
      * intros i F _. rewrite EK. unfold x. destruct k; exact F.
  - destruct CC as (C1 & C2). destruct (LV v C1) as (o & EO). destruct (LV p C2) as (q & EP).
    destruct (assign_ok k s v p o q V EO EP) as (s' & E & V' & EV & EK).
    + intros KS. specialize (M v (KM KS)). rewrite EO in M. rewrite M. exact I.
    + rewrite E. cbn [bind]. do 2 eexists. split; [reflexivity|]. split; [exact V'|]. split; [|split].
      * intros u. rewrite EV. unfold set. cbn. destruct (Nat.eqb_spec u p) as [->|]; [exact C2|].
        destruct (Nat.eqb_spec u v) as [->|]; [exact C1|apply L].
      * intros u H. rewrite EV. cbn in H |- *. unfold set in *. destruct (u =? p); [reflexivity|].
        destruct (u =? v); [|apply M, H]. specialize (M p H). rewrite EP in M. exact M.
      * intros i F _. rewrite EK. destruct o as [[| |m] st]; cbn; auto.
        destruct (Nat.eqb_spec i m) as [->|]; [|exact F]. destruct (SEM _ _ _ EO) as (? & ? & X & _). congruence.
  - destruct (LV v CC) as (o & EO). rewrite EO.
    destruct o as [[| |n] st] eqn:O; cbn [xl_handle].
    + do 2 eexists. split; [reflexivity|]. unfold xl_set. split; [apply (linv_same k s v _ _ V EO)|].
      split; [apply (LS v _ _ EO)|]. split; [apply (MS v _ _ EO)|]. auto.
    + do 2 eexists. split; [reflexivity|]. auto.
    + destruct (SEM _ _ _ EO) as ([|c0] & m & X & LE); rewrite X.
      * do 2 eexists. split; [reflexivity|]. auto.
      * do 2 eexists. split; [reflexivity|]. unfold xl_set. split; [|split; [|split]].
        -- apply (linv_same k (set_kernel s n (Some (Sem c0 m))) v (XLock (Handle n) st)); [|exact EO].
           apply (linv_count k s n (S c0) m c0); [exact V|exact X|lia].
        -- apply (LS v _ _ EO).
        -- apply (MS v _ _ EO).
        -- intros i F _. cbn. eauto.
  - destruct (LV v CC) as (o & EO). rewrite EO.
    destruct o as [[| |n] st] eqn:O; cbn [xl_handle].
    + do 2 eexists. split; [reflexivity|]. unfold xl_set. split; [apply (linv_same k s v _ _ V EO)|].
      split; [apply (LS v _ _ EO)|]. split; [apply (MS v _ _ EO)|]. auto.
    + do 2 eexists. split; [reflexivity|]. auto.
    + destruct (SEM _ _ _ EO) as ([|c0] & m & X & LE); rewrite X.
      * do 2 eexists. split; [reflexivity|]. auto.
      * do 2 eexists. split; [reflexivity|]. split; [|split; [|split]].
        -- apply (linv_count k s n (S c0) m c0); [exact V|exact X|lia].
        -- exact L.
        -- exact M.
        -- intros i F _. cbn. eauto.
  - destruct (LV v CC) as (o & EO). rewrite EO.
    destruct o as [[| |n] st] eqn:O; cbn [xl_handle].
    + do 2 eexists. split; [reflexivity|]. unfold xl_set. split; [apply (linv_same k s v _ _ V EO)|].
      split; [apply (LS v _ _ EO)|]. split; [apply (MS v _ _ EO)|]. auto.
    + do 2 eexists. split; [reflexivity|]. unfold xl_set. split; [apply (linv_same k s v _ _ V EO)|].
      split; [apply (LS v _ _ EO)|]. split; [apply (MS v _ _ EO)|]. auto.
    + destruct (SEM _ _ _ EO) as (c0 & m & X & LE); rewrite X.
      destruct (Nat.ltb_spec c0 m).
      * do 2 eexists. split; [reflexivity|]. unfold xl_set. split; [|split; [|split]].
        -- apply (linv_same k (set_kernel s n (Some (Sem (S c0) m))) v (XLock (Handle n) st)); [|exact EO].
           apply (linv_count k s n c0 m (S c0)); [exact V|exact X|lia].
        -- apply (LS v _ _ EO).
        -- apply (MS v _ _ EO).
        -- intros i F _. cbn. eauto.
      * do 2 eexists. split; [reflexivity|]. unfold xl_set. split; [apply (linv_same k s v _ _ V EO)|].
        split; [apply (LS v _ _ EO)|]. split; [apply (MS v _ _ EO)|]. auto.
  - destruct (LV v CC) as (o & EO). rewrite EO. do 2 eexists. split; [reflexivity|]. auto.
  - destruct (LV v CC) as (o & EO). rewrite EO. do 2 eexists. split; [reflexivity|].
    assert (L' : forall s1, xs_vars s1 = xs_vars s -> lives (set_var s1 v None) (set live v false)).
    { intros s1 E u. cbn. rewrite E. destruct (Nat.eq_dec u v) as [->|D]; [rewrite !set_same; reflexivity|].
      rewrite !set_other by exact D. apply L. }
    assert (M' : forall s1, xs_vars s1 = xs_vars s -> knows_moved (set_var s1 v None) moved).
    { intros s1 E u H. cbn. rewrite E. destruct (Nat.eq_dec u v) as [->|D]; [rewrite set_same; exact I|].
      rewrite set_other by exact D. apply M, H. }
    destruct o as [[| |n] st]; cbn [xl_handle is_invalid close_handle].
    + split; [apply linv_nothing; [exact V|rewrite EO; exact I|exact I]|]. split; [apply L'; reflexivity|].
      split; [apply M'; reflexivity|auto].
    + split; [apply linv_nothing; [exact V|rewrite EO; exact I|exact I]|]. split; [apply L'; reflexivity|].
      split; [apply M'; reflexivity|auto].
    + split; [apply (linv_close k s v n st); [exact V|exact EO|exact I]|]. split; [apply L'; reflexivity|].
      split; [apply M'; reflexivity|]. intros i F _. cbn. destruct (SEM _ _ _ EO) as (? & ? & X & _). eauto.
  - destruct (xs_kernel s n) as [x|] eqn:E; [do 2 eexists; split; [reflexivity|]; auto|].
    do 2 eexists. split; [reflexivity|]. split; [|split; [exact L|split; [exact M|]]].
    + destruct V as [A B C]. split; cbn.
      * intros v i st H. destruct (A _ _ _ H) as (c0 & m & X & R). rewrite set_other; [eauto|congruence].
      * exact B.
      * intros i c0 m H. destruct (Nat.eq_dec i n) as [->|D]; [rewrite set_same in H; discriminate|].
        rewrite set_other in H by exact D. eauto.
    + intros i F _. cbn. destruct (Nat.eq_dec i n) as [->|D]; [apply set_same|]. rewrite set_other by exact D. exact F.
  - destruct (xs_kernel s n) as [[c0 m|]|] eqn:E; try (do 2 eexists; split; [reflexivity|]; auto; fail).
    do 2 eexists. split; [reflexivity|]. split; [|split; [exact L|split; [exact M|]]].
    + destruct V as [A B C]. split; cbn.
      * intros v i st H. destruct (A _ _ _ H) as (c0 & m & X & R). rewrite set_other; [eauto|congruence].
      * exact B.
      * intros i c0 m H. destruct (Nat.eq_dec i n) as [->|D]; [rewrite set_same in H; discriminate|].
        rewrite set_other in H by exact D. eauto.
    + intros i F NE. cbn. rewrite set_other; [exact F|]. intros ->. congruence.
Qed.

Fixpoint kassigns (k : wkind) (moved : nat -> bool) (h : list xcall) : Prop :=
  match h with
  | [] => True
  | c :: h => kmoved k moved c /\ kassigns k (moved_after moved c) h
  end.
Lemma kassigns_mutex : forall h moved, kassigns KMutex moved h.
Proof. induction h as [|c h IH]; intros moved; cbn; [exact I|]. split; [intros E; discriminate|apply IH]. Qed.
Lemma kassigns_semaphore : forall h moved, assigns_empty moved h -> kassigns KSemaphore moved h.
Proof.
  induction h as [|c h IH]; intros moved; cbn; [auto|]. intros (A & B). split; [|apply IH, B].
  intros _. exact A.
Qed.

Lemma lrun_ok k : forall h s live moved, linv k s -> lives s live -> knows_moved s moved ->
  proper live h -> kassigns k moved h ->
  exists s' rs, lrun k s h = Ok (s', rs) /\ linv k s' /\ lives s' (fold_left alive_after h live).
Proof.
  induction h as [|c h IH]; intros s live moved V L M P K; cbn [lrun fold_left].
  - do 2 eexists. split; [reflexivity|]. auto.
  - destruct P as (P1 & P2), K as (K1 & K2).
    destruct (lstep_ok k s c live moved V L M P1 K1) as (s1 & r & E & V1 & L1 & M1 & _).
    rewrite E. cbn [bind fst snd].
    destruct (IH s1 _ _ V1 L1 M1 P2 K2) as (s2 & rs & E2 & V2 & L2).
    rewrite E2. cbn [bind fst snd]. do 2 eexists. split; [reflexivity|]. auto.
Qed.

Lemma linv_one_each k s : linv k s -> one_each s.
Proof.
  intros [A B C]. split; [|exact B]. intros n. split.
  - intros (c & m & E). eauto.
  - intros (v & st & E). destruct (A _ _ _ E) as (c & m & X & _). eauto.
Qed.
