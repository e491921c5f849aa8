(** C48 for every history of UniqueLockers: what becomes of each acquisition and each release. *)
From Coq Require Import List Arith ZArith Lia Bool.
From Verif Require Import Base BaseLemmas LockModel LockProofs VariantProofs UniqueLockerModel
  LockerLedgerSpec.
Import ListNotations.

Section Ledger.
  Variable kinds : nat -> lock_kind.
  Variable values : nat -> nat.

  Definition shown (x : view) : option ulocker :=
    match x with
    | NoLocker => None
    | Emptied b => Some (ULocker None None b)
    | Guards l b => Some (ULocker (Some (kinds l)) (Some l) b)
    end.

  Definition places (l : nat) : nat := match kinds l with KSemaphore => values l | _ => 1 end.

  (** A mutex or a spin lock is free or has an owner. *)
  Definition sound_lock (x : lock) : Prop :=
    l_kind x <> KSemaphore ->
    (l_count x = 1 /\ l_owner x = None) \/ (l_count x = 0 /\ exists t, l_owner x = Some t).

  Record linv (w : uworld) (s : list view) : Prop := {
    l_vars : w_vars w = map shown s;
    l_kinds : forall l, l_kind (w_locks w l) = kinds l;
    l_sound : forall l, sound_lock (w_locks w l);
    l_places : forall l, l_count (w_locks w l) + w_acquired w l = places l + w_released w l
  }.

  Lemma viewed_in s v : viewed s v <> NoLocker -> v < length s.
  Proof.
    unfold viewed. intros N. destruct (Nat.lt_ge_cases v (length s)) as [L|L]; [exact L|].
    now rewrite nth_overflow in N by lia.
  Qed.

  Lemma viewed_nth s v : v < length s -> nth_error s v = Some (viewed s v).
  Proof. intros L. unfold viewed. now apply nth_error_nth'. Qed.

  Lemma viewed_upd s v u x :
    viewed (upd s v x) u = if (v =? u) && (v <? length s) then x else viewed s u.
  Proof.
    unfold viewed.
    destruct (Nat.lt_ge_cases u (length s)) as [L|L].
    - rewrite (nth_error_nth (upd s v x) u NoLocker (x := if (v =? u) && (v <? length s) then x else viewed s u)).
      + reflexivity.
      + rewrite nth_error_upd.
        destruct (Nat.eqb_spec v u) as [->|N]; cbn [andb].
        * now rewrite (proj2 (Nat.ltb_lt _ _) L).
        * now apply viewed_nth.
    - rewrite !nth_overflow by (rewrite ?upd_length; lia).
      destruct (Nat.eqb_spec v u) as [->|N]; cbn [andb]; [|reflexivity].
      now rewrite (proj2 (Nat.ltb_ge _ _) L).
  Qed.

  Lemma claimed_upd s v x l :
    v < length s -> claimed (upd s v x) l + claim s v l = claimed s l + one (claims l x).
  Proof. intros L. apply (countb_upd (claims l)). now apply viewed_nth. Qed.

  Lemma get_shown w s v : linv w s ->
    get_var w v = match viewed s v with
                  | NoLocker => UB
                  | Emptied b => Ok (ULocker None None b)
                  | Guards l b => Ok (ULocker (Some (kinds l)) (Some l) b)
                  end.
  Proof.
    intros I. unfold get_var. rewrite (l_vars _ _ I), nth_error_map.
    destruct (Nat.lt_ge_cases v (length s)) as [L|L].
    - rewrite (viewed_nth _ _ L). destruct (viewed s v); reflexivity.
    - rewrite (proj2 (nth_error_None _ _) L). unfold viewed. now rewrite nth_overflow by lia.
  Qed.

  Lemma fresh_shown w s v : linv w s ->
    (v < length s /\ viewed s v = NoLocker /\ fresh w v = Ok tt) \/
    (~ (v < length s /\ viewed s v = NoLocker) /\ fresh w v = UB).
  Proof.
    intros I. unfold fresh. rewrite (l_vars _ _ I), nth_error_map.
    destruct (Nat.lt_ge_cases v (length s)) as [L|L].
    - rewrite (viewed_nth _ _ L). destruct (viewed s v) eqn:E; cbn; [left; auto|right|right];
        (split; [intros [_ C]; congruence|reflexivity]).
    - rewrite (proj2 (nth_error_None _ _) L). right. split; [lia|reflexivity].
  Qed.

  Lemma map_upd s v x : map shown (upd s v x) = upd (map shown s) v (shown x).
  Proof. revert v; induction s as [|y s IH]; intros [|v]; cbn; congruence. Qed.

  Lemma put_inv w s v x q : linv w s -> q = shown x -> linv (put_var w v q) (upd s v x).
  Proof.
    intros [V K S P] ->. split; auto. cbn. now rewrite V, map_upd.
  Qed.

  (** The world after the lock [l] has been acquired or released. *)
  Lemma acquire_inv w s l t x st : linv w s -> acquire (w_locks w l) t = Some x ->
    linv (UWorld (w_vars w) (set_at (w_locks w) l (set_status x st)) (bump (w_acquired w) l)
            (w_released w)) s /\
    linv (UWorld (w_vars w) (set_at (w_locks w) l x) (bump (w_acquired w) l) (w_released w)) s.
  Proof.
    intros [V K S P] Q. unfold acquire in Q.
    destruct (l_count (w_locks w l)) as [|n] eqn:C; [discriminate|]. injection Q as <-.
    split; (split; cbn; auto; intros l'; unfold set_at, bump; try unfold set_at;
      destruct (Nat.eqb_spec l' l) as [->|N]; auto; cbn; auto).
    - intros N. cbn in N. right. cbn. split; [destruct (S l N) as [[D _]|[D _]]; lia|].
      destruct (l_kind (w_locks w l)); eauto. congruence.
    - specialize (P l). lia.
    - intros N. cbn in N. right. cbn. split; [destruct (S l N) as [[D _]|[D _]]; lia|].
      destruct (l_kind (w_locks w l)); eauto. congruence.
    - specialize (P l). lia.
  Qed.

  Lemma release_ok w s l t : linv w s ->
    (may_release (kinds l) (w_locks w l) t /\
     exists x, release (kinds l) (w_locks w l) t = Ok x /\
       forall st,
       linv (UWorld (w_vars w) (set_at (w_locks w) l (set_status x st)) (w_acquired w)
               (bump (w_released w) l)) s) \/
    (~ may_release (kinds l) (w_locks w l) t /\ release (kinds l) (w_locks w l) t = UB).
  Proof.
    intros [V K S P]. unfold may_release, release. rewrite K.
    assert (Sl := S l). unfold sound_lock in Sl. rewrite K in Sl.
    destruct (kinds l) eqn:Kl.
    all: try (destruct (l_owner (w_locks w l)) as [o|] eqn:O;
      [destruct (Nat.eqb_spec o t) as [->|N]|]).
    all: first
      [ right; split; [intros [C|C]; congruence|reflexivity]
      | left; split; [first [left; reflexivity|right; reflexivity]|];
        eexists; split; [reflexivity|]; intros st;
        split; cbn; auto; intros l'; unfold set_at, bump, set_at;
        destruct (Nat.eqb_spec l' l) as [->|N']; auto; cbn; rewrite ?Kl; auto ].
    all: try (intros C; cbn in C; rewrite ?K, ?Kl in C; first [congruence | left; split; reflexivity]).
    all: specialize (P l); try lia.
    all: destruct Sl as [[C1 C2]|[C1 C2]]; [congruence|congruence|lia].
  Qed.

  Lemma bump_at f l l' : bump f l l' = f l' + one (l =? l').
  Proof.
    unfold bump, set_at, one. rewrite (Nat.eqb_sym l' l).
    destruct (Nat.eqb_spec l l') as [->|N]; lia.
  Qed.

  Lemma status_ok w s v l b b' : linv w s -> viewed s v = Guards l b ->
    get_status (put_var w v (Some (ULocker (Some (kinds l)) (Some l) b')))
      (ULocker (Some (kinds l)) (Some l) b') = Ok (l_status (w_locks w l)).
  Proof. reflexivity. Qed.

  Lemma lock_shown w s t v l b : linv w s -> viewed s v = Guards l b ->
    (l_count (w_locks w l) = 0 /\ u_lock w t v = Diverge) \/
    (l_count (w_locks w l) <> 0 /\ exists w' z, u_lock w t v = Ok (w', RStatus z) /\
     linv w' (upd s v (Guards l true)) /\
     (forall l', w_acquired w' l' = w_acquired w l' + one (l =? l')) /\
     (forall l', w_released w' l' = w_released w l')).
  Proof.
    intros I E. unfold u_lock. rewrite (get_shown _ _ _ I), E. cbn [bind callback_lock q_callbacks q_data].
    destruct (acquire (w_locks w l) t) as [x|] eqn:Q.
    - right. split; [unfold acquire in Q; destruct (l_count (w_locks w l)); [discriminate|lia]|].
      destruct (acquire_inv _ _ _ _ _ SUCCESS I Q) as [I' _].
      cbn [bind]. eexists _, _. split; [reflexivity|]. split; [|split].
      + apply (put_inv _ _ _ (Guards l true) _ I'). reflexivity.
      + intros l'. apply bump_at.
      + reflexivity.
    - left. split; [|reflexivity].
      unfold acquire in Q. destruct (l_count (w_locks w l)); [reflexivity|discriminate].
  Qed.

  Lemma try_shown w s t v l : linv w s -> viewed s v = Guards l false ->
    exists w' b, u_tryLock w t v = Ok (w', RBool b) /\
     linv w' (upd s v (Guards l b)) /\
     (forall l', w_acquired w' l' = w_acquired w l' + one (b && (l =? l'))) /\
     (forall l', w_released w' l' = w_released w l').
  Proof.
    intros I E. unfold u_tryLock. rewrite (get_shown _ _ _ I), E.
    cbn [bind q_locked callback_try q_callbacks q_data].
    destruct (acquire (w_locks w l) t) as [x|] eqn:Q; cbn [bind fst snd].
    - destruct (acquire_inv _ _ _ _ _ SUCCESS I Q) as [_ I'].
      eexists _, _. split; [reflexivity|]. split; [|split].
      + apply (put_inv _ _ _ (Guards l true) _ I'). reflexivity.
      + intros l'. apply bump_at.
      + reflexivity.
    - eexists _, _. split; [reflexivity|]. split; [|split].
      + apply (put_inv _ _ _ (Guards l false) _ I). reflexivity.
      + intros l'. cbn. lia.
      + reflexivity.
  Qed.

  Lemma unlock_shown w s t v l b : linv w s -> viewed s v = Guards l b ->
    (~ may_release (kinds l) (w_locks w l) t /\ u_unlock w t v = UB) \/
    (may_release (kinds l) (w_locks w l) t /\ exists w' z, u_unlock w t v = Ok (w', RStatus z) /\
     linv w' (upd s v (Guards l false)) /\
     (forall l', w_acquired w' l' = w_acquired w l') /\
     (forall l', w_released w' l' = w_released w l' + one (l =? l'))).
  Proof.
    intros I E. unfold u_unlock. rewrite (get_shown _ _ _ I), E.
    cbn [bind callback_unlock q_callbacks q_data].
    destruct (release_ok w s l t I) as [[M (x & R & I')]|[M R]]; rewrite R; cbn [bind].
    - right. split; [exact M|]. eexists _, _. split; [reflexivity|]. split; [|split].
      + apply (put_inv _ _ _ (Guards l false) _ (I' SUCCESS)). reflexivity.
      + reflexivity.
      + intros l'. apply bump_at.
    - left. split; [exact M|reflexivity].
  Qed.

  Lemma upd_twice {B} (s : list B) v x y : upd (upd s v x) v y = upd s v y.
  Proof. revert v; induction s as [|z s IH]; intros [|v]; cbn; congruence. Qed.

  Lemma upd_swap {B} (s : list B) v p x y z : v <> p ->
    upd (upd (upd s v x) p y) v z = upd (upd s p y) v z.
  Proof.
    revert v p; induction s as [|u s IH]; intros [|v] [|p] N; cbn; try congruence.
    - f_equal. apply upd_twice.
    - f_equal. apply IH. congruence.
  Qed.

  Lemma move_known w s v p q : linv w s -> shown (viewed s p) = Some q -> viewed s p <> NoLocker ->
    v < length s -> p < length s ->
    exists w',
      (let! _ := Ok q in
       let! s0 := match viewed s p with
                  | NoLocker => UB
                  | Emptied b => Ok (ULocker None None b)
                  | Guards l b => Ok (ULocker (Some (kinds l)) (Some l) b)
                  end in
       let w1 := put_var w v (Some (ULocker (q_callbacks s0) (q_data s0) (q_locked s0))) in
       let! s1 := get_var w1 p in
       let w2 := put_var w1 p (Some (ULocker None None (q_locked s1))) in
       let! q0 := get_var w2 v in
       Ok (put_var w2 v (Some (ULocker (q_callbacks q0) (q_data q0) false)))) = Ok w' /\
      linv w' (moved s v p) /\ w_acquired w' = w_acquired w /\ w_released w' = w_released w.
  Proof.
    intros I Q N Lv Lp. cbn [bind].
    replace (match viewed s p with
             | NoLocker => UB
             | Emptied b => Ok (ULocker None None b)
             | Guards l b => Ok (ULocker (Some (kinds l)) (Some l) b)
             end) with (Ok q) by (destruct (viewed s p); cbn in Q; congruence).
    cbn [bind].
    replace (ULocker (q_callbacks q) (q_data q) (q_locked q)) with q by (destruct q; reflexivity).
    assert (I1 := put_inv w s v (viewed s p) (Some q) I (eq_sym Q)).
    rewrite (get_shown _ _ p I1).
    assert (V1 : viewed (upd s v (viewed s p)) p = viewed s p).
    { rewrite viewed_upd. destruct ((v =? p) && (v <? length s)); reflexivity. }
    rewrite V1.
    replace (match viewed s p with
             | NoLocker => UB
             | Emptied b => Ok (ULocker None None b)
             | Guards l b => Ok (ULocker (Some (kinds l)) (Some l) b)
             end) with (Ok q) by (destruct (viewed s p); cbn in Q; congruence).
    cbn [bind].
    assert (L : Some (ULocker None None (q_locked q)) = shown (left_behind (viewed s p))).
    { destruct (viewed s p); cbn in *; congruence || (injection Q as <-; reflexivity). }
    assert (I2 := put_inv _ _ p (left_behind (viewed s p)) _ I1 L).
    rewrite (get_shown _ _ v I2).
    rewrite viewed_upd, upd_length, (proj2 (Nat.ltb_lt _ _) Lp), andb_true_r.
    unfold moved. rewrite (Nat.eqb_sym p v).
    destruct (Nat.eqb_spec v p) as [->|Nvp].
    - destruct (viewed s p) as [|b|l b] eqn:E; [congruence| |]; cbn [left_behind bind q_callbacks q_data].
      all: eexists; (split; [reflexivity|]); (split; [|split; reflexivity]).
      all: rewrite <- (upd_twice s p (viewed s p)) by idtac.
      all: rewrite <- (upd_twice (upd s p (viewed s p)) p (Emptied b) (Emptied false)).
      all: rewrite E; apply put_inv; [exact I2|reflexivity].
    - rewrite viewed_upd, Nat.eqb_refl, (proj2 (Nat.ltb_lt _ _) Lv). cbn [andb].
      assert (H : forall q0, shown (viewed s p) = Some q0 ->
        Some (ULocker (q_callbacks q0) (q_data q0) false) = shown (handed_over (viewed s p))).
      { intros q0 Q0. destruct (viewed s p); cbn in *; congruence || (injection Q0 as <-; reflexivity). }
      assert (I3 := put_inv _ _ v (handed_over (viewed s p)) _ I2 (H _ Q)).
      rewrite upd_swap in I3 by exact Nvp.
      replace (match viewed s p with
             | NoLocker => UB
             | Emptied b => Ok (ULocker None None b)
             | Guards l b => Ok (ULocker (Some (kinds l)) (Some l) b)
             end) with (Ok q) by (destruct (viewed s p); cbn in Q; congruence).
      cbn [bind]. eexists. split; [reflexivity|]. split; [exact I3|split; reflexivity].
  Qed.

  Lemma move_shown w s v p : linv w s ->
    ((viewed s v = NoLocker \/ viewed s p = NoLocker) /\ u_move_assign w v p = UB) \/
    (viewed s v <> NoLocker /\ viewed s p <> NoLocker /\
     exists w', u_move_assign w v p = Ok w' /\ linv w' (moved s v p) /\
       w_acquired w' = w_acquired w /\ w_released w' = w_released w).
  Proof.
    intros I. unfold u_move_assign.
    rewrite (get_shown _ _ v I), (get_shown _ _ p I).
    destruct (shown (viewed s p)) as [q|] eqn:Q; cycle 1.
    { left. destruct (viewed s p); try discriminate. split; [auto|]. destruct (viewed s v); reflexivity. }
    assert (Np : viewed s p <> NoLocker) by (intros C; rewrite C in Q; discriminate).
    assert (Lp := viewed_in _ _ Np).
    destruct (viewed s v) as [|bv|lv bv] eqn:Ev; [left; auto| |];
      (right; split; [discriminate|]; split; [exact Np|]);
      assert (Lv : v < length s) by (apply viewed_in; congruence);
      apply (move_known w s v p q I Q Np Lv Lp).
  Qed.

  Definition balanced (w w' : uworld) (s s' : list view) (c : ucall) : Prop :=
    forall l,
      w_acquired w' l + w_released w l + unfounded_by s c l + claimed s l
      = w_acquired w l + w_released w' l + claimed s' l + forgotten_by s c l.

  Lemma claim_of s v x l : viewed s v = x -> claim s v l = one (claims l x).
  Proof. intros <-. reflexivity. Qed.

  Lemma ustep_exact w s t c : linv w s ->
    match ustep w t c with
    | Ok (w', r) =>
        ~ goes_wrong kinds (w_locks w) s t c /\ ~ waits (w_locks w) s c /\
        linv w' (view_step s c r) /\ balanced w w' s (view_step s c r) c
    | UB => goes_wrong kinds (w_locks w) s t c
    | Diverge => waits (w_locks w) s c /\ ~ goes_wrong kinds (w_locks w) s t c
    end.
  Proof.
    intros I. destruct c as [v l h|v p|v p|v p|v p|v|v|v|v|v]; cbn [ustep].
    - (* UNew *)
      destruct (fresh_shown _ _ v I) as [(Lv & Ev & F)|[N F]]; rewrite F; cbn [bind];
        [|cbn; left; exact N].
      assert (I1 : linv (put_var w v (Some (u_make (l_kind (w_locks w l)) l))) (upd s v (Guards l false))).
      { apply put_inv; [exact I|]. rewrite (l_kinds _ _ I). destruct (kinds l) eqn:K; cbn; rewrite K; reflexivity. }
      assert (V1 : viewed (upd s v (Guards l false)) v = Guards l false).
      { rewrite viewed_upd, Nat.eqb_refl, (proj2 (Nat.ltb_lt _ _) Lv). reflexivity. }
      assert (C : forall x l', claimed (upd s v x) l' = claimed s l' + one (claims l' x)).
      { intros x l'. assert (Q := claimed_upd s v x l' Lv). rewrite (claim_of _ _ _ l' Ev) in Q. cbn in Q. lia. }
      destruct h.
      + cbn. split; [intros [X|[X _]]; [apply X; auto|discriminate]|]. split; [tauto|].
        split; [exact I1|]. intros l'. cbn. rewrite C. cbn. lia.
      + destruct (lock_shown _ _ t v l false I1 V1) as [[Z E]|[Z (w' & z & E & I' & A & R)]]; rewrite E; cbn [bind fst].
        * cbn. split; [auto|]. intros [X|[X _]]; [apply X; auto|discriminate].
        * rewrite upd_twice in I'.
          cbn. split; [intros [X|[X _]]; [apply X; auto|discriminate]|]. split; [tauto|].
          split; [exact I'|]. intros l'. rewrite A, R, C. cbn. lia.
      + destruct (try_shown _ _ t v l I1 V1) as (w' & b & E & I' & A & R). rewrite E.
        rewrite upd_twice in I'.
        cbn. split; [intros [X|[X _]]; [apply X; auto|discriminate]|]. split; [tauto|].
        split; [exact I'|]. intros l'. rewrite A, R, C. cbn. destruct b; cbn; lia.
      + destruct (unlock_shown _ _ t v l false I1 V1) as [[M E]|[M (w' & z & E & I' & A & R)]]; rewrite E; cbn [bind fst].
        * cbn. right. split; [reflexivity|exact M].
        * rewrite upd_twice in I'.
          cbn. split; [intros [X|[_ X]]; [apply X; auto|exact (X M)]|]. split; [tauto|].
          split; [exact I'|]. intros l'. rewrite A, R, C. cbn. lia.
    - (* UCopy *)
      destruct (fresh_shown _ _ v I) as [(Lv & Ev & F)|[N F]]; rewrite F; cbn [bind];
        [|cbn; left; exact N].
      rewrite (get_shown _ _ p I).
      assert (C : forall x l', claimed (upd s v x) l' = claimed s l' + one (claims l' x)).
      { intros x l'. assert (Q := claimed_upd s v x l' Lv). rewrite (claim_of _ _ _ l' Ev) in Q. cbn in Q. lia. }
      destruct (viewed s p) as [|b|l b] eqn:Ep; cbn [bind]; [cbn; right; exact Ep| |];
        (cbn; split; [intros [X|X]; [apply X; auto|congruence]|]; split; [tauto|]; rewrite Ep;
         split; [apply put_inv; [exact I|reflexivity]|]; intros l'; cbn;
         rewrite C, (claim_of _ _ _ l' Ep); cbn; lia).
    - (* UMove *)
      destruct (fresh_shown _ _ v I) as [(Lv & Ev & F)|[N F]]; rewrite F; cbn [bind];
        [|cbn; left; exact N].
      assert (C : forall x l', claimed (upd s v x) l' = claimed s l' + one (claims l' x)).
      { intros x l'. assert (Q := claimed_upd s v x l' Lv). rewrite (claim_of _ _ _ l' Ev) in Q. cbn in Q. lia. }
      assert (I1 : linv (put_var w v (Some (ULocker None None false))) (upd s v (Emptied false)))
        by (apply put_inv; [exact I|reflexivity]).
      assert (V1 : viewed (upd s v (Emptied false)) v = Emptied false).
      { rewrite viewed_upd, Nat.eqb_refl, (proj2 (Nat.ltb_lt _ _) Lv). reflexivity. }
      assert (P1 : v <> p -> viewed (upd s v (Emptied false)) p = viewed s p).
      { intros N. rewrite viewed_upd, (proj2 (Nat.eqb_neq _ _) N). reflexivity. }
      destruct (move_shown _ _ v p I1) as [[[X|X] E]|(_ & Np & w' & E & I' & A & R)]; rewrite E; cbn [bind].
      + congruence.
      + cbn. right. destruct (Nat.eq_dec v p) as [->|N]; [congruence|]. split; [exact N|].
        now rewrite <- P1.
      + cbn. split; [intros [X|[N X]]; [apply X; auto|rewrite P1 in Np by exact N; congruence]|].
        split; [tauto|]. split; [exact I'|]. intros l'. cbn [unfounded_by forgotten_by]. rewrite A, R. cbn [w_acquired w_released put_var].
        unfold moved. destruct (Nat.eqb_spec v p) as [->|N].
        * rewrite upd_twice, C. cbn. lia.
        * rewrite P1 in * by exact N.
          assert (Lp : p < length (upd s v (Emptied false))).
          { apply viewed_in. now rewrite P1. }
          assert (Q1 := claimed_upd (upd s v (Emptied false)) p (left_behind (viewed s p)) l' Lp).
          assert (Q2 := claimed_upd (upd (upd s v (Emptied false)) p (left_behind (viewed s p))) v
                          (handed_over (viewed s p)) l').
          rewrite !upd_length in Q2. specialize (Q2 Lv).
          rewrite (claim_of (upd s v (Emptied false)) p (viewed s p) l' (P1 N)) in Q1.
          rewrite (claim_of _ v (Emptied false) l') in Q2
            by (rewrite viewed_upd, (proj2 (Nat.eqb_neq _ _) (not_eq_sym N)); exact V1).
          rewrite C in Q1. unfold claim.
          destruct (viewed s p) as [|b|l b]; cbn in *; try congruence; destruct b; cbn in *; lia.
    - (* UCopyAssign *)
      rewrite (get_shown _ _ v I), (get_shown _ _ p I).
      destruct (viewed s v) as [|bv|lv bv] eqn:Ev; cbn [bind]; [cbn; left; exact Ev| |];
        assert (Lv : v < length s) by (apply viewed_in; congruence);
        (destruct (viewed s p) as [|b|l b] eqn:Ep; cbn [bind]; [cbn; right; exact Ep| |];
         (cbn; split; [intros [X|X]; congruence|]; split; [tauto|]; rewrite Ep;
          split; [apply put_inv; [exact I|reflexivity]|]; intros l'; cbn;
          match goal with |- context [upd s v ?x] => assert (Q := claimed_upd s v x l' Lv) end;
          rewrite (claim_of _ _ _ l' Ep); cbn in *; lia)).
    - (* UMoveAssign *)
      destruct (move_shown _ _ v p I) as [[X E]|(Nv & Np & w' & E & I' & A & R)]; rewrite E; cbn [bind].
      + exact X.
      + cbn. split; [intros [X|X]; congruence|]. split; [tauto|]. split; [exact I'|].
        intros l'. cbn [unfounded_by forgotten_by]. rewrite A, R.
        assert (Lv := viewed_in _ _ Nv). assert (Lp := viewed_in _ _ Np).
        unfold moved. destruct (Nat.eqb_spec v p) as [->|N].
        * assert (Q := claimed_upd s p (Emptied false) l' Lp). cbn in Q. lia.
        * assert (Q1 := claimed_upd s p (left_behind (viewed s p)) l' Lp).
          assert (Q2 := claimed_upd (upd s p (left_behind (viewed s p))) v (handed_over (viewed s p)) l').
          rewrite !upd_length in Q2. specialize (Q2 Lv).
          assert (X : claim (upd s p (left_behind (viewed s p))) v l' = claim s v l').
          { unfold claim. rewrite viewed_upd, (proj2 (Nat.eqb_neq _ _) (not_eq_sym N)). reflexivity. }
          rewrite X in Q2.
          assert (Y : one (claims l' (left_behind (viewed s p))) = 0) by (destruct (viewed s p); reflexivity).
          assert (Z : one (claims l' (handed_over (viewed s p))) = 0) by (destruct (viewed s p); reflexivity).
          lia.
    - (* ULock *)
      destruct (viewed s v) as [|b|l b] eqn:Ev.
      1,2: unfold u_lock; rewrite (get_shown _ _ v I), Ev; cbn; congruence.
      assert (Lv : v < length s) by (apply viewed_in; congruence).
      destruct (lock_shown _ _ t v l b I Ev) as [[Z E]|[Z (w' & z & E & I' & A & R)]]; rewrite E.
      + cbn. split; [eauto|]. intros X. exact (X l b Ev).
      + cbn. rewrite Ev. split; [intros X; exact (X l b eq_refl)|].
        split; [intros (l1 & b1 & X & Y); injection X as <- <-; congruence|].
        split; [exact I'|]. intros l'. cbn. rewrite A, R.
        assert (Q := claimed_upd s v (Guards l true) l' Lv).
        rewrite (claim_of _ _ _ l' Ev) in *. cbn [claims] in Q.
        destruct b; cbn in *; lia.
    - (* UTryLock *)
      destruct (viewed s v) as [|b|l b] eqn:Ev.
      1,2: unfold u_tryLock; rewrite (get_shown _ _ v I), Ev; cbn [bind q_locked].
      + cbn. rewrite Ev. split; congruence.
      + destruct b; cbn; rewrite Ev; [|split; congruence].
        split; [tauto|]. split; [tauto|]. split; [exact I|]. intros l'. cbn. lia.
      + destruct b.
        * unfold u_tryLock. rewrite (get_shown _ _ v I), Ev. cbn. rewrite Ev.
          split; [intros [X _]; exact (X l true eq_refl)|]. split; [tauto|]. split; [exact I|].
          intros l'. cbn. lia.
        * assert (Lv : v < length s) by (apply viewed_in; congruence).
          destruct (try_shown _ _ t v l I Ev) as (w' & b & E & I' & A & R). rewrite E.
          cbn. rewrite Ev. split; [intros [X _]; exact (X l false eq_refl)|]. split; [tauto|].
          split; [exact I'|]. intros l'. cbn. rewrite A, R.
          assert (Q := claimed_upd s v (Guards l b) l' Lv).
          rewrite (claim_of _ _ _ l' Ev) in Q. cbn in Q. destruct b; cbn in *; lia.
    - (* UUnlock *)
      destruct (viewed s v) as [|b|l b] eqn:Ev.
      1,2: unfold u_unlock; rewrite (get_shown _ _ v I), Ev; cbn; left; congruence.
      assert (Lv : v < length s) by (apply viewed_in; congruence).
      destruct (unlock_shown _ _ t v l b I Ev) as [[M E]|[M (w' & z & E & I' & A & R)]]; rewrite E.
      + cbn. right. eauto.
      + cbn. rewrite Ev. split.
        { intros [X|(l1 & b1 & X & Y)]; [exact (X l b eq_refl)|]. injection X as <- <-. exact (Y M). }
        split; [tauto|]. split; [exact I'|]. intros l'. cbn. rewrite A, R, Ev.
        assert (Q := claimed_upd s v (Guards l false) l' Lv).
        rewrite (claim_of _ _ _ l' Ev) in Q. destruct b; cbn in *; lia.
    - (* UStatus *)
      rewrite (get_shown _ _ v I).
      destruct (viewed s v) as [|b|l b] eqn:Ev; cbn.
      1,2: rewrite Ev; congruence.
      split; [intros X; exact (X l b Ev)|]. split; [tauto|]. split; [exact I|]. intros l'. cbn. lia.
    - (* UDestroy *)
      unfold u_destroy. rewrite (get_shown _ _ v I).
      destruct (viewed s v) as [|b|l b] eqn:Ev; cbn [bind q_locked].
      + cbn. left. exact Ev.
      + assert (Lv : v < length s) by (apply viewed_in; congruence).
        destruct b.
        * unfold u_unlock. rewrite (get_shown _ _ v I), Ev. cbn. right; left; exact Ev.
        * cbn. split; [intros [X|[X|(l & X & _)]]; congruence|]. split; [tauto|].
          split; [apply put_inv; [exact I|reflexivity]|]. intros l'. cbn.
          assert (Q := claimed_upd s v NoLocker l' Lv). rewrite (claim_of _ _ _ l' Ev) in Q. cbn in Q. lia.
      + assert (Lv : v < length s) by (apply viewed_in; congruence).
        destruct b.
        * destruct (unlock_shown _ _ t v l true I Ev) as [[M E]|[M (w' & z & E & I' & A & R)]]; rewrite E; cbn [bind fst].
          -- cbn. right; right. eauto.
          -- cbn. split.
             { intros [X|[X|(l1 & X & Y)]]; congruence. }
             split; [tauto|]. split.
             { assert (I2 := put_inv _ _ v NoLocker None I' eq_refl). now rewrite upd_twice in I2. }
             intros l'. cbn. rewrite A, R.
             assert (Q := claimed_upd s v NoLocker l' Lv). rewrite (claim_of _ _ _ l' Ev) in Q. cbn in Q. lia.
        * cbn. split; [intros [X|[X|(l1 & X & _)]]; congruence|]. split; [tauto|].
          split; [apply put_inv; [exact I|reflexivity]|]. intros l'. cbn.
          assert (Q := claimed_upd s v NoLocker l' Lv). rewrite (claim_of _ _ _ l' Ev) in Q. cbn in Q. lia.
  Qed.

  Lemma tryLock_answer w s t v w' r : linv w s -> u_tryLock w t v = Ok (w', r) ->
    r = answer (w_locks w) s (UTryLock v).
  Proof.
    intros I E. unfold u_tryLock in E. rewrite (get_shown _ _ _ I) in E. cbn [answer].
    destruct (viewed s v) as [|b|l b]; cbn [bind] in E; [discriminate| |].
    - cbn [q_locked] in E. destruct b; [injection E as <- <-; reflexivity|discriminate].
    - cbn [q_locked] in E. destruct b; [injection E as <- <-; reflexivity|].
      unfold callback_try, acquire in E. cbn [q_callbacks q_data] in E.
      destruct (l_count (w_locks w l)); cbn [bind fst snd] in E; injection E as <- <-; reflexivity.
  Qed.

  Lemma set_at_same {B} (f : nat -> B) l x : set_at f l x l = x.
  Proof. unfold set_at. now rewrite Nat.eqb_refl. Qed.

  Lemma ustep_answer w s t c w' r : linv w s -> ustep w t c = Ok (w', r) ->
    r = answer (w_locks w) s c.
  Proof.
    intros I E. destruct c as [v l h|v p|v p|v p|v p|v|v|v|v|v]; cbn [ustep] in E.
    - destruct (fresh_shown w s v I) as [(LV & NV & F)|[_ F]]; rewrite F in E; cbn [bind] in E; [|discriminate].
      assert (I1 : linv (put_var w v (Some (u_make (l_kind (w_locks w l)) l))) (upd s v (Guards l false))).
      { apply put_inv; [exact I|]. rewrite (l_kinds _ _ I). cbn. destruct (kinds l); reflexivity. }
      destruct h; cbn [answer].
      + injection E as <- <-. reflexivity.
      + apply bind_Ok in E as (q & _ & E). injection E as <- <-. reflexivity.
      + apply (tryLock_answer _ _ _ _ _ _ I1) in E. rewrite E. cbn [answer].
        rewrite viewed_upd, Nat.eqb_refl. cbn [andb]. rewrite (proj2 (Nat.ltb_lt _ _) LV). reflexivity.
      + apply bind_Ok in E as (q & _ & E). injection E as <- <-. reflexivity.
    - apply bind_Ok in E as (? & _ & E). apply bind_Ok in E as (? & _ & E). injection E as <- <-. reflexivity.
    - apply bind_Ok in E as (? & _ & E). apply bind_Ok in E as (? & _ & E). injection E as <- <-. reflexivity.
    - apply bind_Ok in E as (? & _ & E). apply bind_Ok in E as (? & _ & E). injection E as <- <-. reflexivity.
    - apply bind_Ok in E as (? & _ & E). injection E as <- <-. reflexivity.
    - unfold u_lock in E. rewrite (get_shown _ _ _ I) in E. cbn [answer].
      destruct (viewed s v) as [|b|l b]; cbn [bind] in E; [discriminate|discriminate|].
      unfold callback_lock in E. cbn [q_callbacks q_data] in E.
      destruct (acquire (w_locks w l) t); cbn [bind] in E; [|discriminate].
      unfold get_status in E. cbn [q_callbacks q_data put_var w_locks bind] in E.
      rewrite set_at_same in E. injection E as <- <-. reflexivity.
    - apply (tryLock_answer _ _ _ _ _ _ I E).
    - unfold u_unlock in E. rewrite (get_shown _ _ _ I) in E. cbn [answer].
      destruct (viewed s v) as [|b|l b]; cbn [bind] in E; [discriminate|discriminate|].
      unfold callback_unlock in E. cbn [q_callbacks q_data] in E.
      destruct (release (kinds l) (w_locks w l) t); cbn [bind] in E; [|discriminate|discriminate].
      unfold get_status in E. cbn [q_callbacks q_data put_var w_locks bind] in E.
      rewrite set_at_same in E. injection E as <- <-. reflexivity.
    - rewrite (get_shown _ _ _ I) in E. cbn [answer].
      destruct (viewed s v) as [|b|l b]; cbn in E; [discriminate|discriminate|].
      injection E as <- <-. reflexivity.
    - apply bind_Ok in E as (? & _ & E). injection E as <- <-. reflexivity.
  Qed.

  Lemma urun_ledger h : forall w s w' rs, linv w s -> urun w h = Ok (w', rs) ->
    linv w' (views s h rs) /\
    forall l,
      w_acquired w' l + w_released w l + tally unfounded_by s h rs l + claimed s l
      = w_acquired w l + w_released w' l + claimed (views s h rs) l + tally forgotten_by s h rs l.
  Proof.
    induction h as [|[t c] h IH]; intros w s w' rs I E; cbn [urun] in E.
    - injection E as <- <-. split; [exact I|]. intros l. cbn [views tally]. lia.
    - assert (X := ustep_exact w s t c I).
      destruct (ustep w t c) as [[w1 r]| |]; try discriminate. cbn [bind fst snd] in E.
      destruct (urun w1 h) as [[w2 rs2]| |] eqn:E2; try discriminate. cbn [bind fst snd] in E.
      injection E as <- <-. destruct X as (_ & _ & I1 & B).
      destruct (IH _ _ _ _ I1 E2) as [I2 L]. cbn [views tally]. split; [exact I2|].
      intros l. specialize (B l). specialize (L l). lia.
  Qed.

  Lemma start_inv n : linv (u_start n kinds values) (repeat NoLocker n).
  Proof.
    split; cbn.
    - induction n as [|n IH]; cbn; [reflexivity|now rewrite IH].
    - intros l. unfold lock_new. destruct (kinds l); reflexivity.
    - intros l. unfold lock_new, sound_lock. destruct (kinds l); cbn; intuition congruence.
    - intros l. unfold lock_new, places. destruct (kinds l); cbn; lia.
  Qed.
End Ledger.

(** Every history that comes to an end, of any number of threads, lockers and locks, copies and
    moves of locked lockers and all misuse included. For each lock: the acquisitions, and the
    releases that have no acquisition (of copies of locked lockers, and of lockers that are not
    locked), are the releases, the lockers that will still release, and the acquisitions that were
    forgotten (by moves from locked lockers, assignments over them and locking them again). What is
    free of the lock agrees. So when all lockers are gone, the releases are as many as the
    acquisitions exactly if as many were forgotten as are unfounded. *)
Theorem C48_ledger_partial : forall n kinds values h w rs,
  urun (u_start n kinds values) h = Ok (w, rs) ->
  forall l,
    let s0 := repeat NoLocker n in
    let s := views s0 h rs in
    w_acquired w l + tally unfounded_by s0 h rs l
    = w_released w l + claimed s l + tally forgotten_by s0 h rs l /\
    l_count (w_locks w l) + w_acquired w l
    = match kinds l with KSemaphore => values l | _ => 1 end + w_released w l /\
    (Forall (eq NoLocker) s ->
     (w_acquired w l = w_released w l <->
      tally unfounded_by s0 h rs l = tally forgotten_by s0 h rs l)).
Proof.
  intros n kinds values h w rs E l s0 s.
  destruct (urun_ledger kinds values h _ _ _ _ (start_inv kinds values n) E) as [I L].
  specialize (L l). cbn [u_start w_acquired w_released] in L. fold s0 s in L.
  assert (Z : claimed s0 l = 0).
  { unfold s0, claimed. clear. induction n as [|n IH]; cbn; auto. }
  split; [lia|]. split; [exact (l_places _ _ _ _ I l)|].
  intros G. assert (Z' : claimed s l = 0).
  { unfold claimed. clear - G. induction G as [|x s <- G IH]; cbn; auto. }
  lia.
Qed.

(** And which calls come to an end: after every such history, a call is undefined exactly if it
    goes wrong in one of the listed ways, and waits exactly if it locks what is not free. *)
Theorem C48_next_partial : forall n kinds values h w rs t c,
  urun (u_start n kinds values) h = Ok (w, rs) ->
  let s := views (repeat NoLocker n) h rs in
  (ustep w t c = UB <-> goes_wrong kinds (w_locks w) s t c) /\
  (ustep w t c = Diverge <-> waits (w_locks w) s c).
Proof.
  intros n kinds values h w rs t c E s.
  destruct (urun_ledger kinds values h _ _ _ _ (start_inv kinds values n) E) as [I _].
  fold s in I. assert (X := ustep_exact kinds values w s t c I).
  assert (W : waits (w_locks w) s c -> ~ goes_wrong kinds (w_locks w) s t c).
  { clear X. destruct c as [v l h0|v p|v p|v p|v p|v|v|v|v|v]; cbn; try tauto.
    - destruct h0; cbn; try tauto. intros (A & B & _) [C|[C _]]; [tauto|discriminate].
    - intros (l & b & A & _) C. exact (C l b A). }
  destruct (ustep w t c) as [[w1 r]| |].
  - destruct X as (A & B & _). split; split; intros; try discriminate; tauto.
  - split; split; intros; try discriminate; tauto.
  - destruct X as [A B]. split; split; intros; try discriminate; tauto.
Qed.

(** What the next call answers, if it returns. *)
Theorem C48_answer_partial : forall n kinds values h w rs t c w' r,
  urun (u_start n kinds values) h = Ok (w, rs) -> ustep w t c = Ok (w', r) ->
  r = answer (w_locks w) (views (repeat NoLocker n) h rs) c.
Proof.
  intros n kinds values h w rs t c w' r E S.
  destruct (urun_ledger kinds values h _ _ _ _ (start_inv kinds values n) E) as [I _].
  exact (ustep_answer _ _ _ _ _ _ _ _ I S).
Qed.

Example answer_case :
  let h := [(7, UNew 0 4 WithTry); (7, UTryLock 0); (7, UNew 1 4 Plain); (8, UTryLock 1); (7, UUnlock 0); (8, UTryLock 1)] in
  exists w, urun (u_start 3 (fun _ => KMutex) (fun _ => 0)) h
    = Ok (w, [RBool true; RBool true; RNothing; RBool false; RStatus SUCCESS; RBool true]).
Proof. eexists. vm_compute. reflexivity. Qed.

(** A locked locker of a semaphore with two places is copied, the copy is moved onto another locked
    one, and all are destroyed but the one that cannot be: one acquisition unfounded, two
    forgotten. *)
Example ledger_case :
  let kinds := fun _ : nat => KSemaphore in
  let h := [(7, UNew 0 4 WithLock); (7, UNew 1 4 WithLock); (8, UCopy 2 0); (8, UMoveAssign 1 2);
            (7, UDestroy 0); (7, UDestroy 1)] in
  exists w rs, urun (u_start 3 kinds (fun _ => 2)) h = Ok (w, rs) /\
    w_acquired w 4 = 2 /\ w_released w 4 = 1 /\
    tally unfounded_by (repeat NoLocker 3) h rs 4 = 1 /\
    tally forgotten_by (repeat NoLocker 3) h rs 4 = 2 /\
    views (repeat NoLocker 3) h rs = [NoLocker; NoLocker; Emptied true] /\
    goes_wrong kinds (w_locks w) (views (repeat NoLocker 3) h rs) 8 (UDestroy 2).
Proof.
  eexists _, _. split; [vm_compute; reflexivity|].
  repeat split. right. left. reflexivity.
Qed.

Print Assumptions C48_ledger_partial.
Print Assumptions C48_next_partial.
Print Assumptions C48_answer_partial.
