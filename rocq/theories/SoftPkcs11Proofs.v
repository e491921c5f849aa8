(** Proofs about SoftPkcs11Model. *)
From Coq Require Import List Arith Bool Lia.
From Verif Require Import Base BaseLemmas SoftPkcs11Model SoftPkcs11Spec.
Import ListNotations.

Lemma sset_same {A} (f : nat -> A) v x : sset f v x v = x.
Proof. unfold sset. rewrite Nat.eqb_refl. reflexivity. Qed.
Lemma sset_other {A} (f : nat -> A) v x u : u <> v -> sset f v x u = f u.
Proof. intros N. unfold sset. apply Nat.eqb_neq in N. rewrite N. reflexivity. Qed.

(** ** What holds after every history *)
Record sinv (w : sworld) : Prop := {
  si_app : forall v m k, s_vars w v = Some m -> m_context m = Some k ->
    m_destroy m = CbApp /\ m_lock m = CbApp /\ m_unlock m = CbApp;
  si_alive : forall v k, has_context w v k -> created k (s_log w) /\ destroyed k (s_log w) = 0;
  si_one : forall u v k, has_context w u k -> has_context w v k -> u = v;
  si_next : forall k, created k (s_log w) -> k < s_next w;
  si_used : used_while_alive (s_log w);
  si_unlock : forall c, ~ In (EUnlock c) (s_log w)
}.

Lemma sinv_start : sinv s_start.
Proof.
  split; cbn; try tauto; try discriminate.
  - intros v k (m & E & _). discriminate.
  - intros u v k (m & E & _). discriminate.
Qed.

Lemma destroyed_created log : used_while_alive log -> forall k, destroyed k log <> 0 -> created k log.
Proof.
  induction log as [|e log IH]; intros U k D; [cbn in D; congruence|].
  unfold created in *. destruct e as [j|[j|]|[j|]|[j|]]; cbn in U, D; right; try (apply IH; tauto).
  destruct (j =? k) eqn:E; [|apply IH; tauto]. apply Nat.eqb_eq in E. subst. tauto.
Qed.

Lemma used_once log : used_while_alive log -> forall k, destroyed k log <= 1.
Proof.
  induction log as [|e log IH]; intros U k; [cbn; lia|].
  destruct e as [j|[j|]|[j|]|[j|]]; cbn in U |- *; try (apply IH; tauto).
  destruct (j =? k) eqn:E; [|apply IH; tauto]. apply Nat.eqb_eq in E. subst.
  destruct U as ((_ & D) & _). rewrite D. lia.
Qed.

(** Changing one object: the new one has no context, or one it had, or the one of an object
    that loses it. *)
Lemma has_set w v x u k :
  has_context (set_var w v x) u k <->
  (u = v /\ exists m, x = Some m /\ m_context m = Some k) \/ (u <> v /\ has_context w u k).
Proof.
  unfold has_context, set_var. cbn [s_vars]. destruct (Nat.eq_dec u v) as [->|N].
  - rewrite sset_same. split.
    + intros (m & E & C). left. split; [reflexivity|]. exists m. auto.
    + intros [(_ & m & E & C)|(N & _)]; [exists m; auto|congruence].
  - rewrite sset_other by exact N. split.
    + intros H. right. auto.
    + intros [(E & _)|(_ & H)]; [congruence|exact H].
Qed.

(** [m'] takes the place of the object at v: no context, or the same. *)
Lemma sinv_set_less w v m m' : sinv w -> s_vars w v = Some m ->
  (m_context m' = None \/ m_context m' = m_context m) ->
  m_destroy m' = m_destroy m -> m_lock m' = m_lock m -> m_unlock m' = m_unlock m ->
  sinv (set_var w v (Some m')).
Proof.
  intros I E C D1 D2 D3.
  assert (H : forall u k, has_context (set_var w v (Some m')) u k -> has_context w u k).
  { intros u k HC. apply has_set in HC. destruct HC as [(-> & x & X & XC)|(_ & HC)]; [|exact HC].
    injection X as <-. exists m. split; [exact E|]. destruct C as [C|C]; congruence. }
  split.
  - intros u x k X XC. unfold set_var in X. cbn [s_vars] in X. destruct (Nat.eq_dec u v) as [->|N].
    + rewrite sset_same in X. injection X as <-. rewrite D1, D2, D3. apply (si_app w I v m k E).
      destruct C as [C|C]; congruence.
    + rewrite sset_other in X by exact N. exact (si_app w I u x k X XC).
  - intros u k HC. apply (si_alive w I u k). apply H. exact HC.
  - intros u u' k H1 H2. apply (si_one w I u u' k); apply H; assumption.
  - apply (si_next w I).
  - apply (si_used w I).
  - apply (si_unlock w I).
Qed.

Lemma sinv_set_none w v : sinv w -> sinv (set_var w v None).
Proof.
  intros I.
  assert (H : forall u k, has_context (set_var w v None) u k -> u <> v /\ has_context w u k).
  { intros u k HC. apply has_set in HC. destruct HC as [(_ & x & X & _)|HC]; [discriminate|exact HC]. }
  split.
  - intros u x k X XC. unfold set_var in X. cbn [s_vars] in X. destruct (Nat.eq_dec u v) as [->|N].
    + rewrite sset_same in X. discriminate.
    + rewrite sset_other in X by exact N. exact (si_app w I u x k X XC).
  - intros u k HC. apply (si_alive w I u k). apply H. exact HC.
  - intros u u' k H1 H2. apply (si_one w I u u' k); apply H; assumption.
  - apply (si_next w I).
  - apply (si_used w I).
  - apply (si_unlock w I).
Qed.

(** An object with no context. *)
Lemma sinv_set_empty w v m : sinv w -> m_context m = None -> sinv (set_var w v (Some m)).
Proof.
  intros I C.
  assert (H : forall u k, has_context (set_var w v (Some m)) u k -> u <> v /\ has_context w u k).
  { intros u k HC. apply has_set in HC. destruct HC as [(_ & x & X & XC)|HC]; [congruence|exact HC]. }
  split.
  - intros u x k X XC. unfold set_var in X. cbn [s_vars] in X. destruct (Nat.eq_dec u v) as [->|N].
    + rewrite sset_same in X. congruence.
    + rewrite sset_other in X by exact N. exact (si_app w I u x k X XC).
  - intros u k HC. apply (si_alive w I u k). apply H. exact HC.
  - intros u u' k H1 H2. apply (si_one w I u u' k); apply H; assumption.
  - apply (si_next w I).
  - apply (si_used w I).
  - apply (si_unlock w I).
Qed.

(** v gets the context of p, p none. *)
Lemma sinv_hand_on w v p q q' : sinv w -> v <> p -> s_vars w p = Some q -> m_context q' = None ->
  sinv (set_var (set_var w v (Some q)) p (Some q')).
Proof.
  intros I N E C.
  assert (H : forall u k, has_context (set_var (set_var w v (Some q)) p (Some q')) u k ->
    u <> p /\ (u = v /\ has_context w p k \/ u <> v /\ has_context w u k)).
  { intros u k HC. apply has_set in HC. destruct HC as [(_ & x & X & XC)|(NU & HC)]; [congruence|].
    split; [exact NU|]. apply has_set in HC. destruct HC as [(-> & x & X & XC)|HC].
    - left. split; [reflexivity|]. exists q. split; [exact E|congruence].
    - right. exact HC. }
  split.
  - intros u x k X XC. unfold set_var in X. cbn [s_vars] in X. destruct (Nat.eq_dec u p) as [->|NP].
    + rewrite sset_same in X. congruence.
    + rewrite sset_other in X by exact NP. destruct (Nat.eq_dec u v) as [->|NV].
      * rewrite sset_same in X. injection X as <-. exact (si_app w I p q k E XC).
      * rewrite sset_other in X by exact NV. exact (si_app w I u x k X XC).
  - intros u k HC. apply H in HC. destruct HC as (_ & [(_ & HC)|(_ & HC)]); exact (si_alive w I _ k HC).
  - intros u u' k H1 H2. apply H in H1. apply H in H2.
    destruct H1 as (P1 & [(-> & H1)|(V1 & H1)]); destruct H2 as (P2 & [(-> & H2)|(V2 & H2)]);
      try reflexivity.
    + pose proof (si_one w I _ _ k H1 H2). congruence.
    + pose proof (si_one w I _ _ k H1 H2). congruence.
    + exact (si_one w I _ _ k H1 H2).
  - apply (si_next w I).
  - apply (si_used w I).
  - apply (si_unlock w I).
Qed.

(** The application's destroy, of the context of the object v, which then loses it. *)
Lemma sinv_app_destroy w v m r : sinv w -> s_vars w v = Some m -> m_destroy m = CbApp ->
  sinv (set_var (app_destroy w (m_context m)) v
          (Some (SM (m_destroy m) (m_lock m) (m_unlock m) None r))).
Proof.
  intros I E DA. unfold app_destroy.
  set (w1 := SW (s_vars w) (s_next w) (s_held w) (EDestroy (m_context m) :: s_log w)).
  assert (H : forall u k, has_context (set_var w1 v
      (Some (SM (m_destroy m) (m_lock m) (m_unlock m) None r))) u k -> u <> v /\ has_context w u k).
  { intros u k HC. apply has_set in HC. destruct HC as [(_ & x & X & XC)|HC]; [|exact HC].
    injection X as <-. discriminate. }
  split.
  - intros u x k X XC. unfold set_var in X. cbn [s_vars] in X. destruct (Nat.eq_dec u v) as [->|N].
    + rewrite sset_same in X. injection X as <-. discriminate.
    + rewrite sset_other in X by exact N. exact (si_app w I u x k X XC).
  - intros u k HC. apply H in HC. destruct HC as (N & HC). destruct (si_alive w I u k HC) as (A & B).
    cbn. split; [right; exact A|]. destruct (m_context m) as [j|] eqn:C; [|exact B].
    destruct (j =? k) eqn:JK; [|exact B]. apply Nat.eqb_eq in JK. subst. exfalso. apply N.
    apply (si_one w I u v k HC). exists m. auto.
  - intros u u' k H1 H2. apply (si_one w I u u' k); apply H; assumption.
  - intros k [X|X]; [discriminate|]. exact (si_next w I k X).
  - cbn. split; [|exact (si_used w I)]. destruct (m_context m) as [j|] eqn:C; [|exact Logic.I].
    apply (si_alive w I v j). exists m. auto.
  - intros c [X|X]; [discriminate|]. exact (si_unlock w I c X).
Qed.

Lemma sinv_held_log w v m held : sinv w -> s_vars w v = Some m ->
  sinv (SW (s_vars w) (s_next w) held (ELock (m_context m) :: s_log w)).
Proof.
  intros I E. split; cbn.
  - exact (si_app w I).
  - intros u k HC. destruct (si_alive w I u k HC) as (A & B). auto.
  - exact (si_one w I).
  - intros k [X|X]; [discriminate|]. exact (si_next w I k X).
  - split; [|exact (si_used w I)]. destruct (m_context m) as [j|] eqn:C; [|exact Logic.I].
    apply (si_alive w I v j). exists m. auto.
  - intros c [X|X]; [discriminate|]. exact (si_unlock w I c X).
Qed.

Lemma sinv_destroy w v m answer w' : sinv w -> s_vars w v = Some m ->
  mutex_destroy w v m answer = Ok w' -> sinv w'.
Proof.
  intros I E R. unfold mutex_destroy, call_destroy in R.
  destruct (m_destroy m) eqn:D; cbn in R; [discriminate| |]; injection R as <-.
  - apply (sinv_set_less w v m); auto.
  - rewrite <- D. apply sinv_app_destroy; assumption.
Qed.

Lemma sinv_lock w v m answer w' : sinv w -> s_vars w v = Some m ->
  (let! (w, r) := call_lock (m_lock m) w (m_context m) answer in
   Ok (set_var w v (Some (SM (m_destroy m) (m_lock m) (m_unlock m) (m_context m) r)))) = Ok w' ->
  sinv w'.
Proof.
  intros I E R. unfold call_lock in R.
  destruct (m_lock m) eqn:D; cbn in R; [discriminate| |].
  - injection R as <-. apply (sinv_set_less w v m); auto.
  - unfold app_lock in R. destruct (m_context m) as [k|] eqn:C.
    + destruct (s_held w k); [discriminate|]. cbn in R. injection R as <-.
      apply (sinv_set_less _ v m); cbn; auto. rewrite <- C. apply (sinv_held_log w v m); assumption.
    + cbn in R. injection R as <-.
      apply (sinv_set_less _ v m); cbn; auto. rewrite <- C. apply (sinv_held_log w v m); assumption.
Qed.

Lemma sinv_new w v made answer : sinv w -> s_vars w v = None ->
  sinv (mutex_new w v true true true true made answer).
Proof.
  intros I E. unfold mutex_new. cbn. destruct made; [|apply sinv_set_empty; [exact I|reflexivity]].
  set (w1 := SW (s_vars w) (S (s_next w)) (s_held w) (ECreate (s_next w) :: s_log w)).
  assert (H : forall u k, has_context (set_var w1 v
      (Some (SM CbApp CbApp CbApp (Some (s_next w)) answer))) u k ->
      (u = v /\ k = s_next w) \/ (u <> v /\ has_context w u k)).
  { intros u k HC. apply has_set in HC. destruct HC as [(-> & x & X & XC)|HC]; [|right; exact HC].
    injection X as <-. injection XC as <-. left. auto. }
  assert (LT : forall u k, has_context w u k -> k < s_next w).
  { intros u k HC. apply (si_next w I). apply (si_alive w I u k HC). }
  assert (ND : destroyed (s_next w) (s_log w) = 0).
  { destruct (Nat.eq_dec (destroyed (s_next w) (s_log w)) 0) as [Z|Z]; [exact Z|].
    apply (destroyed_created _ (si_used w I)) in Z. apply (si_next w I) in Z. lia. }
  split.
  - intros u x k X XC. unfold set_var in X. cbn [s_vars] in X. destruct (Nat.eq_dec u v) as [->|N].
    + rewrite sset_same in X. injection X as <-. auto.
    + rewrite sset_other in X by exact N. exact (si_app w I u x k X XC).
  - intros u k HC. apply H in HC. cbn. destruct HC as [(-> & ->)|(_ & HC)].
    + split; [left; reflexivity|exact ND].
    + destruct (si_alive w I u k HC) as (A & B). split; [right; exact A|exact B].
  - intros u u' k H1 H2. apply H in H1. apply H in H2.
    destruct H1 as [(-> & ->)|(_ & H1)]; destruct H2 as [(-> & Z)|(_ & H2)]; try reflexivity.
    + apply LT in H2. lia.
    + subst. apply LT in H1. lia.
    + exact (si_one w I u u' k H1 H2).
  - intros k [X|X]; cbn; [injection X as <-; lia|]. apply (si_next w I) in X. lia.
  - cbn. split; [|exact (si_used w I)]. intros X. apply (si_next w I) in X. lia.
  - intros c [X|X]; [discriminate|]. exact (si_unlock w I c X).
Qed.

Lemma sinv_step w c w' : sinv w -> sstep w c = Ok w' -> sinv w'.
Proof.
  intros I R. destruct c as [v|v cr d l u made answer|v p|v p|v answer|v answer|v answer|v answer];
    cbn in R; destruct (s_vars w v) as [m|] eqn:E; try discriminate.
  - injection R as <-. apply sinv_set_empty; [exact I|reflexivity].
  - injection R as <-. destruct cr, d, l, u;
      try (unfold mutex_new; cbn; apply sinv_set_empty; [exact I|reflexivity]).
    apply sinv_new; assumption.
  - destruct (s_vars w p) as [q|] eqn:EP; [|discriminate]. injection R as <-.
    apply sinv_hand_on; [exact I|congruence|exact EP|reflexivity].
  - destruct (s_vars w p) as [q|] eqn:EP; [|discriminate]. unfold mutex_assign in R.
    destruct (Nat.eq_dec v p) as [->|N].
    + rewrite E in EP. injection EP as <-. unfold set_var in R. cbn [s_vars] in R.
      rewrite sset_same in R. injection R as <-.
      apply (sinv_set_less (set_var w p (Some m)) p m); auto.
      * apply (sinv_set_less w p m); auto.
      * unfold set_var. cbn. apply sset_same.
    + unfold set_var in R. cbn [s_vars] in R. rewrite sset_other in R by congruence.
      rewrite EP in R. injection R as <-.
      apply sinv_hand_on; [exact I|exact N|exact EP|reflexivity].
  - apply (sinv_lock w v m answer w' I E R).
  - apply (sinv_lock w v m answer w' I E R).
  - apply (sinv_destroy w v m answer w' I E R).
  - destruct (mutex_destroy w v m answer) as [w1| |] eqn:D; try discriminate. cbn in R.
    injection R as <-. apply sinv_set_none. apply (sinv_destroy w v m answer w1 I E D).
Qed.

Lemma sinv_run h : forall w w', sinv w -> srun w h = Ok w' -> sinv w'.
Proof.
  induction h as [|c h IH]; intros w w' I R; cbn in R; [injection R as <-; exact I|].
  destruct (sstep w c) as [w1| |] eqn:S1; try discriminate. cbn in R.
  apply (IH w1 w'); [exact (sinv_step w c w1 I S1)|exact R].
Qed.

(** ** A context no object has any more *)

Definition forgotten (k : nat) (w : sworld) : Prop :=
  k < s_next w /\ forall v, ~ has_context w v k.

Lemma forgotten_step k w c w' : forgotten k w -> sstep w c = Ok w' ->
  forgotten k w' /\ destroyed k (s_log w') = destroyed k (s_log w).
Proof.
  intros (L & F) R.
  assert (SET : forall w1 v x, forgotten k w1 ->
    (forall m, x = Some m -> m_context m <> Some k) -> forgotten k (set_var w1 v x)).
  { intros w1 v x (L1 & F1) X. split; [exact L1|]. intros u HC. apply has_set in HC.
    destruct HC as [(_ & m & E & C)|(_ & HC)]; [exact (X m E C)|exact (F1 u HC)]. }
  assert (OWN : forall v m, s_vars w v = Some m -> m_context m <> Some k).
  { intros v m E C. apply (F v). exists m. auto. }
  assert (LCK : forall v m answer, s_vars w v = Some m ->
    forall w1, (let! (w, r) := call_lock (m_lock m) w (m_context m) answer in
     Ok (set_var w v (Some (SM (m_destroy m) (m_lock m) (m_unlock m) (m_context m) r)))) = Ok w1 ->
    forgotten k w1 /\ destroyed k (s_log w1) = destroyed k (s_log w)).
  { intros v m answer E w1 R1. unfold call_lock in R1.
    destruct (m_lock m); cbn in R1; [discriminate| |].
    - injection R1 as <-. split; [|reflexivity]. apply SET; [split; assumption|].
      intros x X. injection X as <-. exact (OWN v m E).
    - unfold app_lock in R1. pose proof (OWN v m E) as O. destruct (m_context m) as [j|].
      + destruct (s_held w j); [discriminate|]. cbn in R1. injection R1 as <-.
        split; [|reflexivity]. apply SET; [split; assumption|]. intros x X. injection X as <-. exact O.
      + cbn in R1. injection R1 as <-.
        split; [|reflexivity]. apply SET; [split; assumption|]. intros x X. injection X as <-. exact O. }
  assert (DST : forall v m answer, s_vars w v = Some m ->
    forall w1, mutex_destroy w v m answer = Ok w1 ->
    forgotten k w1 /\ destroyed k (s_log w1) = destroyed k (s_log w)).
  { intros v m answer E w1 R1. unfold mutex_destroy, call_destroy in R1.
    destruct (m_destroy m); cbn in R1; [discriminate| |]; injection R1 as <-.
    - split; [|reflexivity]. apply SET; [split; assumption|].
      intros x X. injection X as <-. discriminate.
    - split.
      + apply SET; [split; assumption|]. intros x X. injection X as <-. discriminate.
      + cbn. pose proof (OWN v m E) as O. destruct (m_context m) as [j|]; [|reflexivity].
        destruct (j =? k) eqn:JK; [|reflexivity]. apply Nat.eqb_eq in JK. congruence. }
  destruct c as [v|v cr d l u made answer|v p|v p|v answer|v answer|v answer|v answer];
    cbn in R; destruct (s_vars w v) as [m|] eqn:E; try discriminate.
  - injection R as <-. split; [|reflexivity]. apply SET; [split; assumption|].
    intros x X. injection X as <-. discriminate.
  - injection R as <-. unfold mutex_new.
    destruct (negb cr || negb d || negb l || negb u).
    + split; [|reflexivity]. apply SET; [split; assumption|]. intros x X. injection X as <-. discriminate.
    + destruct made.
      * split; [|reflexivity]. apply SET; [split; [cbn; lia|exact F]|].
        intros x X. injection X as <-. cbn. intros Z. injection Z as Z. lia.
      * split; [|reflexivity]. apply SET; [split; assumption|]. intros x X. injection X as <-. discriminate.
  - destruct (s_vars w p) as [q|] eqn:EP; [|discriminate]. injection R as <-. split; [|reflexivity].
    unfold mutex_move. repeat apply SET; [split; assumption| |]; intros x X; injection X as <-.
    + exact (OWN p q EP).
    + discriminate.
  - destruct (s_vars w p) as [q|] eqn:EP; [|discriminate]. unfold mutex_assign in R.
    destruct (s_vars (set_var w v (Some q)) p) as [q2|] eqn:E2; [|discriminate]. injection R as <-.
    split; [|reflexivity]. repeat apply SET; [split; assumption| |]; intros x X; injection X as <-.
    + exact (OWN p q EP).
    + discriminate.
  - exact (LCK v m answer E w' R).
  - exact (LCK v m answer E w' R).
  - exact (DST v m answer E w' R).
  - destruct (mutex_destroy w v m answer) as [w1| |] eqn:D; try discriminate. cbn in R.
    injection R as <-. destruct (DST v m answer E w1 D) as (X1 & X2). split; [|exact X2].
    apply SET; [exact X1|]. discriminate.
Qed.

Lemma forgotten_run k h : forall w w', forgotten k w -> srun w h = Ok w' ->
  forgotten k w' /\ destroyed k (s_log w') = destroyed k (s_log w).
Proof.
  induction h as [|c h IH]; intros w w' F R; cbn in R; [injection R as <-; auto|].
  destruct (sstep w c) as [w1| |] eqn:S1; try discriminate. cbn in R.
  destruct (forgotten_step k w c w1 F S1) as (F1 & D1).
  destruct (IH w1 w' F1 R) as (F2 & D2). split; [exact F2|congruence].
Qed.

(** ** Without assignments nothing is forgotten *)

Definition kept (w : sworld) : Prop :=
  forall k, created k (s_log w) -> destroyed k (s_log w) = 0 -> exists v, has_context w v k.

Lemma kept_same w v m m' w1 : s_vars w v = Some m -> m_context m' = m_context m ->
  s_vars w1 = s_vars w ->
  (forall k, created k (s_log w1) -> created k (s_log w)) ->
  (forall k, destroyed k (s_log w1) = destroyed k (s_log w)) ->
  kept w -> kept (set_var w1 v (Some m')).
Proof.
  intros E C V CR DS K k X D. cbn in X, D. destruct (K k) as (u & m0 & E0 & C0).
  { apply CR. exact X. } { rewrite <- DS. exact D. }
  exists u. apply has_set. destruct (Nat.eq_dec u v) as [->|N].
  - left. split; [reflexivity|]. exists m'. split; [reflexivity|]. congruence.
  - right. split; [exact N|]. exists m0. rewrite V. auto.
Qed.

Lemma kept_lock w v m answer w' : kept w -> s_vars w v = Some m ->
  (let! (w, r) := call_lock (m_lock m) w (m_context m) answer in
   Ok (set_var w v (Some (SM (m_destroy m) (m_lock m) (m_unlock m) (m_context m) r)))) = Ok w' ->
  kept w'.
Proof.
  intros K E R. unfold call_lock in R.
  assert (CR : forall c k, created k (ELock c :: s_log w) -> created k (s_log w)).
  { intros c k [X|X]; [discriminate|exact X]. }
  destruct (m_lock m); cbn in R; [discriminate| |].
  - injection R as <-. apply (kept_same w v m); auto.
  - unfold app_lock in R. destruct (m_context m) as [j|] eqn:C.
    + destruct (s_held w j); [discriminate|]. cbn in R. injection R as <-.
      apply (kept_same w v m); auto. cbn. apply CR.
    + cbn in R. injection R as <-. apply (kept_same w v m); auto. cbn. apply CR.
Qed.

Lemma kept_destroy w v m answer w' : sinv w -> kept w -> s_vars w v = Some m ->
  mutex_destroy w v m answer = Ok w' -> kept w' /\ forall k, ~ has_context w' v k.
Proof.
  intros I K E R. unfold mutex_destroy, call_destroy in R. split.
  2:{ intros k HC. destruct (m_destroy m); cbn in R; [discriminate| |]; injection R as <-;
      apply has_set in HC; destruct HC as [(_ & x & X & XC)|(N & _)]; try congruence;
      injection X as <-; discriminate. }
  destruct (m_destroy m) eqn:D; cbn in R; [discriminate| |]; injection R as <-.
  - apply (kept_same w v m); auto. cbn. destruct (m_context m) as [j|] eqn:C; [|reflexivity].
    destruct (si_app w I v m j E C) as (A & _). congruence.
  - intros k X DK. cbn in X, DK. destruct X as [X|X]; [discriminate|].
    destruct (K k) as (u & m0 & E0 & C0); [exact X| |].
    { destruct (m_context m) as [j|]; [destruct (j =? k); [discriminate|exact DK]|exact DK]. }
    exists u. apply has_set. right. destruct (Nat.eq_dec u v) as [->|N].
    + exfalso. rewrite E in E0. injection E0 as <-. rewrite C0 in DK.
      rewrite Nat.eqb_refl in DK. discriminate.
    + split; [exact N|]. exists m0. auto.
Qed.

Lemma kept_fresh w v x w1 : s_vars w v = None -> s_vars w1 = s_vars w ->
  (forall k, created k (s_log w1) -> created k (s_log w) \/ exists m, x = Some m /\ m_context m = Some k) ->
  (forall k, destroyed k (s_log w1) = destroyed k (s_log w)) ->
  kept w -> kept (set_var w1 v x).
Proof.
  intros E V CR DS K k X D. cbn in X, D. destruct (CR k X) as [X1|X1].
  - destruct (K k X1) as (u & m0 & E0 & C0); [congruence|]. exists u. apply has_set. right.
    split; [congruence|]. exists m0. rewrite V. auto.
  - exists v. apply has_set. left. auto.
Qed.

Lemma kept_step w c w' : sinv w -> kept w -> match c with SAssign _ _ => False | _ => True end ->
  sstep w c = Ok w' -> kept w'.
Proof.
  intros I K NA R.
  destruct c as [v|v cr d l u made answer|v p|v p|v answer|v answer|v answer|v answer];
    cbn in R; destruct (s_vars w v) as [m|] eqn:E; try discriminate.
  - injection R as <-. apply (kept_fresh w v); auto.
  - injection R as <-. unfold mutex_new. destruct (negb cr || negb d || negb l || negb u).
    + apply (kept_fresh w v); auto.
    + destruct made; [|apply (kept_fresh w v); auto].
      apply (kept_fresh w v); auto. cbn. intros k [X|X]; [right|left; exact X].
      injection X as <-. eexists. split; reflexivity.
  - destruct (s_vars w p) as [q|] eqn:EP; [|discriminate]. injection R as <-.
    intros k X D. cbn in X, D. destruct (K k X D) as (u & m0 & E0 & C0).
    unfold mutex_move. destruct (Nat.eq_dec u p) as [->|N].
    + exists v. apply has_set. right. split; [congruence|]. apply has_set. left.
      split; [reflexivity|]. exists q. split; [reflexivity|]. congruence.
    + exists u. apply has_set. right. split; [exact N|]. apply has_set. right.
      split; [congruence|]. exists m0. auto.
  - destruct NA.
  - exact (kept_lock w v m answer w' K E R).
  - exact (kept_lock w v m answer w' K E R).
  - exact (proj1 (kept_destroy w v m answer w' I K E R)).
  - destruct (mutex_destroy w v m answer) as [w1| |] eqn:D; try discriminate. cbn in R.
    injection R as <-. destruct (kept_destroy w v m answer w1 I K E D) as (K1 & N1).
    intros k X DK. cbn in X, DK. destruct (K1 k X DK) as (u & HC). exists u. apply has_set. right.
    split; [|exact HC]. intros ->. exact (N1 k HC).
Qed.

Lemma kept_run h : forall w w', sinv w -> kept w -> no_assign h -> srun w h = Ok w' -> kept w'.
Proof.
  induction h as [|c h IH]; intros w w' I K NA R; cbn in R; [injection R as <-; exact K|].
  inversion NA as [|? ? N1 N2]; subst.
  destruct (sstep w c) as [w1| |] eqn:S1; try discriminate. cbn in R.
  apply (IH w1 w'); auto.
  - exact (sinv_step w c w1 I S1).
  - exact (kept_step w c w1 I K N1 S1).
Qed.

Lemma srun_app h1 : forall w h2, srun w (h1 ++ h2) = let! w := srun w h1 in srun w h2.
Proof.
  induction h1 as [|c h1 IH]; intros w h2; [reflexivity|]. cbn. destruct (sstep w c); [apply IH|reflexivity..].
Qed.
