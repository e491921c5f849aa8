(** Theorems about threads on Windows, C148 - C151. *)
From Coq Require Import List Arith ZArith Bool Lia.
From Verif Require Import Base BaseLemmas WinThreadModel WinThreadSpec WinThreadProofs.
Import ListNotations.

(** * C148: no use of thread objects reaches undefined behaviour, or a handle that was closed *)

(** For histories in which no object is made from another one by moving and none is deleted
    while a body works on it; the second conjunct: whatever an object holds is an open handle
    and no other object holds it. *)
Theorem C148_safe_partial : forall h, proper_history t_start h ->
  exists w rs, truns t_start h = Ok (w, rs)
    /\ (forall v n, responsible w v n -> open_handle w n)
    /\ (forall u v n, responsible w u n -> responsible w v n -> u = v).
Proof.
  intros h P. destruct (runs_inv h t_start inv_start P) as [w [rs [R [A B C]]]].
  exists w, rs. split; [exact R|]. split.
  - intros v n [o [V N]]. destruct (A v o n V N) as [X _]. exact X.
  - intros u v n [o [V N]] [o' [V' N']]. apply (B u v o o' n V V' N N').
Qed.

(** An object made from another one by moving. *)
Theorem C148_move_refuted : forall w v p, tstep w (TMove v p) = UB.
Proof. reflexivity. Qed.

(** An object deleted while a body works on it; the destructor that waits for the body comes
    after those of the derived classes. *)
Theorem C148_busy_refuted : forall w v pad, exists_ w v -> busy w v -> tstep w (TDelete v pad) = UB.
Proof.
  intros w v pad E B. destruct (get_Ok w v E) as [o [V G]]. cbn [tstep]. rewrite G. cbn [bind].
  rewrite (in_use_true w v B). reflexivity.
Qed.

Lemma in_use_false : forall w v, in_use w v = false -> ~ busy w v.
Proof. intros w v E B. rewrite (in_use_true w v B) in E. discriminate. Qed.

Lemma step_either : forall w c, (forall v pad x, c = TRun v pad (Some x) -> (0 < x)%Z) ->
  proper w c \/ ~ proper w c /\ tstep w c = UB.
Proof.
  assert (X : forall w v, exists_ w v \/ ~ exists_ w v /\ get w v = UB).
  { intros w v. unfold exists_, get. destruct (w_vars w v); [left; discriminate|right; auto]. }
  intros w c E. destruct c as [v|v p|v p pad|v pad e|v|v|v|v|v pad|n|n]; cbn [proper tstep]; auto.
  - unfold free, exists_. destruct (w_vars w v); [right|left; auto]. split; [|reflexivity]. intros H. apply H. discriminate.
  - destruct (X w v) as [H|[H G]]; [|right; unfold move_assign; rewrite G; split; [tauto|reflexivity]].
    destruct (X w p) as [H'|[H' G']]; [auto|]. right. split; [tauto|].
    destruct (get_Ok w v H) as [o [V G]]. unfold move_assign. rewrite G. cbn [bind].
    destruct (is_initial (o_context o) pad); cbn [bind]; [rewrite G'; reflexivity|].
    unfold do_destroy. destruct (c_id (o_context o)); [|cbn [bind fst]; rewrite G'; reflexivity|];
      (destruct (same_as_initializer (o_context o)); [cbn [bind fst]; rewrite G'; reflexivity|]);
      (destruct (c_handle (o_context o)) as [m|]; [|cbn [bind fst]; rewrite G'; reflexivity]);
      unfold handle_of; (destruct (nth_error (w_threads w) m) as [k|]; [|reflexivity]);
      (destruct (k_open k); [|reflexivity]); cbn [bind fst]; unfold get, set_thread in *; cbn [w_vars];
      destruct (w_vars w p); congruence || reflexivity.
  - destruct (X w v) as [H|[H G]]; [|right; rewrite G; split; [tauto|reflexivity]].
    left. split; [exact H|]. intros x ->. exact (E v pad x eq_refl).
  - destruct (X w v) as [H|[H G]]; [auto|right; rewrite G; auto].
  - destruct (X w v) as [H|[H G]]; [auto|right; rewrite G; auto].
  - destruct (X w v) as [H|[H G]]; [auto|right; rewrite G; auto].
  - destruct (X w v) as [H|[H G]]; [auto|right; rewrite G; auto].
  - destruct (X w v) as [H|[H G]]; [|right; rewrite G; split; [tauto|reflexivity]].
    destruct (in_use w v) eqn:U; [|left; split; [exact H|apply in_use_false; exact U]].
    right. split.
    + intros [_ B]. apply B. unfold in_use in U. apply existsb_exists in U. destruct U as (k & I & U).
      apply andb_prop in U. destruct U as (U1 & U2). apply Nat.eqb_eq in U1. apply In_nth_error in I. destruct I as (n & I).
      exists n, k. split; [exact I|]. split; [exact U1|]. destruct (k_phase k); [discriminate|discriminate|discriminate U2].
    + destruct (get_Ok w v H) as [o [V G]]. rewrite G. reflexivity.
Qed.

(** For all histories in which the system reports errors as positive numbers: the history is defined
    exactly if its calls are about objects that exist, no object is made from another, and none is
    deleted while a body works on it. *)
Theorem C148_exact_partial : forall h,
  (forall v pad x, In (TRun v pad (Some x)) h -> (0 < x)%Z) ->
  (proper_history t_start h -> exists w rs, truns t_start h = Ok (w, rs)) /\
  (~ proper_history t_start h -> truns t_start h = UB).
Proof.
  assert (G : forall h w, inv w -> (forall v pad x, In (TRun v pad (Some x)) h -> (0 < x)%Z) ->
            proper_history w h \/ ~ proper_history w h /\ truns w h = UB).
  { induction h as [|c h IH]; intros w I E; cbn [proper_history truns]; [auto|].
    destruct (step_either w c) as [P|[P U]].
    - intros v pad x ->. apply (E v pad x). now left.
    - destruct (step_inv w c I P) as [w1 [r [S1 I1]]]. rewrite S1. cbn [bind fst snd].
      destruct (IH w1 I1) as [Q|[Q U]]; [intros v pad x H; apply (E v pad x); now right| |].
      + left. split; [exact P|]. intros w' r' H. congruence.
      + right. rewrite U. split; [|reflexivity]. intros [_ K]. apply Q. exact (K w1 r eq_refl).
    - right. rewrite U. split; [|reflexivity]. intros [K _]. exact (P K). }
  intros h E. split.
  - intros P. destruct (runs_inv h t_start inv_start P) as [w [rs [R _]]]. eauto.
  - intros N. destruct (G h t_start inv_start E) as [P|[_ U]]; [contradiction|exact U].
Qed.

(** * C149: every handle that was made is closed *)

Lemma no_resp : forall w v o n, w_vars w v = Some o -> c_handle (o_context o) = None -> ~ responsible w v n.
Proof. intros w v o n V N [p [X Y]]. congruence. Qed.

Lemma release_orphan : forall w v ph x n, inv w -> exists_ w v ->
  match x with Some y => c_handle (o_context y) = None | None => True end ->
  (orphan (release w v ph x) n <-> orphan w n).
Proof.
  intros w v ph x n I E X. destruct (get_Ok w v E) as [o [V _]].
  assert (R : forall W, w_vars W = setv (w_vars w) v x ->
            forall u, responsible W u n <-> (u <> v /\ responsible w u n)).
  { intros W Q u. unfold responsible. rewrite Q. unfold setv. destruct (Nat.eqb_spec u v) as [F|F].
    - split; [|intros [Z _]; contradiction]. intros [y [Y1 Y2]]. subst x. congruence.
    - split; [intro Z; split; [exact F|exact Z]|intros [_ Z]; exact Z]. }
  unfold release. rewrite V. destruct (c_handle (o_context o)) as [m|] eqn:M.
  - destruct (i_open w I v o m V M) as [[k [K1 K2]] _]. rewrite K1.
    set (W := TWorld _ _). specialize (R W eq_refl). unfold orphan. split.
    + intros [[k' [A1 A2]] B]. cbn in A1. apply upd_cases in A1. destruct A1 as [[Y Z]|[Y Z]].
      * subst k'. discriminate A2.
      * split; [exists k'; auto|]. intros u U. destruct (Nat.eq_dec u v) as [F|F].
        -- subst u. destruct U as [q [Q1 Q2]]. congruence.
        -- apply (B u). apply R. auto.
    + intros [[k' [A1 A2]] B]. split.
      * exists k'. split; [|exact A2]. cbn. rewrite upd_other; [exact A1|]. intro Z. apply (B v). exists o. subst n. auto.
      * intros u U. apply R in U. apply (B u). apply U.
  - specialize (R (put w v x) eq_refl). unfold orphan. split.
    + intros [A B]. split; [exact A|]. intros u U. destruct (Nat.eq_dec u v) as [F|F].
      * subst u. apply (no_resp w v o n V M U).
      * apply (B u). apply R. auto.
    + intros [A B]. split; [exact A|]. intros u U. apply R in U. apply (B u). apply U.
Qed.

Lemma blank_orphan : forall w v o y n, w_vars w v = Some o -> c_handle (o_context o) = None ->
  c_handle (o_context y) = None -> (orphan (put w v (Some y)) n <-> orphan w n).
Proof.
  intros w v o y n V M Y.
  assert (R : forall u, responsible (put w v (Some y)) u n <-> responsible w u n).
  { intro u. unfold responsible. cbn. unfold setv. destruct (Nat.eqb_spec u v) as [F|F]; [|tauto].
    subst u. split; intros [q [Q1 Q2]]; congruence. }
  unfold orphan. split; intros [A B]; (split; [exact A|]); intros u U; apply (B u); apply R; exact U.
Qed.

Lemma same_orphan : forall w w' n,
  (forall u, responsible w' u n <-> responsible w u n) -> (open_handle w' n <-> open_handle w n) ->
  (orphan w' n <-> orphan w n).
Proof.
  intros w w' n R O. unfold orphan. rewrite O. split; intros [A B]; (split; [exact A|]); intros u U; apply (B u); apply R; exact U.
Qed.

Lemma phase_open : forall w n k ph m, nth_error (w_threads w) n = Some k ->
  (open_handle (set_thread w n (KThread (k_object k) ph (k_open k))) m <-> open_handle w m).
Proof.
  intros w n k ph m K. unfold open_handle. cbn. destruct (Nat.eq_dec m n) as [E|E].
  - subst m. rewrite (upd_same _ _ _ _ K). split; intros [k' [A B]].
    + injection A as A. subst k'. cbn in B. exists k. auto.
    + rewrite K in A. injection A as A. subst k'. eexists; split; [reflexivity|exact B].
  - rewrite upd_other by auto. tauto.
Qed.

Lemma step_orphan : forall w c w' r n, inv w -> proper w c -> tstep w c = Ok (w', r) ->
  (orphan w' n <-> orphan w n \/ exists v pad e, c = TRun v pad e /\ responsible w v n).
Proof.
  intros w c w' r n I P R.
  assert (SIMPLE : (forall v pad e, c <> TRun v pad e) -> (orphan w' n <-> orphan w n) ->
     (orphan w' n <-> orphan w n \/ exists v pad e, c = TRun v pad e /\ responsible w v n)).
  { intros A B. rewrite B. split; [auto|]. intros [X|[v [pad [e [X _]]]]]; [exact X|]. exfalso. apply (A v pad e X). }
  destruct c as [v|v p|v p pad|v pad e|v|v|v|v|v pad|m|m]; cbn [proper] in P.
  - apply SIMPLE; [discriminate|]. cbn [tstep] in R. unfold free in R. unfold exists_ in P.
    destruct (w_vars w v) eqn:V; [exfalso; apply P; discriminate|]. injection R as R _. subst w'.
    apply same_orphan; [|reflexivity]. intro u. unfold responsible. cbn. unfold setv.
    destruct (Nat.eqb_spec u v) as [F|F]; [|tauto]. subst u. split; intros [q [Q1 Q2]].
    + injection Q1 as Q1. subst q. discriminate Q2.
    + congruence.
  - contradiction.
  - apply SIMPLE; [discriminate|]. destruct P as [P1 P2]. destruct (get_Ok w p P2) as [s [S1 _]].
    rewrite (move_step w v p pad s I P1 S1) in R. injection R as R _. subst w'.
    destruct (get_Ok w v P1) as [o [V _]].
    unfold orphan. split.
    + intros [[k [A1 A2]] B]. cbn in A1. destruct (closed_cases w v n k A1) as [k' [K1 [_ [_ [[K4 K5]|[K4 K5]]]]]].
      * congruence.
      * subst k'. split; [exists k; auto|]. intros u U.
        destruct (Nat.eq_dec u v) as [F|F]; [subst u; contradiction|].
        destruct (Nat.eq_dec u p) as [F'|F'].
        -- subst u. apply (B v). destruct U as [q [Q1 Q2]]. exists s. cbn. unfold setv.
           destruct (Nat.eqb_spec v p) as [Z|_]; [congruence|]. rewrite Nat.eqb_refl. split; [reflexivity|]. congruence.
        -- apply (B u). destruct U as [q [Q1 Q2]]. exists q. cbn. rewrite setv_neq by auto. rewrite setv_neq by auto. auto.
    + intros [[k [A1 A2]] B]. split.
      * exists k. split; [|exact A2]. cbn. rewrite closed_other; [exact A1|apply B].
      * intros u [q [Q1 Q2]]. cbn in Q1. unfold setv in Q1. destruct (Nat.eqb_spec u p) as [Z|Z].
        -- injection Q1 as Q1. subst q. discriminate Q2.
        -- destruct (Nat.eqb_spec u v) as [Z'|Z'].
           ++ injection Q1 as Q1. subst q. apply (B p). exists s. auto.
           ++ apply (B u). exists q. auto.
  - destruct P as [P _]. destruct (get_Ok w v P) as [o [V G]]. cbn [tstep] in R. rewrite G in R. cbn [bind] in R.
    injection R as R _. subst w'.
    destruct (c_handle (o_context o)) as [m|] eqn:M.
    + (* the object holds a handle *)
      destruct (i_open w I v o m V M) as [[k [K1 K2]] [ID ST]].
      assert (IN : is_initial (o_context o) pad = false) by (unfold is_initial, same_as_initializer; rewrite M; reflexivity).
      assert (L : m < length (w_threads w)) by (apply nth_error_Some; congruence).
      unfold do_run. rewrite IN, ST. cbn [Z.eqb].
      set (x := match e with None => _ | Some _ => _ end).
      assert (X : exists h, w_vars x = setv (w_vars w) v (Some h)
               /\ (c_handle (o_context h) = None /\ w_threads x = w_threads w
                   \/ c_handle (o_context h) = Some (length (w_threads w)) /\ w_threads x = w_threads w ++ [KThread v NotBegun true])).
      { subst x. destruct e as [e|]; cbn.
        - eexists. split; [reflexivity|]. left. split; reflexivity.
        - eexists. split; [reflexivity|]. right. split; reflexivity. }
      destruct X as [h [H1 H2]]. clearbody x.
      assert (OP : forall j, j < length (w_threads w) -> (open_handle x j <-> open_handle w j)).
      { intros j J. unfold open_handle. destruct H2 as [[_ H2]|[_ H2]]; rewrite H2; [tauto|].
        rewrite nth_error_app1 by exact J. tauto. }
      assert (RS : forall u j, j < length (w_threads w) -> (responsible x u j <-> u <> v /\ responsible w u j)).
      { intros u j J. unfold responsible. rewrite H1. unfold setv. destruct (Nat.eqb_spec u v) as [F|F].
        - split; [|intros [Z _]; contradiction]. intros [q [Q1 Q2]]. injection Q1 as Q1. subst q.
          destruct H2 as [[H2 _]|[H2 _]]; rewrite H2 in Q2; [discriminate|]. injection Q2 as Q2. lia.
        - tauto. }
      destruct (Nat.lt_ge_cases n (length (w_threads w))) as [J|J].
      * unfold orphan. rewrite (OP n J). split.
        -- intros [A B]. destruct (Nat.eq_dec n m) as [E|E].
           ++ right. exists v, pad, e. split; [reflexivity|]. exists o. subst n. auto.
           ++ left. split; [exact A|]. intros u U. destruct (Nat.eq_dec u v) as [F|F].
              ** subst u. destruct U as [q [Q1 Q2]]. congruence.
              ** apply (B u). apply (RS u n J). auto.
        -- intros [[A B]|[v' [pad' [e' [E U]]]]].
           ++ split; [exact A|]. intros u U. apply (RS u n J) in U. apply (B u). apply U.
           ++ injection E as E1 E2 E3. subst v' pad' e'. destruct U as [q [Q1 Q2]].
              assert (q = o) by congruence. subst q. assert (n = m) by congruence. subst n.
              split; [exists k; auto|]. intros u U. apply (RS u m J) in U. destruct U as [U1 [q [Q3 Q4]]].
              apply U1. apply (i_one w I u v q o m Q3 V Q4 M).
      * split.
        -- intros [A B]. exfalso. destruct A as [k' [A1 A2]]. destruct H2 as [[H2 H3]|[H2 H3]]; rewrite H3 in A1.
           ++ apply nth_error_None in J. congruence.
           ++ rewrite nth_error_app2 in A1 by exact J.
              destruct (n - length (w_threads w)) as [|q] eqn:Q; [|destruct q; discriminate A1].
              apply (B v). exists h. rewrite H1, setv_eq. split; [reflexivity|]. rewrite H2. f_equal. lia.
        -- intros [[[k' [A1 A2]] _]|[v' [pad' [e' [E U]]]]].
           ++ apply nth_error_None in J. congruence.
           ++ destruct U as [q [Q1 Q2]]. destruct (i_open w I v' q n Q1 Q2) as [[k' [Z _]] _].
              apply nth_error_None in J. congruence.
    + (* it holds none *)
      transitivity (orphan w n).
      2: { split; [auto|]. intros [X|[v' [pad' [e' [E U]]]]]; [exact X|]. injection E as E1 E2 E3. subst v'.
           exfalso. apply (no_resp w v o n V M U). }
      unfold do_run.
      set (o1 := if is_initial (o_context o) pad then TObj (TContext None IdDetached) 0 else o).
      assert (M1 : c_handle (o_context o1) = None) by (subst o1; destruct (is_initial _ _); auto).
      clearbody o1. destruct (o_status o1 =? 0)%Z; [|apply blank_orphan with (o := o); assumption].
      destruct e as [e|]; [apply blank_orphan with (o := o); [assumption|assumption|reflexivity]|].
      unfold orphan. split.
      * intros [[k [A1 A2]] B]. cbn in A1. destruct (Nat.lt_ge_cases n (length (w_threads w))) as [J|J].
        -- rewrite nth_error_app1 in A1 by exact J. split; [exists k; auto|]. intros u U.
           destruct (Nat.eq_dec u v) as [F|F]; [subst u; apply (no_resp w v o n V M U)|].
           apply (B u). unfold responsible. cbn. rewrite setv_neq by exact F. exact U.
        -- rewrite nth_error_app2 in A1 by exact J.
           destruct (n - length (w_threads w)) as [|q] eqn:Q; [|destruct q; discriminate A1].
           exfalso. apply (B v). unfold responsible. cbn. rewrite setv_eq. eexists. split; [reflexivity|]. cbn. f_equal. lia.
      * intros [[k [A1 A2]] B]. assert (J : n < length (w_threads w)) by (apply nth_error_Some; congruence). split.
        -- exists k. cbn. rewrite nth_error_app1 by exact J. auto.
        -- intros u [q [Q1 Q2]]. cbn in Q1. unfold setv in Q1. destruct (Nat.eqb_spec u v) as [F|F].
           ++ injection Q1 as Q1. subst q. cbn in Q2. injection Q2 as Q2. lia.
           ++ apply (B u). exists q. auto.
  - apply SIMPLE; [discriminate|]. destruct (get_Ok w v P) as [o [V G]]. cbn [tstep] in R. rewrite G in R. cbn [bind] in R.
    pose proof (join_spec w v o I V) as J. destruct (c_handle (o_context o)) as [m|] eqn:N.
    + destruct J as [k [K1 [K2 J]]]. rewrite J in R. cbn [bind fst snd] in R. injection R as R _. subst w'.
      apply same_orphan.
      * intro u. unfold responsible. cbn. unfold setv. destruct (Nat.eqb_spec u v) as [F|F]; [|tauto].
        subst u. split; intros [q [Q1 Q2]].
        -- injection Q1 as Q1. subst q. exists o. auto.
        -- assert (q = o) by congruence. subst q. eexists. split; [reflexivity|exact Q2].
      * rewrite <- (phase_open w m k Ended n K1). rewrite K2. tauto.
    + rewrite J in R. cbn [bind fst snd] in R. injection R as R _. subst w'.
      apply blank_orphan with (o := o); assumption.
  - apply SIMPLE; [discriminate|]. destruct (get_Ok w v P) as [o [V G]].
    rewrite (detach_step w v o I V) in R. injection R as R _. subst w'.
    destruct (c_handle (o_context o)) as [m|] eqn:N.
    + apply release_orphan; [exact I|exact P|reflexivity].
    + destruct (c_id (o_context o)).
      * apply blank_orphan with (o := o); assumption.
      * apply release_orphan; [exact I|exact P|reflexivity].
      * apply blank_orphan with (o := o); assumption.
  - apply SIMPLE; [discriminate|]. assert (w' = w) as ->; [|tauto].
    destruct (get_Ok w v P) as [o [V G]]. cbn [tstep] in R. rewrite G in R. cbn [bind] in R.
    destruct (c_handle (o_context o)) as [m|]; [|congruence].
    destruct (handle_of w m); cbn in R; congruence.
  - apply SIMPLE; [discriminate|]. assert (w' = w) as ->; [|tauto].
    destruct (get_Ok w v P) as [o [V G]]. cbn [tstep] in R. rewrite G in R. cbn [bind] in R. congruence.
  - apply SIMPLE; [discriminate|]. destruct P as [P Q]. rewrite (delete_step w v pad I P Q) in R.
    injection R as R _. subst w'. apply release_orphan; [exact I|exact P|exact Logic.I].
  - apply SIMPLE; [discriminate|]. cbn [tstep] in R.
    destruct (nth_error (w_threads w) m) as [[v ph b]|] eqn:K; [|injection R as R _; subst w'; tauto].
    destruct ph; try (injection R as R _; subst w'; tauto).
    unfold get in R. destruct (w_vars w v); [|discriminate R]. cbn in R. injection R as R _. subst w'.
    apply same_orphan; [reflexivity|]. apply (phase_open w m _ Working n K).
  - apply SIMPLE; [discriminate|]. cbn [tstep] in R.
    destruct (nth_error (w_threads w) m) as [[v ph b]|] eqn:K; [|injection R as R _; subst w'; tauto].
    destruct ph; try (injection R as R _; subst w'; tauto).
    injection R as R _. subst w'.
    apply same_orphan; [reflexivity|]. apply (phase_open w m _ Ended n K).
Qed.

(** The exact account: an open handle loses the object that would close it only by run() of
    that object. *)
Theorem C149_account_partial : forall h w rs c w' r n,
  proper_history t_start h -> truns t_start h = Ok (w, rs) ->
  proper w c -> tstep w c = Ok (w', r) ->
  (orphan w' n <-> orphan w n \/ exists v pad e, c = TRun v pad e /\ responsible w v n).
Proof.
  intros h w rs c w' r n P R Q S1. apply (step_orphan w c w' r n (reach_inv h w rs P R) Q S1).
Qed.

Lemma no_orphans : forall h w w' rs n, inv w -> proper_history w h -> no_rerun_history w h ->
  truns w h = Ok (w', rs) -> orphan w' n -> orphan w n.
Proof.
  induction h as [|c h IH]; intros w w' rs n I P Q R O.
  - cbn in R. congruence.
  - destruct P as [P1 P2]. destruct Q as [Q1 Q2]. destruct (step_inv w c I P1) as [w1 [r [S1 I1]]].
    cbn in R. rewrite S1 in R. cbn in R. destruct (truns w1 h) as [[w2 rs2]| |] eqn:T; try discriminate R.
    cbn in R. injection R as R _. subst w2.
    pose proof (IH w1 w' rs2 n I1 (P2 w1 r S1) (Q2 w1 r S1) T O) as O1.
    apply (step_orphan w c w1 r n I P1 S1) in O1. destruct O1 as [O1|[v [pad [e [E U]]]]]; [exact O1|].
    subst c. exfalso. apply (Q1 n U).
Qed.

(** When run() is called only for objects that hold no thread, all handles are closed once all
    objects are gone. *)
Theorem C149_none_left_partial : forall h w rs,
  proper_history t_start h -> no_rerun_history t_start h -> truns t_start h = Ok (w, rs) ->
  (forall v, ~ exists_ w v) -> forall n, ~ open_handle w n.
Proof.
  intros h w rs P Q R E n O.
  assert (X : orphan w n).
  { split; [exact O|]. intros v [o [V _]]. apply (E v). unfold exists_. congruence. }
  apply (no_orphans h t_start w rs n inv_start P Q R) in X. destruct X as [[k [K _]] _].
  destruct n; discriminate K.
Qed.

(** An object that ran and was joined and is run again: the handle of the first thread is never
    closed, whatever is done afterwards. *)
Lemma orphan_for_ever : forall h w w' rs n, inv w -> proper_history w h ->
  truns w h = Ok (w', rs) -> orphan w n -> orphan w' n.
Proof.
  induction h as [|c h IH]; intros w w' rs n I P R O.
  - cbn in R. congruence.
  - destruct P as [P1 P2]. destruct (step_inv w c I P1) as [w1 [r [S1 I1]]].
    cbn in R. rewrite S1 in R. cbn in R. destruct (truns w1 h) as [[w2 rs2]| |] eqn:T; try discriminate R.
    cbn in R. injection R as R _. subst w2.
    apply (IH w1 w' rs2 n I1 (P2 w1 r S1) T). apply (step_orphan w c w1 r n I P1 S1). left. exact O.
Qed.

Theorem C149_rerun_refuted : forall h w rs v pad e h' w' rs' n,
  proper_history t_start h -> truns t_start h = Ok (w, rs) ->
  (forall x, e = Some x -> (0 < x)%Z) -> responsible w v n ->
  proper_history w (TRun v pad e :: h') -> truns w (TRun v pad e :: h') = Ok (w', rs') ->
  open_handle w' n.
Proof.
  intros h w rs v pad e h' w' rs' n P R E U Q T.
  pose proof (reach_inv h w rs P R) as I. destruct Q as [Q1 Q2].
  destruct (step_inv w _ I Q1) as [w1 [r [S1 I1]]].
  cbn [truns] in T. rewrite S1 in T. cbn [bind fst snd] in T.
  destruct (truns w1 h') as [[w2 rs2]| |] eqn:X; try discriminate T. cbn in T. injection T as T _. subst w2.
  apply (orphan_for_ever h' w1 w' rs2 n I1 (Q2 w1 r S1) X).
  apply (step_orphan w _ w1 r n I Q1 S1). right. exists v, pad, e. auto.
Qed.

(** * C150: what the calls tell *)

(** After run(), getStatus() is zero exactly when a thread was started; the object then is
    responsible for it and its body works on the object. *)
Theorem C150_run : forall w v pad e w' r,
  proper w (TRun v pad e) -> tstep w (TRun v pad e) = Ok (w', r) ->
  exists z, tstep w' (TGetStatus v) = Ok (w', Some z)
    /\ (z = 0%Z <-> w_threads w' = w_threads w ++ [KThread v NotBegun true])
    /\ (z = 0%Z -> responsible w' v (length (w_threads w)))
    /\ (z <> 0%Z -> w_threads w' = w_threads w).
Proof.
  intros w v pad e w' r [P Q] R. destruct (get_Ok w v P) as [o [V G]]. cbn [tstep] in R. rewrite G in R.
  cbn [bind] in R. injection R as R _. subst w'.
  assert (NE : forall k : kthread, w_threads w <> w_threads w ++ [k]).
  { intros k X. apply (f_equal (@length _)) in X. rewrite app_length in X. cbn in X. lia. }
  unfold do_run.
  set (o1 := if is_initial (o_context o) pad then TObj (TContext None IdDetached) 0 else o).
  destruct (Z.eqb_spec (o_status o1) 0) as [Z|Z].
  - destruct e as [e|].
    + exists (- e)%Z. cbn. unfold get. cbn. rewrite setv_eq. cbn. specialize (Q e eq_refl).
      split; [reflexivity|]. split; [split; [lia|intro X; exfalso; apply (NE _ X)]|]. split; [lia|reflexivity].
    + exists 0%Z. cbn. unfold get. cbn. rewrite setv_eq. cbn.
      split; [reflexivity|]. split; [tauto|]. split; [|intro X; contradiction].
      intros _. unfold responsible. cbn. rewrite setv_eq. eexists. split; reflexivity.
  - exists (o_status o1). cbn. unfold get. cbn. rewrite setv_eq. cbn.
    split; [reflexivity|]. split; [split; [intro; contradiction|intro X; exfalso; apply (NE _ X)]|].
    split; [intro; contradiction|reflexivity].
Qed.

(** join() returns when the body has ended, and may be called again; without a thread it is an
    error and changes nothing else. *)
Theorem C150_join : forall h w rs v,
  proper_history t_start h -> truns t_start h = Ok (w, rs) -> exists_ w v ->
  exists w', tstep w (TJoin v) = Ok (w', None)
    /\ (forall u n, responsible w' u n <-> responsible w u n)
    /\ (forall n, responsible w v n -> ~ working w' n /\ tstep w' (TGetStatus v) = Ok (w', Some 0%Z))
    /\ (forall n, ~ responsible w v n -> (working w' n <-> working w n))
    /\ ((forall n, ~ responsible w v n) -> tstep w' (TGetStatus v) = Ok (w', Some INVALID_HANDLE)).
Proof.
  intros h w rs v P R E. pose proof (reach_inv h w rs P R) as I.
  destruct (get_Ok w v E) as [o [V G]]. cbn [tstep]. rewrite G. cbn [bind].
  pose proof (join_spec w v o I V) as J.
  assert (RS : forall W z u n, w_vars W = w_vars w -> responsible (put W v (Some (TObj (o_context o) z))) u n <-> responsible w u n).
  { intros W z u n X. unfold responsible. cbn. rewrite X. unfold setv. destruct (Nat.eqb_spec u v) as [F|F]; [|tauto].
    subst u. split; intros [q [Q1 Q2]].
    - injection Q1 as Q1. subst q. exists o. auto.
    - assert (q = o) by congruence. subst q. eexists. split; [reflexivity|exact Q2]. }
  destruct (c_handle (o_context o)) as [m|] eqn:N.
  - destruct J as [k [K1 [K2 J]]]. rewrite J. cbn [bind fst snd]. eexists. split; [reflexivity|].
    split; [intros u n; apply RS; reflexivity|]. split; [|split].
    + intros n [q [Q1 Q2]]. assert (n = m) by congruence. subst n. split.
      * intros [k' [A B]]. cbn in A. rewrite (upd_same _ _ _ _ K1) in A. injection A as A. subst k'. apply B. reflexivity.
      * unfold get. cbn. rewrite setv_eq. reflexivity.
    + intros n U. unfold working. cbn. rewrite upd_other; [tauto|]. intro X. apply U. exists o. subst n. auto.
    + intro U. exfalso. apply (U m). exists o. auto.
  - rewrite J. cbn [bind fst snd]. eexists. split; [reflexivity|].
    split; [intros u n; apply RS; reflexivity|]. split; [|split].
    + intros n [q [Q1 Q2]]. congruence.
    + intros n _. tauto.
    + intros _. unfold get. cbn. rewrite setv_eq. reflexivity.
Qed.

(** isWorking() tells whether the body of the thread the object is responsible for has not
    ended. *)
Theorem C150_working : forall h w rs v,
  proper_history t_start h -> truns t_start h = Ok (w, rs) -> exists_ w v ->
  exists z, tstep w (TIsWorking v) = Ok (w, Some z)
    /\ (z = 1%Z \/ z = 0%Z)
    /\ (z = 1%Z <-> exists n, responsible w v n /\ working w n).
Proof.
  intros h w rs v P R E. pose proof (reach_inv h w rs P R) as I.
  destruct (get_Ok w v E) as [o [V G]]. cbn [tstep]. rewrite G. cbn [bind].
  destruct (c_handle (o_context o)) as [m|] eqn:N.
  - destruct (i_open w I v o m V N) as [[k [K1 K2]] _]. rewrite (handle_Ok w m k K1 K2). cbn [bind].
    eexists. split; [reflexivity|]. split; [destruct (k_phase k); auto|].
    assert (W : (exists n, responsible w v n /\ working w n) <-> k_phase k <> Ended).
    { split.
      - intros [n [[q [Q1 Q2]] [k' [A B]]]]. assert (n = m) by congruence. subst n. congruence.
      - intro X. exists m. split; [exists o; auto|exists k; auto]. }
    rewrite W. destruct (k_phase k); split; intro X; congruence.
  - exists 0%Z. split; [reflexivity|]. split; [auto|]. split; [discriminate|].
    intros [n [U _]]. exfalso. apply (no_resp w v o n V N U).
Qed.

(** detach() gives the thread up: the handle is closed, the body goes on, and the object is as
    new. *)
Theorem C150_detach : forall h w rs v n,
  proper_history t_start h -> truns t_start h = Ok (w, rs) -> responsible w v n ->
  exists w', tstep w (TDetach v) = Ok (w', None)
    /\ ~ open_handle w' n
    /\ (forall m, working w' m <-> working w m)
    /\ w_vars w' v = Some (TObj initializer 0)
    /\ (forall u, u <> v -> w_vars w' u = w_vars w u).
Proof.
  intros h w rs v n P R [o [V N]]. pose proof (reach_inv h w rs P R) as I.
  eexists. split; [apply (detach_step w v o I V)|]. rewrite N.
  destruct (i_open w I v o n V N) as [[k [K1 K2]] _].
  unfold release. rewrite V, N, K1. split; [|split; [|split]].
  - intros [k' [A B]]. cbn in A. rewrite (upd_same _ _ _ _ K1) in A. injection A as A. subst k'. discriminate B.
  - intro m. unfold working. cbn. destruct (Nat.eq_dec m n) as [F|F].
    + subst m. rewrite (upd_same _ _ _ _ K1). split; intros [k' [A B]].
      * injection A as A. subst k'. exists k. auto.
      * assert (k' = k) by congruence. subst k'. eexists. split; [reflexivity|exact B].
    + rewrite upd_other by auto. tauto.
  - apply setv_eq.
  - intros u U. apply setv_neq. exact U.
Qed.

(** * C151: a start that failed can be tried again *)

(** It is never tried again, whatever the system would answer. *)
Theorem C151_again_refuted : forall w v e es w1 r1 w2 rs,
  w_vars w v = None -> (0 < e)%Z ->
  truns w [TNew v; TRun v false (Some e)] = Ok (w1, r1) ->
  truns w1 (map (fun x => TRun v (fst x) (snd x)) es) = Ok (w2, rs) ->
  w_threads w2 = w_threads w /\ exists z, z <> 0%Z /\ tstep w2 (TGetStatus v) = Ok (w2, Some z).
Proof.
  intros w v e es w1 r1 w2 rs V E R1 R2.
  assert (S1 : w_threads w1 = w_threads w /\ w_vars w1 v = Some (TObj (TContext None IdDetached) (- e))).
  { cbn in R1. unfold free in R1. rewrite V in R1. cbn in R1. unfold get in R1. cbn in R1. rewrite setv_eq in R1.
    cbn in R1. injection R1 as R1 _. subst w1. cbn. rewrite setv_eq. split; reflexivity. }
  destruct S1 as [T1 V1]. clear R1 V.
  assert (L : forall es w1 w2 rs, w_vars w1 v = Some (TObj (TContext None IdDetached) (- e)) ->
     truns w1 (map (fun x => TRun v (fst x) (snd x)) es) = Ok (w2, rs) ->
     w_threads w2 = w_threads w1 /\ w_vars w2 v = Some (TObj (TContext None IdDetached) (- e))).
  { clear -E. induction es as [|[pad a] es IH]; intros w1 w2 rs V R.
    - cbn in R. injection R as R _. subst w2. auto.
    - cbn [map truns tstep fst snd] in R. unfold get in R. rewrite V in R. cbn [bind fst snd] in R.
      assert (X : do_run w1 v (TObj (TContext None IdDetached) (- e)) pad a = put w1 v (Some (TObj (TContext None IdDetached) (- e)))).
      { unfold do_run. cbn. destruct (Z.eqb_spec (- e) 0); [lia|reflexivity]. }
      rewrite X in R. destruct (truns (put w1 v _) (map _ es)) as [[w3 rs3]| |] eqn:T; try discriminate R.
      cbn in R. injection R as R _. subst w3.
      apply IH in T; [|apply setv_eq]. destruct T as [T1 T2]. split; [rewrite T1; reflexivity|exact T2]. }
  destruct (L es w1 w2 rs V1 R2) as [A B]. split; [congruence|]. exists (- e)%Z. split; [lia|].
  cbn. unfold get. rewrite B. reflexivity.
Qed.

(** After detach() it is: the object is as new. *)
Theorem C151_detach_partial : forall w v e w1 r1 w2 r2,
  w_vars w v = None -> (0 < e)%Z ->
  truns w [TNew v; TRun v false (Some e)] = Ok (w1, r1) -> tstep w1 (TDetach v) = Ok (w2, r2) ->
  w_threads w2 = w_threads w /\ w_vars w2 v = Some (TObj initializer 0).
Proof.
  intros w v e w1 r1 w2 r2 V E R1 R2.
  cbn in R1. unfold free in R1. rewrite V in R1. cbn in R1. unfold get in R1. cbn in R1. rewrite setv_eq in R1.
  cbn in R1. injection R1 as R1 _. subst w1. cbn in R2. unfold get in R2. cbn in R2. rewrite setv_eq in R2.
  cbn in R2. injection R2 as R2 _. subst w2. cbn. rewrite setv_eq. split; reflexivity.
Qed.

(** * C191: an object that was never started *)

Lemma destroy_vars w c w' z : do_destroy w c = Ok (w', z) -> w_vars w' = w_vars w.
Proof.
  unfold do_destroy. destruct (c_id c); [| |];
    try (intros [= <- _]; reflexivity);
    destruct (same_as_initializer c); try (intros [= <- _]; reflexivity);
    destruct (c_handle c) as [m|]; try (intros [= <- _]; reflexivity);
    destruct (handle_of w m); cbn; try discriminate; intros [= <- _]; reflexivity.
Qed.
Lemma join_vars w c w' z : do_join w c = Ok (w', z) -> w_vars w' = w_vars w.
Proof.
  unfold do_join. destruct (c_handle c) as [n|]; try (intros [= <- _]; reflexivity).
  destruct (handle_of w n) as [k| |]; cbn; try discriminate.
  destruct (k_phase k); cbn; try (destruct (get w (k_object k)); cbn; try discriminate);
    intros [= <- _]; reflexivity.
Qed.

(** What is not about an object does not touch it. *)
Lemma frame w c w' r v : tstep w c = Ok (w', r) -> about v c = false -> w_vars w' v = w_vars w v.
Proof.
  intros T A. destruct c as [u|u p|u p pad|u pad e|u|u|u|u|u pad|n|n]; cbn in A;
    try (apply Nat.eqb_neq in A); cbn [tstep] in T.
  - destruct (free w u); cbn in T; try discriminate. injection T as <- _. cbn. apply setv_neq. lia.
  - discriminate.
  - apply orb_false_iff in A. destruct A as [A1 A2]. apply Nat.eqb_neq in A1, A2.
    unfold move_assign in T. destruct (get w u) as [o| |]; cbn in T; try discriminate.
    destruct (is_initial (o_context o) pad); cbn in T.
    + destruct (get w p); cbn in T; try discriminate. injection T as <- _. cbn.
      rewrite !setv_neq by lia. reflexivity.
    + destruct (do_destroy w (o_context o)) as [[w1 z]| |] eqn:D; cbn in T; try discriminate.
      apply destroy_vars in D. destruct (get w1 p); cbn in T; try discriminate.
      injection T as <- _. cbn. rewrite !setv_neq by lia. rewrite D. reflexivity.
  - destruct (get w u) as [o| |]; cbn in T; try discriminate. injection T as <- _.
    unfold do_run. match goal with |- context [if ?b then match e with _ => _ end else _] => destruct b end.
    + destruct e; cbn; rewrite setv_neq by lia; reflexivity.
    + cbn. rewrite setv_neq by lia. reflexivity.
  - destruct (get w u) as [o| |]; cbn in T; try discriminate.
    destruct (do_join w (o_context o)) as [[w1 z]| |] eqn:D; cbn in T; try discriminate.
    apply join_vars in D. injection T as <- _. cbn. rewrite setv_neq by lia. rewrite D. reflexivity.
  - destruct (get w u) as [o| |]; cbn in T; try discriminate.
    unfold do_detach in T. destruct (do_destroy w (o_context o)) as [[w1 z]| |] eqn:D; cbn in T; try discriminate.
    apply destroy_vars in D. destruct (negb (z =? 0)%Z); cbn in T.
    + injection T as <- _. cbn. rewrite setv_neq by lia. rewrite D. reflexivity.
    + injection T as <- _. cbn. rewrite setv_neq by lia. rewrite D. reflexivity.
  - destruct (get w u) as [o| |]; cbn in T; try discriminate.
    destruct (c_handle (o_context o)) as [n|]; [|injection T as <- _; reflexivity].
    destruct (handle_of w n); cbn in T; try discriminate. injection T as <- _. reflexivity.
  - destruct (get w u); cbn in T; try discriminate. injection T as <- _. reflexivity.
  - destruct (get w u) as [o| |]; cbn in T; try discriminate.
    destruct (in_use w u); try discriminate. destruct (is_initial (o_context o) pad).
    + injection T as <- _. cbn. rewrite setv_neq by lia. reflexivity.
    + destruct (do_join w (o_context o)) as [[w1 z]| |] eqn:D; cbn in T; try discriminate.
      destruct (do_destroy w1 (o_context o)) as [[w2 z2]| |] eqn:D2; cbn in T; try discriminate.
      apply join_vars in D. apply destroy_vars in D2. injection T as <- _. cbn.
      rewrite setv_neq by lia. rewrite D2, D. reflexivity.
  - destruct (nth_error (w_threads w) n) as [[u [| |] b]|]; try (injection T as <- _; reflexivity).
    destruct (get w u); cbn in T; try discriminate. injection T as <- _. reflexivity.
  - destruct (nth_error (w_threads w) n) as [[u [| |] b]|]; injection T as <- _; reflexivity.
Qed.

Lemma idle_run : forall h w v z w' rs, w_vars w v = Some (TObj initializer z) -> only_asked v h ->
  truns w h = Ok (w', rs) -> idle_answers v z h rs.
Proof.
  induction h as [|c h IH]; intros w v z w' rs V O R; cbn [truns] in R.
  - injection R as _ <-. exact I.
  - destruct (tstep w c) as [[w1 r1]| |] eqn:T; try discriminate R.
    cbn [bind fst snd] in R. destruct (truns w1 h) as [[w2 rs2]| |] eqn:TR; try discriminate R.
    cbn [bind fst snd] in R. injection R as _ <-. cbn [idle_answers].
    assert (O' : only_asked v h) by (intros x X; apply O; right; exact X).
    destruct (about v c) eqn:A.
    + destruct (O c (or_introl eq_refl) A) as [->|[->|[->| ->]]];
        cbn [tstep] in T; unfold get in T; rewrite V in T; cbn in T; injection T as <- <-;
        (split; [reflexivity|]).
      * apply (IH (put w v (Some (TObj initializer (-6)))) v (-6)%Z w2 rs2); auto. apply setv_eq.
      * apply (IH (put w v (Some (TObj initializer (-1)))) v (-1)%Z w2 rs2); auto. apply setv_eq.
      * apply (IH w v z w2 rs2); auto.
      * apply (IH w v z w2 rs2); auto.
    + apply (IH w1 v z w2 rs2); auto. rewrite (frame w c w1 r1 v T A). exact V.
Qed.

(** Whatever is done with other objects and by the threads meanwhile. *)
Theorem C191_never_started : forall w v h w' rs,
  w_vars w v = None -> only_asked v h -> truns w (TNew v :: h) = Ok (w', None :: rs) ->
  idle_answers v 0 h rs.
Proof.
  intros w v h w' rs V O R. cbn [truns tstep] in R. unfold free in R. rewrite V in R.
  cbn [bind fst snd] in R.
  destruct (truns (put w v (Some (TObj initializer 0))) h) as [[w2 rs2]| |] eqn:T; try discriminate R.
  cbn in R. injection R as _ <-.
  apply (idle_run h (put w v (Some (TObj initializer 0))) v 0%Z w2 rs2); auto. apply setv_eq.
Qed.

(** The calls of an object that is responsible for no thread change no thread and no other
    object. *)
Theorem C191_no_effect : forall w c v w' r,
  c = TJoin v \/ c = TDetach v \/ c = TIsWorking v \/ c = TGetStatus v ->
  (forall n, ~ responsible w v n) -> tstep w c = Ok (w', r) ->
  w_threads w' = w_threads w /\ forall u, u <> v -> w_vars w' u = w_vars w u.
Proof.
  intros w c v w' r C N T. split.
  - assert (G : forall o, w_vars w v = Some o -> c_handle (o_context o) = None).
    { intros o V. destruct (c_handle (o_context o)) as [n|] eqn:H; [|reflexivity].
      destruct (N n). exists o. auto. }
    destruct C as [->|[->|[->| ->]]]; cbn [tstep] in T; unfold get in T;
      destruct (w_vars w v) as [o|] eqn:V; cbn in T; try discriminate; specialize (G o eq_refl).
    + unfold do_join in T. rewrite G in T. cbn in T. injection T as <- _. reflexivity.
    + unfold do_detach, do_destroy in T. rewrite G in T.
      destruct (c_id (o_context o)) eqn:I; unfold same_as_initializer in T; rewrite ?G, ?I in T; cbn in T;
        injection T as <- _; reflexivity.
    + rewrite G in T. injection T as <- _. reflexivity.
    + injection T as <- _. reflexivity.
  - intros u U. apply (frame w c w' r u T).
    destruct C as [->|[->|[->| ->]]]; cbn; apply Nat.eqb_neq; lia.
Qed.

Example C191_case :
  only_asked 0 [TGetStatus 0; TNew 1; TJoin 0; TRun 1 false None; TGetStatus 0; TDetach 0; TGetStatus 0; TIsWorking 0] /\
  exists w', truns t_start (TNew 0 ::
    [TGetStatus 0; TNew 1; TJoin 0; TRun 1 false None; TGetStatus 0; TDetach 0; TGetStatus 0; TIsWorking 0])
    = Ok (w', [None; Some 0; None; None; None; Some (-6); None; Some (-1); Some 0]%Z).
Proof.
  split.
  - intros c I A. cbn in I.
    repeat (destruct I as [<-|I]; [first [discriminate A|auto]|]). contradiction.
  - eexists. vm_compute. reflexivity.
Qed.

(** * Cases *)

(** An object runs, is joined twice and deleted; another one is detached and deleted after its
    body ended. *)
Definition sample : list tcall :=
  [TNew 0; TNew 1; TRun 0 true None; TRun 1 false None; KBegin 0; KBegin 1; TIsWorking 0; TJoin 0; TJoin 0;
   TIsWorking 0; TGetStatus 0; TDelete 0 false; TDetach 1; KEnd 1; TDelete 1 true].
Ltac side := cbn; unfold exists_, busy, responsible; cbn;
  repeat match goal with
  | |- _ /\ _ => split
  | |- _ -> _ => let X := fresh in intro X
  | |- ~ _ => let X := fresh in intro X
  | |- forall _, _ => let X := fresh in intro X
  | H : exists _, _ |- _ => destruct H
  | H : _ /\ _ |- _ => destruct H
  | H : nth_error _ ?n = Some _ |- _ => destruct n; cbn in H
  | H : Some _ = Some _ |- _ => injection H as H; subst
  end; cbn in *; try discriminate; try congruence; try exact Logic.I.
Ltac go := let w' := fresh in let r := fresh in let X := fresh in
  split; [once side|intros w' r X; vm_compute in X; injection X as X _; subst w'].

Example C148_case : proper_history t_start sample /\ no_rerun_history t_start sample
  /\ exists w, truns t_start sample = Ok (w,
       [None; None; None; None; None; None; Some 1%Z; None; None; Some 0%Z; Some 0%Z; None; None; None; None])
     /\ w_threads w = [KThread 0 Ended false; KThread 1 Ended false].
Proof. split; [do 15 go; exact Logic.I|]. split; [do 15 go; exact Logic.I|]. eexists. split; [vm_compute; reflexivity|reflexivity]. Qed.

(** Deleted while the body works. *)
Example C148_busy_case : exists w rs, truns t_start [TNew 0; TRun 0 false None; KBegin 0] = Ok (w, rs)
  /\ exists_ w 0 /\ busy w 0.
Proof.
  do 2 eexists. split; [vm_compute; reflexivity|]. split; [cbn; unfold exists_; cbn; discriminate|].
  exists 0, (KThread 0 Working true). repeat split. discriminate.
Qed.

(** Run again after join() and deleted: the first handle stays open. *)
Example C149_case : exists w rs,
  truns t_start [TNew 0; TRun 0 false None; KBegin 0; KEnd 0; TJoin 0; TRun 0 false None; KBegin 1; KEnd 1; TDelete 0 false] = Ok (w, rs)
  /\ w_threads w = [KThread 0 Ended true; KThread 0 Ended false] /\ orphan w 0.
Proof.
  do 2 eexists. split; [vm_compute; reflexivity|]. split; [reflexivity|]. split.
  - exists (KThread 0 Ended true). split; reflexivity.
  - intros v [o [V _]]. destruct v as [|v]; discriminate V.
Qed.

(** The start fails, then the system has resources again. *)
Example C151_case : exists w1 r1 w2 rs,
  truns t_start [TNew 0; TRun 0 false (Some 8%Z)] = Ok (w1, r1)
  /\ truns w1 [TRun 0 false None; TRun 0 true None] = Ok (w2, rs) /\ w_threads w2 = [].
Proof. do 4 eexists. split; [vm_compute; reflexivity|]. split; [vm_compute; reflexivity|reflexivity]. Qed.

Print Assumptions C148_safe_partial.
Print Assumptions C148_exact_partial.
Print Assumptions C148_move_refuted.
Print Assumptions C148_busy_refuted.
Print Assumptions C149_account_partial.
Print Assumptions C149_none_left_partial.
Print Assumptions C149_rerun_refuted.
Print Assumptions C150_run.
Print Assumptions C150_join.
Print Assumptions C150_working.
Print Assumptions C150_detach.
Print Assumptions C151_again_refuted.
Print Assumptions C151_detach_partial.
Print Assumptions C191_never_started.
Print Assumptions C191_no_effect.
