(** C91-C95: exactly what any history of thread objects does. *)
From Coq Require Import List Arith ZArith Lia Bool.
From Verif Require Import Base BaseLemmas ThreadModel ThreadSpec ThreadExactSpec ThreadProofs.
Import ListNotations.

Definition seen_thread (k : kthread) : nat * phase * bool := (k_object k, k_phase k, k_released k).

Definition not_owner (o : option (holding * Z)) : Prop :=
  match o with Some (Owns _, _) => False | _ => True end.

Record fine (x : account) : Prop := Fine {
  f_owned : forall v n z, x_objects x v = Some (Owns n, z) ->
    ~ In n (x_lost x) /\ exists u ph, nth_error (x_threads x) n = Some (u, ph, false);
  f_once : forall v v' n z z', x_objects x v = Some (Owns n, z) -> x_objects x v' = Some (Owns n, z') -> v = v';
  f_alive : forall n u ph r, nth_error (x_threads x) n = Some (u, ph, r) -> ph <> Ended ->
    x_objects x u <> None;
  f_free : forall n u ph, nth_error (x_threads x) n = Some (u, ph, false) ->
    In n (x_lost x) \/ exists v z, x_objects x v = Some (Owns n, z);
  f_lost : forall n, In n (x_lost x) -> exists u ph, nth_error (x_threads x) n = Some (u, ph, false);
  f_nodup : NoDup (x_lost x) }.

Lemma fine_ext O O' T L : (forall v, O v = O' v) -> fine (Account O T L) -> fine (Account O' T L).
Proof.
  intros E [A B C D F G]. constructor; cbn in *.
  - intros v n z. rewrite <- E. apply A.
  - intros v v' n z z'. rewrite <- !E. apply B.
  - intros n u ph r. rewrite <- E. apply C.
  - intros n u ph H. destruct (D n u ph H) as [H1|(v & z & H1)]; [now left|right]. exists v, z. now rewrite <- E.
  - exact F.
  - exact G.
Qed.

Lemma busy_false x v : x_busy x v = false ->
  forall n u ph r, nth_error (x_threads x) n = Some (u, ph, r) -> ph <> Ended -> u <> v.
Proof.
  intros H n u ph r E NE ->. unfold x_busy in H.
  assert (X : existsb (fun t => match t with (_, Ended, _) => false | (u, _, _) => u =? v end) (x_threads x) = true).
  { apply existsb_exists. exists (v, ph, r). split; [exact (nth_error_In _ _ E)|].
    destruct ph; [apply Nat.eqb_refl|apply Nat.eqb_refl|congruence]. }
  congruence.
Qed.

Ltac var u v := destruct (Nat.eqb_spec u v) as [?|?]; [subst|].

Lemma fine_plain x v o : fine x -> not_owner (x_objects x v) -> not_owner o ->
  (o = None -> x_busy x v = false) -> fine (x_put x v o).
Proof.
  intros [A B C D F G] N N' U. constructor; cbn [x_put x_objects x_threads x_lost]; auto.
  - intros u n z. var u v; [intros ->; destruct N'|]. apply A.
  - intros u u' n z z'. var u v; [intros ->; destruct N'|]. intros H. var u' v; [intros ->; destruct N'|].
    apply (B _ _ _ _ _ H).
  - intros n u ph r H NE. var u v; [|exact (C _ _ _ _ H NE)].
    intros ->. exact (busy_false _ _ (U eq_refl) _ _ _ _ H NE eq_refl).
  - intros n u ph H. destruct (D n u ph H) as [H1|(w & z & H1)]; [now left|right]. exists w, z.
    var w v; [rewrite H1 in N; destruct N|exact H1].
Qed.

Lemma fine_release x v n z o ph : fine x -> x_objects x v = Some (Owns n, z) -> not_owner o ->
  (o = None -> x_busy x v = false) -> (ph = Ended \/ ph = x_phase x n) ->
  fine (x_put (x_thread x n ph true) v o).
Proof.
  intros [A B C D F G] E N' U P. destruct (A _ _ _ E) as (NL & u0 & ph0 & EN).
  unfold x_thread. rewrite EN.
  constructor; cbn [x_put x_objects x_threads x_lost]; auto.
  - intros u m z'. var u v; [intros ->; destruct N'|]. intros H. destruct (A _ _ _ H) as (NL' & u1 & ph1 & E1).
    split; [exact NL'|]. exists u1, ph1. rewrite nth_error_upd_neq; [exact E1|].
    intros ->. apply n0. exact (B _ _ _ _ _ H E).
  - intros u u' m z1 z2. var u v; [intros ->; destruct N'|]. intros H. var u' v; [intros ->; destruct N'|].
    apply (B _ _ _ _ _ H).
  - intros m u ph1 r H NE.
    assert (X : exists ph' r', nth_error (x_threads x) m = Some (u, ph', r') /\ ph' <> Ended).
    { destruct (Nat.eq_dec n m) as [->|NM].
      - rewrite nth_error_upd_eq in H by (exact (nth_lt _ _ _ EN)). injection H as <- <- <-.
        exists ph0, false. split; [exact EN|]. destruct P as [->| ->]; [congruence|].
        unfold x_phase in NE. rewrite EN in NE. exact NE.
      - rewrite nth_error_upd_neq in H by exact NM. eauto. }
    destruct X as (ph' & r' & H' & NE').
    var u v; [|exact (C _ _ _ _ H' NE')].
    intros ->. exact (busy_false _ _ (U eq_refl) _ _ _ _ H' NE' eq_refl).
  - intros m u ph1 H. destruct (Nat.eq_dec n m) as [->|NM].
    { rewrite nth_error_upd_eq in H by (exact (nth_lt _ _ _ EN)). discriminate. }
    rewrite nth_error_upd_neq in H by exact NM.
    destruct (D m u ph1 H) as [H1|(w & z1 & H1)]; [now left|right]. exists w, z1.
    var w v; [congruence|exact H1].
  - intros m H. destruct (F m H) as (u & ph1 & H1). exists u, ph1.
    rewrite nth_error_upd_neq; [exact H1|]. intros ->. now apply NL.
Qed.

Lemma fine_lose x v n z st : fine x -> x_objects x v = Some (Owns n, z) ->
  fine (x_put (x_lose x (Owns n)) v (Some (Without, st))).
Proof.
  intros [A B C D F G] E. destruct (A _ _ _ E) as (NL & u0 & ph0 & EN).
  constructor; cbn [x_put x_lose x_objects x_threads x_lost].
  - intros u m z'. var u v; [discriminate|]. intros H. destruct (A _ _ _ H) as (NL' & H').
    split; [|exact H']. intros [->|H1]; [|now apply NL']. apply n0. exact (B _ _ _ _ _ H E).
  - intros u u' m z1 z2. var u v; [discriminate|]. intros H. var u' v; [discriminate|]. apply (B _ _ _ _ _ H).
  - intros m u ph1 r H NE. var u v; [discriminate|exact (C _ _ _ _ H NE)].
  - intros m u ph1 H. destruct (D m u ph1 H) as [H1|(w & z1 & H1)]; [left; now right|].
    var w v; [left; left; congruence|]. right. exists w, z1. var w v; [congruence|exact H1].
  - intros m [->|H]; [eauto|exact (F m H)].
  - constructor; assumption.
Qed.

Lemma fine_started x v o : fine x -> x_objects x v = Some o -> not_owner (Some o) -> fine (x_started x v).
Proof.
  intros [A B C D F G] E N.
  assert (LT : forall m t, nth_error (x_threads x) m = Some t ->
            nth_error (x_threads x ++ [(v, NotBegun, false)]) m = Some t).
  { intros m t H. rewrite nth_error_app1; [exact H|exact (nth_lt _ _ _ H)]. }
  constructor; cbn [x_started x_put x_objects x_threads x_lost]; auto.
  - intros u m z'. var u v.
    + intros H. injection H as <- _. split.
      * intros H. destruct (F _ H) as (u & ph & H'). apply nth_lt in H'. lia.
      * exists v, NotBegun. rewrite nth_error_app2, Nat.sub_diag by lia. reflexivity.
    + intros H. destruct (A _ _ _ H) as (NL' & u1 & ph1 & H'). split; [exact NL'|]. eauto.
  - intros u u' m z1 z2. var u v.
    + intros H. injection H as <- _. var u' v; [reflexivity|]. intros H.
      destruct (A _ _ _ H) as (_ & u1 & ph1 & H'). apply nth_lt in H'. lia.
    + intros H. var u' v.
      * intros H'. injection H' as <- _. destruct (A _ _ _ H) as (_ & u1 & ph1 & H'). apply nth_lt in H'. lia.
      * apply (B _ _ _ _ _ H).
  - intros m u ph1 r H NE. var u v; [discriminate|].
    destruct (Nat.lt_ge_cases m (length (x_threads x))) as [L|L].
    + rewrite nth_error_app1 in H by exact L. exact (C _ _ _ _ H NE).
    + rewrite nth_error_app2 in H by exact L. destruct (m - length (x_threads x)) as [|[|]]; cbn in H; congruence.
  - intros m u ph1 H. destruct (Nat.lt_ge_cases m (length (x_threads x))) as [L|L].
    + rewrite nth_error_app1 in H by exact L. destruct (D m u ph1 H) as [H1|(w & z1 & H1)]; [now left|right].
      exists w, z1. var w v; [|exact H1]. rewrite H1 in E. injection E as <-. destruct N.
    + right. exists v, 0%Z. rewrite Nat.eqb_refl. f_equal. f_equal. f_equal.
      assert (m < length (x_threads x ++ [(v, NotBegun, false)])) as L' by exact (nth_lt _ _ _ H).
      rewrite app_length in L'. cbn in L'. lia.
  - intros m H. destruct (F m H) as (u & ph1 & H1). eauto.
Qed.

Lemma fine_move x v p h o : fine x -> v <> p -> x_objects x v = Some h -> not_owner (Some h) ->
  x_objects x p = Some o -> fine (x_put (x_put x v (Some o)) p (Some (Without, 0%Z))).
Proof.
  intros [A B C D F G] NE EV N EP.
  constructor; cbn [x_put x_objects x_threads x_lost]; auto.
  - intros u m z. var u p; [discriminate|]. var u v; [|apply A]. intros H. apply (A p m z). congruence.
  - intros u u' m z z'. var u p; [discriminate|]. var u' p; [discriminate|].
    var u v; var u' v; auto.
    + intros H H'. assert (p = u') by (apply (B p u' m z z'); congruence). congruence.
    + intros H H'. assert (u = p) by (apply (B u p m z z'); congruence). congruence.
    + apply B.
  - intros m u ph1 r H X. var u p; [discriminate|]. var u v; [discriminate|]. exact (C _ _ _ _ H X).
  - intros m u ph1 H. destruct (D m u ph1 H) as [H1|(w & z1 & H1)]; [now left|right].
    var w p.
    + exists v, z1. var v p; [congruence|]. rewrite Nat.eqb_refl. congruence.
    + exists w, z1. var w p; [congruence|]. var w v; [|exact H1]. rewrite H1 in EV. injection EV as <-. destruct N.
Qed.

Lemma fine_goes_on x n ph : fine x -> x_phase x n <> Ended -> fine (x_thread x n ph (x_released x n)).
Proof.
  intros [A B C D F G] NE. unfold x_thread, x_phase, x_released in *.
  destruct (nth_error (x_threads x) n) as [((u0, ph0), r0)|] eqn:EN; [|now constructor].
  assert (X : forall m u ph1 r, nth_error (x_threads x) m = Some (u, ph1, r) ->
            exists ph2, nth_error (upd (x_threads x) n (u0, ph, r0)) m = Some (u, ph2, r)).
  { intros m u ph1 r H. destruct (Nat.eq_dec n m) as [->|NM].
    - rewrite nth_error_upd_eq by exact (nth_lt _ _ _ EN). rewrite EN in H. injection H as <- <- <-. eauto.
    - rewrite nth_error_upd_neq by exact NM. eauto. }
  assert (Y : forall m u ph1 r, nth_error (upd (x_threads x) n (u0, ph, r0)) m = Some (u, ph1, r) ->
            exists ph2, nth_error (x_threads x) m = Some (u, ph2, r) /\ (ph1 <> Ended -> ph2 <> Ended)).
  { intros m u ph1 r H. destruct (Nat.eq_dec n m) as [->|NM].
    - rewrite nth_error_upd_eq in H by exact (nth_lt _ _ _ EN). injection H as <- <- <-. eauto.
    - rewrite nth_error_upd_neq in H by exact NM. eauto. }
  constructor; cbn [x_objects x_threads x_lost]; auto.
  - intros v m z H. destruct (A _ _ _ H) as (NL & u & ph1 & H'). split; [exact NL|].
    destruct (X _ _ _ _ H') as (ph2 & H2). eauto.
  - intros m u ph1 r H NE'. destruct (Y _ _ _ _ H) as (ph2 & H2 & K). exact (C _ _ _ _ H2 (K NE')).
  - intros m u ph1 H. destruct (Y _ _ _ _ H) as (ph2 & H2 & _). exact (D _ _ _ H2).
  - intros m H. destruct (F m H) as (u & ph1 & H1). destruct (X _ _ _ _ H1) as (ph2 & H2). eauto.
Qed.

Lemma fine_step az le errno x c x' r : fine x -> x_step az le errno x c = Some (x', r) -> fine x'.
Proof.
  intros I. destruct c as [v|v p|v p|v r1 r2|v|v|v r0|v|v|n|n]; cbn [x_step].
  - destruct (x_objects x v) eqn:E; [discriminate|]. intros H. injection H as <- _.
    apply fine_plain; cbn; auto; [now rewrite E|discriminate].
  - discriminate.
  - intros H.
    assert (X : exists h z o, x_objects x v = Some (h, z) /\ x_objects x p = Some o /\
              x' = x_put (x_put (x_lose x h) v (Some o)) p (Some (Without, 0%Z))).
    { destruct (x_objects x v) as [(h, z)|]; [|discriminate].
      destruct h; [| | |discriminate]; (destruct (x_objects x p) as [o|]; [|discriminate]);
        injection H as <- _; eauto 6. }
    clear H. destruct X as (h & z & o & E & E2 & ->).
    assert (Y : fine (x_put (x_lose x h) v (Some (Without, 0%Z)))).
    { destruct h; try (apply fine_plain; cbn [x_lose not_owner]; auto; [now rewrite E|discriminate]).
      now apply fine_lose with (z := z). }
    destruct (Nat.eq_dec v p) as [->|NE].
    + apply (fine_ext (x_objects (x_put (x_lose x h) p (Some (Without, 0%Z))))); [|exact Y].
      intros u. cbn. destruct (u =? p); reflexivity.
    + assert (Z := fine_move _ v p (Without, 0%Z) o Y NE).
      apply (fine_ext (x_objects (x_put (x_put (x_put (x_lose x h) v (Some (Without, 0%Z))) v (Some o))
               p (Some (Without, 0%Z))))).
      { intros u. cbn. destruct (u =? p), (u =? v); reflexivity. }
      apply Z; cbn; auto; [now rewrite Nat.eqb_refl|].
      destruct (Nat.eqb_spec p v); [congruence|]. destruct h; exact E2.
  - assert (K : forall o, x_objects x v = Some o -> not_owner (Some o) ->
              fine (if (r2 =? 0)%Z then x_started x v else x_put x v (Some (Broken, (- errno)%Z)))).
    { intros o E N. destruct (r2 =? 0)%Z; [exact (fine_started _ _ _ I E N)|].
      apply fine_plain; auto; [now rewrite E|exact Logic.I|discriminate]. }
    destruct (x_objects x v) as [([|n| |], z)|] eqn:E; try discriminate.
    + destruct (r1 =? 0)%Z; [intros H; injection H as <- _; now apply (K _ eq_refl)|].
      destruct (errno =? 0)%Z; [discriminate|]. intros H. injection H as <- _.
      apply fine_plain; auto; [now rewrite E|exact Logic.I|discriminate].
    + intros H. injection H as <- _.
      assert (Y := fine_lose _ v n z 0%Z I E).
      destruct (r2 =? 0)%Z.
      * assert (Z := fine_started _ v (Without, 0%Z) Y). cbn [x_put x_objects] in Z. rewrite Nat.eqb_refl in Z.
        specialize (Z eq_refl Logic.I). cbn [x_started x_lose x_put x_objects x_threads x_lost] in *.
        refine (fine_ext _ _ _ _ _ Z). intros u. cbn. destruct (u =? v); reflexivity.
      * assert (Z : fine (x_put (x_put (x_lose x (Owns n)) v (Some (Without, 0%Z))) v (Some (Broken, (- errno)%Z)))).
        { apply fine_plain; cbn; auto; [now rewrite Nat.eqb_refl|discriminate]. }
        cbn [x_lose x_put x_objects x_threads x_lost] in *.
        refine (fine_ext _ _ _ _ _ Z). intros u. cbn. destruct (u =? v); reflexivity.
    + intros H. injection H as <- _. now apply (K _ eq_refl).
  - destruct (x_objects x v) as [([|n| |], z)|] eqn:E; try discriminate. intros H. injection H as <- _.
    apply (fine_release _ _ _ _ _ _ I E); cbn; auto. discriminate.
  - destruct (x_objects x v) as [([|n| |], z)|] eqn:E; try discriminate.
    destruct (az || le); [|discriminate]. intros H. injection H as <- _.
    apply (fine_release _ _ _ _ _ _ I E); cbn; auto. discriminate.
  - destruct (x_objects x v) as [([|n| |], z)|] eqn:E; try discriminate. intros H. now injection H as <- _.
  - destruct (x_objects x v) as [(h, z)|] eqn:E; try discriminate. intros H. now injection H as <- _.
  - destruct (x_busy x v) eqn:U; [discriminate|].
    destruct (x_objects x v) as [([|n| |], z)|] eqn:E; try discriminate; intros H; injection H as <- _.
    + apply fine_plain; auto; [now rewrite E|exact Logic.I].
    + apply (fine_release _ _ _ _ _ _ I E); cbn; auto.
  - intros H. injection H as <- _. destruct (x_phase x n) eqn:P; auto. apply fine_goes_on; auto. congruence.
  - intros H. injection H as <- _. destruct (x_phase x n) eqn:P; auto. apply fine_goes_on; auto. congruence.
Qed.

(** * The objects themselves *)

Definition holds (T : list (nat * phase * bool)) (o : option tobj) (a : option (holding * Z)) : Prop :=
  match o, a with
  | None, None => True
  | Some (TObj (Some c) z), Some (h, z') =>
      z = z' /\
      match h with
      | Without => c = initializer
      | Owns n => c = TContext (Id n) AInit /\ z = 0%Z
      | Joined => z = 0%Z /\ exists m u, c = TContext (Id m) AInit /\ nth_error T m = Some (u, Ended, true)
      | Broken => c = TContext IdJunk AInit
      end
  | _, _ => False
  end.

Record rel (errno : Z) (w : tworld) (x : account) : Prop := Rel {
  r_threads : map seen_thread (w_threads w) = x_threads x;
  r_errno : w_errno w = errno;
  r_objects : forall v, holds (x_threads x) (w_vars w v) (x_objects x v) }.

Lemma rel_put e w x v o a : rel e w x -> holds (x_threads x) o a -> rel e (put w v o) (x_put x v a).
Proof.
  intros [A B C] H. constructor; cbn [put x_put w_threads w_errno w_vars x_threads x_objects]; auto.
  intros u. unfold setv. destruct (u =? v); auto.
Qed.

Lemma rel_lose e w x h : rel e w x -> rel e w (x_lose x h).
Proof. intros [A B C]. destruct h; now constructor. Qed.

Lemma holds_upd T n t o a : (forall u, nth_error T n = Some (u, Ended, true) -> False) ->
  holds T o a -> holds (upd T n t) o a.
Proof.
  intros N. unfold holds. destruct o as [([c|], z)|], a as [(h, z')|]; auto. intros (E & H). split; [exact E|].
  destruct h; auto. destruct H as (Z0 & m & u & EC & H). split; [exact Z0|]. exists m, u. split; [exact EC|].
  rewrite nth_error_upd_neq; [exact H|]. intros ->. exact (N _ H).
Qed.

Lemma rel_thread e w x n k ph r : rel e w x -> nth_error (w_threads w) n = Some k ->
  (k_phase k <> Ended \/ k_released k = false) ->
  rel e (set_thread w n (KThread (k_object k) ph r)) (x_thread x n ph r).
Proof.
  intros [A B C] E N.
  assert (EX : nth_error (x_threads x) n = Some (seen_thread k))
    by (rewrite <- A, nth_error_map, E; reflexivity).
  unfold x_thread. rewrite EX. cbn [seen_thread].
  constructor; cbn [set_thread w_threads w_errno w_vars x_threads x_objects]; auto.
  - rewrite map_upd', A. reflexivity.
  - intros v. apply holds_upd; [|apply C]. intros u H. rewrite EX in H. unfold seen_thread in H.
    injection H as _ H1 H2. destruct N as [N|N]; congruence.
Qed.

Lemma rel_nth e w x n : rel e w x -> nth_error (x_threads x) n = option_map seen_thread (nth_error (w_threads w) n).
Proof. intros [A _ _]. rewrite <- A. apply nth_error_map. Qed.

Lemma rel_busy e w x v : rel e w x -> in_use w v = x_busy x v.
Proof.
  intros [A _ _]. unfold in_use, x_busy. rewrite <- A. clear A. induction (w_threads w) as [|k l IH]; [reflexivity|].
  cbn [existsb map]. rewrite IH. f_equal. unfold seen_thread. destruct (k_phase k); [apply andb_true_r|apply andb_true_r|apply andb_false_r].
Qed.

(** One call does what the account says. *)
Lemma does az le errno w x c : rel errno w x -> fine x ->
  match x_step az le errno x c with
  | None => tstep az le w c = UB
  | Some (x', r) => exists w', tstep az le w c = Ok (w', r) /\ rel errno w' x'
  end.
Proof.
  intros R I.
  assert (OW : forall v n z, x_objects x v = Some (Owns n, z) ->
            exists k, nth_error (w_threads w) n = Some k /\ k_released k = false).
  { intros v n z H. destruct (f_owned _ I _ _ _ H) as (_ & u & ph & H').
    rewrite (rel_nth _ _ _ _ R) in H'. destruct (nth_error (w_threads w) n) as [k|]; [|discriminate].
    exists k. split; [reflexivity|]. cbn in H'. unfold seen_thread in H'. congruence. }
  assert (JO : forall v n z, x_objects x v = Some (Owns n, z) ->
            exists k, nth_error (w_threads w) n = Some k /\ k_released k = false /\
              do_join w (TContext (Id n) AInit) = Ok (set_thread w n (KThread (k_object k) Ended true))).
  { intros v n z H. destruct (OW _ _ _ H) as (k & E & RL). exists k. split; [exact E|]. split; [exact RL|].
    unfold do_join. cbn [c_id]. unfold thread_of. rewrite E. cbn [bind]. rewrite RL.
    assert (AL : k_phase k <> Ended -> exists o, w_vars w (k_object k) = Some o).
    { intros NE. assert (EX := rel_nth _ _ _ n R). rewrite E in EX. cbn in EX.
      assert (X := f_alive _ I _ _ _ _ EX NE). assert (Y := r_objects _ _ _ R (k_object k)).
      destruct (w_vars w (k_object k)) as [o|]; [eauto|]. destruct (x_objects x (k_object k)); [destruct Y|congruence]. }
    unfold get. destruct (k_phase k); [| |reflexivity];
      (destruct AL as (o & ->); [discriminate|reflexivity]). }
  destruct c as [v|v p|v p|v r1 r2|v|v|v r0|v|v|n|n]; cbn [x_step tstep].
  - unfold free. assert (H := r_objects _ _ _ R v).
    destruct (w_vars w v) as [([c|], z)|] eqn:EV; (destruct (x_objects x v) as [(h, z')|] eqn:EX; try (destruct H; fail));
      [reflexivity|].
    cbn [bind]. eexists. split; [reflexivity|]. apply rel_put; [exact R|]. cbn. auto.
  - unfold free. destruct (w_vars w v); [reflexivity|]. cbn [bind].
    unfold move_assign, get. cbn [put w_vars]. rewrite setv_eq. reflexivity.
  - unfold move_assign, get. assert (H := r_objects _ _ _ R v). assert (H2 := r_objects _ _ _ R p).
    destruct (w_vars w v) as [([c|], z)|] eqn:EV; (destruct (x_objects x v) as [(h, z')|] eqn:EX; try (destruct H; fail));
      [|reflexivity].
    cbn [holds] in H. destruct H as (<- & H). cbn [bind rd o_context].
    assert (P : match x_objects x p with
                | None => (let! s := match w_vars w p with Some o => Ok o | None => UB end in
                           let! _ := rd (o_context s) in
                           Ok (put (put w v (Some s)) p (Some (TObj (Some initializer) 0)))) = UB
                | Some o => exists w', (let! s := match w_vars w p with Some o => Ok o | None => UB end in
                           let! _ := rd (o_context s) in
                           Ok (put (put w v (Some s)) p (Some (TObj (Some initializer) 0)))) = Ok w' /\
                    rel errno w' (x_put (x_put (x_lose x h) v (Some o)) p (Some (Without, 0%Z)))
                end).
    { destruct (w_vars w p) as [([c'|], z')|] eqn:EVp; (destruct (x_objects x p) as [(h', z'')|]; try (destruct H2; fail));
        [|reflexivity].
      cbn [bind rd o_context]. eexists. split; [reflexivity|].
      apply rel_put; [|cbn; auto]. apply rel_put; [now apply rel_lose|].
      destruct h; exact H2. }
    assert (Q : match h with
                | Broken => is_initial az c = UB
                | _ => exists i, is_initial az c = Ok i /\
                       (if i then Ok tt else attr_destroy le (c_attr c)) = Ok tt
                end).
    { destruct h; [subst c; cbn; eauto| | |subst c; reflexivity].
      - destruct H as (-> & _). cbn. eauto.
      - destruct H as (_ & m & u & -> & _). cbn. eauto. }
    destruct h; [destruct Q as (i & -> & Q)..|now rewrite Q]; cbn [bind]; rewrite Q; cbn [bind];
      (destruct (x_objects x p) as [o|]; [destruct P as (w' & -> & P); cbn [bind]; eauto|now rewrite P]).
  - unfold get. assert (H := r_objects _ _ _ R v).
    assert (CR : forall (K : list (nat * phase * bool) -> Prop),
      exists w', (if (r2 =? 0)%Z
         then Ok (TWorld (setv (w_vars w) v
                             (Some (TObj (Some (TContext (Id (length (w_threads w))) AInit)) 0)))
                     (w_threads w ++ [KThread v NotBegun false]) (w_errno w))
          else Ok (put w v (Some (TObj (Some (TContext IdJunk AInit)) (return_result w r2))))) = Ok w' /\
      rel errno w' (if (r2 =? 0)%Z then x_started x v else x_put x v (Some (Broken, (- errno)%Z)))).
    { intros _. unfold return_result. destruct (r2 =? 0)%Z eqn:E2; (eexists; split; [reflexivity|]).
      - destruct R as [A B C]. constructor; cbn [w_threads w_errno w_vars x_started x_put x_threads x_objects]; auto.
        + rewrite map_app, A. reflexivity.
        + intros u. unfold setv. destruct (u =? v).
          * cbn. rewrite <- A, map_length. auto.
          * specialize (C u). unfold holds in *. destruct (w_vars w u) as [([c|], z)|], (x_objects x u) as [([| | |], z')|]; auto.
            destruct C as (C1 & C2 & m & u' & C3 & C4). split; [exact C1|]. split; [exact C2|]. exists m, u'.
            split; [exact C3|]. rewrite nth_error_app1; [exact C4|exact (nth_lt _ _ _ C4)].
      - rewrite (r_errno _ _ _ R). apply rel_put; [exact R|]. cbn. auto. }
    specialize (CR (fun _ => True)). destruct CR as (w1 & CR & RR).
    destruct (w_vars w v) as [([c|], z)|] eqn:EV; (destruct (x_objects x v) as [(h, z')|] eqn:EX; try (destruct H; fail));
      [|reflexivity].
    cbn [holds] in H. destruct H as (<- & H). cbn [bind]. unfold do_run. cbn [rd o_context bind].
    destruct h as [|n| |].
    + subst c. cbn [is_initial initializer c_id c_attr attr_bytes_zero bind o_status o_context rd].
      assert (RZ : return_result w r1 = if (r1 =? 0)%Z then 0%Z else (- errno)%Z)
        by (unfold return_result; now rewrite (r_errno _ _ _ R)).
      rewrite !RZ. clear RZ. destruct (r1 =? 0)%Z.
      * cbn [Z.eqb bind rd c_attr]. rewrite CR. cbn [bind]. eauto.
      * destruct (Z.eqb_spec errno 0) as [->|NE]; [reflexivity|].
        destruct (Z.eqb_spec (- errno) 0) as [|_]; [lia|]. cbn [bind]. eexists. split; [reflexivity|].
        apply rel_put; [exact R|]. cbn. auto.
    + destruct H as (-> & ->). cbn [is_initial c_id bind o_status o_context rd c_attr Z.eqb]. rewrite CR.
      cbn [bind]. eexists. split; [reflexivity|]. now apply rel_lose.
    + destruct H as (-> & m & u & -> & _). cbn [is_initial c_id bind o_status o_context rd c_attr Z.eqb].
      rewrite CR. cbn [bind]. eauto.
    + subst c. reflexivity.
  - unfold get. assert (H := r_objects _ _ _ R v).
    destruct (w_vars w v) as [([c|], z)|] eqn:EV; (destruct (x_objects x v) as [(h, z')|] eqn:EX; try (destruct H; fail));
      [|reflexivity].
    cbn [holds] in H. destruct H as (<- & H). cbn [bind rd o_context]. destruct h as [|n| |].
    + subst c. reflexivity.
    + destruct H as (-> & ->). destruct (JO _ _ _ EX) as (k & E & RL & ->). cbn [bind]. eexists. split; [reflexivity|].
      apply rel_put; [apply rel_thread; auto|]. cbn. split; [reflexivity|]. split; [reflexivity|].
      exists n, (k_object k). split; [reflexivity|]. assert (EN := rel_nth _ _ _ n R). rewrite E in EN. cbn in EN.
      unfold x_thread. rewrite EN. cbn. rewrite nth_error_upd_eq by exact (nth_lt _ _ _ EN). reflexivity.
    + destruct H as (_ & m & u & -> & EN). unfold do_join. cbn [c_id]. unfold thread_of.
      rewrite (rel_nth _ _ _ _ R) in EN. destruct (nth_error (w_threads w) m) as [k|]; [|discriminate].
      cbn in EN. unfold seen_thread in EN. injection EN as _ _ ER. cbn [bind]. rewrite ER. reflexivity.
    + subst c. reflexivity.
  - unfold get. assert (H := r_objects _ _ _ R v).
    destruct (w_vars w v) as [([c|], z)|] eqn:EV; (destruct (x_objects x v) as [(h, z')|] eqn:EX; try (destruct H; fail));
      [|reflexivity].
    cbn [holds] in H. destruct H as (<- & H). cbn [bind]. unfold do_detach_object. cbn [rd o_context bind].
    destruct h as [|n| |].
    + subst c. reflexivity.
    + destruct H as (-> & ->). destruct (OW _ _ _ EX) as (k & E & RL). unfold do_detach. cbn [c_id].
      unfold thread_of. rewrite E. cbn [bind]. rewrite RL. cbn [bind c_attr attr_bytes_zero].
      assert (EN := rel_nth _ _ _ n R). rewrite E in EN. cbn in EN.
      assert (PH : x_phase x n = k_phase k) by (unfold x_phase; rewrite EN; reflexivity).
      destruct az; cbn [bind c_attr attr_destroy orb].
      * eexists. split; [reflexivity|]. rewrite PH. apply rel_put; [apply rel_thread; auto|cbn; auto].
      * destruct le; cbn [bind]; [|reflexivity].
        eexists. split; [reflexivity|]. rewrite PH. apply rel_put; [apply rel_thread; auto|cbn; auto].
    + destruct H as (_ & m & u & -> & EN). unfold do_detach. cbn [c_id]. unfold thread_of.
      rewrite (rel_nth _ _ _ _ R) in EN. destruct (nth_error (w_threads w) m) as [k|]; [|discriminate].
      cbn in EN. unfold seen_thread in EN. injection EN as _ _ ER. cbn [bind]. rewrite ER. reflexivity.
    + subst c. reflexivity.
  - unfold get. assert (H := r_objects _ _ _ R v).
    destruct (w_vars w v) as [([c|], z)|] eqn:EV; (destruct (x_objects x v) as [(h, z')|] eqn:EX; try (destruct H; fail));
      [|reflexivity].
    cbn [holds] in H. destruct H as (<- & H). cbn [bind rd o_context]. destruct h as [|n| |].
    + subst c. reflexivity.
    + destruct H as (-> & ->). destruct (OW _ _ _ EX) as (k & E & RL). cbn [c_id]. unfold thread_of. rewrite E.
      cbn [bind]. assert (EN := rel_nth _ _ _ n R). rewrite E in EN. cbn in EN.
      assert (PH : x_phase x n = k_phase k) by (unfold x_phase; rewrite EN; reflexivity).
      rewrite PH, RL. destruct (k_phase k); eauto.
    + destruct H as (_ & m & u & -> & EN). cbn [c_id]. unfold thread_of.
      rewrite (rel_nth _ _ _ _ R) in EN. destruct (nth_error (w_threads w) m) as [k|]; [|discriminate].
      cbn in EN. unfold seen_thread in EN. injection EN as _ EP ER. cbn [bind]. rewrite EP, ER. reflexivity.
    + subst c. reflexivity.
  - unfold get. assert (H := r_objects _ _ _ R v).
    destruct (w_vars w v) as [([c|], z)|] eqn:EV; (destruct (x_objects x v) as [(h, z')|] eqn:EX; try (destruct H; fail));
      [|reflexivity].
    cbn [holds] in H. destruct H as (<- & H). cbn [bind o_status]. eauto.
  - unfold get. assert (H := r_objects _ _ _ R v). rewrite (rel_busy _ _ _ v R).
    destruct (w_vars w v) as [([c|], z)|] eqn:EV; (destruct (x_objects x v) as [(h, z')|] eqn:EX; try (destruct H; fail));
      [|destruct (x_busy x v); reflexivity].
    cbn [holds] in H. destruct H as (<- & H). cbn [bind rd o_context]. destruct (x_busy x v); [reflexivity|].
    destruct h as [|n| |].
    + subst c. cbn. eexists. split; [reflexivity|]. apply rel_put; [exact R|exact Logic.I].
    + destruct H as (-> & ->). cbn [is_initial c_id bind]. destruct (JO _ _ _ EX) as (k & E & RL & ->).
      cbn [bind c_attr attr_destroy]. eexists. split; [reflexivity|].
      apply rel_put; [apply rel_thread; auto|exact Logic.I].
    + destruct H as (_ & m & u & -> & EN). cbn [is_initial c_id bind]. unfold do_join. cbn [c_id]. unfold thread_of.
      rewrite (rel_nth _ _ _ _ R) in EN. destruct (nth_error (w_threads w) m) as [k|]; [|discriminate].
      cbn in EN. unfold seen_thread in EN. injection EN as _ _ ER. cbn [bind]. rewrite ER. reflexivity.
    + subst c. reflexivity.
  - assert (EN := rel_nth _ _ _ n R). unfold x_phase, x_released.
    destruct (nth_error (w_threads w) n) as [[u ph r]|] eqn:E; cbn in EN; unfold seen_thread in EN; rewrite EN;
      [|eauto]. cbn [k_object k_phase k_released].
    destruct ph; [|eauto|eauto].
    assert (X := f_alive _ I _ _ _ _ EN). assert (Y := r_objects _ _ _ R u).
    unfold get. destruct (w_vars w u) as [o|].
    + cbn [bind]. eexists. split; [reflexivity|].
      apply (rel_thread _ _ _ n (KThread u NotBegun r) Working r R E). left. discriminate.
    + cbn in X. destruct (x_objects x u); [destruct Y|]. exfalso. now apply X.
  - assert (EN := rel_nth _ _ _ n R). unfold x_phase, x_released.
    destruct (nth_error (w_threads w) n) as [[u ph r]|] eqn:E; cbn in EN; unfold seen_thread in EN; rewrite EN;
      [|eauto]. cbn [k_object k_phase k_released].
    destruct ph; [eauto| |eauto].
    eexists. split; [reflexivity|].
    apply (rel_thread _ _ _ n (KThread u Working r) Ended r R E). left. discriminate.
Qed.

Lemma do_all az le errno : forall h w x, rel errno w x -> fine x ->
  match x_steps az le errno x h with
  | None => truns az le w h = UB
  | Some (x', rs) => fine x' /\ exists w', truns az le w h = Ok (w', rs) /\ rel errno w' x'
  end.
Proof.
  induction h as [|c h IH]; intros w x R I; cbn [x_steps truns]; [eauto|].
  assert (D := does az le errno w x c R I). assert (F := fine_step az le errno x c).
  destruct (x_step az le errno x c) as [(x1, r)|]; [|now rewrite D].
  destruct D as (w1 & -> & R1). cbn [bind fst snd]. specialize (IH w1 x1 R1 (F _ _ I eq_refl)).
  destruct (x_steps az le errno x1 h) as [(x2, rs)|]; [|now rewrite IH].
  destruct IH as (F2 & w2 & -> & R2). cbn [bind fst snd]. eauto.
Qed.

(** For all histories of any calls and any events of the threads, on all systems: the history is
    undefined exactly when the account says so; otherwise the calls answer what the account
    says, the objects that exist are those of the account, the threads are in the state the
    account says, and those that nobody has joined or detached are the ones some object is
    responsible for and the lost ones. In particular a thread is lost by a second run() and by an
    assignment to its object, and in no other way. *)
Theorem C91_exact_partial : forall az le errno h,
  match x_steps az le errno x_start h with
  | None => truns az le (t_start errno) h = UB
  | Some (x, rs) => exists w, truns az le (t_start errno) h = Ok (w, rs) /\
      (forall v, w_vars w v = None <-> x_objects x v = None) /\
      map seen_thread (w_threads w) = x_threads x /\
      (forall n, (exists k, nth_error (w_threads w) n = Some k /\ k_released k = false) <->
         In n (x_lost x) \/ exists v st, x_objects x v = Some (Owns n, st)) /\
      NoDup (x_lost x)
  end.
Proof.
  intros az le errno h.
  assert (D := do_all az le errno h (t_start errno) x_start).
  destruct (x_steps az le errno x_start h) as [(x, rs)|].
  - destruct D as (F & w & E & R).
    + now constructor.
    + constructor; cbn; try congruence; try (intros n; now destruct n); try (now intros n []). constructor.
    + exists w. split; [exact E|]. split; [|split; [|split]].
      * intros v. assert (H := r_objects _ _ _ R v). destruct (w_vars w v) as [([c|], z)|], (x_objects x v) as [(h', z')|]; try (destruct H; fail); split; congruence.
      * exact (r_threads _ _ _ R).
      * intros n. assert (EN := rel_nth _ _ _ n R). split.
        -- intros (k & EK & RL). rewrite EK in EN. cbn in EN. unfold seen_thread in EN. rewrite RL in EN.
           exact (f_free _ F _ _ _ EN).
        -- intros H. assert (X : exists u ph, nth_error (x_threads x) n = Some (u, ph, false)).
           { destruct H as [H|(v & st & H)]; [exact (f_lost _ F _ H)|exact (proj2 (f_owned _ F _ _ _ H))]. }
           destruct X as (u & ph & X). rewrite EN in X. destruct (nth_error (w_threads w) n) as [k|]; [|discriminate].
           exists k. split; [reflexivity|]. cbn in X. unfold seen_thread in X. congruence.
      * exact (f_nodup _ F).
  - apply D; [now constructor|].
    constructor; cbn; try congruence; try (intros n; now destruct n); try (now intros n []). constructor.
Qed.

(** A thread is handed from object 1 to object 2 and detached there; object 1 is started twice and
    loses a thread; object 3 is joined and started again. With glibc's choices. *)
Example C91_exact_case : exists x rs,
  x_steps false true 5%Z x_start
    [TNew 1; TNew 2; TRun 1 0 0; TMoveAssign 2 1; KBegin 0; TIsWorking 2 3; TDetach 2; KEnd 0;
     TRun 1 0 0; TRun 1 0 0; KBegin 1; KEnd 1; TNew 3; TRun 3 11 0; TGetStatus 3; TRun 3 0 0; TJoin 3;
     TRun 3 0 0; KBegin 4; KEnd 4; KBegin 2; KEnd 2; TDelete 1; TDelete 2; TDelete 3] = Some (x, rs) /\
  x_threads x = [(1, Ended, true); (1, Ended, false); (1, Ended, true); (3, Ended, true); (3, Ended, true)] /\
  x_lost x = [1] /\ (forall v, x_objects x v = None) /\
  nth_error rs 5 = Some (Some 1%Z) /\ nth_error rs 14 = Some (Some (-5)%Z).
Proof.
  eexists _, _. split; [vm_compute; reflexivity|]. repeat split. intros v. destruct v as [|[|[|[|v]]]]; reflexivity.
Qed.

Print Assumptions C91_exact_partial.
