(** Theorems about the start of the sockets library on Windows: C206. *)
From Coq Require Import List Arith Bool Lia.
From Verif Require Import WinSockModel WinSockSpec.
Import ListNotations.

Lemma goes_same f t p : goes f t p t = p.
Proof. unfold goes. rewrite Nat.eqb_refl. reflexivity. Qed.
Lemma goes_other f t u p : u <> t -> goes f t p u = f u.
Proof. intros N. unfold goes. destruct (Nat.eqb_spec u t); congruence. Qed.

Lemma startups_app a b : startups (a ++ b) = startups a + startups b.
Proof. induction a as [|[t|t [|]|t r|] a IH]; cbn [app startups]; lia. Qed.
Lemma cleanups_app a b : cleanups (a ++ b) = cleanups a + cleanups b.
Proof. induction a as [|[t|t [|]|t r|] a IH]; cbn [app cleanups]; lia. Qed.

Lemma wrun_app s1 : forall s2 w, wrun w (s1 ++ s2) = wrun (wrun w s1) s2.
Proof. induction s1 as [|[t ok] s1 IH]; intros; cbn [app wrun]; [reflexivity|apply IH]. Qed.

(** Appending one event to a list that is cut somewhere. *)
Lemma snoc_cut : forall {X} (l : list X) x a b, l ++ [x] = a ++ b ->
  (b = [] /\ a = l ++ [x]) \/ exists b', b = b' ++ [x] /\ l = a ++ b'.
Proof.
  intros X l x a b E. destruct b as [|y b].
  - left. rewrite app_nil_r in E. auto.
  - right. destruct (@exists_last X (y :: b)) as (b' & z & E'); [discriminate|].
    rewrite E' in *. rewrite app_assoc in E. apply app_inj_tail in E. destruct E as [-> ->].
    exists b'. auto.
Qed.

Lemma inside_snoc_other t tr e : e <> Begins t -> (forall r, e <> Answered t r) ->
  inside t (tr ++ [e]) <-> inside t tr.
Proof.
  intros N1 N2. split.
  - intros (a & b & E & H).
    destruct (snoc_cut tr e (a ++ [Begins t]) b) as [[-> E']|(b' & -> & ->)].
    + rewrite <- app_assoc. exact E.
    + apply app_inj_tail in E'. destruct E'. congruence.
    + exists a, b'. split; [rewrite <- app_assoc; reflexivity|].
      intros r I. apply (H r). apply in_or_app. auto.
  - intros (a & b & -> & H). exists a, (b ++ [e]). split; [rewrite <- app_assoc; reflexivity|].
    intros r I. apply in_app_or in I. destruct I as [I|[I|[]]]; [exact (H r I)|exact (N2 r I)].
Qed.
Lemma inside_begins t tr : inside t (tr ++ [Begins t]).
Proof. exists tr, []. split; [reflexivity|]. intros r []. Qed.
Lemma inside_answered t tr r : ~ inside t (tr ++ [Answered t r]).
Proof.
  intros (a & b & E & H).
  destruct (snoc_cut tr (Answered t r) (a ++ [Begins t]) b) as [[-> E']|(b' & -> & ->)].
  - rewrite <- app_assoc. exact E.
  - apply app_inj_tail in E'. destruct E'. discriminate.
  - apply (H r). apply in_or_app. right. left. reflexivity.
Qed.

(** What holds in every state. *)
Record good (w : winsock) : Prop := {
  g_up : inited w = true -> 1 <= startups (seen w);
  g_store : forall t, at_ w t = WStore -> 1 <= startups (seen w);
  g_true : forall a t b, seen w = a ++ Answered t true :: b -> inited w = true /\ 1 <= startups a;
  g_answer : forall t, at_ w t = WAnswer -> inited w = false ->
    exists a b, seen w = a ++ Started t false :: b /\
      forall e, In e b -> e <> Begins t /\ (forall r, e <> Started t r) /\ (forall r, e <> Answered t r);
  g_false : forall a t b, seen w = a ++ Answered t false :: b ->
    (forall u, ~ In (Answered u true) a) /\
    exists c d, a = c ++ Started t false :: d /\
      forall e, In e d -> e <> Begins t /\ (forall r, e <> Started t r) /\ (forall r, e <> Answered t r);
  g_inside : forall t, inside t (seen w) <-> at_ w t <> WIdle;
  g_clean : cleanups (seen w) = 0;
}.

Lemma good_fresh : good fresh.
Proof.
  split; cbn; intros; try discriminate; try (destruct a; discriminate).
  - split; [|congruence]. intros (a & b & E & _). destruct a; discriminate.
  - reflexivity.
Qed.

(** A cut of the events after one more event, none of them an answer [r]. *)
Lemma cut_answer l e a t r b : l ++ [e] = a ++ Answered t r :: b -> e <> Answered t r ->
  exists b', l = a ++ Answered t r :: b'.
Proof.
  intros E N. destruct (snoc_cut l e (a ++ [Answered t r]) b) as [[-> E']|(b' & -> & ->)].
  - rewrite <- app_assoc. exact E.
  - apply app_inj_tail in E'. destruct E'. congruence.
  - exists b'. rewrite <- app_assoc. reflexivity.
Qed.

Lemma good_step w t ok : good w -> good (wstep w t ok).
Proof.
  intros G. unfold wstep. destruct (at_ w t) eqn:P.
  - (* WIdle *)
    split; cbn [inited at_ seen].
    + intros I. rewrite startups_app. pose proof (g_up w G I). lia.
    + intros u S'. rewrite startups_app. destruct (Nat.eq_dec u t) as [->|N].
      * rewrite goes_same in S'. discriminate.
      * rewrite goes_other in S' by exact N. pose proof (g_store w G u S'). lia.
    + intros a u b E. apply cut_answer in E; [|discriminate]. destruct E as (b' & E).
      exact (g_true w G a u b' E).
    + intros u A I. destruct (Nat.eq_dec u t) as [->|N].
      * rewrite goes_same in A. discriminate.
      * rewrite goes_other in A by exact N. destruct (g_answer w G u A I) as (a & b & E & H).
        exists a, (b ++ [Begins t]). rewrite E, <- app_assoc. split; [reflexivity|].
        intros e J. apply in_app_or in J. destruct J as [J|[<-|[]]]; [exact (H e J)|].
        repeat split; congruence.
    + intros a u b E. apply cut_answer in E; [|discriminate]. destruct E as (b' & E).
      exact (g_false w G a u b' E).
    + intros u. destruct (Nat.eq_dec u t) as [->|N].
      * rewrite goes_same. split; [discriminate|]. intros _. apply inside_begins.
      * rewrite goes_other by exact N. rewrite inside_snoc_other by congruence. apply (g_inside w G).
    + rewrite cleanups_app, (g_clean w G). reflexivity.
  - (* WTest *)
    destruct (inited w) eqn:I0.
    + split; cbn [inited at_ seen].
      * intros _. exact (g_up w G I0).
      * intros u S'. exact (g_up w G I0).
      * intros a u b E. destruct (g_true w G a u b E). auto.
      * discriminate.
      * exact (g_false w G).
      * intros u. destruct (Nat.eq_dec u t) as [->|N].
        { rewrite goes_same. split; [discriminate|]. intros _. apply (g_inside w G). congruence. }
        { rewrite goes_other by exact N. apply (g_inside w G). }
      * exact (g_clean w G).
    + split; cbn [inited at_ seen].
      * discriminate.
      * intros u S'. destruct (Nat.eq_dec u t) as [->|N].
        { rewrite goes_same in S'. discriminate. }
        { rewrite goes_other in S' by exact N. exact (g_store w G u S'). }
      * intros a u b E. destruct (g_true w G a u b E). congruence.
      * intros u A _. destruct (Nat.eq_dec u t) as [->|N].
        { rewrite goes_same in A. discriminate. }
        { rewrite goes_other in A by exact N. exact (g_answer w G u A I0). }
      * exact (g_false w G).
      * intros u. destruct (Nat.eq_dec u t) as [->|N].
        { rewrite goes_same. split; [discriminate|]. intros _. apply (g_inside w G). congruence. }
        { rewrite goes_other by exact N. apply (g_inside w G). }
      * exact (g_clean w G).
  - (* WStartup *)
    assert (NB : forall p u, u <> t \/ p <> WIdle -> forall r,
               inside u (seen w ++ [Started t r]) <-> goes (at_ w) t p u <> WIdle).
    { intros p u D r. rewrite inside_snoc_other by discriminate. destruct (Nat.eq_dec u t) as [->|N].
      - rewrite goes_same. split; intros _; [destruct D; congruence|]. apply (g_inside w G). congruence.
      - rewrite goes_other by exact N. apply (g_inside w G). }
    destruct ok.
    + split; cbn [inited at_ seen].
      * intros _. rewrite startups_app. cbn. lia.
      * intros u _. rewrite startups_app. cbn. lia.
      * intros a u b E. apply cut_answer in E; [|discriminate]. destruct E as (b' & E).
        exact (g_true w G a u b' E).
      * intros u A I. destruct (Nat.eq_dec u t) as [->|N].
        { rewrite goes_same in A. discriminate. }
        rewrite goes_other in A by exact N. destruct (g_answer w G u A I) as (a & b & E & H).
        exists a, (b ++ [Started t true]). rewrite E, <- app_assoc. split; [reflexivity|].
        intros e J. apply in_app_or in J. destruct J as [J|[<-|[]]]; [exact (H e J)|].
        repeat split; congruence.
      * intros a u b E. apply cut_answer in E; [|discriminate]. destruct E as (b' & E).
        exact (g_false w G a u b' E).
      * intros u. apply NB. right. discriminate.
      * rewrite cleanups_app, (g_clean w G). reflexivity.
    + split; cbn [inited at_ seen].
      * intros I. rewrite startups_app. pose proof (g_up w G I). lia.
      * intros u S'. rewrite startups_app. destruct (Nat.eq_dec u t) as [->|N].
        { rewrite goes_same in S'. discriminate. }
        { rewrite goes_other in S' by exact N. pose proof (g_store w G u S'). lia. }
      * intros a u b E. apply cut_answer in E; [|discriminate]. destruct E as (b' & E).
        exact (g_true w G a u b' E).
      * intros u A I. destruct (Nat.eq_dec u t) as [->|N].
        { exists (seen w), []. split; [reflexivity|]. intros e []. }
        rewrite goes_other in A by exact N. destruct (g_answer w G u A I) as (a & b & E & H).
        exists a, (b ++ [Started t false]). rewrite E, <- app_assoc. split; [reflexivity|].
        intros e J. apply in_app_or in J. destruct J as [J|[<-|[]]]; [exact (H e J)|].
        repeat split; congruence.
      * intros a u b E. apply cut_answer in E; [|discriminate]. destruct E as (b' & E).
        exact (g_false w G a u b' E).
      * intros u. apply NB. right. discriminate.
      * rewrite cleanups_app, (g_clean w G). reflexivity.
  - (* WStore *)
    split; cbn [inited at_ seen].
    + intros _. exact (g_store w G t P).
    + intros u _. exact (g_store w G t P).
    + intros a u b E. destruct (g_true w G a u b E). auto.
    + discriminate.
    + exact (g_false w G).
    + intros u. destruct (Nat.eq_dec u t) as [->|N].
      * rewrite goes_same. split; [discriminate|]. intros _. apply (g_inside w G). congruence.
      * rewrite goes_other by exact N. apply (g_inside w G).
    + exact (g_clean w G).
  - (* WAnswer *)
    split; cbn [inited at_ seen].
    + intros I. rewrite startups_app. pose proof (g_up w G I). lia.
    + intros u S'. rewrite startups_app. destruct (Nat.eq_dec u t) as [->|N].
      * rewrite goes_same in S'. discriminate.
      * rewrite goes_other in S' by exact N. pose proof (g_store w G u S'). lia.
    + intros a u b E.
      destruct (snoc_cut (seen w) (Answered t (inited w)) (a ++ [Answered u true]) b) as [[-> E']|(b' & -> & E')].
      * rewrite <- app_assoc. exact E.
      * apply app_inj_tail in E'. destruct E' as [-> E']. injection E' as <- I.
        split; [congruence|]. apply (g_up w G). congruence.
      * rewrite <- app_assoc in E'. exact (g_true w G a u b' E').
    + intros u A I. destruct (Nat.eq_dec u t) as [->|N].
      * rewrite goes_same in A. discriminate.
      * rewrite goes_other in A by exact N. destruct (g_answer w G u A I) as (a & b & E & H).
        exists a, (b ++ [Answered t (inited w)]). rewrite E, <- app_assoc. split; [reflexivity|].
        intros e J. apply in_app_or in J. destruct J as [J|[<-|[]]]; [exact (H e J)|].
        repeat split; congruence.
    + intros a u b E.
      destruct (snoc_cut (seen w) (Answered t (inited w)) (a ++ [Answered u false]) b) as [[-> E']|(b' & -> & E')].
      * rewrite <- app_assoc. exact E.
      * apply app_inj_tail in E'. destruct E' as [-> E']. injection E' as <- I. split.
        { intros v J. apply in_split in J. destruct J as (x & y & J).
          destruct (g_true w G x v y J). congruence. }
        { exact (g_answer w G u P (eq_sym I)). }
      * rewrite <- app_assoc in E'. exact (g_false w G a u b' E').
    + intros u. destruct (Nat.eq_dec u t) as [->|N].
      * rewrite goes_same. split; [|congruence]. intros J. destruct (inside_answered _ _ _ J).
      * rewrite goes_other by exact N. rewrite inside_snoc_other by congruence. apply (g_inside w G).
    + rewrite cleanups_app, (g_clean w G). reflexivity.
Qed.

Lemma good_run sched : forall w, good w -> good (wrun w sched).
Proof. induction sched as [|[t ok] s IH]; intros w G; cbn [wrun]; auto using good_step. Qed.

(** C206, proved part: in every schedule of any number of threads, a call that answers true does so
    after WSAStartup has succeeded; WSACleanup is called at the end of the program only; and a call
    that answers false has itself called WSAStartup, which failed, and nobody was told true before
    it. *)
Theorem C206_answers_partial : forall sched,
  let tr := seen (wrun fresh sched) in
  cleanups tr = 0
  /\ (forall a t b, tr = a ++ Answered t true :: b -> 1 <= startups a)
  /\ (forall a t b, tr = a ++ Answered t false :: b ->
        (forall u, ~ In (Answered u true) a) /\
        exists c d, a = c ++ Started t false :: d /\
          forall e, In e d -> e <> Begins t /\ (forall r, e <> Started t r) /\ (forall r, e <> Answered t r)).
Proof.
  intros sched tr. pose proof (good_run sched fresh good_fresh) as G. fold tr in G.
  split; [exact (g_clean _ G)|]. split.
  - intros a t b E. exact (proj2 (g_true _ G a t b E)).
  - exact (g_false _ G).
Qed.

(** Separate calls: what is known in between. *)
Lemma separate_prefix a b : separate (a ++ b) -> separate a.
Proof.
  intros H x y t u E. apply (H x (y ++ b)). rewrite E, app_assoc. reflexivity.
Qed.
Lemma seen_grows w t ok : exists l, seen (wstep w t ok) = seen w ++ l.
Proof.
  unfold wstep. destruct (at_ w t); [| |destruct ok| |]; try (destruct (inited w)); cbn [seen];
    eauto; exists []; rewrite app_nil_r; reflexivity.
Qed.
Lemma seen_grows_run sched : forall w, exists l, seen (wrun w sched) = seen w ++ l.
Proof.
  induction sched as [|[t ok] s IH]; intros w; cbn [wrun].
  - exists []. rewrite app_nil_r. reflexivity.
  - destruct (IH (wstep w t ok)) as (l & E). destruct (seen_grows w t ok) as (l' & E').
    exists (l' ++ l). rewrite E, E', app_assoc. reflexivity.
Qed.

Definition one (w : winsock) : Prop :=
  (inited w = true -> startups (seen w) = 1 /\ forall t, at_ w t <> WStartup /\ at_ w t <> WStore)
  /\ (inited w = false ->
        (startups (seen w) = 0 /\ forall t, at_ w t <> WStore)
        \/ (startups (seen w) = 1 /\ exists t, at_ w t = WStore)).

Lemma one_step w t ok : good w -> separate (seen (wstep w t ok)) -> one w -> one (wstep w t ok).
Proof.
  intros G Sp [O1 O2].
  assert (Gs := good_step w t ok G).
  assert (Al : forall u v, at_ (wstep w t ok) u <> WIdle -> at_ (wstep w t ok) v <> WIdle -> u = v).
  { intros u v U V. apply (g_inside _ Gs) in U. apply (g_inside _ Gs) in V.
    apply (Sp (seen (wstep w t ok)) [] u v); auto. rewrite app_nil_r. reflexivity. }
  unfold wstep in *. destruct (at_ w t) eqn:P.
  - unfold one. cbn [inited at_ seen] in *. rewrite startups_app. cbn [startups]. rewrite Nat.add_0_r. split.
    + intros I. destruct (O1 I) as [N H]. split; [exact N|]. intros u.
      destruct (Nat.eq_dec u t) as [->|D]; [rewrite goes_same|rewrite goes_other by exact D; apply H].
      split; discriminate.
    + intros I. destruct (O2 I) as [[N H]|[N (u & H)]].
      * left. split; [exact N|]. intros u.
        destruct (Nat.eq_dec u t) as [->|D]; [rewrite goes_same; discriminate|rewrite goes_other by exact D; apply H].
      * right. split; [exact N|]. exists u. rewrite goes_other by congruence. exact H.
  - destruct (inited w) eqn:I0; unfold one; cbn [inited at_ seen] in *; split; try discriminate.
    + intros _. destruct (O1 eq_refl) as [N H]. split; [exact N|]. intros u.
      destruct (Nat.eq_dec u t) as [->|D]; [rewrite goes_same|rewrite goes_other by exact D; apply H].
      split; discriminate.
    + intros _. destruct (O2 eq_refl) as [[N H]|[N (u & H)]].
      * left. split; [exact N|]. intros u.
        destruct (Nat.eq_dec u t) as [->|D]; [rewrite goes_same; discriminate|rewrite goes_other by exact D; apply H].
      * right. split; [exact N|]. exists u. rewrite goes_other by congruence. exact H.
  - assert (J0 : inited w = false).
    { destruct (inited w) eqn:I0; [|reflexivity]. destruct (O1 eq_refl) as [_ H]. destruct (H t). congruence. }
    destruct ok; unfold one; cbn [inited at_ seen] in *; rewrite startups_app; cbn [startups];
      split; try congruence; intros _.
    + right. destruct (O2 J0) as [[N H]|[N (u & H)]].
      * split; [lia|]. exists t. apply goes_same.
      * exfalso. assert (D : u <> t) by congruence. apply D. apply Al.
        { rewrite goes_other by exact D. congruence. }
        { rewrite goes_same. discriminate. }
    + rewrite Nat.add_0_r. destruct (O2 J0) as [[N H]|[N (u & H)]].
      * left. split; [exact N|]. intros u.
        destruct (Nat.eq_dec u t) as [->|D]; [rewrite goes_same; discriminate|rewrite goes_other by exact D; apply H].
      * right. split; [exact N|]. exists u. rewrite goes_other by congruence. exact H.
  - unfold one; cbn [inited at_ seen] in *. split; [|discriminate]. intros _. split.
    + destruct (inited w) eqn:I0.
      * destruct (O1 eq_refl) as [_ H]. destruct (H t). congruence.
      * destruct (O2 eq_refl) as [[_ H]|[N _]]; [destruct (H t P)|exact N].
    + intros u. destruct (Nat.eq_dec u t) as [->|D].
      * rewrite goes_same. split; discriminate.
      * assert (Q : goes (at_ w) t WAnswer u = WIdle).
        { destruct (goes (at_ w) t WAnswer u) eqn:Q; [reflexivity| | | |]; exfalso; apply D, Al;
            try (rewrite Q; discriminate); rewrite goes_same; discriminate. }
        rewrite Q. split; discriminate.
  - unfold one. cbn [inited at_ seen] in *. rewrite startups_app. cbn [startups]. rewrite Nat.add_0_r. split.
    + intros I. destruct (O1 I) as [N H]. split; [exact N|]. intros u.
      destruct (Nat.eq_dec u t) as [->|D]; [rewrite goes_same|rewrite goes_other by exact D; apply H].
      split; discriminate.
    + intros I. destruct (O2 I) as [[N H]|[N (u & H)]].
      * left. split; [exact N|]. intros u.
        destruct (Nat.eq_dec u t) as [->|D]; [rewrite goes_same; discriminate|rewrite goes_other by exact D; apply H].
      * right. split; [exact N|]. exists u. rewrite goes_other by congruence. exact H.
Qed.

Lemma one_run sched : forall w, good w -> one w -> separate (seen (wrun w sched)) -> one (wrun w sched).
Proof.
  induction sched as [|[t ok] s IH]; intros w G O Sp; cbn [wrun] in *; [exact O|].
  assert (separate (seen (wstep w t ok))) as Sp'.
  { destruct (seen_grows_run s (wstep w t ok)) as (l & E). rewrite E in Sp. exact (separate_prefix _ _ Sp). }
  apply IH; [apply good_step, G|apply one_step; assumption|exact Sp].
Qed.

(** C206, proved part: as long as no two calls overlap, the library is started at most once, and when
    the program ends after all calls have returned it has been given back as often as started. *)
Theorem C206_separate_partial : forall sched,
  let w := wrun fresh sched in
  separate (seen w) ->
  startups (seen w) <= 1
  /\ ((forall t, ~ inside t (seen w)) -> cleanups (wexit w) = startups (wexit w)).
Proof.
  intros sched w Sp. pose proof (good_run sched fresh good_fresh) as G. fold w in G.
  assert (O : one w).
  { apply one_run; [apply good_fresh| |exact Sp]. split; [discriminate|]. intros _. left.
    split; [reflexivity|]. discriminate. }
  destruct O as [O1 O2]. split.
  - destruct (inited w); [destruct (O1 eq_refl); lia|destruct (O2 eq_refl) as [[]|[]]; lia].
  - intros Q. unfold wexit. destruct (inited w) eqn:I.
    + rewrite cleanups_app, startups_app, (g_clean _ G). destruct (O1 eq_refl) as [-> _]. reflexivity.
    + rewrite (g_clean _ G). destruct (O2 eq_refl) as [[N _]|[_ (t & H)]]; [lia|].
      exfalso. apply (Q t). apply (g_inside _ G). congruence.
Qed.

(** A schedule of [n] threads that go through the call side by side. *)
Definition together (n : nat) : list (nat * bool) :=
  let all := map (fun t => (t, true)) (seq 0 n) in all ++ all ++ all ++ all ++ all.

Lemma batch : forall l w p (i : bool) (q : wpc) (e : nat -> list wevent),
  NoDup l -> (forall t, In t l -> at_ w t = p) ->
  (p = WIdle -> i = inited w /\ q = WTest /\ e = (fun t => [Begins t])) ->
  (p = WTest -> inited w = false /\ i = false /\ q = WStartup /\ e = (fun _ => [])) ->
  (p = WStartup -> i = inited w /\ q = WStore /\ e = (fun t => [Started t true])) ->
  (p = WStore -> i = true /\ q = WAnswer /\ e = (fun _ => [])) ->
  (p = WAnswer -> i = inited w /\ q = WIdle /\ e = (fun t => [Answered t i])) ->
  let w' := wrun w (map (fun t => (t, true)) l) in
  (l <> [] -> inited w' = i)
  /\ (forall t, In t l -> at_ w' t = q) /\ (forall t, ~ In t l -> at_ w' t = at_ w t)
  /\ seen w' = seen w ++ flat_map e l.
Proof.
  induction l as [|t l IH]; intros w p i q e ND A H1 H2 H3 H4 H5; cbn [map wrun flat_map].
  - rewrite app_nil_r. split; [congruence|]. split; [intros t []|]. auto.
  - assert (P : at_ w t = p) by (apply A; left; reflexivity). inversion ND as [|? ? NI ND']; subst.
    assert (A' : forall q' u, In u l -> goes (at_ w) t q' u = at_ w t).
    { intros q' u J. rewrite goes_other; [apply A; right; exact J|]. intros ->. contradiction. }
    assert (K : inited (wstep w t true) = i /\ at_ (wstep w t true) = goes (at_ w) t q
                /\ seen (wstep w t true) = seen w ++ e t).
    { unfold wstep. destruct (at_ w t) eqn:P.
      - destruct (H1 eq_refl) as (-> & -> & ->). auto.
      - destruct (H2 eq_refl) as (Z & -> & -> & ->). rewrite Z. cbn. rewrite app_nil_r. auto.
      - destruct (H3 eq_refl) as (-> & -> & ->). auto.
      - destruct (H4 eq_refl) as (-> & -> & ->). cbn. rewrite app_nil_r. auto.
      - destruct (H5 eq_refl) as (-> & -> & ->). auto. }
    destruct K as (Ki & Ka & Ks).
    destruct (IH (wstep w t true) (at_ w t) i q e ND') as (R1 & R2 & R3 & R4).
    + intros u J. rewrite Ka. apply A'. exact J.
    + intros Z. destruct (H1 Z) as (? & ? & ?). rewrite Ki. auto.
    + intros Z. destruct (H2 Z) as (? & ? & ? & ?). rewrite Ki. auto.
    + intros Z. destruct (H3 Z) as (? & ? & ?). rewrite Ki. auto.
    + intros Z. destruct (H4 Z) as (? & ? & ?). auto.
    + intros Z. destruct (H5 Z) as (? & ? & ?). rewrite Ki. auto.
    + split; [|split; [|split]].
      * intros _. destruct l as [|x l]; [exact Ki|apply R1; discriminate].
      * intros u [<-|J]; [|apply R2, J]. rewrite R3 by exact NI. rewrite Ka. apply goes_same.
      * intros u NJ. rewrite R3 by (intros J; apply NJ; right; exact J). rewrite Ka.
        apply goes_other. intros ->. apply NJ. left. reflexivity.
      * rewrite R4, Ks, <- app_assoc. reflexivity.
Qed.

Lemma startups_flat (e : nat -> list wevent) k : (forall t, startups (e t) = k) ->
  forall l, startups (flat_map e l) = length l * k.
Proof. intros H l. induction l as [|t l IH]; cbn [flat_map length]; [reflexivity|]. rewrite startups_app, H, IH. lia. Qed.

(** C206, refutation: for any number of threads there is a schedule in which each of them starts the
    library, and when the program ends it is given back only once. *)
Theorem C206_overlap_refuted : forall n, 1 <= n ->
  let w := wrun fresh (together n) in
  (forall t, t < n -> In (Answered t true) (seen w)) /\ (forall t, ~ inside t (seen w))
  /\ startups (seen w) = n /\ startups (wexit w) = n /\ cleanups (wexit w) = 1.
Proof.
  intros n L w. subst w. unfold together. set (all := map (fun t => (t, true)) (seq 0 n)).
  rewrite !wrun_app.
  assert (NE : seq 0 n <> []) by (destruct n; [lia|discriminate]).
  assert (ND := seq_NoDup n 0).
  set (w1 := wrun fresh all). set (w2 := wrun w1 all). set (w3 := wrun w2 all).
  set (w4 := wrun w3 all). set (w5 := wrun w4 all).
  assert (G : good w5).
  { unfold w5, w4, w3, w2, w1. do 5 apply good_run. exact good_fresh. }
  destruct (batch (seq 0 n) fresh WIdle false WTest (fun t => [Begins t]) ND) as (I1 & A1 & B1 & S1);
    try discriminate; try (cbn; auto; fail).
  fold all in I1, A1, B1, S1. fold w1 in I1, A1, B1, S1. specialize (I1 NE).
  destruct (batch (seq 0 n) w1 WTest false WStartup (fun _ => []) ND A1) as (I2 & A2 & B2 & S2);
    try discriminate; auto.
  fold all in I2, A2, B2, S2. fold w2 in I2, A2, B2, S2. specialize (I2 NE).
  destruct (batch (seq 0 n) w2 WStartup false WStore (fun t => [Started t true]) ND A2) as (I3 & A3 & B3 & S3);
    try discriminate; auto.
  fold all in I3, A3, B3, S3. fold w3 in I3, A3, B3, S3. specialize (I3 NE).
  destruct (batch (seq 0 n) w3 WStore true WAnswer (fun _ => []) ND A3) as (I4 & A4 & B4 & S4);
    try discriminate; auto.
  fold all in I4, A4, B4, S4. fold w4 in I4, A4, B4, S4. specialize (I4 NE).
  destruct (batch (seq 0 n) w4 WAnswer true WIdle (fun t => [Answered t true]) ND A4) as (I5 & A5 & B5 & S5);
    try discriminate; auto.
  fold all in I5, A5, B5, S5. fold w5 in I5, A5, B5, S5. specialize (I5 NE).
  assert (St : startups (seen w5) = n).
  { rewrite S5, S4, S3, S2, S1, !startups_app. cbn [fresh seen startups].
    rewrite (startups_flat (fun t => [Begins t]) 0), (startups_flat (fun _ => []) 0),
      (startups_flat (fun t => [Started t true]) 1), (startups_flat (fun t => [Answered t true]) 0)
      by reflexivity. rewrite seq_length. lia. }
  split; [|split; [|split]].
  - intros t T. rewrite S5. apply in_or_app. right. apply in_flat_map. exists t.
    split; [apply in_seq; lia|left; reflexivity].
  - intros t J. apply (g_inside _ G) in J. apply J.
    destruct (in_dec Nat.eq_dec t (seq 0 n)) as [Y|N]; [exact (A5 t Y)|].
    rewrite B5, B4, B3, B2, B1 by exact N. reflexivity.
  - exact St.
  - unfold wexit. rewrite I5, startups_app, cleanups_app, St, (g_clean _ G). cbn. lia.
Qed.

(** Two threads, one after the other: the first start fails, the second succeeds, the third call does
    not start again. *)
Example C206_case :
  let w := wrun fresh [(1, false); (1, false); (1, false); (1, true);
                       (2, true); (2, true); (2, true); (2, true); (2, true); (1, true); (1, true); (1, true)] in
  seen w = [Begins 1; Started 1 false; Answered 1 false; Begins 2; Started 2 true; Answered 2 true;
            Begins 1; Answered 1 true].
Proof. reflexivity. Qed.
Example C206_together_case :
  seen (wrun fresh (together 2)) = [Begins 0; Begins 1; Started 0 true; Started 1 true; Answered 0 true; Answered 1 true].
Proof. reflexivity. Qed.
(** A schedule with separate calls. *)
Example C206_separate_case :
  let w := wrun fresh [(1, true); (1, true); (1, true); (1, true); (1, true); (2, true)] in
  separate (seen w) /\ startups (seen w) = 1.
Proof.
  split; [|reflexivity]. intros a b t u E It Iu.
  assert (H : forall a b t, [Begins 1; Started 1 true; Answered 1 true; Begins 2] = a ++ b -> inside t a ->
              (length a <= 2 /\ t = 1) \/ (length a = 4 /\ t = 2)).
  { clear. intros a b t E (x & y & -> & H).
    assert (Q := f_equal (fun l => nth_error l (length x)) E). cbv beta in Q.
    rewrite <- app_assoc, nth_error_app2, Nat.sub_diag in Q by lia. cbn [nth_error app] in Q.
    destruct (length x) as [|[|[|[|k]]]] eqn:Lx; cbn [nth_error] in Q; try discriminate.
    - injection Q as Q. left. split; [|congruence]. destruct x; [|discriminate]. cbn [app] in *.
      destruct y as [|e1 [|e2 y]]; cbn [length]; try lia. exfalso.
      injection E as _ _ E2 _. apply (H true). right. left. congruence.
    - injection Q as Q. right. split; [|congruence].
      assert (Z := f_equal (@length _) E). rewrite !app_length in Z. cbn [length] in Z.
      rewrite app_length. cbn [length]. lia.
    - destruct k; discriminate. }
  destruct (H a b t E It) as [[? ?]|[? ?]], (H a b u E Iu) as [[? ?]|[? ?]]; lia.
Qed.

Print Assumptions C206_answers_partial.
Print Assumptions C206_separate_partial.
Print Assumptions C206_overlap_refuted.
