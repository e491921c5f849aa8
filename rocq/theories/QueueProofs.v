(** QueuedArray: the memory represents a bounded FIFO queue. *)
From Coq Require Import List Arith Lia.
From Verif Require Import Base BaseLemmas PointersProofs ConcModel ConcSpec ConcProofs QueueModel QueueSpec.
Import ListNotations.

Section Proofs.
  Variable A : Type.
  Variable SIZE : nat.
  Variable fresh : A.
  Hypothesis SIZE_pos : SIZE <> 0.

  Notation code := (qcode SIZE fresh).

  Definition rep (q : queue A) (l : list A) : Prop :=
    exists a, q_array q = Some a /\ length a = SIZE /\ q_first q < SIZE /\
      q_count q = length l /\ length l <= SIZE /\
      q_last q = (q_first q + length l) mod SIZE /\
      forall i, i < length l -> nth_error a ((q_first q + i) mod SIZE) = nth_error l i.

  Lemma advance_mod i : i < SIZE -> advance SIZE i = S i mod SIZE.
  Proof.
    intros H. unfold advance. destruct (Nat.eqb_spec (S i) SIZE) as [E|N].
    - rewrite E, Nat.mod_same by lia. reflexivity.
    - rewrite Nat.mod_small by lia. reflexivity.
  Qed.

  Lemma mod_inj f i j : i < SIZE -> j < SIZE -> (f + i) mod SIZE = (f + j) mod SIZE -> i = j.
  Proof.
    intros Hi Hj E.
    pose proof (Nat.div_mod (f + i) SIZE SIZE_pos). pose proof (Nat.div_mod (f + j) SIZE SIZE_pos).
    rewrite E in H. pose proof (Nat.mod_upper_bound (f + j) SIZE SIZE_pos).
    set (x := (f + i) / SIZE) in *. set (y := (f + j) / SIZE) in *.
    destruct (Nat.lt_trichotomy x y) as [L|[->|L]]; [nia|lia|nia].
  Qed.

  Lemma S_mod n : S (n mod SIZE) mod SIZE = S n mod SIZE.
  Proof.
    rewrite <- (Nat.add_1_r (n mod SIZE)), Nat.add_mod_idemp_l by exact SIZE_pos.
    rewrite Nat.add_1_r. reflexivity.
  Qed.

  Lemma sequential_queue : sequential _ _ _ _ code (fifo SIZE) usage rep.
  Proof.
    intros o U. destruct o as [v|v|d| |v]; try contradiction; cbn [qcode].
    - eexists. split; [reflexivity|].
      intros [qa f l c] s (a & EA & LA & HF & EC & LS & EL & NTH). cbn in EA, HF, EC, EL, NTH.
      subst qa c l. cbn [fifo].
      destruct (Nat.ltb_spec (length s) SIZE) as [HL|HL]; cbn [fst snd].
      + assert (HM : (f + length s) mod SIZE < SIZE) by (apply Nat.mod_upper_bound; lia).
        eexists. split.
        * eapply F_get; [reflexivity|]. eapply F_get; [reflexivity|].
          destruct (Nat.eqb_spec (q_count (Queue (Some a) f ((f + length s) mod SIZE) (length s))) SIZE)
            as [E|_]; [cbn in E; lia|].
          eapply F_get; [reflexivity|]. eapply F_set.
          { unfold set_cell. cbn [q_array q_last]. unfold write. rewrite LA.
            destruct (Nat.ltb_spec ((f + length s) mod SIZE) SIZE); [|lia]. reflexivity. }
          eapply F_get; [reflexivity|]. eapply F_set; [reflexivity|].
          eapply F_get; [reflexivity|]. eapply F_set; [reflexivity|].
          apply F_release.
        * cbn [q_array q_first q_last q_count].
          exists (upd a ((f + length s) mod SIZE) v). cbn [q_array q_first q_last q_count].
          split; [reflexivity|]. rewrite upd_length, app_length. cbn [length].
          split; [exact LA|]. split; [exact HF|]. split; [lia|]. split; [lia|]. split.
          -- rewrite advance_mod by exact HM. rewrite S_mod. f_equal. lia.
          -- intros i Hi. rewrite nth_error_updx, LA, (proj2 (Nat.ltb_lt _ _) HM).
             destruct (Nat.eqb_spec ((f + length s) mod SIZE) ((f + i) mod SIZE)) as [E|N].
             ++ apply mod_inj in E; [|lia|lia]. subst i.
                rewrite nth_error_app2, Nat.sub_diag by lia. reflexivity.
             ++ assert (i <> length s) by (intros ->; congruence).
                rewrite nth_error_app1 by lia. apply NTH. lia.
      + eexists. split.
        * eapply F_get; [reflexivity|]. eapply F_get; [reflexivity|].
          destruct (Nat.eqb_spec (q_count (Queue (Some a) f ((f + length s) mod SIZE) (length s))) SIZE)
            as [E|N]; [|cbn in N; lia].
          apply F_release.
        * exists a. cbn. auto 10.
    - eexists. split; [reflexivity|].
      intros [qa f l c] s (a & EA & LA & HF & EC & LS & EL & NTH). cbn in EA, HF, EC, EL, NTH.
      subst qa c l. cbn [fifo].
      destruct s as [|x s]; cbn [fst snd].
      + eexists. split.
        * eapply F_get; [reflexivity|]. cbn [q_count length Nat.eqb]. apply F_release.
        * exists a. cbn [q_array q_first q_last q_count]. auto 10.
      + assert (EX : nth_error a f = Some x).
        { specialize (NTH 0 ltac:(cbn; lia)). rewrite Nat.add_0_r, Nat.mod_small in NTH by lia.
          exact NTH. }
        eexists. split.
        * eapply F_get; [reflexivity|]. cbn [q_count length Nat.eqb].
          eapply F_get; [reflexivity|]. cbn [q_first].
          eapply F_get. { unfold get_cell. cbn [q_array]. unfold read. rewrite EX. reflexivity. }
          eapply F_get; [reflexivity|]. eapply F_set.
          { unfold set_cell. cbn [q_array q_first]. unfold write. rewrite LA.
            destruct (Nat.ltb_spec f SIZE); [|lia]. reflexivity. }
          eapply F_get; [reflexivity|]. eapply F_set; [reflexivity|].
          eapply F_get; [reflexivity|]. eapply F_set; [reflexivity|].
          apply F_release.
        * exists (upd a f d). cbn [q_array q_first q_last q_count Nat.pred].
          split; [reflexivity|]. rewrite upd_length. split; [exact LA|].
          rewrite advance_mod by exact HF.
          split; [apply Nat.mod_upper_bound; lia|]. cbn [length] in LS, NTH |- *.
          split; [reflexivity|]. split; [lia|]. split.
          -- rewrite Nat.add_mod_idemp_l by lia. f_equal. lia.
          -- intros i Hi. rewrite Nat.add_mod_idemp_l by lia.
             replace (S f + i) with (f + S i) by lia.
             rewrite nth_error_updx, LA, (proj2 (Nat.ltb_lt _ _) HF).
             destruct (Nat.eqb_spec f ((f + S i) mod SIZE)) as [E|N].
             ++ exfalso. assert (E0 : (f + 0) mod SIZE = (f + S i) mod SIZE)
                  by (rewrite Nat.add_0_r, Nat.mod_small by lia; exact E).
                apply mod_inj in E0; lia.
             ++ rewrite (NTH (S i)) by lia. reflexivity.
    - eexists. split; [reflexivity|].
      intros q s (a & EA & R). exists q. split.
      + eapply F_get; [unfold get_null; rewrite EA; reflexivity|]. apply F_release.
      + exists a. auto.
    - eexists. split; [reflexivity|].
      intros q s (a & EA & R). exists q. split.
      + eapply F_get; [unfold get_null; rewrite EA; reflexivity|]. apply F_release.
      + exists a. auto.
  Qed.

  (** init on any object gives an array with [initValue] everywhere. *)
  Lemma fill_ok v k : forall n i (a : list A) f l c m' r,
    i + n = length a ->
    finishes _ _ k (Queue (Some (firstn i a ++ repeat v n)) f l c) m' r ->
    finishes _ _ (fill A v i n k) (Queue (Some a) f l c) m' r.
  Proof.
    induction n as [|n IH]; intros i a f l c m' r L F; cbn [fill].
    - rewrite firstn_all2 in F by lia. rewrite app_nil_r in F. exact F.
    - eapply F_set.
      { unfold set_cell. cbn [q_array]. unfold write.
        destruct (Nat.ltb_spec i (length a)); [|lia]. reflexivity. }
      apply IH; [rewrite upd_length; lia|].
      replace (firstn (S i) (upd a i v) ++ repeat v n)
        with (firstn i a ++ repeat v (S n)); [exact F|].
      cbn [repeat]. clear - L. revert i L. induction a as [|x a IHa]; intros [|i] L; cbn in *;
        try lia; [reflexivity|]. f_equal. apply IHa. lia.
  Qed.

  Definition initialised (v : A) (c : nat) : queue A := Queue (Some (repeat v SIZE)) 0 0 c.

  Lemma init_finishes v r q :
    exists body, init_code A SIZE fresh v r = Acquire body /\
      finishes _ _ body q (initialised v (q_count q)) r.
  Proof.
    destruct q as [qa f l c]. eexists. split; [reflexivity|].
    eapply F_set; [reflexivity|]. cbn [q_first q_last q_count].
    apply fill_ok; [rewrite repeat_length; reflexivity|]. cbn [firstn app].
    eapply F_set; [reflexivity|]. eapply F_set; [reflexivity|]. cbn.
    apply F_release.
  Qed.

  Lemma rep_initialised v : rep (initialised v 0) [].
  Proof.
    exists (repeat v SIZE). cbn. rewrite repeat_length, Nat.mod_small by lia.
    split; [reflexivity|]. split; [reflexivity|]. split; [lia|]. split; [reflexivity|].
    split; [lia|]. split; [reflexivity|]. intros; lia.
  Qed.

  (** A thread in its critical section runs to its return. *)
  Lemma finish_mem t : forall p m m' r, finishes _ _ p m m' r -> forall c h,
    c_mem c = m -> c_threads c t = Some p ->
    exists n c', run code c h (repeat (Tick t) n) = Ok (c', h ++ [Res t r]) /\
      c_mem c' = m' /\ c_lock c' = false /\
      (forall u, c_threads c' u = fupd (c_threads c) t None u).
  Proof.
    intros p m m' r F. induction F as [r m|X g k m a m1 r G F IH|f k m m1 m2 r G F IH];
        intros c h EM ET.
      - exists 2. eexists. cbn [repeat run step]. rewrite ET. cbn [bind fst snd step c_threads].
        rewrite fupd_same. cbn [bind fst snd]. rewrite app_nil_r.
        split; [reflexivity|]. split; [exact EM|]. split; [reflexivity|].
        intros u. unfold set_thread, fupd. cbn [c_threads]. destruct (u =? t); reflexivity.
      - destruct (IH (set_thread c t (Some (k a))) h) as (n & c' & E & Em & L & T).
        { exact EM. } { cbn. apply fupd_same. }
        exists (S n), c'. cbn [repeat run step]. rewrite ET, EM, G. cbn [bind fst snd].
        rewrite app_nil_r. split; [exact E|]. split; [exact Em|]. split; [exact L|].
        intros u. rewrite T. unfold set_thread, fupd. cbn [c_threads].
        destruct (u =? t); reflexivity.
      - destruct (IH (Cfg m1 (c_lock c) (fupd (c_threads c) t (Some k))) h)
          as (n & c' & E & Em & L & T).
        { reflexivity. } { cbn. apply fupd_same. }
        exists (S n), c'. cbn [repeat run step]. rewrite ET, EM, G. cbn [bind fst snd].
        rewrite app_nil_r. split; [exact E|]. split; [exact Em|]. split; [exact L|].
        intros u. rewrite T. unfold fupd. cbn [c_threads].
        destruct (u =? t); reflexivity. 
  Qed.

  (** A call made alone on an object nobody uses: it returns, and the object is unused. *)
  Lemma call_alone c h t o body m' r :
    (forall u, c_threads c u = None) -> c_lock c = false ->
    code o = Acquire body -> finishes _ _ body (c_mem c) m' r ->
    exists n c', run code c h (Call t o :: repeat (Tick t) n) = Ok (c', h ++ [Inv t o; Res t r]) /\
      c_mem c' = m' /\ c_lock c' = false /\ (forall u, c_threads c' u = None).
  Proof.
    intros TN LK EC F.
    destruct (finish_mem t body (c_mem c) m' r F
      (Cfg (c_mem c) true (fupd (fupd (c_threads c) t (Some (code o))) t (Some body)))
      (h ++ [Inv t o])) as (n & c' & E & Em & L & T).
    { reflexivity. } { cbn. apply fupd_same. }
    exists (S n), c'. cbn [repeat run step]. rewrite TN. cbn [bind fst snd step set_thread c_threads c_lock c_mem].
    rewrite fupd_same, EC, LK. cbn [bind fst snd]. rewrite app_nil_r. rewrite EC in E.
    split; [rewrite E, <- app_assoc; reflexivity|]. split; [exact Em|]. split; [exact L|].
    intros u. rewrite T. unfold fupd. cbn [c_threads]. unfold fupd. destruct (u =? t); auto.
  Qed.

  (** More steps of an idle thread change nothing. *)
  Lemma run_app a b : forall c h c1 h1, run code c h a = Ok (c1, h1) ->
    run code c h (a ++ b) = run code c1 h1 b.
  Proof.
    induction a as [|mv a IH]; intros c0 h0 c1 h1 E; cbn [run app] in *.
    - injection E as -> ->. reflexivity.
    - destruct (step code c0 mv) as [[c2 e]| |]; cbn [bind] in *; try discriminate. auto.
  Qed.

  Lemma good_start_any (c : config (queue A) (qres A)) v :
    (forall u, c_threads c u = None) -> c_lock c = false -> c_mem c = initialised v 0 ->
    good _ _ _ _ code (fifo SIZE) [] usage rep c [].
  Proof.
    intros TN LK EM. exists None, [], (fun _ => Idle), [].
    split; [constructor|]. split; [|split; [exact LK|]].
    - intros t. unfold thread_ok. rewrite TN. split; [reflexivity|discriminate].
    - intros _. rewrite EM. apply rep_initialised.
  Qed.

  (** The history only grows, and what was there does not influence the run. *)
  Lemma run_history : forall moves c h,
    run code c h moves =
    let! r := run code c [] moves in Ok (fst r, h ++ snd r).
  Proof.
    induction moves as [|mv moves IH]; intros c h; cbn [run].
    - cbn. rewrite app_nil_r. reflexivity.
    - destruct (step code c mv) as [[c1 e]| |]; cbn [bind fst snd]; try reflexivity.
      rewrite IH. rewrite (IH c1 ([] ++ e)). destruct (run code c1 [] moves) as [[c2 h2]| |];
        cbn [bind fst snd]; try reflexivity. rewrite app_assoc. reflexivity.
  Qed.
End Proofs.
