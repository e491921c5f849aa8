(** ConditionVariable: invariants. *)
From Coq Require Import List Arith Lia.
From Verif Require Import Base LockModel LockProofs CondVarModel CondVarSpec.
Import ListNotations.

Definition taken (k : lock_kind) (t : nat) : lock :=
  Lock k 0 (match k with KSemaphore => None | _ => Some t end) SUCCESS.
Definition free (k : lock_kind) : lock := Lock k 1 None SUCCESS.

Lemma acquire_taken k t u : acquire (taken k t) u = None.
Proof. reflexivity. Qed.
Lemma acquire_free k t : acquire (free k) t = Some (taken k t).
Proof. destruct k; reflexivity. Qed.
Lemma unlock_taken k t : unlock_data (taken k t) t = Ok (free k).
Proof. destruct k; cbn; rewrite ?Nat.eqb_refl; reflexivity. Qed.
Lemma try_free k t : try_lock_data (free k) t = (taken k t, true).
Proof. unfold try_lock_data. rewrite acquire_free. reflexivity. Qed.

(** * Histories *)

Lemma returned_app t a b : returned t (a ++ b) = returned t a + returned t b.
Proof.
  induction a as [|[u o|u r] a IH]; cbn [app returned]; [reflexivity|exact IH|lia].
Qed.
Lemma notified_app a b : notified (a ++ b) = notified a + notified b.
Proof.
  induction a as [|[u o|u r] a IH]; cbn [app notified]; [reflexivity| |exact IH].
  destruct o; lia.
Qed.

Lemma vrun_app M a b : forall c c1 h1, vrun M c a = Ok (c1, h1) ->
  vrun M c (a ++ b) = (let! r := vrun M c1 b in Ok (fst r, h1 ++ snd r)).
Proof.
  induction a as [|mv a IH]; intros c c1 h1 E; cbn [app vrun] in *.
  - injection E as <- <-. destruct (vrun M c b) as [[c2 h2]| |]; reflexivity.
  - destruct (vstep M c mv) as [[c' e]| |]; try discriminate. cbn [bind fst snd] in *.
    destruct (vrun M c' a) as [[c2 h2]| |] eqn:E2; try discriminate. cbn [bind fst snd] in E.
    injection E as <- <-. rewrite (IH _ _ _ E2).
    destruct (vrun M c2 b) as [[c3 h3]| |]; cbn [bind fst snd]; [rewrite app_assoc|..]; reflexivity.
Qed.

(** A thread that was busy and is idle has returned. *)
Lemma idle_returned M t : forall moves c c' h p, vrun M c moves = Ok (c', h) ->
  cv_threads c t = Some p -> cv_threads c' t = None -> exists r, In (VRes t r) h.
Proof.
  induction moves as [|mv moves IH]; intros c c' h p E T N; cbn [vrun] in E.
  { injection E as <- <-. congruence. }
  destruct (vstep M c mv) as [[c1 e]| |] eqn:E1; try discriminate. cbn [bind fst snd] in E.
  destruct (vrun M c1 moves) as [[c2 h2]| |] eqn:E2; try discriminate. cbn [bind fst snd] in E.
  injection E as -> <-.
  assert (K : (exists p', cv_threads c1 t = Some p') \/ exists r, In (VRes t r) e).
  { unfold vstep in E1. destruct mv as [u o|u].
    - destruct (cv_threads c u) eqn:U; injection E1 as <- <-; left; [eauto|].
      cbn [cv_threads]. destruct (Nat.eq_dec t u) as [->|D].
      + rewrite set_same. eauto.
      + rewrite set_other by exact D. eauto.
    - destruct (cv_threads c u) as [q|] eqn:U; [|injection E1 as <- <-; left; eauto].
      destruct (Nat.eq_dec t u) as [->|D].
      + destruct q; try (destruct (pstep M u _ (cv_mem c)) as [[m q']| |]; try discriminate;
          cbn [bind fst snd] in E1; injection E1 as <- <-; left; cbn [cv_threads];
          rewrite set_same; eauto; fail).
        injection E1 as <- <-. right. exists r. left. reflexivity.
      + destruct q; try (destruct (pstep M u _ (cv_mem c)) as [[m q']| |]; try discriminate;
          cbn [bind fst snd] in E1; injection E1 as <- <-; left; cbn [cv_threads];
          rewrite set_other by exact D; eauto; fail).
        injection E1 as <- <-. left. cbn [cv_threads]. rewrite set_other by exact D. eauto. }
  destruct K as [(p' & T')|(r & IN)].
  - destruct (IH _ _ _ _ E2 T' N) as (r & IN). exists r. apply in_or_app. auto.
  - exists r. apply in_or_app. auto.
Qed.

(** * Waiting without notification *)

Definition past (p : option pc) : Prop := p = Some WCurrent \/ p = Some WLock.

Definition blocked (M : nat) (k : lock_kind) (n : nat) (d : nat) (c : cvconfig) : Prop :=
  v_lock (cv_mem c) = taken k n /\ v_locked (cv_mem c) = true /\
  (forall t, cv_threads c t = None \/ cv_threads c t = Some WIncrement \/ past (cv_threads c t) \/
             cv_threads c t = Some ICurrent \/ exists b, cv_threads c t = Some (Return (RTest b))) /\
  exists W L, NoDup W /\ NoDup L /\ length W <= d /\ v_counter (cv_mem c) = length L /\
    (forall t, In t W <-> cv_threads c t = Some WIncrement \/ past (cv_threads c t)) /\
    (forall t, In t L <-> past (cv_threads c t)).

Lemma blocked_step M k n d c mv : blocked M k n d c ->
  d + waits [mv] < M ->
  (match mv with VCall _ o => o = Wait \/ o = IsWait | VTick _ => True end) ->
  exists c' e, vstep M c mv = Ok (c', e) /\ blocked M k n (d + waits [mv]) c' /\
    (forall t r, In (VRes t r) e -> exists b, r = RTest b).
Proof.
  intros (EL & ED & PCS & W & L & NW & NL & LW & EC & IW & IL) B A.
  destruct mv as [t o|t]; cbn [vstep].
  - destruct (cv_threads c t) as [p|] eqn:T.
    + exists c, []. split; [reflexivity|]. split; [|intros u r []].
      split; [exact EL|]. split; [exact ED|]. split; [exact PCS|].
      exists W, L. repeat (split; [assumption|]). split; [lia|]. auto.
    + eexists _, _. split; [reflexivity|]. split; [|intros u r [H|[]]; discriminate].
      assert (PO : forall u, u = t -> ~ past (cv_threads c u)).
      { intros u -> [H|H]; congruence. }
      split; [exact EL|]. split; [exact ED|]. cbn [cv_threads cv_mem]. split.
      { intros u. destruct (Nat.eq_dec u t) as [->|D].
        - rewrite set_same. destruct A as [->| ->]; cbn [start]; auto.
        - rewrite set_other by exact D. apply PCS. }
      destruct A as [->| ->]; cbn [start waits] in *.
      * exists (t :: W), L. split.
        { constructor; [|exact NW]. rewrite IW. intros [H|H]; [congruence|exact (PO t eq_refl H)]. }
        split; [exact NL|]. split; [cbn [length]; lia|]. split; [exact EC|]. split.
        -- intros u. cbn [In]. destruct (Nat.eq_dec u t) as [->|D].
           ++ rewrite set_same. split; auto.
           ++ rewrite set_other by exact D. rewrite <- IW. split; [intros [->|H]; [congruence|auto]|auto].
        -- intros u. destruct (Nat.eq_dec u t) as [->|D].
           ++ rewrite set_same, IL. split; [intros H; destruct (PO t eq_refl H)|].
              intros [H|H]; discriminate.
           ++ rewrite set_other by exact D. apply IL.
      * exists W, L. split; [exact NW|]. split; [exact NL|]. split; [lia|]. split; [exact EC|]. split.
        -- intros u. destruct (Nat.eq_dec u t) as [->|D].
           ++ rewrite set_same, IW. split; [intros [H|H]; [congruence|destruct (PO t eq_refl H)]|].
              intros [H|[H|H]]; discriminate.
           ++ rewrite set_other by exact D. apply IW.
        -- intros u. destruct (Nat.eq_dec u t) as [->|D].
           ++ rewrite set_same, IL. split; [intros H; destruct (PO t eq_refl H)|].
              intros [H|H]; discriminate.
           ++ rewrite set_other by exact D. apply IL.
  - cbn [waits] in B |- *. rewrite Nat.add_0_r in *.
    destruct (PCS t) as [T|[T|[[T|T]|[T|(b & T)]]]]; rewrite T.
    + exists c, []. split; [reflexivity|]. split; [|intros u r []].
      split; [exact EL|]. split; [exact ED|]. split; [exact PCS|]. exists W, L. auto 10.
    + cbn [pstep bind fst snd]. eexists _, _. split; [reflexivity|].
      split; [|intros u r []].
      assert (NLt : ~ In t L) by (rewrite IL, T; intros [H|H]; discriminate).
      assert (LL : length (t :: L) <= length W).
      { apply NoDup_incl_length; [constructor; assumption|]. intros u [<-|H].
        - apply IW. auto.
        - apply IW. right. apply IL. exact H. }
      cbn [length] in LL.
      split; [exact EL|]. split; [exact ED|]. cbn [cv_threads cv_mem set_counter v_counter]. split.
      { intros u. destruct (Nat.eq_dec u t) as [->|D].
        - rewrite set_same. right. right. left. left. reflexivity.
        - rewrite set_other by exact D. apply PCS. }
      exists W, (t :: L). split; [exact NW|]. split; [constructor; assumption|]. split; [exact LW|].
      split. { unfold plus1. rewrite EC, Nat.mod_small by lia. cbn [length]. lia. }
      split.
      * intros u. destruct (Nat.eq_dec u t) as [->|D].
        -- rewrite set_same, IW, T. split; [intros _; right; left; reflexivity|auto].
        -- rewrite set_other by exact D. apply IW.
      * intros u. cbn [In]. destruct (Nat.eq_dec u t) as [->|D].
        -- rewrite set_same. split; [intros _; left; reflexivity|auto].
        -- rewrite set_other by exact D. rewrite <- IL. split; [intros [->|H]; [congruence|auto]|auto].
    + cbn [pstep bind fst snd]. eexists _, _. split; [reflexivity|].
      split; [|intros u r []].
      assert (HL : In t L) by (apply IL; left; exact T).
      destruct (Nat.eqb_spec (v_counter (cv_mem c)) 0) as [Z|_].
      { rewrite EC in Z. destruct L; [destruct HL|discriminate]. }
      split; [exact EL|]. split; [exact ED|]. cbn [cv_threads cv_mem]. split.
      { intros u. destruct (Nat.eq_dec u t) as [->|D].
        - rewrite set_same. right. right. left. right. reflexivity.
        - rewrite set_other by exact D. apply PCS. }
      exists W, L. split; [exact NW|]. split; [exact NL|]. split; [exact LW|]. split; [exact EC|].
      split; intros u; (destruct (Nat.eq_dec u t) as [->|D];
        [rewrite set_same|rewrite set_other by exact D; first [apply IW|apply IL]]).
      * rewrite IW, T. split; [intros _; right; right; reflexivity|intros _; right; left; reflexivity].
      * rewrite IL, T. split; [intros _; right; reflexivity|intros _; left; reflexivity].
    + cbn [pstep]. rewrite EL, acquire_taken. cbn [bind fst snd]. eexists _, _.
      split; [reflexivity|]. split; [|intros u r []].
      assert (SA : forall u, set_at (cv_threads c) t (Some WLock) u = cv_threads c u).
      { intros u. destruct (Nat.eq_dec u t) as [->|D];
          [rewrite set_same; auto|rewrite set_other by exact D; reflexivity]. }
      split; [exact EL|]. split; [exact ED|]. cbn [cv_threads cv_mem]. split.
      { intros u. rewrite SA. apply PCS. }
      exists W, L. repeat (split; [assumption|]). split; intros u; rewrite SA; auto.
    + cbn [pstep bind fst snd]. eexists _, _. split; [reflexivity|]. split; [|intros u r []].
      split; [exact EL|]. split; [exact ED|]. cbn [cv_threads cv_mem]. split.
      { intros u. destruct (Nat.eq_dec u t) as [->|D].
        - rewrite set_same. eauto 10.
        - rewrite set_other by exact D. apply PCS. }
      exists W, L. repeat (split; [assumption|]).
      split; intros u; (destruct (Nat.eq_dec u t) as [->|D];
        [rewrite set_same|rewrite set_other by exact D; first [apply IW|apply IL]]).
      * rewrite IW, T. split; intros [H|[H|H]]; discriminate.
      * rewrite IL, T. split; intros [H|H]; discriminate.
    + eexists _, _. split; [reflexivity|]. split; [|intros u r [[= <- <-]|[]]; eauto].
      split; [exact EL|]. split; [exact ED|]. cbn [cv_threads cv_mem]. split.
      { intros u. destruct (Nat.eq_dec u t) as [->|D].
        - rewrite set_same. auto.
        - rewrite set_other by exact D. apply PCS. }
      exists W, L. repeat (split; [assumption|]).
      split; intros u; (destruct (Nat.eq_dec u t) as [->|D];
        [rewrite set_same|rewrite set_other by exact D; first [apply IW|apply IL]]).
      * rewrite IW, T. split; intros [H|[H|H]]; discriminate.
      * rewrite IL, T. split; intros [H|H]; discriminate.
Qed.

Lemma blocked_run M k n : forall moves d c, blocked M k n d c ->
  d + waits moves < M ->
  Forall (fun mv => match mv with VCall _ o => o = Wait \/ o = IsWait | VTick _ => True end) moves ->
  exists c' h, vrun M c moves = Ok (c', h) /\ blocked M k n (d + waits moves) c' /\
    (forall t r, In (VRes t r) h -> exists b, r = RTest b).
Proof.
  induction moves as [|mv moves IH]; intros d c B L A.
  - exists c, []. cbn [vrun waits] in *. rewrite Nat.add_0_r. split; [reflexivity|].
    split; [exact B|intros t r []].
  - assert (WE : waits (mv :: moves) = waits [mv] + waits moves).
    { destruct mv as [t []|t]; reflexivity. }
    rewrite WE in *. inversion A as [|? ? A1 A2]; subst.
    destruct (blocked_step M k n d c mv B ltac:(lia) A1) as (c1 & e & E1 & B1 & R1).
    destruct (IH _ _ B1 ltac:(lia) A2) as (c2 & h & E2 & B2 & R2).
    exists c2, (e ++ h). cbn [vrun]. rewrite E1. cbn [bind fst snd]. rewrite E2. split; [reflexivity|].
    split; [rewrite Nat.add_assoc; exact B2|].
    intros t r IN. apply in_app_or in IN. destruct IN; eauto.
Qed.

Lemma blocked_new M k n : blocked M k n 0 (condvar_new k n).
Proof.
  split; [reflexivity|]. split; [reflexivity|]. split; [intros t; left; reflexivity|].
  exists [], []. split; [constructor|]. split; [constructor|]. split; [auto|].
  split; [reflexivity|]. split.
  - intros t. cbn. split; [intros []|intros [H|[H|H]]; discriminate].
  - intros t. cbn. split; [intros []|intros [H|H]; discriminate].
Qed.

(** * One thread waits, one notifies *)

Section Pair.
  Variables (M : nat) (k : lock_kind) (w n : nat).
  Hypothesis M2 : 2 <= M.
  Hypothesis WN : w <> n.

  Lemma plus1_0 : plus1 M 0 = 1.
  Proof. unfold plus1. rewrite Nat.mod_small by lia. reflexivity. Qed.
  Lemma minus1_1 : minus1 M 1 = 0.
  Proof. unfold minus1. replace (1 + (M - 1)) with M by lia. apply Nat.mod_same. lia. Qed.

  (** The states the two calls go through together; the last argument is the number of
      notifications that have been made and not yet used. *)
  Inductive joint : option pc -> option pc -> cvar -> nat -> Prop :=
  (* nobody waits yet *)
  | J0 pn pw need : (pn, need) = (None, 0) \/ (pn, need) = (Some NCurrent, 1) \/
                    (pn, need) = (Some (Return RVoid), 0) ->
      pw = None \/ pw = Some WIncrement \/ pw = Some (Return RVoid) ->
      joint pn pw (CVar (taken k n) true 0) need
  (* waiting *)
  | J1 pn pw need : (pn, need) = (None, 0) \/ (pn, need) = (Some NCurrent, 1) \/
                    (pn, need) = (Some (Return RVoid), 0) \/ (pn, need) = (Some (NUnlock 1), 1) ->
      pw = Some WCurrent \/ pw = Some WLock ->
      joint pn pw (CVar (taken k n) true 1) need
  (* the lock was released for the waiting thread *)
  | J2a pn b pw : (pn, b) = (Some (NClearLocked 1), true) \/ (pn, b) = (Some (NSpin 1), false) ->
      pw = Some WCurrent \/ pw = Some WLock ->
      joint pn pw (CVar (free k) b 1) 1
  | J2b pn b : (pn, b) = (Some (NClearLocked 1), true) \/ (pn, b) = (Some (NSpin 1), false) ->
      joint pn (Some WSetLocked) (CVar (taken k w) b 1) 1
  | J2c pn b : (pn, b) = (Some (NClearLocked 1), true) \/ pn = Some (NSpin 1) ->
      joint pn (Some WUnlock) (CVar (taken k w) b 1) 1
  | J2d pn b : pn = Some (NClearLocked 1) \/ pn = Some (NSpin 1) ->
      joint pn (Some WClearLocked) (CVar (free k) b 1) 1
  | J2e pn : pn = Some (NClearLocked 1) \/ pn = Some (NSpin 1) ->
      joint pn (Some WDecrement) (CVar (free k) false 1) 1
  | J2f pn pw : pn = Some (NClearLocked 1) \/ pn = Some (NSpin 1) \/ pn = Some NRead \/ pn = Some NTry ->
      pw = None \/ pw = Some (Return RVoid) ->
      joint pn pw (CVar (free k) false 0) 0
  (* the notifying thread takes the lock again *)
  | J3a pw : pw = None \/ pw = Some (Return RVoid) ->
      joint (Some (NStore true)) pw (CVar (taken k n) false 0) 0
  | J3b pw : pw = None \/ pw = Some (Return RVoid) ->
      joint (Some NReturn) pw (CVar (taken k n) true 0) 0.

  Definition waiting (pw : option pc) : nat :=
    match pw with Some (Return _) => 1 | _ => 0 end.

  (** [a]: notifications made; [r]: waits that returned. *)
  Definition joined (c : cvconfig) (a r : nat) : Prop :=
    (forall t, t <> w -> t <> n -> cv_threads c t = None) /\
    exists need, joint (cv_threads c n) (cv_threads c w) (cv_mem c) need /\
      r + waiting (cv_threads c w) + need <= a.

  Ltac alts :=
    repeat match goal with
      | H : _ \/ _ |- _ => destruct H
      | H : (_, _) = (_, _) |- _ => injection H as ? ?
      end; subst.

  (** How many steps a call still takes at least. *)
  Definition rank (p : option pc) : nat :=
    match p with
    | None => 0
    | Some p =>
        match p with
        | Return _ => 1
        | WDecrement => 2 | WClearLocked => 3 | WUnlock => 4 | WSetLocked => 5 | WLock => 6
        | WCurrent => 7 | WIncrement => 8
        | NReturn => 2 | NStore _ => 3 | NTry => 4 | NRead => 5 | NSpin _ => 6
        | NClearLocked _ => 7 | NUnlock _ => 8 | NCurrent => 9
        | _ => 0
        end
    end.

  Definition is_return (p : pc) : bool := match p with Return _ => true | _ => false end.

  Ltac found J :=
    eexists _, _, _; split; [reflexivity|]; split; [eapply J; auto 7|];
    split; [cbn; lia|first [left; cbn; lia|right; auto]].

  Lemma tick_n p pw m need : joint (Some p) pw m need ->
    (p = Return RVoid /\ joint None pw m need) \/
    (is_return p = false /\
     exists m' p' need', pstep M n p m = Ok (m', p') /\ joint (Some p') pw m' need' /\
       need' <= need /\ (rank (Some p') < rank (Some p) \/ (m' = m /\ p' = p))).
  Proof.
    intros J. inversion J; subst; alts; try discriminate;
      repeat match goal with H : Some _ = Some _ |- _ => injection H as ->
                           | H : Some _ = None |- _ => discriminate
                           | H : None = Some _ |- _ => discriminate end;
      try (left; split; [reflexivity|]; first [apply J0; auto; fail|apply J1; auto; fail]);
      right; (split; [reflexivity|]);
      cbn [pstep v_lock v_locked v_counter bind fst snd Nat.eqb Nat.sub set_lock set_locked];
      rewrite ?unlock_taken, ?try_free;
      cbn [bind fst snd set_lock set_locked v_lock v_locked v_counter];
      first [ found J0 | found J1 | found J2a | found J2b | found J2c | found J2d | found J2e
            | found J2f | found J3a | found J3b ].
  Qed.

  Lemma tick_w pn p m need : joint pn (Some p) m need ->
    (p = Return RVoid /\ joint pn None m need) \/
    (is_return p = false /\
     exists m' p' need', pstep M w p m = Ok (m', p') /\ joint pn (Some p') m' need' /\
       waiting (Some p') + need' <= waiting (Some p) + need /\
       (rank (Some p') < rank (Some p) \/ (m' = m /\ p' = p))).
  Proof.
    intros J. inversion J; subst; alts; try discriminate;
      repeat match goal with H : Some _ = Some _ |- _ => injection H as ->
                           | H : Some _ = None |- _ => discriminate
                           | H : None = Some _ |- _ => discriminate end;
      try (left; split; [reflexivity|];
           first [apply J0; auto; fail|apply J1; auto; fail|apply J2f; auto; fail
                 |apply J3a; auto; fail|apply J3b; auto; fail]);
      right; (split; [reflexivity|]);
      cbn [pstep v_lock v_locked v_counter bind fst snd Nat.eqb Nat.sub set_lock set_locked set_counter];
      rewrite ?unlock_taken, ?try_free, ?acquire_free, ?acquire_taken, ?plus1_0, ?minus1_1;
      cbn [bind fst snd set_lock set_locked v_lock v_locked v_counter];
      first [ found J0 | found J1 | found J2a | found J2b | found J2c | found J2d | found J2e
            | found J2f | found J3a | found J3b ].
  Qed.

  (** While notify() runs one of the two threads can go on; a wait() that was released too. *)
  Lemma enabled_n pn pw m need p : joint pn pw m need -> pn = Some p -> is_return p = false ->
    (forall m' p', pstep M n p m = Ok (m', p') -> (m', p') = (m, p) -> 
       exists q, pw = Some q /\ is_return q = false /\
         forall m2 q2, pstep M w q m = Ok (m2, q2) -> rank (Some q2) < rank (Some q)).
  Proof.
    intros J -> NR m' p' E S.
    inversion J; subst; alts; try discriminate;
      repeat match goal with H : Some _ = Some _ |- _ => injection H as ->
                           | H : Some _ = None |- _ => discriminate
                           | H : None = Some _ |- _ => discriminate end;
      try discriminate;
      cbn [pstep v_lock v_locked v_counter bind fst snd Nat.eqb Nat.sub set_lock set_locked] in E;
      rewrite ?unlock_taken, ?try_free in E;
      cbn [bind fst snd set_lock set_locked v_lock v_locked v_counter] in E; try discriminate E;
      (eexists; split; [reflexivity|]; split; [reflexivity|]; intros m2 q2 E2;
      cbn [pstep v_lock v_locked v_counter bind fst snd Nat.eqb Nat.sub set_lock set_locked set_counter] in E2;
      rewrite ?unlock_taken, ?try_free, ?acquire_free, ?acquire_taken, ?plus1_0, ?minus1_1 in E2;
      cbn [bind fst snd set_lock set_locked v_lock v_locked v_counter] in E2;
      injection E2 as <- <-; cbn; lia).
  Qed.

  (** The waiting thread was counted by the notification that is under way, or is done. *)
  Definition served (pn pw : option pc) : Prop :=
    pw = None \/ pw = Some (Return RVoid) \/
    exists p, pn = Some p /\ is_return p = false /\ pw <> Some WIncrement.

  Ltac cases J :=
    inversion J; subst; alts; try discriminate;
      repeat match goal with H : Some _ = Some _ |- _ => injection H as ->
                           | H : Some _ = None |- _ => discriminate
                           | H : None = Some _ |- _ => discriminate end;
      try discriminate.

  Lemma served_n p pw m need m' p' : joint (Some p) pw m need -> is_return p = false ->
    served (Some p) pw -> pstep M n p m = Ok (m', p') -> served (Some p') pw.
  Proof.
    intros J NR SV E.
    destruct SV as [->|[->|(q & [= <-] & _ & NI)]]; [left; reflexivity|right; left; reflexivity|].
    cases J; try (exfalso; congruence);
      cbn [pstep v_lock v_locked v_counter bind fst snd Nat.eqb Nat.sub set_lock set_locked] in E;
      rewrite ?unlock_taken, ?try_free in E;
      cbn [bind fst snd set_lock set_locked v_lock v_locked v_counter] in E; try discriminate E;
      injection E as <- <-;
      first [left; reflexivity|right; left; reflexivity
            |right; right; eexists; split; [reflexivity|]; split; [reflexivity|discriminate]].
  Qed.

  Lemma served_w pn p m need m' p' : joint pn (Some p) m need -> is_return p = false ->
    served pn (Some p) -> pstep M w p m = Ok (m', p') -> served pn (Some p').
  Proof.
    intros J NR SV E.
    destruct SV as [H|[[= ->]|(q & -> & NQ & NI)]]; [discriminate|discriminate NR|].
    cases J; try (exfalso; congruence);
      cbn [pstep v_lock v_locked v_counter bind fst snd Nat.eqb Nat.sub set_lock set_locked set_counter] in E;
      rewrite ?unlock_taken, ?try_free, ?acquire_free, ?acquire_taken, ?plus1_0, ?minus1_1 in E;
      cbn [bind fst snd set_lock set_locked v_lock v_locked v_counter] in E; try discriminate E;
      injection E as <- <-;
      first [right; left; reflexivity
            |right; right; eexists; split; [reflexivity|]; split; [reflexivity|discriminate]].
  Qed.

  Lemma vstep_tick c t p : cv_threads c t = Some p -> is_return p = false ->
    vstep M c (VTick t) =
      (let! r := pstep M t p (cv_mem c) in
       Ok (CV (fst r) (set_at (cv_threads c) t (Some (snd r))), [])).
  Proof. intros T R. cbn [vstep]. rewrite T. destruct p; try discriminate R; reflexivity. Qed.

  Definition total (c : cvconfig) : nat := rank (cv_threads c n) + rank (cv_threads c w).

  (** A step of thread [t] would change nothing. *)
  Definition stuck (t : nat) (c : cvconfig) : Prop :=
    match cv_threads c t with
    | None => True
    | Some p => is_return p = false /\ pstep M t p (cv_mem c) = Ok (cv_mem c, p)
    end.

  Definition same (c c' : cvconfig) : Prop :=
    cv_mem c' = cv_mem c /\ cv_threads c' n = cv_threads c n /\ cv_threads c' w = cv_threads c w.

  Lemma joined_tick c a r t : joined c a r ->
    exists c' e, vstep M c (VTick t) = Ok (c', e) /\
      joined c' a (r + returned w e) /\ notified e = 0 /\
      (served (cv_threads c n) (cv_threads c w) -> served (cv_threads c' n) (cv_threads c' w)) /\
      (total c' < total c \/ (same c c' /\ stuck t c)).
  Proof.
    intros (OT & need & J & LE). destruct c as [m th]. cbn [cv_threads cv_mem] in *.
    assert (NW : n <> w) by congruence.
    destruct (Nat.eq_dec t n) as [->|DN]; [|destruct (Nat.eq_dec t w) as [->|DW]].
    - destruct (th n) as [p|] eqn:TN.
      2:{ exists (CV m th), []. cbn [vstep cv_threads]. rewrite TN. split; [reflexivity|].
          cbn. rewrite Nat.add_0_r. split. { split; [exact OT|]. exists need. cbn. rewrite TN. auto. }
          split; [reflexivity|]. rewrite ?TN. split; [auto|]. right. split; [repeat split|].
          unfold stuck. cbn [cv_threads]. rewrite TN. exact I. }
      destruct (tick_n _ _ _ _ J) as [(-> & J')|(NR & m' & p' & need' & E & J' & LN & PR)].
      + eexists _, _. cbn [vstep cv_threads]. rewrite TN. split; [reflexivity|].
        cbn [returned notified]. rewrite (proj2 (Nat.eqb_neq n w)) by exact NW. cbn [Nat.add].
        rewrite Nat.add_0_r. split.
        { split. { intros u U1 U2. cbn [cv_threads]. rewrite set_other by exact U2. auto. }
          cbn [cv_threads cv_mem]. rewrite set_same, set_other by congruence.
          exists need. auto. }
        split; [reflexivity|]. cbn [cv_threads]. rewrite set_same, set_other by congruence.
        split.
        { intros [H|[H|(q & [= <-] & X & _)]]; [left; exact H|right; left; exact H|discriminate]. }
        left. unfold total. cbn [cv_threads]. rewrite set_same, set_other, TN by congruence. cbn. lia.
      + rewrite (vstep_tick _ _ p) by assumption. cbn [cv_mem]. rewrite E. cbn [bind fst snd].
        eexists _, _. split; [reflexivity|]. cbn [returned notified cv_threads]. rewrite Nat.add_0_r.
        split.
        { split. { intros u U1 U2. cbn [cv_threads]. rewrite set_other by exact U2. auto. }
          cbn [cv_threads cv_mem]. rewrite set_same, set_other by congruence.
          exists need'. split; [exact J'|lia]. }
        split; [reflexivity|]. rewrite set_same, set_other by congruence. split.
        { intros SV. exact (served_n _ _ _ _ _ _ J NR SV E). }
        destruct PR as [PR|(-> & ->)].
        * left. unfold total. cbn [cv_threads]. rewrite set_same, set_other, TN by congruence. lia.
        * right. split.
          -- repeat split; cbn [cv_threads]; rewrite ?set_same, ?set_other by congruence; auto.
          -- unfold stuck. cbn [cv_threads cv_mem]. rewrite TN. auto.
    - destruct (th w) as [p|] eqn:TW.
      2:{ exists (CV m th), []. cbn [vstep cv_threads]. rewrite TW. split; [reflexivity|].
          cbn. rewrite Nat.add_0_r. split. { split; [exact OT|]. exists need. cbn. rewrite TW. auto. }
          split; [reflexivity|]. rewrite ?TW. split; [auto|]. right. split; [repeat split|].
          unfold stuck. cbn [cv_threads]. rewrite TW. exact I. }
      destruct (tick_w _ _ _ _ J) as [(-> & J')|(NR & m' & p' & need' & E & J' & LN & PR)].
      + eexists _, _. cbn [vstep cv_threads]. rewrite TW. split; [reflexivity|].
        cbn [returned notified]. rewrite Nat.eqb_refl. cbn [Nat.add]. split.
        { split. { intros u U1 U2. cbn [cv_threads]. rewrite set_other by exact U1. auto. }
          cbn [cv_threads cv_mem]. rewrite set_same, set_other by congruence.
          exists need. split; [exact J'|]. cbn [waiting] in *. lia. }
        split; [reflexivity|]. cbn [cv_threads]. rewrite set_same, set_other by congruence.
        split; [intros _; left; reflexivity|].
        left. unfold total. cbn [cv_threads]. rewrite set_same, set_other, TW by congruence. cbn. lia.
      + rewrite (vstep_tick _ _ p) by assumption. cbn [cv_mem]. rewrite E. cbn [bind fst snd].
        eexists _, _. split; [reflexivity|]. cbn [returned notified cv_threads]. rewrite Nat.add_0_r.
        split.
        { split. { intros u U1 U2. cbn [cv_threads]. rewrite set_other by exact U1. auto. }
          cbn [cv_threads cv_mem]. rewrite set_same, set_other by congruence.
          exists need'. split; [exact J'|lia]. }
        split; [reflexivity|]. rewrite set_same, set_other by congruence. split.
        { intros SV. exact (served_w _ _ _ _ _ _ J NR SV E). }
        destruct PR as [PR|(-> & ->)].
        * left. unfold total. cbn [cv_threads]. rewrite set_same, set_other, TW by congruence. lia.
        * right. split.
          -- repeat split; cbn [cv_threads]; rewrite ?set_same, ?set_other by congruence; auto.
          -- unfold stuck. cbn [cv_threads cv_mem]. rewrite TW. auto.
    - exists (CV m th), []. cbn [vstep cv_threads]. rewrite (OT t DW DN). split; [reflexivity|].
      cbn [returned notified]. rewrite Nat.add_0_r. split.
      { split; [exact OT|]. exists need. auto. }
      split; [reflexivity|]. split; [auto|]. right. split; [repeat split|].
      unfold stuck. cbn [cv_threads]. rewrite (OT t DW DN). exact I.
  Qed.

  Lemma joined_call c a r t o : joined c a r ->
    (t = w /\ o = Wait /\ cv_threads c n = None) \/ (t = n /\ o = Notify) ->
    exists c' e, vstep M c (VCall t o) = Ok (c', e) /\
      joined c' (a + notified e) (r + returned w e).
  Proof.
    intros (OT & need & J & LE) A. destruct c as [m th]. cbn [cv_threads cv_mem] in *.
    cbn [vstep cv_threads]. destruct A as [(-> & -> & NI)|(-> & ->)].
    - destruct (th w) as [p|] eqn:TW.
      { exists (CV m th), []. split; [reflexivity|]. cbn. rewrite !Nat.add_0_r.
        split; [exact OT|]. exists need. cbn [cv_threads cv_mem]. rewrite TW. auto. }
      eexists _, _. split; [reflexivity|]. cbn. rewrite !Nat.add_0_r.
      split. { intros u U1 U2. cbn. rewrite set_other by exact U1. auto. }
      cbn [cv_threads cv_mem]. rewrite set_same, set_other by congruence.
      rewrite NI in *. exists need. split; [|cbn [waiting] in *; lia].
      inversion J; subst; alts; try discriminate. constructor; auto.
    - destruct (th n) as [p|] eqn:TN.
      { exists (CV m th), []. split; [reflexivity|]. cbn. rewrite !Nat.add_0_r.
        split; [exact OT|]. exists need. cbn [cv_threads cv_mem]. rewrite TN. auto. }
      eexists _, _. split; [reflexivity|]. cbn. rewrite Nat.add_0_r.
      split. { intros u U1 U2. cbn. rewrite set_other by exact U2. auto. }
      cbn [cv_threads cv_mem]. rewrite set_same, set_other by congruence. exists 1.
      split; [|inversion J; subst; alts; try discriminate; cbn [waiting] in *; lia].
      inversion J; subst; alts; try discriminate; solve [apply J0; auto|apply J1; auto].
  Qed.

  Lemma joined_run : forall moves c a r, joined c a r ->
    two_threads w n moves -> polite M w n c moves ->
    exists c' h, vrun M c moves = Ok (c', h) /\ joined c' (a + notified h) (r + returned w h).
  Proof.
    induction moves as [|mv moves IH]; intros c a r J TT PO.
    { exists c, []. cbn. rewrite !Nat.add_0_r. auto. }
    inversion TT as [|? ? T1 T2]; subst. destruct PO as (P1 & P2).
    assert (ST : exists c' e, vstep M c mv = Ok (c', e) /\
              joined c' (a + notified e) (r + returned w e)).
    { destruct mv as [t o|t].
      - apply joined_call; [exact J|]. destruct T1 as [(-> & ->)|(-> & ->)]; auto.
      - destruct (joined_tick c a r t J) as (c' & e & E & J' & N0 & _).
        exists c', e. rewrite N0, Nat.add_0_r. auto. }
    destruct ST as (c1 & e & E1 & J1'). specialize (P2 _ _ E1).
    destruct (IH _ _ _ J1' T2 P2) as (c2 & h & E2 & J2').
    exists c2, (e ++ h). cbn [vrun]. rewrite E1. cbn [bind fst snd]. rewrite E2.
    split; [reflexivity|]. rewrite notified_app, returned_app, !Nat.add_assoc. exact J2'.
  Qed.

  Lemma joined_new : joined (condvar_new k n) 0 0.
  Proof.
    split; [reflexivity|]. exists 0. split; [|cbn; lia].
    change (cv_mem (condvar_new k n)) with (CVar (taken k n) true 0). apply J0; auto.
  Qed.

  Lemma same_stuck c c' t : same c c' -> t = n \/ t = w -> stuck t c' -> stuck t c.
  Proof. intros (E1 & E2 & E3) [->| ->]; unfold stuck; rewrite E1, ?E2, ?E3; auto. Qed.

  Lemma round_ok : forall ticks c a r, joined c a r ->
    (forall mv, In mv ticks -> exists t, mv = VTick t) ->
    exists c' h, vrun M c ticks = Ok (c', h) /\
      joined c' (a + notified h) (r + returned w h) /\
      (served (cv_threads c n) (cv_threads c w) -> served (cv_threads c' n) (cv_threads c' w)) /\
      (total c' < total c \/
       (same c c' /\ forall t, In (VTick t) ticks -> t = n \/ t = w -> stuck t c)).
  Proof.
    induction ticks as [|mv ticks IH]; intros c a r J T.
    { exists c, []. cbn. rewrite !Nat.add_0_r. split; [reflexivity|]. split; [exact J|].
      split; [auto|]. right. split; [repeat split|intros t []]. }
    destruct (T mv (or_introl eq_refl)) as (t & ->).
    destruct (joined_tick c a r t J) as (c1 & e & E1 & J1' & N0 & SV1 & PR1).
    destruct (IH c1 _ _ J1' (fun mv H => T mv (or_intror H))) as (c2 & h & E2 & J2' & SV2 & PR2).
    exists c2, (e ++ h). cbn [vrun]. rewrite E1. cbn [bind fst snd]. rewrite E2.
    split; [reflexivity|]. rewrite notified_app, returned_app, N0. cbn [Nat.add]. rewrite (Nat.add_assoc r). split; [exact J2'|].
    split; [auto|].
    destruct PR1 as [L1|(S1 & K1)].
    - left. destruct PR2 as [L2|(S2 & _)]; [lia|].
      destruct S2 as (_ & X & Y). unfold total in *. rewrite X, Y. exact L1.
    - destruct S1 as (X1 & X2 & X3).
      destruct PR2 as [L2|((Y1 & Y2 & Y3) & K2)].
      + left. unfold total in *. rewrite X2, X3 in L2. exact L2.
      + right. split; [repeat split; congruence|]. intros u [[= ->]|IN] U.
        * exact K1.
        * exact (same_stuck c c1 u (conj X1 (conj X2 X3)) U (K2 u IN U)).
  Qed.

  Lemma idle_served c a r : joined c a r -> served (cv_threads c n) (cv_threads c w) ->
    cv_threads c n = None -> cv_threads c w = None \/ cv_threads c w = Some (Return RVoid).
  Proof.
    intros _ [H|[H|(p & E & _)]] N; auto. congruence.
  Qed.

  (** Enough rounds bring both threads home. *)
  Lemma rounds_ok : forall rs c a r, joined c a r -> Forall (round w n) rs ->
    served (cv_threads c n) (cv_threads c w) -> total c <= length rs ->
    exists c' h, vrun M c (concat rs) = Ok (c', h) /\
      joined c' (a + notified h) (r + returned w h) /\
      cv_threads c' n = None /\ cv_threads c' w = None.
  Proof.
    induction rs as [|ticks rs IH]; intros c a r J R SV L.
    - exists c, []. cbn [concat vrun notified returned]. rewrite !Nat.add_0_r.
      split; [reflexivity|]. split; [exact J|]. cbn [length] in L. unfold total in L.
      destruct J as (_ & need & J & _).
      destruct (cv_threads c n) as [pn|] eqn:TN, (cv_threads c w) as [pw|] eqn:TW; auto;
        exfalso; cases J; cbn in L; lia.
    - inversion R as [|? ? (R1 & RW & RN) R2]; subst.
      destruct (round_ok ticks c a r J R1) as (c1 & h1 & E1 & J1' & SV1 & PR).
      assert (L1 : total c1 <= length rs).
      { cbn [length] in L. destruct PR as [LT|(SM & K)]; [lia|].
        pose proof (K n RN (or_introl eq_refl)) as KN.
        pose proof (K w RW (or_intror eq_refl)) as KW.
        destruct SM as (_ & X & Y). unfold total in *. rewrite X, Y.
        unfold stuck in KN, KW. destruct J as (_ & need & J & _).
        destruct (cv_threads c n) as [pn|] eqn:TN.
        - destruct KN as (NR & EN). exfalso.
          destruct (enabled_n _ _ _ _ pn J eq_refl NR _ _ EN eq_refl) as (q & QW & QR & QE).
          rewrite QW in KW. destruct KW as (_ & EW). specialize (QE _ _ EW). lia.
        - destruct SV as [SV|[SV|(p & H & _)]]; [|exfalso|discriminate].
          + rewrite SV. cbn. lia.
          + rewrite SV in KW. destruct KW as (H & _). discriminate. }
      destruct (IH c1 _ _ J1' R2 (SV1 SV) L1) as (c2 & h2 & E2 & J2' & N2 & W2).
      exists c2, (h1 ++ h2). cbn [concat]. rewrite (vrun_app _ _ _ _ _ _ E1), E2.
      cbn [bind fst snd]. rewrite notified_app, returned_app, !Nat.add_assoc. auto.
  Qed.

  Lemma total_bound c a r : joined c a r -> total c <= 17.
  Proof.
    intros (_ & need & J & _). unfold total.
    destruct (cv_threads c n) as [pn|] eqn:TN, (cv_threads c w) as [pw|] eqn:TW;
      cases J; cbn; lia.
  Qed.
End Pair.
