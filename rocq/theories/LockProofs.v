(** The invariant of threads with scoped locks. *)
From Coq Require Import List Arith ZArith Lia Bool.
From Verif Require Import Base LockModel LockSpec.
Import ListNotations.

Lemma set_same {X} (f : nat -> X) t x : set_at f t x t = x.
Proof. unfold set_at. rewrite Nat.eqb_refl. reflexivity. Qed.
Lemma set_other {X} (f : nat -> X) t x u : u <> t -> set_at f t x u = f u.
Proof. intros N. unfold set_at. destruct (Nat.eqb_spec u t); congruence. Qed.

Lemma sum_change (f g : nat -> nat) t : forall ts,
  NoDup ts -> In t ts -> (forall u, u <> t -> g u = f u) ->
  list_sum (map g ts) + f t = list_sum (map f ts) + g t.
Proof.
  induction ts as [|a ts IH]; intros ND HI Hg; [destruct HI|].
  inversion ND; subst. cbn [map list_sum fold_right]. fold (list_sum (map g ts)) (list_sum (map f ts)).
  destruct (Nat.eq_dec a t) as [->|N].
  - assert (E : map g ts = map f ts).
    { apply map_ext_in. intros u Hu. apply Hg. intros ->. contradiction. }
    rewrite E. unfold list_sum. cbn. lia.
  - destruct HI as [->|HI]; [congruence|]. specialize (IH H2 HI Hg). rewrite (Hg a N).
    unfold list_sum in *. cbn. lia.
Qed.

Lemma sum_same (f g : nat -> nat) ts : (forall u, g u = f u) ->
  list_sum (map g ts) = list_sum (map f ts).
Proof. intros H. rewrite (map_ext _ _ H). reflexivity. Qed.

(** Scopes that are open, and the one being opened. *)
Definition held (c : locks) (t l : nat) : nat :=
  open_scopes c t l +
  match t_task (k_threads c t) with
  | Taken l' _ => if l' =? l then 1 else 0
  | _ => 0
  end.

Section Inv.
  Variable kinds : nat -> lock_kind.
  Variable values : nat -> nat.
  (** The locks whose count is followed. *)
  Variable P : nat -> Prop.

  Definition capacity (l : nat) : nat := match kinds l with KSemaphore => values l | _ => 1 end.

  Record linv (c : locks) : Prop := {
    v_kind : forall l, l_kind (k_locks c l) = kinds l;
    v_lockers : forall t k, In k (t_scopes (k_threads c t)) ->
                  k = locker_for (kinds (k_data k)) (k_data k);
    v_owner : forall l t, kinds l <> KSemaphore ->
                (l_owner (k_locks c l) = Some t <-> held c t l <> 0);
    v_count : exists ts, NoDup ts /\
                (forall t, ~ In t ts -> k_threads c t = Thread [] Running) /\
                forall l, P l -> list_sum (map (fun t => held c t l) ts) + l_count (k_locks c l)
                                 = capacity l
  }.

  Lemma v_count_in c t : linv c -> exists ts, NoDup ts /\ In t ts /\
    (forall u, ~ In u ts -> k_threads c u = Thread [] Running) /\
    forall l, P l -> list_sum (map (fun u => held c u l) ts) + l_count (k_locks c l) = capacity l.
  Proof.
    intros I. destruct (v_count c I) as (ts & ND & Out & Sum).
    destruct (in_dec Nat.eq_dec t ts) as [HI|HN]; [exists ts; auto|].
    exists (t :: ts). split; [constructor; auto|]. split; [left; auto|]. split.
    - intros u Hu. apply Out. intros H. apply Hu. right. exact H.
    - intros l Hl. specialize (Sum l Hl). cbn [map list_sum fold_right].
      assert (E : held c t l = 0).
      { unfold held, open_scopes. rewrite (Out t HN). reflexivity. }
      rewrite E. unfold list_sum in Sum. lia.
  Qed.

  Lemma start_linv : linv (locks_new kinds values).
  Proof.
    constructor; cbn.
    - auto.
    - intros t k [].
    - intros l t _. unfold held, open_scopes. cbn. split; [discriminate|congruence].
    - exists []. split; [constructor|]. split; [auto|]. intros l _. reflexivity.
  Qed.

  (** Steps that do not change what thread [t] holds, nor counts and owners. *)
  Lemma linv_same c c' t : linv c ->
    (forall l, l_kind (k_locks c' l) = l_kind (k_locks c l) /\
               l_count (k_locks c' l) = l_count (k_locks c l) /\
               l_owner (k_locks c' l) = l_owner (k_locks c l)) ->
    (forall u, u <> t -> k_threads c' u = k_threads c u) ->
    (forall l, P l \/ kinds l <> KSemaphore -> held c' t l = held c t l) ->
    (forall k, In k (t_scopes (k_threads c' t)) -> k = locker_for (kinds (k_data k)) (k_data k)) ->
    linv c'.
  Proof.
    intros I HL HT HH HK.
    assert (HA : forall u l, P l \/ kinds l <> KSemaphore -> held c' u l = held c u l).
    { intros u l Hl. destruct (Nat.eq_dec u t) as [->|N]; [auto|].
      unfold held, open_scopes. rewrite (HT u N). reflexivity. }
    constructor.
    - intros l. rewrite (proj1 (HL l)). apply (v_kind c I).
    - intros u k Hk. destruct (Nat.eq_dec u t) as [->|N]; [auto|].
      rewrite (HT u N) in Hk. apply (v_lockers c I u k Hk).
    - intros l u Hl. rewrite (proj2 (proj2 (HL l))), HA by auto. apply (v_owner c I l u Hl).
    - destruct (v_count_in c t I) as (ts & ND & HI & Out & Sum). exists ts. split; [exact ND|].
      split.
      + intros u Hu. rewrite HT; [auto|]. intros ->. contradiction.
      + intros l Hl. rewrite (proj1 (proj2 (HL l))).
        rewrite (sum_same (fun u => held c u l)); [auto|]. intros u. auto.
  Qed.

  Lemma count_locker c t k rest : t_scopes (k_threads c t) = k :: rest -> forall l,
    open_scopes c t l = length (filter (fun k => k_data k =? l) rest) + (if k_data k =? l then 1 else 0).
  Proof.
    intros E l. unfold open_scopes. rewrite E. cbn [filter]. destruct (k_data k =? l); cbn; lia.
  Qed.

  (** Steps that change one lock and what [t] holds of it. *)
  Lemma linv_change c c' t l0 : linv c ->
    (forall l, l <> l0 -> k_locks c' l = k_locks c l) ->
    l_kind (k_locks c' l0) = l_kind (k_locks c l0) ->
    (forall u, u <> t -> k_threads c' u = k_threads c u) ->
    (forall l, l <> l0 -> held c' t l = held c t l) ->
    (P l0 -> held c' t l0 + l_count (k_locks c' l0) = held c t l0 + l_count (k_locks c l0)) ->
    (kinds l0 <> KSemaphore -> forall u, l_owner (k_locks c' l0) = Some u <-> held c' u l0 <> 0) ->
    (forall k, In k (t_scopes (k_threads c' t)) -> k = locker_for (kinds (k_data k)) (k_data k)) ->
    linv c'.
  Proof.
    intros I HL HK0 HT HH HS HO HK.
    assert (HA : forall u l, u <> t -> held c' u l = held c u l).
    { intros u l N. unfold held, open_scopes. rewrite (HT u N). reflexivity. }
    constructor.
    - intros l. destruct (Nat.eq_dec l l0) as [->|N].
      + rewrite HK0. apply (v_kind c I).
      + rewrite (HL l N). apply (v_kind c I).
    - intros u k Hk. destruct (Nat.eq_dec u t) as [->|N]; [auto|].
      rewrite (HT u N) in Hk. apply (v_lockers c I u k Hk).
    - intros l u Hl. destruct (Nat.eq_dec l l0) as [->|N]; [auto|].
      rewrite (HL l N). destruct (Nat.eq_dec u t) as [->|Nu].
      + rewrite (HH l N). apply (v_owner c I l t Hl).
      + rewrite (HA u l Nu). apply (v_owner c I l u Hl).
    - destruct (v_count_in c t I) as (ts & ND & HI & Out & Sum). exists ts. split; [exact ND|].
      split.
      + intros u Hu. rewrite HT; [auto|]. intros ->. contradiction.
      + intros l Hl. specialize (Sum l Hl).
        assert (Ch := sum_change (fun u => held c u l) (fun u => held c' u l) t ts ND HI
                        (fun u N => HA u l N)). cbn beta in Ch.
        destruct (Nat.eq_dec l l0) as [->|N].
        * specialize (HS Hl). lia.
        * rewrite (HH l N) in Ch. rewrite (HL l N). lia.
  Qed.

  Lemma locker_data k l : k_data (locker_for k l) = l.
  Proof. destruct k; reflexivity. Qed.
  Lemma locker_unlock k l : k_unlock (locker_for k l) = k.
  Proof. destruct k; reflexivity. Qed.

  Hypothesis P_spin : forall l, kinds l <> KSemaphore -> P l.

  (** A spin lock or mutex that is held is not free, and only its owner holds it. *)
  Lemma held_count c t l : linv c -> P l -> held c t l + l_count (k_locks c l) <= capacity l.
  Proof.
    intros I Hl. destruct (v_count_in c t I) as (ts & ND & HI & Out & Sum). specialize (Sum l Hl).
    assert (held c t l <= list_sum (map (fun u => held c u l) ts)); [|lia].
    clear - HI. induction ts as [|a ts IH]; [destruct HI|].
    cbn [map list_sum fold_right]. unfold list_sum in IH. destruct HI as [->|HI]; [lia|].
    specialize (IH HI). lia.
  Qed.

  Lemma lstep_ok c mv : linv c ->
    (interrupts mv -> forall l, kinds l = KSemaphore -> ~ P l) ->
    exists c', lstep c mv = Ok c' /\ linv c'.
  Proof.
    intros I NI. destruct mv as [t l|t|t|t]; cbn [lstep].
    - (* Enter *)
      destruct (t_task (k_threads c t)) eqn:E; eauto.
      eexists. split; [reflexivity|]. eapply linv_same with (t := t); eauto; cbn.
      + intros u N. apply set_other. exact N.
      + intros l' _. unfold held, open_scopes. cbn. rewrite set_same, E. cbn. lia.
      + rewrite set_same. cbn. apply (v_lockers c I).
    - (* Leave *)
      destruct (t_task (k_threads c t)) eqn:E; eauto.
      destruct (t_scopes (k_threads c t)) as [|k rest] eqn:ES; eauto.
      set (l := k_data k) in *.
      assert (Hk : k = locker_for (kinds l) l).
      { apply (v_lockers c I t). rewrite ES. left. reflexivity. }
      assert (Hu : k_unlock k = kinds l) by (rewrite Hk; apply locker_unlock).
      assert (HH : held c t l = S (length (filter (fun k => k_data k =? l) rest))).
      { unfold held. rewrite (count_locker _ _ _ _ ES), E. fold l. rewrite Nat.eqb_refl. lia. }
      assert (R : exists x, release (k_unlock k) (k_locks c l) t = Ok x /\ l_kind x = kinds l /\
                  (kinds l <> KSemaphore -> l_owner x = None /\ l_count x = 1) /\
                  (kinds l = KSemaphore -> l_count x = S (l_count (k_locks c l)))).
      { rewrite Hu. unfold release. rewrite (v_kind c I l).
        destruct (kinds l) eqn:EK.
        - assert (O : l_owner (k_locks c l) = Some t)
            by (apply (v_owner c I l t); [congruence|lia]).
          rewrite O, Nat.eqb_refl. eexists. split; [reflexivity|]. cbn. repeat split; congruence.
        - assert (O : l_owner (k_locks c l) = Some t)
            by (apply (v_owner c I l t); [congruence|lia]).
          rewrite O, Nat.eqb_refl. eexists. split; [reflexivity|]. cbn. repeat split; congruence.
        - eexists. split; [reflexivity|]. cbn. repeat split; congruence. }
      destruct R as (x & R & Kx & Nx & Sx). rewrite R. cbn [bind].
      eexists. split; [reflexivity|].
      assert (HH' : forall l', held (Locks (set_at (k_locks c) l x)
                (set_at (k_threads c) t (Thread rest (Given l SUCCESS)))) t l'
              = length (filter (fun k => k_data k =? l') rest)).
      { intros l'. unfold held, open_scopes. cbn. rewrite set_same. cbn. lia. }
      eapply linv_change with (t := t) (l0 := l); eauto.
      + intros l' N. cbn. apply set_other. exact N.
      + cbn. rewrite set_same, Kx. symmetry. apply (v_kind c I).
      + intros u N. cbn. apply set_other. exact N.
      + intros l' N. rewrite HH'. unfold held. rewrite (count_locker _ _ _ _ ES), E. fold l.
        destruct (Nat.eqb_spec l l'); [congruence|]. lia.
      + intros Hl. rewrite HH', HH. cbn. rewrite set_same.
        assert (B := held_count c t l I Hl). unfold capacity in B.
        destruct (kinds l) eqn:EK.
        * destruct Nx as [_ ->]; [congruence|]. lia.
        * destruct Nx as [_ ->]; [congruence|]. lia.
        * rewrite Sx by reflexivity. lia.
      + intros NK u. cbn [k_locks]. rewrite set_same. destruct (Nx NK) as [-> _].
        split; [discriminate|]. intros H. exfalso. apply H.
        assert (B := held_count c t l I (P_spin l NK)). unfold capacity in B.
        destruct (Nat.eq_dec u t) as [->|N].
        * rewrite HH'. destruct (kinds l); try congruence; lia.
        * assert (U : held c u l = 0).
          { destruct (Nat.eq_dec (held c u l) 0) as [|NZ]; auto.
            apply (v_owner c I l u NK) in NZ.
            assert (O : l_owner (k_locks c l) = Some t) by (apply (v_owner c I l t NK); lia).
            congruence. }
          unfold held, open_scopes in *. cbn [k_threads]. rewrite set_other by auto. exact U.
      + cbn. rewrite set_same. cbn. intros k' Hk'. apply (v_lockers c I t).
        rewrite ES. right. exact Hk'.
    - (* Tick *)
      destruct (t_task (k_threads c t)) as [|l|l r|l r] eqn:E; eauto.
      + (* acquire *)
        unfold acquire. destruct (l_count (k_locks c l)) as [|n] eqn:EC; eauto.
        eexists. split; [reflexivity|].
        assert (HH : forall l', held c t l' = open_scopes c t l')
          by (intros; unfold held; rewrite E; lia).
        match goal with |- linv ?c' => assert (HH' : forall l', held c' t l'
               = held c t l' + if l =? l' then 1 else 0) end.
        { intros l'. rewrite HH. unfold held, open_scopes. cbn. rewrite set_same. reflexivity. }
        eapply linv_change with (t := t) (l0 := l); eauto.
        * intros l' N. cbn. apply set_other. exact N.
        * cbn. rewrite set_same. reflexivity.
        * intros u N. cbn. apply set_other. exact N.
        * intros l' N. rewrite HH'. destruct (Nat.eqb_spec l l'); [congruence|]. lia.
        * intros Hl. rewrite HH', Nat.eqb_refl. cbn. rewrite set_same. cbn. lia.
        * intros NK u. cbn [k_locks]. rewrite set_same. cbn [l_owner].
          assert (O : match l_kind (k_locks c l) with KSemaphore => None | _ => Some t end = Some t).
          { rewrite (v_kind c I l). destruct (kinds l); congruence. }
          rewrite O at 1.
          assert (B := held_count c u l I (P_spin l NK)). unfold capacity in B.
          destruct (Nat.eq_dec u t) as [->|N].
          -- rewrite HH', Nat.eqb_refl. split; [lia|reflexivity].
          -- assert (Z : held c u l = 0) by (destruct (kinds l); try congruence; lia).
             unfold held, open_scopes in *. cbn [k_threads]. rewrite set_other by auto.
             rewrite Z. split; congruence.
        * cbn. rewrite set_same. cbn. apply (v_lockers c I t).
      + (* constructor returns *)
        eexists. split; [reflexivity|]. eapply linv_same with (t := t); eauto.
        * intros l'. cbn. destruct (Nat.eq_dec l' l) as [->|N];
            [rewrite set_same|rewrite set_other by auto]; auto.
        * intros u N. cbn. apply set_other. exact N.
        * intros l' _. unfold held, open_scopes. cbn [k_threads]. rewrite set_same. rewrite E.
          cbn [t_scopes t_task filter]. rewrite locker_data. destruct (l =? l'); cbn; lia.
        * cbn. rewrite set_same. cbn. intros k [<-|Hk]; [|apply (v_lockers c I t); exact Hk].
          rewrite locker_data, (v_kind c I). reflexivity.
      + (* destructor returns *)
        eexists. split; [reflexivity|]. eapply linv_same with (t := t); eauto.
        * intros l'. cbn. destruct (Nat.eq_dec l' l) as [->|N];
            [rewrite set_same|rewrite set_other by auto]; auto.
        * intros u N. cbn. apply set_other. exact N.
        * intros l' _. unfold held, open_scopes. cbn. rewrite set_same, E. reflexivity.
        * cbn. rewrite set_same. cbn. apply (v_lockers c I t).
    - (* Interrupt *)
      destruct (t_task (k_threads c t)) as [|l|l r|l r] eqn:E; eauto.
      destruct (l_kind (k_locks c l)) eqn:EK; eauto.
      assert (K : kinds l = KSemaphore) by (rewrite <- (v_kind c I l); exact EK).
      assert (NP : ~ P l) by (apply NI; [exact Logic.I|exact K]).
      eexists. split; [reflexivity|]. eapply linv_same with (t := t); eauto; cbn.
      + intros u N. apply set_other. exact N.
      + intros l' Hl'. unfold held, open_scopes. cbn. rewrite set_same, E. cbn.
        destruct (Nat.eqb_spec l l') as [<-|]; [|reflexivity].
        destruct Hl'; [contradiction|congruence].
      + rewrite set_same. cbn. apply (v_lockers c I).
  Qed.

  Lemma lrun_ok : forall moves c, linv c ->
    (forall mv, In mv moves -> interrupts mv -> forall l, kinds l = KSemaphore -> ~ P l) ->
    exists c', lrun c moves = Ok c' /\ linv c'.
  Proof.
    induction moves as [|mv moves IH]; intros c I NI; cbn [lrun]; [eauto|].
    destruct (lstep_ok c mv I) as (c1 & E & I1); [apply NI; left; reflexivity|].
    rewrite E. cbn [bind]. apply IH; [exact I1|]. intros mv' H. apply NI. right. exact H.
  Qed.
End Inv.
