(** Proofs for C91. *)
From Coq Require Import List Arith ZArith Lia Bool.
From Verif Require Import Base BaseLemmas ThreadModel ThreadSpec.
Import ListNotations.

Section Proofs.
  Variables attr_zero lenient : bool.

  Definition body_of (k : kthread) : nat * phase := (k_object k, k_phase k).

  Record inv (w : tworld) (d : duty) : Prop := {
    i_vars : forall v, w_vars w v =
      match d_objects d v with
      | None => None
      | Some None => Some (TObj (Some initializer) 0)
      | Some (Some n) => Some (TObj (Some (TContext (Id n) AInit)) 0)
      end;
    i_bodies : map body_of (w_threads w) = d_bodies d;
    i_held : forall v n, d_objects d v = Some (Some n) ->
      exists k, nth_error (w_threads w) n = Some k /\ k_released k = false;
    i_one : forall v u n, d_objects d v = Some (Some n) -> d_objects d u = Some (Some n) -> v = u;
    i_free : forall n k, nth_error (w_threads w) n = Some k -> k_released k = false ->
      exists v, d_objects d v = Some (Some n);
    i_done : forall n k, nth_error (w_threads w) n = Some k -> k_released k = true -> k_phase k = Ended;
    i_alive : forall n k, nth_error (w_threads w) n = Some k -> k_phase k <> Ended ->
      d_objects d (k_object k) <> None
  }.

  Lemma setv_eq f v x : setv f v x v = x.
  Proof. unfold setv. rewrite Nat.eqb_refl. reflexivity. Qed.
  Lemma setv_neq f v x u : u <> v -> setv f v x u = f u.
  Proof. intros H. unfold setv. destruct (Nat.eqb_spec u v); congruence. Qed.
  Lemma seto_eq d v x : set_object d v x v = x.
  Proof. unfold set_object. rewrite Nat.eqb_refl. reflexivity. Qed.
  Lemma seto_neq d v x u : u <> v -> set_object d v x u = d_objects d u.
  Proof. intros H. unfold set_object. destruct (Nat.eqb_spec u v); congruence. Qed.

  Lemma nth_lt {A} (l : list A) n x : nth_error l n = Some x -> n < length l.
  Proof. intros E. apply nth_error_Some. congruence. Qed.

  Lemma nth_upd {A} (l : list A) n m x y : nth_error (upd l n x) m = Some y ->
    (m = n /\ y = x /\ n < length l) \/ (m <> n /\ nth_error l m = Some y).
  Proof.
    intros E. pose proof (nth_lt _ _ _ E) as L. rewrite upd_length in L.
    destruct (Nat.eq_dec m n) as [->|D].
    - rewrite nth_error_upd_eq in E by exact L. injection E as <-. auto.
    - rewrite nth_error_upd_neq in E by congruence. auto.
  Qed.

  Lemma map_upd' {A B} (f : A -> B) l n x : map f (upd l n x) = upd (map f l) n (f x).
  Proof. revert n. induction l as [|a l IH]; intros [|n]; cbn; congruence. Qed.

  Lemma upd_self_nth {A} (l : list A) n x : nth_error l n = Some x -> upd l n x = l.
  Proof.
    revert n. induction l as [|a l IH]; intros [|n] E; cbn in *; try discriminate.
    - injection E as ->. reflexivity.
    - rewrite IH by exact E. reflexivity.
  Qed.

  Lemma in_use_quiet w d v : inv w d -> quiet d v -> in_use w v = false.
  Proof.
    intros I Q. unfold in_use. apply not_true_iff_false. intros E.
    apply existsb_exists in E as (k & IN & E). apply andb_true_iff in E as (E1 & E2).
    apply Nat.eqb_eq in E1. subst v.
    rewrite (Q (k_phase k)) in E2; [discriminate|].
    rewrite <- (i_bodies _ _ I). change (k_object k, k_phase k) with (body_of k).
    apply in_map. exact IN.
  Qed.

  (** An event that changes how far a body is. *)
  Lemma inv_thread w d n k ph : inv w d -> nth_error (w_threads w) n = Some k ->
    k_phase k <> Ended ->
    inv (set_thread w n (KThread (k_object k) ph (k_released k)))
        (Duty (d_objects d) (upd (d_bodies d) n (k_object k, ph))).
  Proof.
    intros I E NE. pose proof (nth_lt _ _ _ E) as L.
    assert (NR : k_released k = false).
    { destruct (k_released k) eqn:R; [|reflexivity]. destruct NE. exact (i_done _ _ I _ _ E R). }
    constructor; cbn [set_thread w_vars w_threads d_objects d_bodies].
    - exact (i_vars _ _ I).
    - rewrite map_upd', (i_bodies _ _ I). reflexivity.
    - intros v m H. destruct (i_held _ _ I v m H) as (k' & E' & R').
      destruct (Nat.eq_dec m n) as [->|D].
      + exists (KThread (k_object k) ph (k_released k)). rewrite nth_error_upd_eq by exact L.
        split; [reflexivity|exact NR].
      + exists k'. rewrite nth_error_upd_neq by congruence. auto.
    - exact (i_one _ _ I).
    - intros m k' E' R'. apply nth_upd in E' as [(-> & -> & _)|(D & E')].
      + exact (i_free _ _ I n k E NR).
      + exact (i_free _ _ I m k' E' R').
    - intros m k' E' R'. apply nth_upd in E' as [(-> & -> & _)|(D & E')].
      + cbn in R'. congruence.
      + exact (i_done _ _ I m k' E' R').
    - intros m k' E' P'. apply nth_upd in E' as [(-> & -> & _)|(D & E')].
      + exact (i_alive _ _ I n k E NE).
      + exact (i_alive _ _ I m k' E' P').
  Qed.

  Lemma body_nth w d n : inv w d ->
    nth_error (d_bodies d) n = option_map body_of (nth_error (w_threads w) n).
  Proof. intros I. rewrite <- (i_bodies _ _ I). apply nth_error_map'. Qed.

  Lemma inv_step w d c : inv w d -> duty_proper d c ->
    exists w' r, tstep attr_zero lenient w c = Ok (w', r) /\ inv w' (duty_step d c) /\
      w_errno w' = w_errno w.
  Proof.
    intros I P. destruct c as [v|v p|v p|v r1 r2|v|v|v r|v|v|n|n]; cbn [duty_proper] in P; try contradiction;
      cbn [tstep duty_step].
    - (* TNew *)
      unfold free. rewrite (i_vars _ _ I v), P. cbn [bind]. do 2 eexists. split; [reflexivity|].
      split; [|reflexivity].
      constructor; cbn [put w_vars w_threads d_objects d_bodies].
      + intros u. destruct (Nat.eq_dec u v) as [->|D].
        * rewrite setv_eq, seto_eq. reflexivity.
        * rewrite setv_neq, seto_neq by exact D. apply (i_vars _ _ I).
      + exact (i_bodies _ _ I).
      + intros u m H. destruct (Nat.eq_dec u v) as [->|D]; [rewrite seto_eq in H; discriminate|].
        rewrite seto_neq in H by exact D. exact (i_held _ _ I u m H).
      + intros a b m H1 H2.
        destruct (Nat.eq_dec a v) as [->|Da]; [rewrite seto_eq in H1; discriminate|].
        destruct (Nat.eq_dec b v) as [->|Db]; [rewrite seto_eq in H2; discriminate|].
        rewrite seto_neq in H1, H2 by assumption. exact (i_one _ _ I a b m H1 H2).
      + intros m k E R. destruct (i_free _ _ I m k E R) as (u & H). exists u.
        rewrite seto_neq; [exact H|]. intros ->. congruence.
      + exact (i_done _ _ I).
      + intros m k E PH. pose proof (i_alive _ _ I m k E PH) as A.
        destruct (Nat.eq_dec (k_object k) v) as [->|D]; [rewrite seto_eq; discriminate|].
        rewrite seto_neq by exact D. exact A.
    - (* TMoveAssign *)
      destruct P as (NE & PV & PP). unfold move_assign, get.
      rewrite (i_vars _ _ I v), PV. cbn [bind rd o_context is_initial c_id c_attr initializer attr_bytes_zero].
      rewrite (i_vars _ _ I p). destruct (d_objects d p) as [x|] eqn:DP; [|congruence].
      set (s := match x with
                | Some n => TObj (Some (TContext (Id n) AInit)) 0
                | None => TObj (Some initializer) 0
                end).
      assert (E : match x with
                  | Some n => Some (TObj (Some (TContext (Id n) AInit)) 0)
                  | None => Some (TObj (Some initializer) 0)
                  end = Some s) by (destruct x; reflexivity).
      rewrite E. assert (CX : exists cx, o_context s = Some cx) by (destruct x; eexists; reflexivity).
      destruct CX as (cx & CX). cbn [bind]. rewrite CX. cbn [rd bind].
      do 2 eexists. split; [reflexivity|]. split; [|reflexivity].
      assert (OBJ : forall u, set_object (Duty (set_object d v (Some x)) (d_bodies d)) p (Some None) u =
                    if u =? p then Some None else if u =? v then Some x else d_objects d u)
        by reflexivity.
      constructor; cbn [put w_vars w_threads d_objects d_bodies].
      + intros u. rewrite OBJ. destruct (Nat.eqb_spec u p) as [->|D1].
        * rewrite setv_eq. reflexivity.
        * rewrite setv_neq by exact D1. destruct (Nat.eqb_spec u v) as [->|D2].
          -- rewrite setv_eq. symmetry. exact E.
          -- rewrite setv_neq by exact D2. apply (i_vars _ _ I).
      + exact (i_bodies _ _ I).
      + intros u m H. rewrite OBJ in H. destruct (Nat.eqb_spec u p); [discriminate|].
        destruct (Nat.eqb_spec u v).
        * injection H as ->. exact (i_held _ _ I p m DP).
        * exact (i_held _ _ I u m H).
      + intros a b m H1 H2. rewrite OBJ in H1, H2.
        destruct (Nat.eqb_spec a p); [discriminate|]. destruct (Nat.eqb_spec b p); [discriminate|].
        destruct (Nat.eqb_spec a v) as [EA|DA]; destruct (Nat.eqb_spec b v) as [EB|DB].
        * congruence.
        * injection H1 as ->. pose proof (i_one _ _ I p b m DP H2). congruence.
        * injection H2 as ->. pose proof (i_one _ _ I p a m DP H1). congruence.
        * exact (i_one _ _ I a b m H1 H2).
      + intros m k EK R. destruct (i_free _ _ I m k EK R) as (u & H).
        destruct (Nat.eq_dec u p) as [->|D].
        * exists v. rewrite OBJ. destruct (Nat.eqb_spec v p); [congruence|].
          rewrite Nat.eqb_refl. congruence.
        * exists u. rewrite OBJ. destruct (Nat.eqb_spec u p); [congruence|].
          destruct (Nat.eqb_spec u v) as [->|]; [congruence|exact H].
      + exact (i_done _ _ I).
      + intros m k EK PH. pose proof (i_alive _ _ I m k EK PH) as A. rewrite OBJ.
        destruct (_ =? p); [discriminate|]. destruct (_ =? v); [discriminate|exact A].
    - (* TRun *)
      destruct P as (PV & -> & ->). unfold get. rewrite (i_vars _ _ I v), PV. cbn [bind].
      unfold do_run. cbn [rd o_context bind is_initial c_id c_attr initializer attr_bytes_zero].
      unfold return_result. cbn [Z.eqb o_status o_context rd bind c_attr].
      do 2 eexists. split; [reflexivity|]. split; [|reflexivity].
      assert (LEN : length (d_bodies d) = length (w_threads w))
        by (rewrite <- (i_bodies _ _ I); apply map_length).
      rewrite LEN.
      constructor; cbn [w_vars w_threads d_objects d_bodies].
      + intros u. destruct (Nat.eq_dec u v) as [->|D].
        * rewrite setv_eq, seto_eq. reflexivity.
        * rewrite setv_neq, seto_neq by exact D. apply (i_vars _ _ I).
      + rewrite map_app, (i_bodies _ _ I). reflexivity.
      + intros u m H. destruct (Nat.eq_dec u v) as [->|D].
        * rewrite seto_eq in H. injection H as <-. eexists. rewrite nth_error_app2 by lia.
          rewrite Nat.sub_diag. split; reflexivity.
        * rewrite seto_neq in H by exact D. destruct (i_held _ _ I u m H) as (k & E & R).
          exists k. rewrite nth_error_app1 by exact (nth_lt _ _ _ E). auto.
      + intros a b m H1 H2.
        assert (OLD : forall u, u <> v -> d_objects d u <> Some (Some (length (w_threads w)))).
        { intros u _ H. destruct (i_held _ _ I u _ H) as (k & E & _). apply nth_lt in E. lia. }
        destruct (Nat.eq_dec a v) as [->|Da]; destruct (Nat.eq_dec b v) as [->|Db].
        * reflexivity.
        * rewrite seto_eq in H1. rewrite seto_neq in H2 by exact Db. injection H1 as <-.
          destruct (OLD b Db H2).
        * rewrite seto_eq in H2. rewrite seto_neq in H1 by exact Da. injection H2 as <-.
          destruct (OLD a Da H1).
        * rewrite seto_neq in H1 by exact Da. rewrite seto_neq in H2 by exact Db.
          exact (i_one _ _ I a b m H1 H2).
      + intros m k E R. destruct (Nat.lt_ge_cases m (length (w_threads w))) as [L|G].
        * rewrite nth_error_app1 in E by exact L. destruct (i_free _ _ I m k E R) as (u & H).
          exists u. rewrite seto_neq; [exact H|]. intros ->. congruence.
        * pose proof (nth_lt _ _ _ E) as L. rewrite app_length in L. cbn in L.
          assert (m = length (w_threads w)) as -> by lia. exists v. apply seto_eq.
      + intros m k E R. destruct (Nat.lt_ge_cases m (length (w_threads w))) as [L|G].
        * rewrite nth_error_app1 in E by exact L. exact (i_done _ _ I m k E R).
        * pose proof (nth_lt _ _ _ E) as L. rewrite app_length in L. cbn in L.
          assert (m = length (w_threads w)) as -> by lia.
          rewrite nth_error_app2, Nat.sub_diag in E by lia. injection E as <-. discriminate.
      + intros m k E PH. destruct (Nat.lt_ge_cases m (length (w_threads w))) as [L|G].
        * rewrite nth_error_app1 in E by exact L. pose proof (i_alive _ _ I m k E PH) as A.
          destruct (Nat.eq_dec (k_object k) v) as [->|D]; [rewrite seto_eq; discriminate|].
          rewrite seto_neq by exact D. exact A.
        * pose proof (nth_lt _ _ _ E) as L. rewrite app_length in L. cbn in L.
          assert (m = length (w_threads w)) as -> by lia.
          rewrite nth_error_app2, Nat.sub_diag in E by lia. injection E as <-. cbn [k_object].
          rewrite seto_eq. discriminate.
    - (* TIsWorking *)
      destruct P as (n & H). unfold get. rewrite (i_vars _ _ I v), H. cbn [bind rd o_context c_id].
      destruct (i_held _ _ I v n H) as (k & E & R). unfold thread_of. rewrite E. cbn [bind].
      rewrite R. destruct (k_phase k); do 2 eexists; split; try reflexivity; auto.
    - (* TGetStatus *)
      unfold get. rewrite (i_vars _ _ I v).
      destruct (d_objects d v) as [[n|]|]; [| |congruence]; cbn; do 2 eexists; split; try reflexivity; auto.
    - (* TDelete *)
      destruct P as (PV & Q). unfold get. rewrite (i_vars _ _ I v).
      destruct (d_objects d v) as [[n|]|] eqn:DV; [| |congruence]; cbn [bind];
        rewrite (in_use_quiet w d v I Q); cbn [rd o_context bind is_initial c_id initializer attr_bytes_zero c_attr].
      + destruct (i_held _ _ I v n DV) as (k & E & R). unfold do_join. cbn [c_id].
        unfold thread_of. rewrite E. cbn [bind]. rewrite R.
        assert (X : match k_phase k with
                    | Ended => Ok tt
                    | _ => let! _ := get w (k_object k) in Ok tt
                    end = Ok tt).
        { destruct (k_phase k) eqn:PH; auto; unfold get; rewrite (i_vars _ _ I (k_object k));
            pose proof (i_alive _ _ I n k E) as A; rewrite PH in A; specialize (A ltac:(discriminate));
            destruct (d_objects d (k_object k)) as [[]|]; try reflexivity; congruence. }
        rewrite X. cbn [bind attr_destroy c_attr].
        do 2 eexists. split; [reflexivity|]. split; [|reflexivity].
        pose proof (nth_lt _ _ _ E) as L.
        constructor; cbn [put set_thread w_vars w_threads d_objects d_bodies].
        * intros u. destruct (Nat.eq_dec u v) as [->|D].
          -- rewrite setv_eq, seto_eq. reflexivity.
          -- rewrite setv_neq, seto_neq by exact D. apply (i_vars _ _ I).
        * rewrite map_upd', (i_bodies _ _ I). unfold update_body. rewrite (body_nth w d n I), E. reflexivity.
        * intros u m H. destruct (Nat.eq_dec u v) as [->|D]; [rewrite seto_eq in H; discriminate|].
          rewrite seto_neq in H by exact D. destruct (i_held _ _ I u m H) as (k' & E' & R').
          exists k'. rewrite nth_error_upd_neq; [auto|]. intros ->.
          exact (D (i_one _ _ I u v _ H DV)).
        * intros a b m H1 H2.
          destruct (Nat.eq_dec a v) as [->|Da]; [rewrite seto_eq in H1; discriminate|].
          destruct (Nat.eq_dec b v) as [->|Db]; [rewrite seto_eq in H2; discriminate|].
          rewrite seto_neq in H1, H2 by assumption. exact (i_one _ _ I a b m H1 H2).
        * intros m k' E' R'. apply nth_upd in E' as [(-> & -> & _)|(D & E')]; [discriminate|].
          destruct (i_free _ _ I m k' E' R') as (u & H). exists u.
          rewrite seto_neq; [exact H|]. intros ->. congruence.
        * intros m k' E' R'. apply nth_upd in E' as [(-> & -> & _)|(D & E')]; [reflexivity|].
          exact (i_done _ _ I m k' E' R').
        * intros m k' E' PH. apply nth_upd in E' as [(-> & -> & _)|(D & E')]; [destruct (PH eq_refl)|].
          pose proof (i_alive _ _ I m k' E' PH) as A. rewrite seto_neq; [exact A|].
          intros EV. apply PH. apply Q. rewrite <- EV, <- (i_bodies _ _ I).
          change (k_object k', k_phase k') with (body_of k'). apply in_map.
          exact (nth_error_In _ _ E').
      + do 2 eexists. split; [reflexivity|]. split; [|reflexivity].
        constructor; cbn [put w_vars w_threads d_objects d_bodies].
        * intros u. destruct (Nat.eq_dec u v) as [->|D].
          -- rewrite setv_eq, seto_eq. reflexivity.
          -- rewrite setv_neq, seto_neq by exact D. apply (i_vars _ _ I).
        * exact (i_bodies _ _ I).
        * intros u m H. destruct (Nat.eq_dec u v) as [->|D]; [rewrite seto_eq in H; discriminate|].
          rewrite seto_neq in H by exact D. exact (i_held _ _ I u m H).
        * intros a b m H1 H2.
          destruct (Nat.eq_dec a v) as [->|Da]; [rewrite seto_eq in H1; discriminate|].
          destruct (Nat.eq_dec b v) as [->|Db]; [rewrite seto_eq in H2; discriminate|].
          rewrite seto_neq in H1, H2 by assumption. exact (i_one _ _ I a b m H1 H2).
        * intros m k E R. destruct (i_free _ _ I m k E R) as (u & H). exists u.
          rewrite seto_neq; [exact H|]. intros ->. congruence.
        * exact (i_done _ _ I).
        * intros m k E PH. pose proof (i_alive _ _ I m k E PH) as A. rewrite seto_neq; [exact A|].
          intros EV. apply PH. apply Q. rewrite <- EV, <- (i_bodies _ _ I).
          change (k_object k, k_phase k) with (body_of k). apply in_map.
          exact (nth_error_In _ _ E).
    - (* KBegin *)
      unfold update_body. rewrite (body_nth w d n I).
      destruct (nth_error (w_threads w) n) as [[v ph r]|] eqn:E; cbn [option_map body_of k_object k_phase].
      + destruct ph; cbn [advance snd fst].
        * unfold get. rewrite (i_vars _ _ I v).
          pose proof (i_alive _ _ I n _ E) as A. cbn in A. specialize (A ltac:(discriminate)).
          destruct (d_objects d v) as [x|] eqn:DV; [|congruence].
          assert (X : exists o, match x with
                      | Some n => Some (TObj (Some (TContext (Id n) AInit)) 0)
                      | None => Some (TObj (Some initializer) 0) end = Some o)
            by (destruct x; eexists; reflexivity).
          destruct X as (o & X). rewrite X. cbn [bind]. do 2 eexists. split; [reflexivity|].
          split; [|reflexivity].
          exact (inv_thread w d n _ Working I E ltac:(discriminate)).
        * do 2 eexists. split; [reflexivity|]. split; [|reflexivity].
          rewrite upd_self_nth; [destruct d; exact I|]. rewrite (body_nth w d n I), E. reflexivity.
        * do 2 eexists. split; [reflexivity|]. split; [|reflexivity].
          rewrite upd_self_nth; [destruct d; exact I|]. rewrite (body_nth w d n I), E. reflexivity.
      + do 2 eexists. split; [reflexivity|]. split; [destruct d; exact I|reflexivity].
    - (* KEnd *)
      unfold update_body. rewrite (body_nth w d n I).
      destruct (nth_error (w_threads w) n) as [[v ph r]|] eqn:E; cbn [option_map body_of k_object k_phase].
      + destruct ph; cbn [advance snd fst].
        * do 2 eexists. split; [reflexivity|]. split; [|reflexivity].
          rewrite upd_self_nth; [destruct d; exact I|]. rewrite (body_nth w d n I), E. reflexivity.
        * do 2 eexists. split; [reflexivity|]. split; [|reflexivity].
          exact (inv_thread w d n _ Ended I E ltac:(discriminate)).
        * do 2 eexists. split; [reflexivity|]. split; [|reflexivity].
          rewrite upd_self_nth; [destruct d; exact I|]. rewrite (body_nth w d n I), E. reflexivity.
      + do 2 eexists. split; [reflexivity|]. split; [destruct d; exact I|reflexivity].
  Qed.

  Lemma inv_start e : inv (t_start e) duty_start.
  Proof.
    constructor; cbn; intros; try reflexivity; try discriminate;
      match goal with H : nth_error [] ?n = Some _ |- _ => destruct n; discriminate end.
  Qed.

  Lemma inv_run : forall h w d, inv w d -> all_proper d h ->
    exists w' rs, truns attr_zero lenient w h = Ok (w', rs) /\ inv w' (duties d h).
  Proof.
    induction h as [|c h IH]; intros w d I P; cbn [truns duties].
    - do 2 eexists. split; [reflexivity|exact I].
    - destruct P as (P1 & P2). destruct (inv_step w d c I P1) as (w' & r & E & I' & _).
      rewrite E. cbn [bind fst snd]. destruct (IH w' _ I' P2) as (w2 & rs & E2 & I2).
      rewrite E2. cbn [bind fst snd]. do 2 eexists. split; [reflexivity|exact I2].
  Qed.
End Proofs.
