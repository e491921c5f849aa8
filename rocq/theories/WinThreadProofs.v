(** Invariant of the model of threads on Windows. *)
From Coq Require Import List Arith ZArith Bool Lia.
From Verif Require Import Base BaseLemmas WinThreadModel WinThreadSpec.
Import ListNotations.

Record inv (w : tworld) : Prop := Inv {
  i_open : forall v o n, w_vars w v = Some o -> c_handle (o_context o) = Some n ->
             (exists k, nth_error (w_threads w) n = Some k /\ k_open k = true)
             /\ c_id (o_context o) = Id n /\ o_status o = 0%Z;
  i_one : forall v u o p n, w_vars w v = Some o -> w_vars w u = Some p ->
             c_handle (o_context o) = Some n -> c_handle (o_context p) = Some n -> v = u;
  i_alive : forall n k, nth_error (w_threads w) n = Some k -> k_phase k <> Ended -> w_vars w (k_object k) <> None
}.

Lemma inv_start : inv t_start.
Proof. constructor; cbn; try discriminate. intros [|n] k X; discriminate X. Qed.

Lemma handle_Ok : forall w n k, nth_error (w_threads w) n = Some k -> k_open k = true -> handle_of w n = Ok k.
Proof. intros w n k A B. unfold handle_of. rewrite A, B. reflexivity. Qed.

Lemma get_Ok : forall w v, exists_ w v -> exists o, w_vars w v = Some o /\ get w v = Ok o.
Proof.
  intros w v H. unfold exists_ in H. unfold get. destruct (w_vars w v) as [o|]; [exists o; auto|contradiction].
Qed.

Lemma setv_eq : forall f v x, setv f v x v = x.
Proof. intros. unfold setv. rewrite Nat.eqb_refl. reflexivity. Qed.
Lemma setv_neq : forall f v x u, u <> v -> setv f v x u = f u.
Proof. intros f v x u N. unfold setv. apply Nat.eqb_neq in N. rewrite N. reflexivity. Qed.

Lemma upd_same : forall (l : list kthread) n k k' , nth_error l n = Some k -> nth_error (upd l n k') n = Some k'.
Proof. intros l n k k' H. apply nth_error_upd_eq. apply nth_error_Some. congruence. Qed.
Lemma upd_other : forall (l : list kthread) n m k', n <> m -> nth_error (upd l n k') m = nth_error l m.
Proof. intros. apply nth_error_upd_neq. auto. Qed.
Lemma upd_cases : forall (l : list kthread) n m k' x,
  nth_error (upd l n k') m = Some x -> (m = n /\ x = k') \/ (m <> n /\ nth_error l m = Some x).
Proof.
  intros l n m k' x H. destruct (Nat.eq_dec m n) as [E|N].
  - rewrite E in H. destruct (nth_error l n) as [k|] eqn:K.
    + rewrite (upd_same l n k k' K) in H. injection H as H. auto.
    + exfalso. assert (nth_error (upd l n k') n <> None) by congruence. apply nth_error_Some in H0.
      rewrite upd_length in H0. apply nth_error_Some in H0. contradiction.
  - rewrite upd_other in H by auto. auto.
Qed.

(** The change of one thread. *)
Lemma inv_phase : forall w n k ph, inv w -> nth_error (w_threads w) n = Some k ->
  (ph <> Ended -> w_vars w (k_object k) <> None) ->
  inv (set_thread w n (KThread (k_object k) ph (k_open k))).
Proof.
  intros w n k ph [A B C] H E. constructor; cbn.
  - intros v o m V M. destruct (A v o m V M) as [[k' [K1 K2]] R]. split; [|exact R].
    destruct (Nat.eq_dec m n) as [X|X].
    + rewrite X in *. rewrite H in K1. injection K1 as K1. subst k'.
      rewrite (upd_same _ _ _ _ H). eexists; split; [reflexivity|exact K2].
    + rewrite upd_other by auto. exists k'; auto.
  - exact B.
  - intros m k' M P. apply upd_cases in M. destruct M as [[X Y]|[X Y]].
    + subst k'. cbn in *. auto.
    + apply C with (1 := Y) (2 := P).
Qed.

(** The end of a responsibility: the object becomes one without a handle and the handle is
    closed (or left as it is). *)
Lemma inv_release : forall w v o n k x b,
  inv w -> w_vars w v = Some o -> c_handle (o_context o) = Some n -> nth_error (w_threads w) n = Some k ->
  (match x with Some y => c_handle (o_context y) = None
              | None => forall m j, nth_error (w_threads w) m = Some j -> k_phase j <> Ended -> k_object j <> v end) ->
  inv (TWorld (setv (w_vars w) v x) (upd (w_threads w) n (KThread (k_object k) (k_phase k) b))).
Proof.
  intros w v o n k x b [A B C] V N K X. constructor; cbn.
  - intros u p m U M. unfold setv in U. destruct (Nat.eqb_spec u v) as [E|E].
    + destruct x as [y|]; [|discriminate U]. injection U as U. subst p. congruence.
    + destruct (A u p m U M) as [[k' [K1 K2]] R]. split; [|exact R].
      rewrite upd_other; [exists k'; auto|]. intro Z. subst m. apply E. apply (B u v p o n U V M N).
  - intros u u' p p' m U U' M M'. unfold setv in U, U'.
    destruct (Nat.eqb_spec u v) as [E|E]; destruct (Nat.eqb_spec u' v) as [E'|E'].
    + congruence.
    + destruct x as [y|]; [injection U as U; subst p; congruence|discriminate U].
    + destruct x as [y|]; [injection U' as U'; subst p'; congruence|discriminate U'].
    + apply (B u u' p p' m U U' M M').
  - intros m j M P. unfold setv.
    assert (exists m' j', nth_error (w_threads w) m' = Some j' /\ k_phase j' <> Ended /\ k_object j' = k_object j) as [m' [j' [J1 [J2 J3]]]].
    { apply upd_cases in M. destruct M as [[Y Z]|[Y Z]].
      - subst j. cbn in *. exists n, k. auto.
      - exists m, j. auto. }
    rewrite <- J3. destruct (Nat.eqb_spec (k_object j') v) as [E|E].
    + destruct x as [y|]; [discriminate|]. exfalso. apply (X m' j' J1 J2 E).
    + apply (C m' j' J1 J2).
Qed.

(** An object without a handle changes to one without. *)
Lemma inv_blank : forall w v x, inv w ->
  (match x with Some y => c_handle (o_context y) = None
              | None => forall m j, nth_error (w_threads w) m = Some j -> k_phase j <> Ended -> k_object j <> v end) ->
  inv (put w v x).
Proof.
  intros w v x [A B C] X. constructor; cbn.
  - intros u p m U M. unfold setv in U. destruct (Nat.eqb_spec u v) as [E|E].
    + destruct x as [y|]; [|discriminate U]. injection U as U. subst p. congruence.
    + apply (A u p m U M).
  - intros u u' p p' m U U' M M'. unfold setv in U, U'.
    destruct (Nat.eqb_spec u v) as [E|E]; destruct (Nat.eqb_spec u' v) as [E'|E'].
    + congruence.
    + destruct x as [y|]; [injection U as U; subst p; congruence|discriminate U].
    + destruct x as [y|]; [injection U' as U'; subst p'; congruence|discriminate U'].
    + apply (B u u' p p' m U U' M M').
  - intros m j M P. unfold setv. destruct (Nat.eqb_spec (k_object j) v) as [E|E].
    + destruct x as [y|]; [discriminate|]. exfalso. apply (X m j M P E).
    + apply (C m j M P).
Qed.

(** The status of an object changes. *)
Lemma inv_same : forall w v o, inv w -> w_vars w v = Some o -> inv (put w v (Some o)).
Proof.
  intros w v o [A B C] V.
  assert (Q : forall u, w_vars (put w v (Some o)) u = w_vars w u).
  { intro u. cbn. unfold setv. destruct (Nat.eqb_spec u v) as [E|E]; [rewrite E; auto|reflexivity]. }
  constructor.
  - intros u p m U M. rewrite Q in U. apply (A u p m U M).
  - intros u u' p p' m U U' M M'. rewrite Q in U, U'. apply (B u u' p p' m U U' M M').
  - intros m j M P. rewrite Q. apply (C m j M P).
Qed.

(** What do_destroy does, by cases on the handle. *)
Lemma destroy_spec : forall w v o, inv w -> w_vars w v = Some o ->
  match c_handle (o_context o) with
  | None => do_destroy w (o_context o) =
      Ok (w, match c_id (o_context o) with IdDetached => 0%Z | IdZero => (-1)%Z | Id _ => INVALID_HANDLE end)
  | Some n => exists k, nth_error (w_threads w) n = Some k /\ k_open k = true
      /\ do_destroy w (o_context o) = Ok (set_thread w n (KThread (k_object k) (k_phase k) false), 0%Z)
  end.
Proof.
  intros w v o [A B C] V. destruct (c_handle (o_context o)) as [n|] eqn:N.
  - destruct (A v o n V N) as [[k [K1 K2]] [I _]]. exists k. split; [exact K1|]. split; [exact K2|].
    unfold do_destroy, same_as_initializer. rewrite I, N, (handle_Ok w n k K1 K2). reflexivity.
  - unfold do_destroy, same_as_initializer. rewrite N. destruct (c_id (o_context o)); reflexivity.
Qed.

Lemma join_spec : forall w v o, inv w -> w_vars w v = Some o ->
  match c_handle (o_context o) with
  | None => do_join w (o_context o) = Ok (w, INVALID_HANDLE)
  | Some n => exists k, nth_error (w_threads w) n = Some k /\ k_open k = true
      /\ do_join w (o_context o) = Ok (set_thread w n (KThread (k_object k) Ended true), 0%Z)
  end.
Proof.
  intros w v o [A B C] V. unfold do_join. destruct (c_handle (o_context o)) as [n|] eqn:N; [|reflexivity].
  destruct (A v o n V N) as [[k [K1 K2]] _]. exists k. split; [exact K1|]. split; [exact K2|].
  rewrite (handle_Ok w n k K1 K2). cbn [bind].
  destruct (k_phase k) eqn:P; cbn [bind]; try reflexivity;
    (assert (X : k_phase k <> Ended) by congruence; specialize (C n k K1 X);
     unfold get; destruct (w_vars w (k_object k)); [reflexivity|contradiction]).
Qed.

Lemma in_use_false : forall w v, ~ busy w v -> in_use w v = false.
Proof.
  intros w v H. unfold in_use. destruct (existsb _ (w_threads w)) eqn:E; [|reflexivity].
  exfalso. apply H. apply existsb_exists in E. destruct E as [k [I X]].
  apply andb_true_iff in X. destruct X as [X1 X2]. apply Nat.eqb_eq in X1.
  apply In_nth_error in I. destruct I as [n I]. exists n, k. split; [exact I|]. split; [exact X1|].
  destruct (k_phase k); discriminate.
Qed.
Lemma in_use_true : forall w v, busy w v -> in_use w v = true.
Proof.
  intros w v [n [k [A [B C]]]]. unfold in_use. apply existsb_exists. exists k.
  split; [apply nth_error_In with (1 := A)|]. rewrite B, Nat.eqb_refl. destruct (k_phase k); auto.
Qed.

(** The step, computed: every proper call has a result, and the result is described by the
    handles alone. *)
Definition release (w : tworld) (v : nat) (ph : phase -> phase) (x : option tobj) : tworld :=
  match w_vars w v with
  | Some o =>
      match c_handle (o_context o) with
      | Some n =>
          match nth_error (w_threads w) n with
          | Some k => TWorld (setv (w_vars w) v x) (upd (w_threads w) n (KThread (k_object k) (ph (k_phase k)) false))
          | None => w
          end
      | None => put w v x
      end
  | None => w
  end.

Lemma delete_step : forall w v pad, inv w -> exists_ w v -> ~ busy w v ->
  tstep w (TDelete v pad) = Ok (release w v (fun _ => Ended) None, None).
Proof.
  intros w v pad I E B. destruct (get_Ok w v E) as [o [V G]]. cbn [tstep]. rewrite G. cbn [bind].
  rewrite (in_use_false w v B). unfold release. rewrite V.
  pose proof (join_spec w v o I V) as J. pose proof (destroy_spec w v o I V) as D.
  destruct (c_handle (o_context o)) as [n|] eqn:N.
  - destruct J as [k [K1 [K2 J]]].
    assert (is_initial (o_context o) pad = false) as -> by (unfold is_initial, same_as_initializer; rewrite N; reflexivity).
    rewrite J. cbn [bind fst]. rewrite K1.
    destruct (i_open w I v o n V N) as [_ [Q _]].
    unfold do_destroy, same_as_initializer. rewrite Q, N.
    rewrite (handle_Ok (set_thread w n (KThread (k_object k) Ended true)) n (KThread (k_object k) Ended true));
      [|cbn; apply upd_same with (1 := K1)|reflexivity].
    cbn. unfold put, set_thread. cbn. do 3 f_equal.
    clear. generalize (w_threads w). intro l. revert n. induction l as [|a l IH]; intros [|n]; cbn; try reflexivity.
    f_equal. apply IH.
  - destruct (is_initial (o_context o) pad); [reflexivity|]. rewrite J. cbn [bind fst]. rewrite D. reflexivity.
Qed.

Lemma detach_step : forall w v o, inv w -> w_vars w v = Some o ->
  tstep w (TDetach v) = Ok (
    match c_handle (o_context o), c_id (o_context o) with
    | Some _, _ | None, IdDetached => release w v (fun p => p) (Some (TObj initializer 0))
    | None, IdZero => put w v (Some (TObj (o_context o) (-1)))
    | None, Id _ => put w v (Some (TObj (o_context o) INVALID_HANDLE))
    end, None).
Proof.
  intros w v o I V. cbn [tstep]. unfold get. rewrite V. cbn [bind]. unfold do_detach, release. rewrite V.
  pose proof (destroy_spec w v o I V) as D.
  destruct (c_handle (o_context o)) as [n|] eqn:N.
  - destruct D as [k [K1 [K2 D]]]. rewrite D, K1. reflexivity.
  - rewrite D. cbn [bind]. destruct (c_id (o_context o)); reflexivity.
Qed.


Definition closed (w : tworld) (v : nat) : list kthread :=
  match w_vars w v with
  | Some o =>
      match c_handle (o_context o) with
      | Some n =>
          match nth_error (w_threads w) n with
          | Some k => upd (w_threads w) n (KThread (k_object k) (k_phase k) false)
          | None => w_threads w
          end
      | None => w_threads w
      end
  | None => w_threads w
  end.

Lemma move_step : forall w v p pad s, inv w -> exists_ w v -> w_vars w p = Some s ->
  tstep w (TMoveAssign v p pad) = Ok (
    put (put (TWorld (w_vars w) (closed w v)) v (Some s)) p (Some (TObj initializer 0)), None).
Proof.
  intros w v p pad s I E P. destruct (get_Ok w v E) as [o [V G]].
  cbn [tstep]. unfold move_assign. rewrite G. cbn [bind]. unfold closed. rewrite V.
  pose proof (destroy_spec w v o I V) as D.
  destruct (c_handle (o_context o)) as [n|] eqn:N.
  - destruct D as [k [K1 [K2 D]]].
    assert (is_initial (o_context o) pad = false) as -> by (unfold is_initial, same_as_initializer; rewrite N; reflexivity).
    rewrite D. cbn [bind fst]. rewrite K1. unfold get. cbn. rewrite P. reflexivity.
  - assert (X : (if is_initial (o_context o) pad then Ok w else let! r := do_destroy w (o_context o) in Ok (fst r)) = Ok w)
      by (destruct (is_initial _ _); [reflexivity|rewrite D; reflexivity]).
    rewrite X. cbn [bind]. unfold get. rewrite P. destruct w; reflexivity.
Qed.

Lemma closed_cases : forall w v m j, nth_error (closed w v) m = Some j ->
  exists k, nth_error (w_threads w) m = Some k /\ k_object k = k_object j /\ k_phase k = k_phase j
    /\ (responsible w v m /\ k_open j = false \/ ~ responsible w v m /\ j = k).
Proof.
  intros w v m j H. unfold closed in H. unfold responsible.
  destruct (w_vars w v) as [o|] eqn:V.
  2: { exists j. split; [exact H|]. split; [reflexivity|]. split; [reflexivity|]. right. split; [|reflexivity].
       intros [o [X _]]. discriminate X. }
  destruct (c_handle (o_context o)) as [n|] eqn:N.
  2: { exists j. split; [exact H|]. split; [reflexivity|]. split; [reflexivity|]. right. split; [|reflexivity].
       intros [q [X Y]]. injection X as X. subst q. congruence. }
  destruct (nth_error (w_threads w) n) as [k|] eqn:K.
  - apply upd_cases in H. destruct H as [[X Y]|[X Y]].
    + subst m j. exists k. split; [exact K|]. split; [reflexivity|]. split; [reflexivity|]. left. split; [|reflexivity].
      exists o. auto.
    + exists j. split; [exact Y|]. split; [reflexivity|]. split; [reflexivity|]. right. split; [|reflexivity].
      intros [q [Z T]]. injection Z as Z. subst q. congruence.
  - exists j. split; [exact H|]. split; [reflexivity|]. split; [reflexivity|]. right. split; [|reflexivity].
    intros [q [Z T]]. injection Z as Z. subst q. congruence.
Qed.

Lemma closed_other : forall w v m, ~ responsible w v m -> nth_error (closed w v) m = nth_error (w_threads w) m.
Proof.
  intros w v m H. unfold closed. unfold responsible in H.
  destruct (w_vars w v) as [o|] eqn:V; [|reflexivity].
  destruct (c_handle (o_context o)) as [n|] eqn:N; [|reflexivity].
  destruct (nth_error (w_threads w) n) as [k|] eqn:K; [|reflexivity].
  apply upd_other. intro X. apply H. exists o. split; [reflexivity|]. congruence.
Qed.

Lemma inv_moved : forall w v p s, inv w -> w_vars w p = Some s ->
  inv (put (put (TWorld (w_vars w) (closed w v)) v (Some s)) p (Some (TObj initializer 0))).
Proof.
  intros w v p s I P. pose proof I as [A B C]. constructor; cbn.
  - intros u o n U N. unfold setv in U. destruct (Nat.eqb_spec u p) as [E|E].
    + injection U as U. subst o. discriminate N.
    + destruct (Nat.eqb_spec u v) as [F|F].
      * injection U as U. subst o. destruct (A p s n P N) as [[k [K1 K2]] R]. split; [|exact R].
        exists k. split; [|exact K2]. rewrite closed_other; [exact K1|].
        intros [o [X Y]]. apply E. subst u. apply (B v p o s n X P Y N).
      * destruct (A u o n U N) as [[k [K1 K2]] R]. split; [|exact R].
        exists k. split; [|exact K2]. rewrite closed_other; [exact K1|].
        intros [q [X Y]]. apply F. apply (B u v o q n U X N Y).
  - intros u u' o o' n U U' N N'. unfold setv in U, U'.
    destruct (Nat.eqb_spec u p) as [E|E]; [injection U as U; subst o; discriminate N|].
    destruct (Nat.eqb_spec u' p) as [E'|E']; [injection U' as U'; subst o'; discriminate N'|].
    destruct (Nat.eqb_spec u v) as [F|F]; destruct (Nat.eqb_spec u' v) as [F'|F'].
    + congruence.
    + injection U as U. subst o. exfalso. apply E'. apply (B u' p o' s n U' P N' N).
    + injection U' as U'. subst o'. exfalso. apply E. apply (B u p o s n U P N N').
    + apply (B u u' o o' n U U' N N').
  - intros m j M Q. destruct (closed_cases w v m j M) as [k [K1 [K2 [K3 _]]]]. rewrite <- K2.
    assert (X : w_vars w (k_object k) <> None) by (apply (C m k K1); congruence).
    unfold setv. destruct (_ =? p); [discriminate|]. destruct (_ =? v); [discriminate|exact X].
Qed.

Lemma inv_release_all : forall w v ph x, inv w ->
  (forall q, ph q = q \/ ph q = Ended) ->
  match x with Some y => c_handle (o_context y) = None
             | None => ~ busy w v end ->
  inv (release w v ph x).
Proof.
  intros w v ph x I PH X.
  assert (X' : match x with Some y => c_handle (o_context y) = None
              | None => forall m j, nth_error (w_threads w) m = Some j -> k_phase j <> Ended -> k_object j <> v end).
  { destruct x as [y|]; [exact X|]. intros m j J1 J2 J3. apply X. exists m, j. auto. }
  unfold release. destruct (w_vars w v) as [o|] eqn:V; [|exact I].
  destruct (c_handle (o_context o)) as [n|] eqn:N; [|apply inv_blank; assumption].
  destruct (nth_error (w_threads w) n) as [k|] eqn:K; [|exact I].
  pose proof (inv_release w v o n k x false I V N K X') as R.
  destruct (PH (k_phase k)) as [Q|Q]; rewrite Q; [exact R|].
  assert (K' : nth_error (w_threads (TWorld (setv (w_vars w) v x) (upd (w_threads w) n (KThread (k_object k) (k_phase k) false)))) n
              = Some (KThread (k_object k) (k_phase k) false)) by (cbn; apply upd_same with (1 := K)).
  pose proof (inv_phase _ n _ Ended R K') as S1. cbn in S1.
  assert (U : forall (l : list kthread) a b, upd (upd l n a) n b = upd l n b).
  { clear. induction n as [|n IH]; intros [|x l] a b; cbn; try reflexivity. f_equal. apply IH. }
  unfold set_thread in S1. cbn in S1. rewrite U in S1. apply S1. intro Z. contradiction.
Qed.

(** run. *)
Lemma run_threads : forall w v o pad e,
  w_threads (do_run w v o pad e) = w_threads w \/
  (e = None /\ w_threads (do_run w v o pad e) = w_threads w ++ [KThread v NotBegun true]).
Proof.
  intros w v o pad e. unfold do_run. destruct (o_status _ =? 0)%Z; [|left; reflexivity].
  destruct e; [left; reflexivity|right; split; reflexivity].
Qed.

Lemma run_inv : forall w v o pad e, inv w -> w_vars w v = Some o -> inv (do_run w v o pad e).
Proof.
  intros w v o pad e I V. unfold do_run.
  set (o1 := if is_initial (o_context o) pad then TObj (TContext None IdDetached) 0 else o).
  assert (O : o1 = o \/ c_handle (o_context o1) = None).
  { subst o1. destruct (is_initial _ _); auto. }
  destruct (o_status o1 =? 0)%Z.
  - destruct e as [e|].
    + apply inv_blank; [exact I|reflexivity].
    + destruct I as [A B C]. constructor; cbn.
      * intros u p m U M. unfold setv in U. destruct (Nat.eqb_spec u v) as [E|E].
        -- injection U as U. subst p. cbn in M. injection M as M. subst m. split.
           ++ rewrite nth_error_app2 by lia. rewrite Nat.sub_diag. cbn. eexists; split; reflexivity.
           ++ split; reflexivity.
        -- destruct (A u p m U M) as [[k [K1 K2]] R]. split; [|exact R].
           exists k. split; [|exact K2]. rewrite nth_error_app1; [exact K1|]. apply nth_error_Some. congruence.
      * assert (L : forall u p m, w_vars w u = Some p -> c_handle (o_context p) = Some m -> m < length (w_threads w)).
        { intros u p m U M. destruct (A u p m U M) as [[k [K1 K2]] _]. apply nth_error_Some. congruence. }
        intros u u' p p' m U U' M M'. unfold setv in U, U'.
        destruct (Nat.eqb_spec u v) as [E|E]; destruct (Nat.eqb_spec u' v) as [E'|E'].
        -- congruence.
        -- injection U as U. subst p. cbn in M. injection M as M. subst m. specialize (L u' p' _ U' M'). lia.
        -- injection U' as U'. subst p'. cbn in M'. injection M' as M'. subst m. specialize (L u p _ U M). lia.
        -- apply (B u u' p p' m U U' M M').
      * intros m j M P. unfold setv. destruct (Nat.eqb_spec (k_object j) v) as [E|E]; [discriminate|].
        destruct (Nat.lt_ge_cases m (length (w_threads w))) as [X|X].
        -- rewrite nth_error_app1 in M by exact X. apply (C m j M P).
        -- rewrite nth_error_app2 in M by exact X. destruct (m - length (w_threads w)) as [|q]; cbn in M.
           ++ injection M as M. subst j. cbn in E. contradiction.
           ++ destruct q; discriminate M.
  - destruct O as [O|O]; [rewrite O; apply inv_same; assumption|apply inv_blank; [exact I|exact O]].
Qed.

Theorem step_inv : forall w c, inv w -> proper w c -> exists w' r, tstep w c = Ok (w', r) /\ inv w'.
Proof.
  intros w c I P. destruct c as [v|v p|v p pad|v pad e|v|v|v|v|v pad|n|n]; cbn [proper] in P.
  - exists (put w v (Some (TObj initializer 0))), None. split.
    + cbn [tstep]. unfold free. unfold exists_ in P. destruct (w_vars w v); [exfalso; apply P; discriminate|reflexivity].
    + apply inv_blank; [exact I|reflexivity].
  - contradiction.
  - destruct P as [P1 P2]. destruct (get_Ok w p P2) as [s [S1 _]].
    do 2 eexists. split; [apply move_step with (s := s); assumption|]. apply inv_moved; assumption.
  - destruct P as [P _]. destruct (get_Ok w v P) as [o [V G]]. cbn [tstep]. rewrite G. cbn [bind].
    do 2 eexists. split; [reflexivity|]. apply run_inv; assumption.
  - destruct (get_Ok w v P) as [o [V G]]. cbn [tstep]. rewrite G. cbn [bind].
    pose proof (join_spec w v o I V) as J. destruct (c_handle (o_context o)) as [n|] eqn:N.
    + destruct J as [k [K1 [K2 J]]]. rewrite J. cbn [bind fst snd]. do 2 eexists. split; [reflexivity|].
      destruct (i_open w I v o n V N) as [_ [_ Q]].
      assert (TObj (o_context o) 0 = o) as -> by (destruct o; cbn in *; congruence).
      apply inv_same; [|exact V]. rewrite <- K2. apply inv_phase; [exact I|exact K1|].
      intro Z. contradiction.
    + rewrite J. cbn [bind fst snd]. do 2 eexists. split; [reflexivity|]. apply inv_blank; [exact I|exact N].
  - destruct (get_Ok w v P) as [o [V G]]. do 2 eexists. split; [apply (detach_step w v o I V)|].
    destruct (c_handle (o_context o)) as [n|] eqn:N.
    + apply inv_release_all; [exact I| |reflexivity]. auto.
    + destruct (c_id (o_context o)).
      * apply inv_blank; [exact I|exact N].
      * apply inv_release_all; [exact I| |reflexivity]. auto.
      * apply inv_blank; [exact I|exact N].
  - destruct (get_Ok w v P) as [o [V G]]. cbn [tstep]. rewrite G. cbn [bind].
    destruct (c_handle (o_context o)) as [n|] eqn:N; [|do 2 eexists; split; [reflexivity|exact I]].
    destruct (i_open w I v o n V N) as [[k [K1 K2]] _]. rewrite (handle_Ok w n k K1 K2). cbn [bind].
    do 2 eexists; split; [reflexivity|exact I].
  - destruct (get_Ok w v P) as [o [V G]]. cbn [tstep]. rewrite G. cbn [bind].
    do 2 eexists; split; [reflexivity|exact I].
  - destruct P as [P Q]. do 2 eexists. split; [apply delete_step; assumption|].
    apply inv_release_all; [exact I| |exact Q]. auto.
  - cbn [tstep]. destruct (nth_error (w_threads w) n) as [[v ph b]|] eqn:K; [|do 2 eexists; split; [reflexivity|exact I]].
    destruct ph; try (do 2 eexists; split; [reflexivity|exact I]).
    assert (E : w_vars w v <> None) by (apply (i_alive w I n _ K); discriminate).
    destruct (get_Ok w v E) as [o [V G]]. rewrite G. cbn [bind]. do 2 eexists. split; [reflexivity|].
    apply (inv_phase w n _ Working I K). intros _. exact E.
  - cbn [tstep]. destruct (nth_error (w_threads w) n) as [[v ph b]|] eqn:K; [|do 2 eexists; split; [reflexivity|exact I]].
    destruct ph; try (do 2 eexists; split; [reflexivity|exact I]).
    do 2 eexists. split; [reflexivity|]. apply (inv_phase w n _ Ended I K). intro Z. contradiction.
Qed.

Lemma runs_inv : forall h w, inv w -> proper_history w h -> exists w' rs, truns w h = Ok (w', rs) /\ inv w'.
Proof.
  induction h as [|c h IH]; intros w I P.
  - exists w, []. split; [reflexivity|exact I].
  - destruct P as [P Q]. destruct (step_inv w c I P) as [w1 [r [S1 I1]]].
    destruct (IH w1 I1 (Q w1 r S1)) as [w2 [rs [S2 I2]]].
    exists w2, (r :: rs). split; [|exact I2]. cbn. rewrite S1. cbn. rewrite S2. reflexivity.
Qed.

Lemma reach_inv : forall h w rs, proper_history t_start h -> truns t_start h = Ok (w, rs) -> inv w.
Proof.
  intros h w rs P R. destruct (runs_inv h t_start inv_start P) as [w' [rs' [R' I]]]. congruence.
Qed.
