(** Theorems about opening named pipes, C152 and C153. *)
From Coq Require Import List Arith ZArith Bool Lia.
From Verif Require Import Base PipeOpenModel PipeOpenSpec.
From Verif Require ThreadModel ThreadProps.
Import ListNotations.

(** * C152: opening a named pipe stream ends with both ends of one pipe, on POSIX *)

Definition no_failure : syscall -> option Z := fun _ => None.

(** The invariant: everybody works with fifo [f]. *)
Definition on (f : nat) (s : pstate) : Prop :=
  match p_main s with
  | MMknod => p_reader s = None
  | MOpen => p_reader s = None /\ p_node s = Fifo f
  | MJoin => p_reader s = Some (Opened (OnFifo f)) /\ p_node s = Fifo f /\ p_readers s f <> 0
  | MDone => p_reader s = Some (Opened (OnFifo f)) /\ p_node s = Fifo f /\ p_thread s = TDone
  end
  /\ match p_thread s with
     | TMknod => p_writer s = None
     | TOpen => p_writer s = None /\ p_node s = Fifo f
     | TWait id => p_writer s = None /\ p_node s = Fifo f /\ id = f
     | TDone => p_writer s = Some (Opened (OnFifo f)) /\ p_node s = Fifo f
     end
  /\ (p_node s = Fifo f \/ p_node s = Absent /\ p_next s = f).

Definition todo (s : pstate) : nat :=
  match p_main s with MMknod => 3 | MOpen => 2 | MJoin => 1 | MDone => 0 end
  + match p_thread s with TMknod => 3 | TOpen => 2 | TWait _ => 1 | TDone => 0 end.

Lemma more_here : forall f i, more f i i <> 0.
Proof. intros. unfold more. rewrite Nat.eqb_refl. discriminate. Qed.

Lemma on_step : forall f s k, on f s -> k = Main \/ k = Thread ->
  on f (pstep no_failure s k) /\ (todo (pstep no_failure s k) < todo s \/ pstep no_failure s k = s).
Proof.
  intros f [n rd nx m t r w] k O K.
  destruct K as [K|K]; subst k.
  - destruct m; unfold on in *; cbn in *.
    + destruct O as [O1 [O2 O3]]. destruct n as [|id|].
      * destruct O3 as [O3|[_ O3]]; [discriminate|]. subst nx. cbn. split; [|left; destruct t; cbn; lia].
        destruct t; cbn; intuition congruence.
      * cbn. assert (id = f) by (destruct O3 as [O3|[O3 _]]; congruence). subst id.
        split; [|left; destruct t; cbn; lia]. destruct t; cbn; intuition congruence.
      * destruct O3 as [O3|[O3 _]]; discriminate.
    + destruct O as [[O1 E] [O2 O3]]. subst n. cbn. pose proof (more_here rd f).
      split; [|left; destruct t; cbn; lia]. destruct t; cbn; intuition congruence.
    + destruct t; cbn in *; split; try (right; reflexivity); try (left; cbn; lia); intuition congruence.
    + split; [exact O|right; reflexivity].
  - destruct t; unfold on in *; cbn in *.
    + destruct O as [O1 [O2 O3]]. destruct n as [|id|].
      * destruct O3 as [O3|[_ O3]]; [discriminate|]. subst nx. cbn. split; [|left; destruct m; cbn; lia].
        destruct m; cbn; intuition congruence.
      * cbn. assert (id = f) by (destruct O3 as [O3|[O3 _]]; congruence). subst id.
        split; [|left; destruct m; cbn; lia]. destruct m; cbn; intuition congruence.
      * destruct O3 as [O3|[O3 _]]; discriminate.
    + destruct O as [O1 [[O2 E] O3]]. subst n. destruct (Nat.eqb_spec (rd f) 0) as [Z|Z]; cbn.
      * split; [|left; destruct m; cbn; lia]. destruct m; cbn in *; intuition congruence.
      * split; [|left; destruct m; cbn; lia]. destruct m; cbn in *; intuition congruence.
    + destruct O as [O1 [[O2 [E F]] O3]]. subst n id. destruct (Nat.eqb_spec (rd f) 0) as [Z|Z]; cbn.
      * split; [|right; reflexivity]. destruct m; cbn in *; intuition congruence.
      * split; [|left; destruct m; cbn; lia]. destruct m; cbn in *; intuition congruence.
    + split; [exact O|right; reflexivity].
Qed.

(** A fair schedule comes to an end when every step is progress or changes nothing and somebody
    can always step. *)
Section Fair.
  Variable fails : syscall -> option Z.
  Variable J : pstate -> Prop.
  Hypothesis step : forall s k, k = Main \/ k = Thread -> J s ->
    J (pstep fails s k) /\ (todo (pstep fails s k) < todo s \/ pstep fails s k = s).
  Hypothesis live : forall s, J s -> pstep fails s Main = s -> pstep fails s Thread = s -> todo s = 0.

  Lemma fair_run : forall l s, J s -> alone l ->
    J (prun fails s l)
    /\ (todo (prun fails s l) < todo s \/ prun fails s l = s /\ forall k, In k l -> pstep fails s k = s).
  Proof.
    induction l as [|k l IH]; intros s O A.
    - split; [exact O|]. right. split; [reflexivity|]. intros k [].
    - destruct (step s k (A k (or_introl eq_refl)) O) as [O1 D].
      assert (A' : alone l) by (intros x X; apply A; right; exact X).
      cbn [prun fold_left]. destruct (IH _ O1 A') as [O2 E]. split; [exact O2|]. unfold prun in *.
      destruct D as [D|D].
      + left. destruct E as [E|[E _]]; [lia|]. rewrite E. exact D.
      + rewrite D in *. destruct E as [E|[E F]]; [left; exact E|]. right. split; [exact E|].
        intros x [X|X]; [subst x; exact D|apply F; exact X].
  Qed.

  Lemma fair_rounds : forall n l, posix_rounds n l -> forall s, J s -> alone l ->
    J (prun fails s l) /\ (todo (prun fails s l) = 0 \/ todo (prun fails s l) + n <= todo s).
  Proof.
    intros n l R. induction R as [l|n a l [HM HT] R IH]; intros s O A.
    - destruct (fair_run l s O A) as [O1 D]. split; [exact O1|]. right. destruct D as [D|[D _]]; [lia|rewrite D; lia].
    - assert (A1 : alone a) by (intros x X; apply A, in_or_app; left; exact X).
      assert (A2 : alone l) by (intros x X; apply A, in_or_app; right; exact X).
      destruct (fair_run a s O A1) as [O1 D]. destruct (IH _ O1 A2) as [O2 E].
      unfold prun in *. rewrite fold_left_app. split; [exact O2|].
      destruct E as [E|E]; [left; exact E|]. destruct D as [D|[D F]]; [right; lia|].
      left. rewrite D in *. pose proof (live s O (F _ HM) (F _ HT)) as Z. lia.
  Qed.

  Lemma fair_end : forall l s, todo s <= 6 -> posix_rounds 6 l -> J s -> alone l ->
    J (prun fails s l) /\ p_main (prun fails s l) = MDone /\ p_thread (prun fails s l) = TDone.
  Proof.
    intros l s T R O A. destruct (fair_rounds 6 l R s O A) as [O1 D]. split; [exact O1|].
    assert (Z : todo (prun fails s l) = 0) by lia. unfold todo in Z.
    destruct (p_main (prun fails s l)), (p_thread (prun fails s l)); try discriminate Z. auto.
  Qed.
End Fair.

Lemma not_stuck : forall f s, on f s -> pstep no_failure s Main = s -> pstep no_failure s Thread = s -> todo s = 0.
Proof.
  intros f [n rd nx m t r w] O A B. unfold on in O.
  destruct m; cbn in *.
  - exfalso. apply (f_equal p_main) in A. cbn in A. discriminate.
  - exfalso. destruct n; apply (f_equal p_main) in A; cbn in A; discriminate.
  - destruct t; cbn in *.
    + apply (f_equal p_thread) in B. cbn in B. discriminate.
    + destruct O as [[_ [_ O]] [[_ E] _]]. subst n. apply Nat.eqb_neq in O. rewrite O in B.
      apply (f_equal p_thread) in B. cbn in B. discriminate.
    + destruct O as [[_ [_ O]] [[_ [_ E]] _]]. subst id. apply Nat.eqb_neq in O. rewrite O in B.
      apply (f_equal p_thread) in B. cbn in B. discriminate.
    + apply (f_equal p_main) in A. cbn in A. discriminate.
  - destruct O as [[_ [_ O]] _]. subst t. reflexivity.
Qed.

(** Without failures, if the name is free or that of a pipe, every fair schedule ends with the
    two ends of one pipe. *)
Theorem C152_opens_partial : forall n r l,
  n = Absent \/ n = Fifo 0 -> alone l -> posix_rounds 6 l ->
  exists id, posix_open (prun no_failure (pstart n r) l) = Some (Opened (OnFifo id), Opened (OnFifo id), 0%Z)
    /\ (n = Fifo 0 -> id = 0).
Proof.
  intros n r l N A R.
  set (f := match n with Fifo i => i | _ => 1 end).
  assert (O : on f (pstart n r)).
  { subst f. destruct N as [N|N]; subst n; unfold on; cbn; intuition. }
  destruct (fair_end no_failure (on f) (fun s k K O => on_step f s k O K) (not_stuck f) l (pstart n r)) as [O1 [M T]];
    [cbn; lia|exact R|exact O|exact A|].
  exists f. split; [|intro E; subst n; reflexivity].
  unfold posix_open. unfold on in O1. rewrite M, T in *. destruct O1 as [[E1 _] [[E2 _] _]].
  rewrite E1, E2. reflexivity.
Qed.

(** When the reading end cannot be opened, nobody opens it, and the call never returns, for any
    schedule. *)
Theorem C152_reader_refuted : forall n fails e l,
  n = Absent \/ n = Fifo 0 ->
  fails MainOpen = Some e -> fails ThreadMknod = None -> fails ThreadOpen = None -> alone l ->
  posix_open (prun fails (pstart n 0) l) = None.
Proof.
  intros n fails e l N F1 F2 F3 A.
  assert (G : forall l s, alone l ->
     (forall i, p_readers s i = 0) ->
     (p_thread s = TMknod /\ p_node s <> Regular /\ p_main s <> MDone
      \/ (p_thread s = TOpen \/ exists i, p_thread s = TWait i) /\ (exists i, p_node s = Fifo i) /\ p_main s <> MDone) ->
     posix_open (prun fails s l) = None).
  { clear N A l. induction l as [|k l IH]; intros s A R C.
    - cbn. unfold posix_open. destruct (p_main s); try reflexivity. exfalso.
      destruct C as [[_ [_ C]]|[_ [_ C]]]; apply C; reflexivity.
    - cbn [prun fold_left]. apply IH; [intros x X; apply A; right; exact X| |].
      + destruct s as [nd rd nx m t r w]. cbn in R. destruct (A k (or_introl eq_refl)); subst k; cbn.
        * destruct m; cbn; rewrite ?F1; cbn; auto.
          -- destruct (fails MainMknod); cbn; [exact R|]. unfold mknod. cbn. destruct nd; exact R.
          -- destruct t; exact R.
        * destruct t; cbn; rewrite ?F2, ?F3; cbn.
          -- unfold mknod. cbn. destruct nd; exact R.
          -- destruct C as [[C _]|[_ [[i C] _]]]; [discriminate C|]. cbn in C. subst nd. rewrite R. exact R.
          -- rewrite R. exact R.
          -- exact R.
      + destruct s as [nd rd nx m t r w]. cbn in R, C. destruct (A k (or_introl eq_refl)); subst k; cbn.
        * destruct m; cbn; rewrite ?F1; cbn.
          -- destruct (fails MainMknod); cbn.
             ++ destruct C as [[C1 [C2 C3]]|[C1 [C2 C3]]]; [left|right]; (split; [exact C1|]; split; [exact C2|discriminate]).
             ++ unfold mknod. cbn. destruct C as [[C1 [C2 C3]]|[C1 [[i C2] C3]]].
                ** left. split; [destruct nd; exact C1|]. split; [destruct nd; cbn; congruence|discriminate].
                ** right. subst nd. cbn. split; [exact C1|]. split; [exists i; reflexivity|discriminate].
          -- destruct C as [[C1 [C2 C3]]|[C1 [C2 C3]]]; [left|right]; (split; [exact C1|]; split; [exact C2|discriminate]).
          -- destruct t; try exact C. exfalso. destruct C as [[C _]|[[C|[i C]] _]]; discriminate.
          -- exact C.
        * destruct t; cbn; rewrite ?F2, ?F3; cbn.
          -- right. destruct C as [[_ [C2 C3]]|[[C|[i C]] _]]; try discriminate.
             unfold mknod. cbn. split; [left; destruct nd; reflexivity|].
             split; [|destruct nd; exact C3]. destruct nd; cbn; [eexists; reflexivity|eexists; reflexivity|congruence].
          -- destruct C as [[C _]|[_ [[i C2] C3]]]; [discriminate C|]. subst nd. rewrite R. cbn. right.
             split; [right; exists i; reflexivity|]. split; [exists i; reflexivity|exact C3].
          -- rewrite R. cbn. exact C.
          -- exact C. }
  apply G; [exact A| |].
  - intro i. cbn. destruct (i =? 0); reflexivity.
  - left. cbn. split; [reflexivity|]. split; [destruct N as [N|N]; subst n; discriminate|discriminate].
Qed.

(** A file that is no pipe is opened like one: success is reported. *)
Theorem C152_regular_refuted : forall r l, alone l -> posix_rounds 6 l ->
  posix_open (prun no_failure (pstart Regular r) l) = Some (Opened OnRegular, Opened OnRegular, 0%Z).
Proof.
  intros r l A R.
  set (J := fun s => p_node s = Regular /\ (forall i, p_thread s <> TWait i)
     /\ (match p_main s with MJoin | MDone => p_reader s = Some (Opened OnRegular) | _ => True end)
     /\ (match p_thread s with TDone => p_writer s = Some (Opened OnRegular) | _ => True end)
     /\ (p_main s = MDone -> p_thread s = TDone)).
  destruct (fair_end no_failure J) with (l := l) (s := pstart Regular r) as [O1 [M T]].
  - intros [nd rd nx m t r' w] k K [H1 [H2 [H3 [H4 H5]]]]. cbn in H1, H2. subst nd. unfold J.
    destruct K; subst k.
    + destruct m; cbn in *.
      * split; [|left; unfold todo; cbn; lia]. repeat split; auto. discriminate.
      * split; [|left; unfold todo; cbn; lia]. repeat split; auto. discriminate.
      * destruct t; cbn in *.
        -- split; [|right; reflexivity]. repeat split; auto.
        -- split; [|right; reflexivity]. repeat split; auto.
        -- exfalso. apply (H2 id). reflexivity.
        -- split; [|left; unfold todo; cbn; lia]. repeat split; auto.
      * split; [|right; reflexivity]. repeat split; auto.
    + destruct t; cbn in *; try (exfalso; apply (H2 id); reflexivity).
      * split; [|left; unfold todo; cbn; lia]. repeat split; auto; try discriminate.
        intro X. specialize (H5 X). discriminate.
      * split; [|left; unfold todo; cbn; lia]. repeat split; auto; discriminate.
      * split; [|right; reflexivity]. repeat split; auto.
  - intros [nd rd nx m t r' w] [H1 [H2 [H3 [H4 H5]]]] S1 S2. cbn in *. subst nd.
    destruct t; cbn in *; try (apply (f_equal p_thread) in S2; discriminate S2); try (exfalso; apply (H2 id); reflexivity).
    destruct m; cbn in *; try (apply (f_equal p_main) in S1; discriminate S1). reflexivity.
  - cbn. lia.
  - exact R.
  - unfold J. cbn. repeat split; discriminate.
  - exact A.
  - unfold posix_open. destruct O1 as [_ [_ [E1 [E2 _]]]]. rewrite M in *. rewrite T in *. rewrite E1, E2. reflexivity.
Qed.

(** Both ends failed, and success is reported. *)
Theorem C152_status_refuted : forall n r e e' l, alone l -> posix_rounds 6 l ->
  posix_open (prun (fun c => match c with MainMknod => Some e | ThreadMknod => Some e' | _ => None end) (pstart n r) l)
    = Some (Failed e, Failed e', 0%Z).
Proof.
  intros n r e e' l A R. set (fails := fun c : syscall => _).
  set (J := fun s =>
     (match p_main s with MMknod => True | MOpen => False | _ => p_reader s = Some (Failed e) end)
     /\ (match p_thread s with TMknod => True | TDone => p_writer s = Some (Failed e') | _ => False end)
     /\ (p_main s = MDone -> p_thread s = TDone)).
  destruct (fair_end fails J) with (l := l) (s := pstart n r) as [O1 [M T]].
  - intros [nd rd nx m t r' w] k K [H1 [H2 H3]]. unfold J. cbn in H1, H2, H3. destruct K; subst k.
    + destruct m; cbn in *; try contradiction.
      * split; [|left; unfold todo; cbn; lia]. repeat split; auto. discriminate.
      * destruct t; cbn in *; try contradiction.
        -- split; [|right; reflexivity]. repeat split; auto.
        -- split; [|left; unfold todo; cbn; lia]. repeat split; auto.
      * split; [|right; reflexivity]. repeat split; auto.
    + destruct t; cbn in *; try contradiction.
      * split; [|left; unfold todo; cbn; lia]. repeat split; auto.
      * split; [|right; reflexivity]. repeat split; auto.
  - intros [nd rd nx m t r' w] [H1 [H2 H3]] S1 S2. cbn in *.
    destruct t; cbn in *; try contradiction; try (apply (f_equal p_thread) in S2; discriminate S2).
    destruct m; cbn in *; try contradiction; try (apply (f_equal p_main) in S1; discriminate S1). reflexivity.
  - cbn. lia.
  - exact R.
  - unfold J. cbn. repeat split; discriminate.
  - exact A.
  - unfold posix_open. destruct O1 as [E1 [E2 _]]. rewrite M in *. rewrite T in *. rewrite E1, E2. reflexivity.
Qed.

(** Another process removes the name at the wrong moment: the reading end is a new regular file,
    and the call never returns. *)
Theorem C152_unlink_refuted : forall l, alone l ->
  posix_open (prun no_failure (pstart Absent 0) ([Main; Thread; Thread; Unlink; Main] ++ l)) = None
  /\ p_reader (prun no_failure (pstart Absent 0) ([Main; Thread; Thread; Unlink; Main] ++ l)) = Some (Opened OnRegular).
Proof.
  intros l A. unfold prun. rewrite fold_left_app.
  set (s := fold_left (pstep no_failure) [Main; Thread; Thread; Unlink; Main] _).
  assert (G : forall l, alone l -> fold_left (pstep no_failure) l s = s).
  { clear A l. induction l as [|k l IH]; intro A; [reflexivity|]. cbn [fold_left].
    assert (pstep no_failure s k = s) as ->.
    { destruct (A k (or_introl eq_refl)); subst k; reflexivity. }
    apply IH. intros x X. apply A. right. exact X. }
  rewrite G by exact A. split; reflexivity.
Qed.

(** Whatever the system answers, on POSIX the object of the thread is joined, and joined again by
    its destructor at the end of makeNamedBidirectional (ThreadProps.v). *)
Theorem C152_thread_refuted : forall az le errno v,
  ThreadModel.truns az le (ThreadModel.t_start errno)
    [ThreadModel.TNew v; ThreadModel.TRun v 0 0; ThreadModel.TJoin v; ThreadModel.TDelete v] = UB.
Proof. exact ThreadProps.C91_run_join_refuted. Qed.

(** * C153: the same on Windows *)

(** How many steps the main thread took before the first step of the other one decides. *)

Lemma wdone_forever : forall l s, w_main s = WDone -> w_thread s = true -> wrun s l = s.
Proof.
  induction l as [|k l IH]; intros s H T; [reflexivity|]. cbn [wrun fold_left]. unfold wrun in *.
  destruct s as [p m t r w]. cbn in H, T. subst m t. destruct k; apply IH; reflexivity.
Qed.

Lemma wrun_app : forall a b s, wrun s (a ++ b) = wrun (wrun s a) b.
Proof. intros. apply fold_left_app. Qed.

Definition w_todo (s : wstate) : nat :=
  match w_main s with WCreate => 3 | WConnect => 2 | WWait => 2 | WJoin => 1 | WDone => 0 end.

(** Once the thread has ended and the main thread is not kept waiting, every step of the main
    thread counts. *)
Lemma w_end : forall n l, windows_rounds n l -> forall s,
  w_thread s = true -> (w_main s = WConnect \/ w_main s = WWait -> w_pipe s = Connected) -> w_main s <> WCreate ->
  let s' := wrun s l in
  w_thread s' = true /\ w_writer s' = w_writer s
  /\ (w_main s' = WConnect \/ w_main s' = WWait -> w_pipe s' = Connected) /\ w_main s' <> WCreate
  /\ (w_main s = WWait \/ w_reader s = Some true /\ (w_main s = WJoin \/ w_main s = WDone) ->
      w_main s' = WWait \/ w_reader s' = Some true /\ (w_main s' = WJoin \/ w_main s' = WDone))
  /\ (w_main s = WConnect \/ w_reader s = Some false /\ (w_main s = WJoin \/ w_main s = WDone) ->
      w_main s' = WConnect \/ w_reader s' = Some false /\ (w_main s' = WJoin \/ w_main s' = WDone))
  /\ (w_todo s' = 0 \/ w_todo s' + n <= w_todo s).
Proof.
  assert (STEP : forall l s, w_thread s = true -> (w_main s = WConnect \/ w_main s = WWait -> w_pipe s = Connected) -> w_main s <> WCreate ->
    let s' := wrun s l in
    w_thread s' = true /\ w_writer s' = w_writer s
    /\ (w_main s' = WConnect \/ w_main s' = WWait -> w_pipe s' = Connected) /\ w_main s' <> WCreate
    /\ (w_main s = WWait \/ w_reader s = Some true /\ (w_main s = WJoin \/ w_main s = WDone) ->
        w_main s' = WWait \/ w_reader s' = Some true /\ (w_main s' = WJoin \/ w_main s' = WDone))
    /\ (w_main s = WConnect \/ w_reader s = Some false /\ (w_main s = WJoin \/ w_main s = WDone) ->
        w_main s' = WConnect \/ w_reader s' = Some false /\ (w_main s' = WJoin \/ w_main s' = WDone))
    /\ w_todo s' <= w_todo s /\ (In WMain l -> w_todo s' = 0 \/ w_todo s' < w_todo s)).
  { induction l as [|k l IH]; intros s T P C.
    - cbn. repeat split; auto. intros [].
    - cbn [wrun fold_left]. fold (wrun (wstep s k) l).
      destruct s as [p m t r w]. cbn in T, P, C. subst t. destruct k.
      + destruct m; cbn in P.
        * exfalso. apply C. reflexivity.
        * specialize (P (or_introl eq_refl)). subst p. cbn [wstep w_main w_pipe w_thread w_reader w_writer].
          destruct (IH (WState NoInstance WJoin true (Some false) w)) as [A1 [A2 [A3 [A4 [A5 [A6 [A7 A8]]]]]]];
            [reflexivity|cbn; intros [X|X]; discriminate|discriminate|].
          cbn in *. split; [exact A1|]. split; [exact A2|]. split; [exact A3|]. split; [exact A4|].
          split; [intros [X|[_ [X|X]]]; discriminate|]. split; [intros _; apply A6; auto|].
          unfold w_todo in *. cbn in *. split; [lia|]. intros _. right. lia.
        * specialize (P (or_intror eq_refl)). subst p. cbn [wstep w_main w_pipe w_thread w_reader w_writer].
          destruct (IH (WState Connected WJoin true (Some true) w)) as [A1 [A2 [A3 [A4 [A5 [A6 [A7 A8]]]]]]];
            [reflexivity|cbn; intros [X|X]; discriminate|discriminate|].
          cbn in *. split; [exact A1|]. split; [exact A2|]. split; [exact A3|]. split; [exact A4|].
          split; [intros _; apply A5; auto|]. split; [intros [X|[_ [X|X]]]; discriminate|].
          unfold w_todo in *. cbn in *. split; [lia|]. intros _. right. lia.
        * cbn [wstep w_main w_pipe w_thread w_reader w_writer].
          destruct (IH (WState p WDone true r w)) as [A1 [A2 [A3 [A4 [A5 [A6 [A7 A8]]]]]]];
            [reflexivity|cbn; intros [X|X]; discriminate|discriminate|].
          cbn in *. split; [exact A1|]. split; [exact A2|]. split; [exact A3|]. split; [exact A4|].
          split; [intros [X|[X _]]; [discriminate|apply A5; auto]|]. split; [intros [X|[X _]]; [discriminate|apply A6; auto]|].
          unfold w_todo in *. cbn in *. split; [lia|]. intros _. left. lia.
        * cbn [wstep w_main w_pipe w_thread w_reader w_writer].
          destruct (IH (WState p WDone true r w)) as [A1 [A2 [A3 [A4 [A5 [A6 [A7 A8]]]]]]];
            [reflexivity|cbn; intros [X|X]; discriminate|discriminate|].
          cbn in *. split; [exact A1|]. split; [exact A2|]. split; [exact A3|]. split; [exact A4|].
          split; [exact A5|]. split; [exact A6|]. unfold w_todo in *. cbn in *. split; [lia|]. intros _. left. lia.
      + cbn [wstep w_thread]. destruct (IH (WState p m true r w)) as [A1 [A2 [A3 [A4 [A5 [A6 [A7 A8]]]]]]];
          [reflexivity|exact P|exact C|].
        repeat (split; [assumption|]). intros [X|X]; [discriminate X|]. apply A8. exact X. }
  intros n l R. induction R as [l|n a l [HM HT] R IH]; intros s T P C.
  - destruct (STEP l s T P C) as [A1 [A2 [A3 [A4 [A5 [A6 [A7 A8]]]]]]].
    cbn. repeat (split; [assumption|]). right. lia.
  - destruct (STEP a s T P C) as [A1 [A2 [A3 [A4 [A5 [A6 [A7 A8]]]]]]].
    destruct (IH (wrun s a) A1 A3 A4) as [B1 [B2 [B3 [B4 [B5 [B6 B7]]]]]].
    cbn. rewrite wrun_app. split; [exact B1|]. split; [congruence|]. split; [exact B3|]. split; [exact B4|].
    split; [auto|]. split; [auto|]. specialize (A8 HM). lia.
Qed.

(** The main thread already waits in ConnectNamedPipe when the other one comes: both ends of the
    pipe. *)
Theorem C153_waiting_partial : forall k l, 2 <= k -> windows_rounds 2 l ->
  windows_open (wrun wstart (repeat WMain k ++ WThread :: l)) = Some (true, true, true, false).
Proof.
  intros k l K R. rewrite wrun_app.
  assert (E : wrun wstart (repeat WMain k) = WState Waiting WWait false None None).
  { destruct k as [|[|k]]; try lia. cbn [repeat wrun fold_left]. clear. induction k as [|k IH]; [reflexivity|exact IH]. }
  rewrite E. change (WThread :: l) with ([WThread] ++ l). rewrite wrun_app. cbn [wrun fold_left wstep w_thread create_file w_pipe w_main w_reader].
  destruct (w_end 2 l R (WState Connected WWait true None (Some true))) as [A1 [A2 [A3 [A4 [A5 [_ A7]]]]]];
    [reflexivity|reflexivity|discriminate|].
  cbn in A2, A5, A7. specialize (A5 (or_introl eq_refl)). unfold windows_open.
  fold (wrun (WState Connected WWait true None (Some true)) l).
  set (s := wrun (WState Connected WWait true None (Some true)) l) in *.
  unfold w_todo in A7. cbn in A7. rewrite A2.
  destruct (w_main s); try lia; try (destruct A5 as [X|[_ [X|X]]]; discriminate).
  destruct A5 as [X|[X _]]; [discriminate|]. rewrite X. reflexivity.
Qed.

(** The other thread comes first: there is no pipe yet, and the main thread then waits for a
    client for ever. *)
Theorem C153_early_refuted : forall l, windows_open (wrun wstart (WThread :: l)) = None.
Proof.
  intro l. cbn [wrun fold_left wstep wstart w_thread create_file w_pipe w_main w_reader].
  assert (G : forall l s, w_thread s = true ->
     w_main s = WCreate \/ w_main s = WConnect /\ w_pipe s = Made \/ w_main s = WWait /\ w_pipe s = Waiting ->
     windows_open (fold_left wstep l s) = None).
  { clear l. induction l as [|k l IH]; intros [p m t r w] T C; cbn in T, C; subst t.
    - cbn. unfold windows_open. cbn. destruct C as [C|[[C _]|[C _]]]; subst m; reflexivity.
    - cbn [fold_left]. apply IH; destruct k; cbn; try (destruct m; cbn; try reflexivity; destruct p; reflexivity).
      + destruct C as [C|[[C D]|[C D]]]; subst; cbn; auto.
      + exact C. }
  apply G; [reflexivity|left; reflexivity].
Qed.

(** It comes between CreateNamedPipe and ConnectNamedPipe: the connection is taken for an error;
    the handle of the writing end is left open. *)
Theorem C153_between_refuted : forall l, windows_rounds 2 l ->
  windows_open (wrun wstart ([WMain; WThread] ++ l)) = Some (false, false, false, true).
Proof.
  intros l R. rewrite wrun_app. cbn [wrun fold_left wstep wstart w_thread create_file w_pipe w_main w_reader w_writer].
  destruct (w_end 2 l R (WState Connected WConnect true None (Some true))) as [A1 [A2 [A3 [A4 [_ [A6 A7]]]]]];
    [reflexivity|reflexivity|discriminate|].
  cbn in A2, A6, A7. specialize (A6 (or_introl eq_refl)). unfold windows_open.
  fold (wrun (WState Connected WConnect true None (Some true)) l).
  set (s := wrun (WState Connected WConnect true None (Some true)) l) in *.
  unfold w_todo in A7. cbn in A7. rewrite A2.
  destruct (w_main s); try lia; try (destruct A6 as [X|[_ [X|X]]]; discriminate).
  - destruct A6 as [X|[X _]]; [discriminate|]. rewrite X. reflexivity.
Qed.

(** The constructor with a name never returns. *)
Theorem C153_constructor_refuted : forall n, w_main (wctor n) <> WJoin /\ w_main (wctor n) <> WDone.
Proof.
  intro n. unfold wctor. destruct n as [|[|n]]; [split; discriminate|split; discriminate|].
  assert (E : wrun (wstep wstart WThread) (repeat WMain (S (S n))) = WState Waiting WWait true None (Some false)).
  { cbn [repeat wrun fold_left]. induction n as [|n IH]; [reflexivity|exact IH]. }
  rewrite E. split; discriminate.
Qed.

(** * Cases *)

Lemma rounds_repeat : forall (A : Type) (P : list A -> Prop) a n, P a -> rounds P n (concat (repeat a n)).
Proof. intros A P a n H. induction n as [|n IH]; cbn; constructor; assumption. Qed.

(** The writer comes first and has to wait. *)
Definition fair_sample : list tick := concat (repeat [Thread; Main] 6).
Example C152_case : alone fair_sample /\ posix_rounds 6 fair_sample
  /\ posix_open (prun no_failure (pstart (Fifo 0) 0) fair_sample) = Some (Opened (OnFifo 0), Opened (OnFifo 0), 0%Z)
  /\ p_thread (prun no_failure (pstart (Fifo 0) 0) [Thread; Thread]) = TWait 0.
Proof.
  split; [intros k K; cbn in K; intuition congruence|]. split; [|split; reflexivity].
  apply rounds_repeat. cbn. auto.
Qed.
Example C153_case : windows_rounds 2 (concat (repeat [WThread; WMain] 2))
  /\ windows_open (wrun wstart ([WMain; WMain; WThread] ++ concat (repeat [WThread; WMain] 2))) = Some (true, true, true, false).
Proof. split; [apply rounds_repeat; cbn; auto|reflexivity]. Qed.

Print Assumptions C152_opens_partial.
Print Assumptions C152_reader_refuted.
Print Assumptions C152_regular_refuted.
Print Assumptions C152_status_refuted.
Print Assumptions C152_unlink_refuted.
Print Assumptions C152_thread_refuted.
Print Assumptions C153_waiting_partial.
Print Assumptions C153_early_refuted.
Print Assumptions C153_between_refuted.
Print Assumptions C153_constructor_refuted.
