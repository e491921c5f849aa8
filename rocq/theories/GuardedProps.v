(** C229: theorems about a Vector shared by threads. *)
From Coq Require Import List Arith Bool Lia Permutation.
From Verif Require Import Base BaseLemmas Store StoreLemmas StaticVectorModel StaticVectorSpec StaticVectorProofs
  VectorModel VectorSpec VectorProofs ConcModel ConcSpec ConcProofs GuardedModel GuardedSpec.
Import ListNotations.
Local Open Scope outcome_scope.

Section Shared.
  Context {A : Type}.
  Variable m : mode.
  Variable moved : A -> A.
  Variable mem : memory.
  Variable fuel : nat.
  Hypothesis Hmem : mem <> NoMemory.
  Hypothesis Hfuel : 2 <= fuel.
  Notation mk l rest k := (SVec (St (map (@Some A) l ++ rest) k) (length l)).

  (** The memory holds exactly these elements. *)
  Definition shows (v : vec A) (l : list A) : Prop :=
    exists rest k c, v = Vec (mk l rest k) c /\ length l + length rest = c /\ c <> 1.

  Lemma step_shows v l op : shows v l ->
    match op with VPush _ | VPop => True | VErase it => it <= length l | _ => False end ->
    forall dflt, exists v', vec_step m moved dflt mem fuel v op = Ok v' /\ shows v' (seq_step dflt l op).
  Proof.
    intros (rest & k & c & -> & L & N) V dflt.
    destruct (step_ok' m moved dflt mem Hmem l rest k c op fuel L) as (r & k' & E & L' & _).
    - split; destruct op; cbn; auto; destruct V.
    - right. destruct op; cbn; auto; destruct V.
    - destruct op; cbn; auto; destruct V.
    - eexists. split; [exact E|]. exists r, k', (cap_step c l op). split; [reflexivity|]. split; [exact L'|].
      destruct op; cbn [cap_step]; auto; try destruct V.
      destruct (length l <? c); [exact N|apply grow_ne1, N].
  Qed.

  Lemma size_shows v l : shows v l -> vec_size v = length l.
  Proof. intros (rest & k & c & -> & _). reflexivity. Qed.

  Lemma index_shows v l i x : shows v l -> nth_error l i = Some x -> vec_index v i = Ok x.
  Proof.
    intros (rest & k & c & -> & _) E. unfold vec_index, vc_store. cbn [vc_arr sv_store].
    unfold st_load, load. cbn [st_cells].
    rewrite nth_error_app1.
    - rewrite (map_nth_error (@Some A) i l E). reflexivity.
    - rewrite map_length. apply nth_error_Some. congruence.
  Qed.

  Lemma sequential_vector :
    sequential _ _ _ _ (guarded_code m moved mem fuel) on_sequence (fun _ => True) shows.
  Proof.
    intros o _. destruct o as [x| | | |i]; cbn [guarded_code];
      (eexists; split; [reflexivity|]); intros v l Sh; cbn [on_sequence].
    - destruct (step_shows v l (VPush x) Sh I x) as (v' & E & Sh'). exists v'. split; [|exact Sh'].
      eapply F_set; [exact E|]. apply F_release.
    - destruct (rev l) as [|x r] eqn:Er; cbn [fst snd].
      + exists v. split; [|exact Sh]. eapply F_get; [reflexivity|]. rewrite (size_shows v l Sh).
        destruct l as [|y l]; [|cbn in Er; destruct (rev l); discriminate]. cbn. apply F_release.
      + assert (El : l = rev r ++ [x]) by (rewrite <- (rev_involutive l), Er; reflexivity).
        destruct (step_shows v l VPop Sh I x) as (v' & E & Sh').
        exists v'. split.
        * eapply F_get; [reflexivity|]. rewrite (size_shows v l Sh).
          assert (Ln : length l = S (length (rev r))) by (rewrite El, app_length; cbn; lia).
          rewrite Ln. cbn [Nat.eqb].
          eapply F_get.
          { apply (index_shows v l). exact Sh. rewrite El. replace (S (length (rev r)) - 1) with (length (rev r)) by lia.
            rewrite nth_error_app2 by lia. rewrite Nat.sub_diag. reflexivity. }
          cbn beta. eapply F_set; [exact E|]. apply F_release.
        * cbn [seq_step] in Sh'. rewrite El, removelast_last in Sh'. exact Sh'.
    - destruct l as [|x l]; cbn [fst snd].
      + exists v. split; [|exact Sh]. eapply F_get; [reflexivity|]. rewrite (size_shows v _ Sh).
        cbn. apply F_release.
      + destruct (step_shows v (x :: l) (VErase 0) Sh ltac:(cbn; lia) x) as (v' & E & Sh').
        exists v'. split; [|exact Sh'].
        eapply F_get; [reflexivity|]. rewrite (size_shows v _ Sh). cbn [length Nat.eqb].
        eapply F_get; [apply (index_shows v (x :: l)); [exact Sh|reflexivity]|].
        cbn beta. eapply F_set; [exact E|]. apply F_release.
    - exists v. cbn [fst snd]. split; [|exact Sh]. eapply F_get; [reflexivity|]. rewrite (size_shows v l Sh). apply F_release.
    - exists v. cbn [fst snd]. split; [|exact Sh]. eapply F_get; [reflexivity|]. rewrite (size_shows v l Sh).
      destruct (nth_error l i) as [x|] eqn:Ex.
      + assert (i < length l) by (apply nth_error_Some; congruence).
        destruct (Nat.ltb_spec i (length l)); [|lia].
        eapply F_get; [apply (index_shows v l); eauto|]. apply F_release.
      + apply nth_error_None in Ex. destruct (Nat.ltb_spec i (length l)); [lia|]. apply F_release.
  Qed.

  Lemma new_shows : shows vec_new [].
  Proof. exists [], 0, 0. repeat split. discriminate. Qed.

  Lemma run_shared moves : exists c h, run (guarded_code m moved mem fuel) (quiet vec_new) [] moves = Ok (c, h)
    /\ good _ _ _ _ (guarded_code m moved mem fuel) on_sequence [] (fun _ => True) shows c h.
  Proof.
    apply (run_good _ _ _ _ _ on_sequence [] (fun _ => True) shows sequential_vector moves).
    - apply start_good. exact new_shows.
    - apply Forall_forall. intros [t o|t] _; exact I.
  Qed.
End Shared.

Lemma added_app A (a b : list (nat * gop A * gres A)) : added (a ++ b) = added a ++ added b.
Proof.
  induction a as [|[[t o] r] a IH]; [reflexivity|]. destruct o; cbn [app added]; rewrite ?IH; reflexivity.
Qed.
Lemma removed_app A (a b : list (nat * gop A * gres A)) : removed (a ++ b) = removed a ++ removed b.
Proof.
  induction a as [|[[t o] r] a IH]; [reflexivity|]. destruct o; destruct r; cbn [app removed]; rewrite ?IH; reflexivity.
Qed.

Lemma balance_shared A (s : list A) st (h : list (event (gop A) (gres A))) order :
  atomic on_sequence [] Inv Res s st h order -> Permutation (added order) (removed order ++ s).
Proof.
  induction 1 as [|s st h order t o _ IH|s st h order t o s' r _ IH _ E|s st h order t r _ IH];
    auto. rewrite added_app, removed_app. destruct o as [x| | | |i]; cbn in E.
  - injection E as <- <-. cbn. rewrite app_nil_r, app_assoc. apply Permutation_app_tail. exact IH.
  - destruct (rev s) as [|x l] eqn:Er; injection E as <- <-; cbn; rewrite ?app_nil_r; [exact IH|].
    assert (El : s = rev l ++ [x]) by (rewrite <- (rev_involutive s), Er; reflexivity).
    etransitivity; [exact IH|]. rewrite El, <- app_assoc. cbn. apply Permutation_app_head.
    symmetry. apply Permutation_cons_append.
  - destruct s as [|x l]; injection E as <- <-; cbn; rewrite ?app_nil_r;
      [rewrite app_nil_r in IH; exact IH|].
    etransitivity; [exact IH|]. rewrite <- app_assoc. reflexivity.
  - injection E as <- <-. cbn. rewrite !app_nil_r. exact IH.
  - injection E as <- <-. cbn. rewrite !app_nil_r. exact IH.
Qed.

(** C229. Any number of threads, any interleaving of their steps: nothing goes wrong; the history is that of
    a sequence on which every call takes effect at one instant between its call and its return; every
    element that was added is either still there or was taken exactly once; and whenever no thread is in a
    call, the vector has the elements of that sequence. *)
Theorem C229_linearizable :
  forall (A : Type) (m : mode) (moved : A -> A) (mem : memory) (fuel : nat) (moves : list (move (gop A))),
    mem <> NoMemory -> 2 <= fuel ->
    exists c h, run (guarded_code m moved mem fuel) (quiet vec_new) [] moves = Ok (c, h)
      /\ exists s st order, atomic on_sequence [] Inv Res s st h order
        /\ Permutation (added order) (removed order ++ s)
        /\ ((forall t, c_threads c t = None) ->
             c_lock c = false /\ vec_elements (c_mem c) = Ok s /\ vec_size (c_mem c) = length s).
Proof.
  intros A m moved mem fuel moves Hm Hf.
  destruct (run_shared m moved mem fuel Hm Hf moves) as (c & h & E & G).
  exists c, h. split; [exact E|]. destruct G as (w & s & st & order & AT & TH & LK & RP).
  exists s, st, order. split; [exact AT|]. split; [exact (balance_shared _ _ _ _ _ AT)|].
  intros Idle. assert (w = None) as ->.
  { destruct w as [t|]; [|reflexivity]. pose proof (TH t) as X. unfold thread_ok in X. rewrite Idle in X.
    destruct X as [_ X]. congruence. }
  split; [exact LK|]. destruct (RP eq_refl) as (rest & k & cc & -> & _). split; [apply vec_elements_ok|reflexivity].
Qed.

(** No two threads are at an access to the vector, and a thread that waits can still finish. *)
Theorem C229_no_race :
  forall (A : Type) (m : mode) (moved : A -> A) (mem : memory) (fuel : nat) (moves : list (move (gop A))) c h,
    mem <> NoMemory -> 2 <= fuel ->
    run (guarded_code m moved mem fuel) (quiet vec_new) [] moves = Ok (c, h) ->
    (forall t u, accessing c t -> accessing c u -> t = u)
    /\ forall t p, c_threads c t = Some p ->
       exists later c' h' r, run (guarded_code m moved mem fuel) c h later = Ok (c', h')
         /\ In (Res t r) (skipn (length h) h').
Proof.
  intros A m moved mem fuel moves c h Hm Hf E.
  destruct (run_shared m moved mem fuel Hm Hf moves) as (c2 & h2 & E2 & G).
  rewrite E in E2. injection E2 as <- <-. pose proof (sequential_vector m moved mem fuel Hm Hf) as SEQ. split.
  - intros t u At Au. eapply good_inside; [exact SEQ|exact G| |]; apply accessing_inside; assumption.
  - intros t p Et. destruct (good_can_finish _ _ _ _ _ _ _ _ _ SEQ c h t p G Et) as (mv & c' & h' & r & E' & _ & I').
    exists mv, c', h', r. auto.
Qed.

(** Threads 1 and 2 push step by step, thread 3 takes the first and thread 4 the last element. *)
Example C229_case :
  match run (guarded_code Tracked (fun x => x) Fresh 2) (quiet vec_new) []
    ([Call 1 (GPush 5); Call 2 (GPush 6); Tick 2; Tick 1; Tick 2; Tick 1; Tick 2; Tick 2]
     ++ repeat (Tick 1) 4 ++ [Call 3 GTakeFirst; Call 4 GTakeLast; Tick 3; Tick 4; Tick 3; Tick 3; Tick 3; Tick 4; Tick 3]
     ++ repeat (Tick 4) 6 ++ repeat (Tick 3) 2 ++ [Call 1 GCount] ++ repeat (Tick 1) 4) with
  | Ok (c, h) => (h, vec_elements (c_mem c))
  | _ => ([], UB)
  end
  = ([Inv 1 (GPush 5); Inv 2 (GPush 6); Res 2 GDone; Res 1 GDone; Inv 3 GTakeFirst; Inv 4 GTakeLast;
      Res 4 (GElement 5); Res 3 (GElement 6); Inv 1 GCount; Res 1 (GSize 0)], Ok []).
Proof. vm_compute. reflexivity. Qed.

(** With the test in one scope and the taking in another, two threads that find one element both try to
    take it, and the second reads what is not there: the single scope is needed. *)
Example C229_two_scopes :
  run (two_scopes_code Tracked (fun x => x) Fresh 2) (quiet vec_new) []
    ([Call 1 (GPush 5)] ++ repeat (Tick 1) 4 ++ [Call 2 GTakeLast; Call 3 GTakeLast]
     ++ repeat (Tick 2) 3 ++ repeat (Tick 3) 3 ++ repeat (Tick 2) 5 ++ repeat (Tick 3) 5)
  = UB.
Proof. vm_compute. reflexivity. Qed.

Print Assumptions C229_linearizable.
Print Assumptions C229_no_race.
