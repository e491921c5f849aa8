(** Properties of the start and the end of the event catcher on Windows: C140. *)
From Coq Require Import List Arith Bool Lia.
From Verif Require Import WinCatcherModel WinCatcherSpec.
Import ListNotations.

Lemma run_app a l1 : forall c l2, catcher_run a c (l1 ++ l2) = catcher_run a (catcher_run a c l1) l2.
Proof. intros. unfold catcher_run. apply fold_left_app. Qed.

(** Induction over the states of a run. *)
Lemma run_inv a (P : catcher -> Prop) : (forall c t, P c -> P (catcher_step a c t)) ->
  forall l c, P c -> P (catcher_run a c l).
Proof.
  intros ST l. induction l as [|t l IH]; intros c H; [exact H|]. cbn. apply IH, ST, H.
Qed.

Ltac cases c :=
  let o := fresh "o" in let d := fresh "d" in let s := fresh "s" in
  let w := fresh "w" in let i := fresh "i" in let n := fresh "n" in
  destruct c as [o d s w i n]; destruct o, d; cbn in *.

(** ** The constructor returns *)

Definition before_use (c : catcher) : Prop :=
  match c_owner c with
  | Run => c_dispatcher c = NotCreated /\ c_started c = false
  | Wait => match c_dispatcher c with NotCreated => False | Init => c_started c = false | _ => c_started c = true end
  | _ => True
  end.
Lemma before_use_run a l : thread_ok a = true -> before_use (catcher_run a catcher_new l).
Proof.
  intros T. apply run_inv; [|cbn; auto]. intros c t H. destruct c as [o d s w i n]. unfold before_use in *.
  destruct t, o, d, s, w, i as [|[|] i]; cbn in *; rewrite ?T; cbn; auto; intuition discriminate.
Qed.

(** If the thread can be created, the constructor returns as soon as the dispatching thread has
    had a turn, whatever happens in between. *)
Theorem C140_start_partial a l1 l2 l3 : thread_ok a = true ->
  constructed (catcher_run a catcher_new (l1 ++ [Owner] ++ l2 ++ [Dispatcher] ++ l3 ++ [Owner])).
Proof.
  intros T.
  (* after the first turn of the owner it is past Run *)
  set (Q := fun c => c_owner c <> Run /\ before_use c).
  assert (QS : forall c t, Q c -> Q (catcher_step a c t)).
  { intros c t [H1 H2]. destruct c as [o d s w i n]. unfold Q, before_use in *.
    destruct t, o, d, s, w, i as [|[|] i]; cbn in *; split; auto; congruence. }
  set (Z := fun c => c_owner c <> Run /\ (c_owner c = Wait -> c_started c = true)).
  assert (ZS : forall c t, Z c -> Z (catcher_step a c t)).
  { intros c t [H1 H2]. destruct c as [o d s w i n]. unfold Z in *.
    destruct t, o, d, s, w, i as [|[|] i]; cbn in *; split; intros; auto; congruence. }
  assert (A1 : Q (catcher_run a catcher_new (l1 ++ [Owner]))).
  { rewrite run_app. pose proof (before_use_run a l1 T) as B.
    pose proof (before_use_run a (l1 ++ [Owner]) T) as B'. rewrite run_app in B'.
    split; [|exact B']. set (c := catcher_run a catcher_new l1) in *. clearbody c.
    destruct c as [o d s w i n]. destruct o; cbn in *; try congruence;
      repeat match goal with |- context [match ?x with _ => _ end] => destruct x end; cbn; congruence. }
  rewrite app_assoc, run_app. set (c1 := catcher_run a catcher_new (l1 ++ [Owner])) in *. clearbody c1.
  rewrite run_app. pose proof (run_inv a Q QS l2 c1 A1) as A2.
  set (c2 := catcher_run a c1 l2) in *. clearbody c2.
  rewrite run_app.
  assert (A3 : Z (catcher_run a c2 [Dispatcher])).
  { destruct A2 as [H1 H2]. destruct c2 as [o d s w i n]. unfold Z, before_use in *. destruct o, d; cbn in *; try congruence; try contradiction;
      destruct i as [|[|] ?]; cbn; split; intros; congruence. }
  set (c3 := catcher_run a c2 [Dispatcher]) in *. clearbody c3.
  rewrite run_app. pose proof (run_inv a Z ZS l3 c3 A3) as A4.
  set (c4 := catcher_run a c3 l3) in *. clearbody c4.
  destruct A4 as [H1 H2]. destruct c4 as [o d s w i n]. unfold constructed. destruct o; cbn in *; try congruence; auto.
  - rewrite H2 by reflexivity. exact I.
  - destruct w; exact I.
  - destruct d; exact I.
  - destruct d; exact I.
Qed.

(** If the thread cannot be created, the constructor never returns. *)
Theorem C140_no_thread_refuted a l : thread_ok a = false -> ~ constructed (catcher_run a catcher_new l).
Proof.
  intros T.
  assert (H : (fun c => (c_owner c = Run \/ c_owner c = Wait) /\ c_dispatcher c = NotCreated /\ c_started c = false)
                (catcher_run a catcher_new l)).
  { apply (run_inv a (fun c => (c_owner c = Run \/ c_owner c = Wait) /\ c_dispatcher c = NotCreated /\ c_started c = false)); [|cbn; auto].
    intros c t (O & D & S'). destruct c as [o d s w i n]. cbn in *. subst d s.
    destruct O as [-> | ->]; destruct t; cbn; rewrite ?T; auto. }
  cbn in H. destruct H as ([E|E] & _ & _); unfold constructed; rewrite E; auto.
Qed.

(** ** The destructor returns *)

Fixpoint finish_at (l : list message) : nat :=
  match l with
  | SocketMessage :: l => S (finish_at l)
  | _ => 0
  end.
Lemma finish_at_le l : finish_at l <= length l.
Proof. induction l as [|[|] l IH]; cbn; lia. Qed.
Lemma finish_at_app l m : In Finish l -> finish_at (l ++ m) = finish_at l.
Proof.
  induction l as [|[|] l IH]; intros H; [contradiction| |reflexivity].
  cbn. f_equal. apply IH. destruct H as [H|H]; [discriminate|exact H].
Qed.

(** The states from the call of the destructor on. *)
Definition ready (c : catcher) : Prop :=
  match c_owner c with
  | Run => c_dispatcher c = NotCreated /\ c_started c = false
  | Wait => match c_dispatcher c with NotCreated => False | Init => c_started c = false
            | _ => c_window c = true /\ c_started c = true end
  | InUse | Stop =>
      match c_dispatcher c with NotCreated | Init => False | _ => c_window c = true /\ c_started c = true end
  | Join =>
      match c_dispatcher c with
      | NotCreated | Init => False
      | Loop => In Finish (c_inbox c)
      | _ => True
      end
  | Member | Deleted => c_dispatcher c = Ended
  end.
Lemma ready_step a c t : thread_ok a = true -> window_ok a = true -> post_ok a = true ->
  ready c -> ready (catcher_step a c t).
Proof.
  intros T W P H. destruct c as [o d s w i n]. unfold ready in *.
  assert (A : forall m, In Finish i -> In Finish (i ++ m)) by (intros; apply in_or_app; auto).
  assert (B : In Finish (i ++ [Finish])) by (apply in_or_app; right; left; reflexivity).
  destruct t, o, d, s, w; cbn in *; rewrite ?T, ?W, ?P; cbn; auto;
    try (destruct i as [|[|] i]; cbn in *; intuition discriminate);
    intuition discriminate.
Qed.
Lemma ready_run a l : thread_ok a = true -> window_ok a = true -> post_ok a = true ->
  ready (catcher_run a catcher_new l).
Proof. intros T W P. apply run_inv; [|cbn; auto]. intros. apply ready_step; auto. Qed.

(** How many rounds are missing, once FINISH is posted. *)
Definition posted (c : catcher) : Prop :=
  match c_owner c with Join | Member | Deleted => True | _ => False end.
Definition missing (c : catcher) : nat :=
  match c_owner c with
  | Deleted => 0
  | Member => 1
  | _ => match c_dispatcher c with
         | Ended => 2
         | Destroy => 3
         | _ => 4 + finish_at (c_inbox c)
         end
  end.
Lemma posted_step a c t : posted c -> posted (catcher_step a c t).
Proof.
  intros H. destruct c as [o d s w i n]. unfold posted in *. destruct t, o, d; cbn in *; auto;
    try contradiction; try (destruct i as [|[|] ?]; cbn; auto; fail); destruct w; cbn; auto.
Qed.
Lemma missing_step a c t : thread_ok a = true -> window_ok a = true -> post_ok a = true ->
  ready c -> posted c -> missing (catcher_step a c t) <= missing c.
Proof.
  intros T W P R H. destruct c as [o d s w i n]. unfold posted, ready, missing in *.
  destruct t, o, d; cbn in *; try contradiction; try discriminate; try lia.
  - destruct i as [|[|] i]; cbn; lia.
  - destruct w; cbn; [|lia]. rewrite finish_at_app by exact R. lia.
Qed.
(** The turn that is needed brings it forward. *)
Lemma missing_dispatcher a c : ready c -> posted c -> 3 <= missing c ->
  missing (catcher_step a c Dispatcher) < missing c.
Proof.
  intros R H L. destruct c as [o d s w i n]. unfold posted, ready, missing in *.
  destruct o, d; cbn in *; try contradiction; try discriminate; try lia.
  destruct i as [|[|] i]; cbn; try contradiction; lia.
Qed.
Lemma missing_owner a c : ready c -> posted c -> 1 <= missing c <= 2 ->
  missing (catcher_step a c Owner) < missing c.
Proof.
  intros R H L. destruct c as [o d s w i n]. unfold posted, ready, missing in *.
  destruct o, d; cbn in *; try contradiction; try discriminate; try lia.
Qed.

Section Good.
  Variable a : answers.
  Hypothesis T : thread_ok a = true.
  Hypothesis W : window_ok a = true.
  Hypothesis P : post_ok a = true.

  Lemma keep_run l : forall c, ready c -> posted c ->
    ready (catcher_run a c l) /\ posted (catcher_run a c l) /\ missing (catcher_run a c l) <= missing c.
  Proof.
    induction l as [|t l IH]; intros c R H; cbn; [auto|].
    destruct (IH (catcher_step a c t)) as (R' & H' & L).
    - apply ready_step; auto.
    - apply posted_step; auto.
    - split; [exact R'|]. split; [exact H'|]. pose proof (missing_step a c t T W P R H). unfold catcher_run in L. lia.
  Qed.
  Lemma round_run part : forall c, ready c -> posted c -> In Owner part -> In Dispatcher part ->
    missing (catcher_run a c part) <= missing c - 1.
  Proof.
    assert (GEN : forall c, ready c -> posted c -> missing c <> 0 ->
      (3 <= missing c -> In Dispatcher part) -> (missing c <= 2 -> In Owner part) ->
      missing (catcher_run a c part) < missing c).
    { induction part as [|t part IH]; intros c R H N D O.
      - destruct (Nat.le_gt_cases 3 (missing c)) as [L|L]; [destruct (D L)|destruct (O ltac:(lia))].
      - cbn. pose proof (missing_step a c t T W P R H) as M.
        destruct (keep_run part (catcher_step a c t)) as (_ & _ & K);
          [apply ready_step; auto|apply posted_step; auto|]. unfold catcher_run in K.
        destruct (Nat.eq_dec (missing (catcher_step a c t)) (missing c)) as [E|E]; [|lia].
        rewrite <- E. apply IH; rewrite ?E; auto; [apply ready_step; auto|apply posted_step; auto| |].
        + intros L. destruct (D L) as [X|X]; [subst t|exact X].
          pose proof (missing_dispatcher a c R H L). lia.
        + intros L. destruct (O L) as [X|X]; [subst t|exact X].
          assert (missing c <> 0) by exact N.
          pose proof (missing_owner a c R H ltac:(lia)). lia. }
    intros c R H IO ID. destruct (Nat.eq_dec (missing c) 0) as [E|E].
    - destruct (keep_run part c R H) as (_ & _ & L). lia.
    - pose proof (GEN c R H E (fun _ => ID) (fun _ => IO)). lia.
  Qed.
  Lemma rounds_run n l : rounds n l -> forall c, ready c -> posted c ->
    posted (catcher_run a c l) /\ missing (catcher_run a c l) <= missing c - n.
  Proof.
    induction 1 as [l|n part rest O D H IH]; intros c R Q.
    - destruct (keep_run l c R Q) as (_ & X & Y). split; [exact X|lia].
    - rewrite run_app. destruct (keep_run part c R Q) as (R1 & Q1 & _).
      destruct (IH _ R1 Q1) as (A & B). split; [exact A|].
      pose proof (round_run part c R Q O D). lia.
  Qed.
  Lemma missing_bound c : posted c -> missing c <= length (c_inbox c) + 4.
  Proof.
    intros H. destruct c as [o d s w i n]. unfold missing, posted in *. pose proof (finish_at_le i).
    destruct o, d; cbn in *; try contradiction; lia.
  Qed.
  Lemma no_missing c : posted c -> missing c = 0 -> deleted c.
  Proof.
    intros H E. destruct c as [o d s w i n]. unfold missing, posted, deleted in *.
    destruct o, d; cbn in *; try contradiction; try discriminate; reflexivity.
  Qed.

  Lemma two_turns l : forall c, ready c ->
    (in_use c -> owner_turns l = 2 -> posted (catcher_run a c l))
    /\ (c_owner c = Stop -> owner_turns l = 1 -> posted (catcher_run a c l)).
  Proof.
    induction l as [|t l IH]; intros c R; [split; discriminate|].
    pose proof (ready_step a c t T W P R) as R'. destruct (IH _ R') as [I1 I2].
    split; intros U; cbn [catcher_run fold_left]; destruct t; cbn [owner_turns]; intros C;
      change (fold_left (catcher_step a) l) with (fun c => catcher_run a c l); cbv beta.
    - apply I2; [|lia]. destruct c as [o d s w i n]. unfold in_use in U. cbn in U. subst o.
      unfold ready in R. cbn in *. destruct d; try contradiction; destruct R as [-> _]; reflexivity.
    - apply I1; [|lia]. destruct c as [o d s w i n]. unfold in_use in *. cbn in *. subst o.
      destruct d; cbn; auto. destruct i as [|[|] ?]; reflexivity.
    - apply I1; [|lia]. destruct c as [o d s w i n]. unfold in_use in *. cbn in *. subst o.
      destruct d; cbn; auto.
    - apply I1; [|lia]. destruct c as [o d s w i n]. unfold in_use in *. cbn in *. subst o.
      destruct d; cbn; auto. destruct w; reflexivity.
    - apply keep_run; [exact R'|]. destruct c as [o d s w i n]. cbn in *. subst o. exact I.
    - apply I2; [|lia]. destruct c as [o d s w i n]. cbn in *. subst o.
      destruct d; cbn; auto. destruct i as [|[|] ?]; reflexivity.
    - apply I2; [|lia]. destruct c as [o d s w i n]. cbn in *. subst o.
      destruct d; cbn; auto.
    - apply I2; [|lia]. destruct c as [o d s w i n]. cbn in *. subst o.
      destruct d; cbn; auto. destruct w; reflexivity.
  Qed.
End Good.

(** If the window was made and FINISH can be posted, then once the destructor has begun and had
    two turns, it returns after as many rounds as messages are waiting, and four; messages that
    arrive meanwhile do not delay it. *)
Theorem C140_stop_partial a l1 l2 l3 :
  thread_ok a = true -> window_ok a = true -> post_ok a = true ->
  in_use (catcher_run a catcher_new l1) -> owner_turns l2 = 2 ->
  rounds (length (c_inbox (catcher_run a catcher_new (l1 ++ l2))) + 4) l3 ->
  deleted (catcher_run a catcher_new (l1 ++ l2 ++ l3)) /\ no_thread (catcher_run a catcher_new (l1 ++ l2 ++ l3)).
Proof.
  intros T W P U C R. rewrite app_assoc, run_app.
  pose proof (ready_run a l1 T W P) as R1. pose proof (ready_run a (l1 ++ l2) T W P) as R2.
  pose proof (proj1 (two_turns a T W P l2 _ R1) U C) as Q. rewrite <- run_app in Q.
  set (c := catcher_run a catcher_new (l1 ++ l2)) in *.
  destruct (rounds_run a T W P _ _ R c R2 Q) as (Q' & M).
  pose proof (missing_bound c Q).
  assert (D : deleted (catcher_run a c l3)) by (apply no_missing; [exact Q'|lia]).
  split; [exact D|].
  destruct (keep_run a T W P l3 c R2 Q) as (R3 & _ & _). unfold deleted in D. unfold ready in R3.
  rewrite D in R3. unfold no_thread. rewrite R3. exact I.
Qed.

(** Whatever the system answers, a thread never outlives the object. *)
Theorem C140_no_thread_left_partial a l : deleted (catcher_run a catcher_new l) ->
  no_thread (catcher_run a catcher_new l).
Proof.
  assert (H : (fun c => deleted c -> no_thread c) (catcher_run a catcher_new l)).
  { apply (run_inv a (fun c => deleted c -> no_thread c)); [|unfold deleted; cbn; discriminate].
    intros c t H. destruct c as [o d s w i n]. unfold deleted, no_thread in *.
    destruct t, o, d; cbn in *; intros; auto; try discriminate; try (apply H; reflexivity);
      repeat match goal with H : context [match ?x with _ => _ end] |- _ => destruct x; cbn in * end; auto; discriminate. }
  exact H.
Qed.

(** If the window cannot be made, the object can be used, but the destructor never returns. *)
Theorem C140_no_window_refuted a : thread_ok a = true -> window_ok a = false ->
  in_use (catcher_run a catcher_new [Owner; Dispatcher; Owner])
  /\ forall l, ~ In GetMessageFails l -> ~ deleted (catcher_run a catcher_new l).
Proof.
  intros T W. split; [unfold in_use; cbn; rewrite T; reflexivity|].
  intros l N.
  set (Q := fun c => c_window c = false /\ c_inbox c = [] /\
     match c_owner c with
     | Run => c_dispatcher c = NotCreated /\ c_started c = false
     | Wait => c_dispatcher c = Init /\ c_started c = false \/ c_dispatcher c = Loop
     | InUse | Member => c_dispatcher c = Loop
     | _ => False
     end).
  assert (H : Q (catcher_run a catcher_new l)).
  { assert (GEN : forall c, Q c -> Q (catcher_run a c l)).
    { induction l as [|t l IH]; intros c H; [exact H|]. cbn. apply IH; [intros X; apply N; right; exact X|].
      assert (NT : t <> GetMessageFails) by (intros ->; apply N; left; reflexivity).
      destruct c as [o d s w i n]. unfold Q in *. cbn in *. destruct H as (-> & -> & H).
      destruct t; try congruence; destruct o; cbn in *; try contradiction;
        repeat match goal with
        | H : _ \/ _ |- _ => destruct H
        | H : _ /\ _ |- _ => destruct H
        end; subst; cbn; rewrite ?T, ?W; cbn; auto.
      destruct s; cbn; auto. }
    apply GEN. unfold Q. cbn. auto. }
  unfold deleted. destruct H as (_ & _ & H). intros E. rewrite E in H. exact H.
Qed.

(** If FINISH cannot be posted (the queue of messages is full), the destructor never returns. *)
Theorem C140_post_refuted a l : post_ok a = false -> ~ In GetMessageFails l ->
  thread_ok a = true -> ~ deleted (catcher_run a catcher_new l).
Proof.
  intros P N T.
  set (Q := fun c => ~ In Finish (c_inbox c) /\
     match c_owner c with
     | Run => c_dispatcher c = NotCreated
     | Wait => c_dispatcher c = Init /\ c_started c = false \/ c_dispatcher c = Loop
     | InUse | Stop | Join | Member => c_dispatcher c = Loop
     | Deleted => False
     end /\ (c_owner c = Run -> c_started c = false)).
  assert (GEN : forall c, Q c -> Q (catcher_run a c l)).
  { induction l as [|t l IH]; intros c H; [exact H|]. cbn. apply IH; [intros X; apply N; right; exact X|].
    assert (NT : t <> GetMessageFails) by (intros ->; apply N; left; reflexivity).
    destruct c as [o d s w i n]. unfold Q in *. cbn in *. destruct H as (F & H & H0).
    assert (FA : ~ In Finish (i ++ [SocketMessage])).
    { intros X. apply in_app_or in X as [X|[X|[]]]; [auto|discriminate]. }
    assert (FT : ~ In Finish (tl i)).
    { intros X. apply F. destruct i; [exact X|right; exact X]. }
    destruct t; try congruence; destruct o; cbn in *; try contradiction;
      repeat match goal with
      | H : _ \/ _ |- _ => destruct H
      | H : _ /\ _ |- _ => destruct H
      end; subst; try (specialize (H0 eq_refl)); subst;
      try destruct s; try destruct w; try destruct i as [|[|] i]; cbn in *; rewrite ?T, ?P; cbn;
      intuition (try discriminate; auto). }
  assert (H : Q (catcher_run a catcher_new l)).
  { apply GEN. unfold Q. cbn. auto. }
  unfold deleted. destruct H as (_ & H & _). intros E. rewrite E in H. exact H.
Qed.

(** Cases. *)
Example C140_case_start :
  let a := Answers true true true in
  constructed (catcher_run a catcher_new [Owner; Owner; Owner; Dispatcher; Owner]).
Proof. exact I. Qed.
Example C140_case_stop :
  let a := Answers true true true in
  let l1 := [Owner; Dispatcher; Owner; Arrive; Arrive] in
  let l2 := [Owner; Arrive; Owner] in
  let round := [Owner; Arrive; Dispatcher] in
  in_use (catcher_run a catcher_new l1)
  /\ length (c_inbox (catcher_run a catcher_new (l1 ++ l2))) = 4
  /\ deleted (catcher_run a catcher_new (l1 ++ l2 ++ concat (repeat round 8)))
  /\ c_dispatched (catcher_run a catcher_new (l1 ++ l2 ++ concat (repeat round 8))) = 3.
Proof. repeat split. Qed.
Example C140_case_rounds : rounds 8 (concat (repeat [Owner; Arrive; Dispatcher] 8)).
Proof. cbn [repeat concat]. repeat (apply OneRound; [cbn; auto|cbn; auto|]). apply NoRound. Qed.

Print Assumptions C140_start_partial.
Print Assumptions C140_no_thread_refuted.
Print Assumptions C140_stop_partial.
Print Assumptions C140_no_thread_left_partial.
Print Assumptions C140_no_window_refuted.
Print Assumptions C140_post_refuted.
