(** C175 - C177: theorems about the test framework. *)
From Coq Require Import List Arith Lia Bool.
From Verif Require Import TestRunModel.
Import ListNotations.

(** A test passes in its n-th run if all conditions of all its cases hold. *)
Definition case_holds (c : test_case) : Prop := Forall (eq true) (fst c) /\ snd c = true.
Definition passes (t : test) (n : nat) : Prop := Forall case_holds (t n).

Lemma case_ok c : do_test_case c = SUCCESS <-> case_holds c.
Proof.
  destruct c as [l b]. unfold do_test_case, case_holds. cbn [fst snd].
  induction l as [|x l IH]; cbn [case_function].
  - destruct b; split; try discriminate; auto. intros [_ H]. discriminate.
  - destruct x; cbn [negb].
    + rewrite IH. split; intros [A B]; split; auto. inversion A; auto.
    + split; [discriminate|]. intros [A _]. inversion A; discriminate.
Qed.
Lemma test_ok l : (test_start l = 0 <-> Forall case_holds l) /\ (test_start l = 0 \/ test_start l = 1).
Proof.
  induction l as [|c l [IH J]]; cbn [test_start]; [split; auto; split; auto|].
  destruct (do_test_case c) eqn:E.
  - apply case_ok in E. split; [|exact J]. rewrite IH. split; intros H; [auto|inversion H; auto].
  - split; [|auto]. split; [discriminate|]. intros H. inversion H as [|x y A B]; subst.
    apply case_ok in A. congruence.
Qed.

Lemma count_spec n tests : forall more,
  let (failed, success) := count_tests tests (map (fun t => test_start (t n)) tests ++ more) in
  failed + success = length tests /\ (failed = 0 <-> Forall (fun t => passes t n) tests).
Proof.
  induction tests as [|t tests IH]; intros more; cbn [count_tests map app length]; [split; [lia|split; auto]|].
  specialize (IH more). destruct (count_tests tests _) as [failed success]. destruct IH as [A B].
  destruct (test_ok (t n)) as [T _]. destruct (test_start (t n)) as [|k].
  - split; [lia|]. rewrite B. split; intros H; [constructor; [apply T; reflexivity|exact H]|inversion H; auto].
  - split; [lia|]. split; [lia|]. intros H. inversion H as [|x y P Q]; subst. apply T in P. discriminate.
Qed.
Lemma push_all tests a : fold_left push_back_test tests a =
  AG (ag_tests a ++ tests) (ag_codes a) (ag_status a) (ag_runs a).
Proof.
  revert a. induction tests as [|t tests IH]; intros a; cbn [fold_left].
  - rewrite app_nil_r. destruct a; reflexivity.
  - rewrite IH. unfold push_back_test. cbn. rewrite <- app_assoc. reflexivity.
Qed.

(** * C175: the exit code of a test program *)

(** A test program ends with the code 0 if all conditions of all cases of all its tests hold,
    and with 1 otherwise. *)
Theorem C175_exit_code : forall tests,
  (tests_program tests = 0 <-> Forall (fun t => passes t 0) tests) /\
  (tests_program tests = 0 \/ tests_program tests = 1).
Proof.
  intros tests. unfold tests_program. rewrite push_all. cbn [ag_tests ag_codes ag_status ag_runs new_aggregator app].
  unfold start. cbn [ag_tests ag_codes ag_status ag_runs app].
  assert (C := count_spec 0 tests []). rewrite app_nil_r in C.
  destruct (count_tests tests _) as [failed success]. destruct C as [_ C].
  destruct failed; cbn [exit_code]; (split; [|tauto]).
  - exact C.
  - split; [discriminate|]. intros H. apply C in H. discriminate.
Qed.
(** The statistic of the first run: the tests, those that passed, those that failed. *)
Theorem C175_statistic : forall tests,
  let '(a, s, r) := start (fold_left push_back_test tests new_aggregator) in
  st_tests s = length tests /\
  match st_failed s with Some (f, _) => f | None => 0 end + match st_success s with Some n => n | None => 0 end = length tests /\
  (st_failed s = None <-> Forall (fun t => passes t 0) tests).
Proof.
  intros tests. rewrite push_all. cbn [ag_tests ag_codes ag_status ag_runs new_aggregator app].
  unfold start. cbn [ag_tests ag_codes ag_status ag_runs app].
  assert (C := count_spec 0 tests []). rewrite app_nil_r in C.
  destruct (count_tests tests _) as [failed success]. destruct C as [A C]. cbn [st_tests st_failed st_success].
  split; [reflexivity|]. split.
  - destruct failed, success; cbn; lia.
  - destruct failed; [|split; [discriminate|intros H; apply C in H; discriminate]].
    split; [intros _; apply C; reflexivity|auto].
Qed.
Definition good : test := fun _ => [([true; true], true); ([], true)].
Definition bad : test := fun _ => [([true], true); ([true; false], true)].
Example C175_case : tests_program [good; bad; good] = 1 /\ tests_program [good; good] = 0 /\ ~ passes bad 0 /\ passes good 0.
Proof.
  split; [reflexivity|]. split; [reflexivity|]. split.
  - intros H. inversion H as [|x y A B]; subst. inversion B as [|u v [C _] D]; subst. inversion C as [|p q E F]; subst.
    inversion F. discriminate.
  - repeat constructor.
Qed.

(** * C176: equal containers *)

Theorem C176_compare : forall A (eqb : A -> A -> bool), (forall x y, eqb x y = true <-> x = y) ->
  forall l r, compare_containers eqb l r = SUCCESS <-> l = r.
Proof.
  intros A eqb E l. induction l as [|x l IH]; intros [|y r]; cbn [compare_containers];
    try (split; [auto; discriminate|discriminate || auto]).
  destruct (eqb x y) eqn:H; cbn [negb].
  - apply E in H. subst. rewrite IH. split; [congruence|intros K; injection K; auto].
  - split; [discriminate|]. intros K. injection K as -> ->. assert (eqb y y = true) by (apply E; reflexivity). congruence.
Qed.
Example C176_case : compare_containers Nat.eqb [1; 2; 3] [1; 2; 3] = SUCCESS /\ compare_containers Nat.eqb [1; 2] [1; 2; 3] = FAILED.
Proof. split; reflexivity. Qed.

(** * C177: running tests again, and all together *)

(** Runs of the same aggregator. *)
Fixpoint start_again (n : nat) (a : aggregator) : aggregator * result :=
  match n with
  | O => (a, ag_status a)
  | S n => let '(a, _, _) := start a in start_again n a
  end.

Lemma again_first tests n : forall k codes status,
  (exists more, codes = map (fun t => test_start (t 0)) tests ++ more) ->
  (status = FAILED <-> ~ Forall (fun t => passes t 0) tests) ->
  snd (start_again n (AG tests codes status k)) = status.
Proof.
  induction n as [|n IH]; intros k codes status [more ->] S; cbn [start_again]; [reflexivity|].
  unfold start. cbn [ag_tests ag_codes ag_status ag_runs]. rewrite <- app_assoc.
  assert (C := count_spec 0 tests (more ++ map (fun t => test_start (t k)) tests)).
  destruct (count_tests tests _) as [failed success]. destruct C as [_ C].
  assert (T : match failed with 0 => status | Datatypes.S _ => FAILED end = status).
  { destruct failed; [reflexivity|]. symmetry. apply S. intros H. apply C in H. discriminate. }
  rewrite T. apply IH; [|exact S]. eexists. reflexivity.
Qed.

(** As long as the tests do the same each time, the result of a repeated run is right. *)
Theorem C177_repeat_partial : forall tests n,
  (forall t, In t tests -> forall k, t k = t 0) ->
  let r := snd (start_again (S n) (fold_left push_back_test tests new_aggregator)) in
  r = SUCCESS <-> Forall (fun t => passes t n) tests.
Proof.
  intros tests n H. cbv zeta. rewrite push_all. cbn [ag_tests ag_codes ag_status ag_runs new_aggregator app].
  cbn [start_again]. unfold start at 1. cbn [ag_tests ag_codes ag_status ag_runs app].
  assert (C := count_spec 0 tests []). rewrite app_nil_r in C.
  destruct (count_tests tests _) as [failed success]. destruct C as [_ C].
  rewrite again_first.
  - assert (P : Forall (fun t => passes t n) tests <-> Forall (fun t => passes t 0) tests).
    { rewrite !Forall_forall. unfold passes. split; intros K t I; specialize (K t I); rewrite (H t I n) in *; exact K. }
    rewrite P, <- C. destruct failed; split; auto; discriminate.
  - exists []. rewrite app_nil_r. reflexivity.
  - rewrite <- C. destruct failed; split; try discriminate; auto. intros K. exfalso. apply K. reflexivity.
Qed.
Example C177_case : snd (start_again 3 (fold_left push_back_test [good; bad] new_aggregator)) = FAILED.
Proof. reflexivity. Qed.

(** In general it is the result of the first run, whatever happens later. *)
Theorem C177_first_run_refuted : forall tests n,
  snd (start_again (S n) (fold_left push_back_test tests new_aggregator)) = SUCCESS <->
  Forall (fun t => passes t 0) tests.
Proof.
  intros tests n. rewrite push_all. cbn [ag_tests ag_codes ag_status ag_runs new_aggregator app].
  cbn [start_again]. unfold start at 1. cbn [ag_tests ag_codes ag_status ag_runs app].
  assert (C := count_spec 0 tests []). rewrite app_nil_r in C.
  destruct (count_tests tests _) as [failed success]. destruct C as [_ C].
  rewrite again_first.
  - rewrite <- C. destruct failed; split; auto; discriminate.
  - exists []. rewrite app_nil_r. reflexivity.
  - rewrite <- C. destruct failed; split; try discriminate; auto. intros K. exfalso. apply K. reflexivity.
Qed.
Definition fails_later : test := fun k => match k with O => [] | S _ => [([], false)] end.
Example C177_first_run_case :
  ~ passes fails_later 1 /\ snd (start_again 2 (fold_left push_back_test [fails_later] new_aggregator)) = SUCCESS.
Proof. split; [|reflexivity]. intros H. inversion H as [|x y [_ A] B]; subst. discriminate. Qed.

(** The program for all tests ends with 0 even if all tests fail. *)
Theorem C177_all_refuted : forall directories, all_tests_program directories = 0.
Proof. reflexivity. Qed.
Example C177_all_case : all_tests_program [[bad]; [good; bad]] = 0 /\ tests_program [bad] = 1.
Proof. split; reflexivity. Qed.
(** The second number printed for the failed tests is that of the successful ones. *)
Theorem C177_printed_refuted : forall tests,
  let '(_, s, _) := start (fold_left push_back_test tests new_aggregator) in
  forall f n, st_failed s = Some (f, n) -> n = length tests - f.
Proof.
  intros tests. rewrite push_all. cbn [ag_tests ag_codes ag_status ag_runs new_aggregator app].
  unfold start. cbn [ag_tests ag_codes ag_status ag_runs app].
  assert (C := count_spec 0 tests []). rewrite app_nil_r in C.
  destruct (count_tests tests _) as [failed success]. destruct C as [A _]. cbn [st_failed].
  intros f n H. destruct failed; [discriminate|]. injection H as <- <-. lia.
Qed.

Print Assumptions C175_exit_code.
Print Assumptions C175_statistic.
Print Assumptions C176_compare.
Print Assumptions C177_repeat_partial.
Print Assumptions C177_first_run_refuted.
Print Assumptions C177_all_refuted.
Print Assumptions C177_printed_refuted.
