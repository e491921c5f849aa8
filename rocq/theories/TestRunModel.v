(** The test framework of the project.

    Source: /repo/tests/Test.hpp, /repo/tests/main.cpp, the files main.cpp in the directories Tests of /repo/src. What is printed
    is modelled as far as it carries results: the lines of the statistic. *)
From Coq Require Import List Arith Bool.
Import ListNotations.

(** AbstractTest::ResultType, Test.hpp 75-79. *)
Inductive result := SUCCESS | FAILED.
(** As the exit code of a program. Test.hpp 75-79. *)
Definition exit_code (r : result) : nat := match r with SUCCESS => 0 | FAILED => 1 end.

(** The function of a test case: IN_CASE_CHECK, Test.hpp 36-41, for each condition but the last, and
    IN_CASE_CHECK_END, 43-52. The conditions are given as values; those after the first false one
    are not evaluated. *)
Fixpoint case_function (conditions : list bool) (last : bool) : result :=
  match conditions with
  | [] => if last then SUCCESS else FAILED
  | c :: conditions => if negb c then FAILED else case_function conditions last
  end.
(** A test case is a function; here: the conditions of IN_CASE_CHECK and the one of
    IN_CASE_CHECK_END, Test.hpp 36-49. *)
Definition test_case : Type := list bool * bool.
(** doTestCase, Test.hpp 114-143. *)
Definition do_test_case (c : test_case) : result := case_function (fst c) (snd c).
(** vStart of a test: CHECK_RESULT_SUCCESS, Test.hpp 18-23, for each case, and [return 0]. [true] is
    returned as 1. *)
Fixpoint test_start (cases : list test_case) : nat :=
  match cases with
  | [] => 0
  | c :: cases => match do_test_case c with FAILED => 1 | SUCCESS => test_start cases end
  end.

(** compareContainers, Test.hpp 151-177; [eqb]: the negation of the operator != of the elements. *)
Section Compare.
  Context {A : Type}.
  Variable eqb : A -> A -> bool.
  (** compareContainers, Test.hpp 151-177: the loop. *)
  Fixpoint compare_containers (l r : list A) : result :=
    match l, r with
    | x :: l, y :: r => if negb (eqb x y) then FAILED else compare_containers l r
    | _ :: _, [] => FAILED
    | [], _ :: _ => FAILED
    | [], [] => SUCCESS
    end.
End Compare.

(** TestAggregator, Test.hpp 234-434. A test may do something else each time it runs: its cases are given
    for each run. *)
Definition test : Type := nat -> list test_case.
(** TestAggregator, Test.hpp 234-434. *)
Record aggregator := AG {
  ag_tests : list test;       (* vectorTests *)
  ag_codes : list nat;        (* vectorReturnCodes *)
  ag_status : result;
  ag_runs : nat               (* how often the tests have run; not a member *)
}.
(** TestAggregator(name), Test.hpp 236-249. *)
Definition new_aggregator : aggregator := AG [] [] SUCCESS 0.
(** pushBackTest, Test.hpp 260-268. *)
Definition push_back_test (a : aggregator) (t : test) : aggregator :=
  AG (ag_tests a ++ [t]) (ag_codes a) (ag_status a) (ag_runs a).

(** The loop of vPrintStatistic, Test.hpp 330-343: the failed and the successful tests. *)
Fixpoint count_tests (tests : list test) (codes : list nat) : nat * nat :=
  match tests, codes with
  | _ :: tests, c :: codes =>
      let (failed, success) := count_tests tests codes in
      match c with
      | O => (failed, S success)
      | S _ => (S failed, success)
      end
  | _, _ => (0, 0)
  end.
(** The numbers that are printed: the number of tests, Test.hpp 344-349; if any were successful, their
    number, 350-364; if any failed, 365-381, the numbers after "tests: " in these lines. *)
Record statistic := Statistic { st_tests : nat; st_success : option nat; st_failed : option (nat * nat) }.
(** start(), Test.hpp 251-258: vStart, 282-291, vPrintStatistic, 323-382, getStatus, 276-279. *)
Definition start (a : aggregator) : aggregator * statistic * result :=
  let codes := ag_codes a ++ map (fun t => test_start (t (ag_runs a))) (ag_tests a) in
  let (failed, success) := count_tests (ag_tests a) codes in
  let status := match failed with O => ag_status a | S _ => FAILED end in
  (AG (ag_tests a) codes status (S (ag_runs a)),
   Statistic (length (ag_tests a))
             (match success with O => None | S _ => Some success end)
             (match failed with O => None | S _ => Some (failed, success) end),
   status).

(** The programs main.cpp in the directories Tests: an aggregator with the tests of the directory. *)
Definition tests_program (tests : list test) : nat :=
  let '(_, _, r) := start (fold_left push_back_test tests new_aggregator) in exit_code r.
(** tests/main.cpp 7-15: the aggregators of all directories. *)
Definition all_tests_program (directories : list (list test)) : nat :=
  let _ := map tests_program directories in 0.
