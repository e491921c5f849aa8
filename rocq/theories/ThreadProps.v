(** C91-C95: theorems about thread objects. [az], [le]: what the system does where POSIX leaves
    a choice (ThreadModel); the theorems hold for all four systems unless they say otherwise. *)
From Coq Require Import List Arith ZArith Lia Bool.
From Verif Require Import Base BaseLemmas ThreadModel ThreadSpec ThreadProofs.
Import ListNotations.

(** * C91: destroying a thread object waits for its thread and releases it once *)

(** For all histories of any number of thread objects in which a thread is started once per
    object, is handed over by assignment only to objects without a thread, is not joined or
    detached explicitly, and in which objects outlive the bodies that work on them: nothing
    undefined happens, a thread is released exactly when the object responsible for it is
    deleted, its body has ended by then, and when no object is left no thread is. Missing:
    join(), detach(), run() twice, run() that fails, and deleting an object whose body has not
    ended; all refuted below. *)
Theorem C91_lifetime_partial : forall az le errno h,
  all_proper duty_start h ->
  exists w rs, truns az le (t_start errno) h = Ok (w, rs) /\
    map (fun k => (k_object k, k_phase k)) (w_threads w) = d_bodies (duties duty_start h) /\
    (forall n k, nth_error (w_threads w) n = Some k ->
       (k_released k = false <-> exists v, d_objects (duties duty_start h) v = Some (Some n)) /\
       (k_released k = true -> k_phase k = Ended)) /\
    ((forall v, d_objects (duties duty_start h) v = None) ->
       Forall (fun k => k_released k = true /\ k_phase k = Ended) (w_threads w)).
Proof.
  intros az le errno h P.
  destruct (inv_run az le h _ _ (inv_start errno) P) as (w & rs & E & I).
  exists w, rs. split; [exact E|]. split; [exact (i_bodies _ _ I)|]. split.
  - intros n k EK. split; [split|].
    + exact (i_free _ _ I n k EK).
    + intros (v & H). destruct (i_held _ _ I v n H) as (k' & E' & R). congruence.
    + exact (i_done _ _ I n k EK).
  - intros NONE. apply Forall_forall. intros k IN. apply In_nth_error in IN as (n & EK).
    assert (R : k_released k = true).
    { destruct (k_released k) eqn:R; [reflexivity|].
      destruct (i_free _ _ I n k EK R) as (v & H). rewrite NONE in H. discriminate. }
    split; [exact R|exact (i_done _ _ I n k EK R)].
Qed.

(** Two threads, one handed from object 1 to object 3; object 3 is deleted while the body works
    on object 1. *)
Example C91_case :
  all_proper duty_start
    [TNew 1; TNew 2; TNew 3; TRun 1 0 0; TRun 2 0 0; KBegin 1; TMoveAssign 3 1; KBegin 0; TDelete 3;
     KEnd 1; TDelete 2; TDelete 1] /\
  d_bodies (duties duty_start
    [TNew 1; TNew 2; TNew 3; TRun 1 0 0; TRun 2 0 0; KBegin 1; TMoveAssign 3 1; KBegin 0; TDelete 3;
     KEnd 1; TDelete 2; TDelete 1]) = [(1, Ended); (2, Ended)].
Proof.
  split; [|reflexivity]. cbn. unfold quiet. cbn.
  repeat split; try congruence; intros ph H;
    repeat match goal with H : _ \/ _ |- _ => destruct H as [H|H] | H : False |- _ => destruct H end;
    congruence.
Qed.

(** After an explicit join() the destructor joins the same thread again, on every system and in
    every world. *)
Theorem C91_join_refuted : forall az le w v n k st,
  w_vars w v = Some (TObj (Some (TContext (Id n) AInit)) st) ->
  nth_error (w_threads w) n = Some k -> k_released k = false -> k_object k = v ->
  exists w', tstep az le w (TJoin v) = Ok (w', None) /\ tstep az le w' (TDelete v) = UB.
Proof.
  intros az le w v n k st EV EK R OB. cbn [tstep]. unfold get. rewrite EV. cbn [bind rd o_context].
  unfold do_join. cbn [c_id]. unfold thread_of. rewrite EK. cbn [bind]. rewrite R.
  assert (X : match k_phase k with
              | Ended => Ok tt
              | _ => let! _ := get w (k_object k) in Ok tt
              end = Ok tt) by (unfold get; rewrite OB, EV; destruct (k_phase k); reflexivity).
  rewrite X. cbn [bind]. eexists. split; [reflexivity|].
  cbn [put set_thread w_vars]. rewrite setv_eq. cbn [bind].
  destruct (in_use _ v); [reflexivity|].
  cbn [rd o_context bind is_initial c_id].
  unfold thread_of. cbn [w_threads put set_thread].
  rewrite nth_error_upd_eq by exact (nth_lt _ _ _ EK). cbn [bind k_released]. reflexivity.
Qed.

(** … for instance in the simplest program. *)
Theorem C91_run_join_refuted : forall az le errno v,
  truns az le (t_start errno) [TNew v; TRun v 0 0; TJoin v; TDelete v] = UB.
Proof.
  intros az le errno v. unfold t_start.
  repeat (cbn [truns tstep free w_vars bind fst snd put w_threads get do_run rd o_context is_initial c_id
       c_attr initializer attr_bytes_zero return_result Z.eqb o_status length app nth_error upd
       set_thread move_assign attr_destroy do_join thread_of k_released k_phase k_object in_use existsb
       andb orb setv];
    rewrite ?Nat.eqb_refl; unfold get, free, setv, thread_of, in_use, move_assign, do_join, do_detach_object, do_detach, set_thread, put).
  reflexivity.
Qed.

(** An object that is deleted before its body has ended. *)
Theorem C91_running_refuted : forall az le w v o n ph r,
  w_vars w v = Some o -> nth_error (w_threads w) n = Some (KThread v ph r) -> ph <> Ended ->
  tstep az le w (TDelete v) = UB.
Proof.
  intros az le w v o n ph r EV EK NE. cbn [tstep]. unfold get. rewrite EV. cbn [bind].
  assert (U : in_use w v = true).
  { unfold in_use. apply existsb_exists. exists (KThread v ph r).
    split; [exact (nth_error_In _ _ EK)|]. cbn. rewrite Nat.eqb_refl. destruct ph; [reflexivity|reflexivity|congruence]. }
  rewrite U. reflexivity.
Qed.

(** run() that fails leaves an object that cannot be deleted. *)
Theorem C91_failed_run_refuted : forall az le errno v e, e <> 0%Z ->
  truns az le (t_start errno) [TNew v; TRun v 0 e; TDelete v] = UB.
Proof.
  intros az le errno v e NE. apply Z.eqb_neq in NE.
  unfold t_start.
  repeat (cbn [truns tstep free w_vars bind fst snd put w_threads get do_run rd o_context is_initial c_id
       c_attr initializer attr_bytes_zero return_result Z.eqb o_status length app nth_error upd
       set_thread move_assign attr_destroy do_join thread_of k_released k_phase k_object in_use existsb
       andb orb setv];
    rewrite ?Nat.eqb_refl, ?NE; unfold get, free, setv, thread_of, in_use, move_assign, do_join, do_detach_object, do_detach, set_thread, put).
  reflexivity.
Qed.

(** run() twice: the first thread is never released. *)
Theorem C91_run_twice_refuted : forall az le errno v,
  exists w rs, truns az le (t_start errno)
      [TNew v; TRun v 0 0; TRun v 0 0; KBegin 0; KEnd 0; KBegin 1; KEnd 1; TDelete v] = Ok (w, rs) /\
    w_vars w v = None /\ w_threads w = [KThread v Ended false; KThread v Ended true].
Proof.
  intros az le errno v. unfold t_start.
  repeat (cbn [truns tstep free w_vars bind fst snd put w_threads get do_run rd o_context is_initial c_id
       c_attr initializer attr_bytes_zero return_result Z.eqb o_status length app nth_error upd
       set_thread move_assign attr_destroy do_join thread_of k_released k_phase k_object in_use existsb
       andb orb setv];
    rewrite ?Nat.eqb_refl; unfold get, free, setv, thread_of, in_use, move_assign, do_join, do_detach_object, do_detach, set_thread, put).
  do 2 eexists. split; [reflexivity|]. cbn [w_vars w_threads]. rewrite ?Nat.eqb_refl. split; reflexivity.
Qed.

(** * C92: moving a thread object hands its thread over *)

(** The move constructor assigns to an object whose context has no value yet, and assignment
    looks at it first. *)
Theorem C92_move_refuted : forall az le w v p, tstep az le w (TMove v p) = UB.
Proof.
  intros az le w v p. cbn [tstep]. unfold free. destruct (w_vars w v); [reflexivity|].
  cbn [bind]. unfold move_assign, get. cbn [put w_vars]. rewrite setv_eq. reflexivity.
Qed.

(** Assignment to an object that has a thread: that thread is neither joined nor detached, then
    or later, whatever is done with the objects in proper ways. *)
Theorem C92_assign_refuted : forall az le errno a b, a <> b ->
  exists w rs, truns az le (t_start errno)
      [TNew a; TNew b; TRun a 0 0; TRun b 0 0; KBegin 0; KBegin 1; KEnd 0; KEnd 1;
       TMoveAssign a b; TDelete a; TDelete b] = Ok (w, rs) /\
    w_vars w a = None /\ w_vars w b = None /\
    w_threads w = [KThread a Ended false; KThread b Ended true].
Proof.
  intros az le errno a b N. unfold t_start.
  assert (N2 : b <> a) by congruence.
  assert (F1 : (b =? a) = false) by (apply Nat.eqb_neq; exact N2).
  assert (F2 : (a =? b) = false) by (apply Nat.eqb_neq; exact N).
  repeat (cbn [truns tstep free w_vars bind fst snd put w_threads get do_run rd o_context is_initial c_id
       c_attr initializer attr_bytes_zero return_result Z.eqb o_status length app nth_error upd
       set_thread move_assign attr_destroy do_join thread_of k_released k_phase k_object in_use existsb
       andb orb setv];
    rewrite ?Nat.eqb_refl, ?F1, ?F2; unfold get, free, setv, thread_of, in_use, move_assign, do_join, do_detach_object, do_detach, set_thread, put).
  do 2 eexists. split; [reflexivity|]. cbn [w_vars w_threads].
  rewrite ?Nat.eqb_refl, ?F1, ?F2. auto.
Qed.

(** … and assignment to itself loses the thread as well. *)
Theorem C92_self_assign_refuted : forall az le errno a,
  exists w rs, truns az le (t_start errno)
      [TNew a; TRun a 0 0; KBegin 0; KEnd 0; TMoveAssign a a; TDelete a] = Ok (w, rs) /\
    w_vars w a = None /\ w_threads w = [KThread a Ended false].
Proof.
  intros az le errno a. unfold t_start.
  repeat (cbn [truns tstep free w_vars bind fst snd put w_threads get do_run rd o_context is_initial c_id
       c_attr initializer attr_bytes_zero return_result Z.eqb o_status length app nth_error upd
       set_thread move_assign attr_destroy do_join thread_of k_released k_phase k_object in_use existsb
       andb orb setv];
    rewrite ?Nat.eqb_refl; unfold get, free, setv, thread_of, in_use, move_assign, do_join, do_detach_object, do_detach, set_thread, put).
  do 2 eexists. split; [reflexivity|]. cbn [w_vars w_threads].
  rewrite ?Nat.eqb_refl. auto.
Qed.

(** Assignment to an object without a thread hands over the responsibility; the body goes on
    working on the old object. (That the objects can then be used and deleted is part of
    C91_lifetime_partial.) *)
Theorem C92_assign_partial : forall az le w v p n k st,
  v <> p ->
  w_vars w v = Some (TObj (Some initializer) 0) ->
  w_vars w p = Some (TObj (Some (TContext (Id n) AInit)) st) ->
  nth_error (w_threads w) n = Some k ->
  exists w', tstep az le w (TMoveAssign v p) = Ok (w', None) /\
    w_vars w' v = Some (TObj (Some (TContext (Id n) AInit)) st) /\
    w_vars w' p = Some (TObj (Some initializer) 0) /\
    w_threads w' = w_threads w.
Proof.
  intros az le w v p n k st N EV EP EK. cbn [tstep]. unfold move_assign, get. rewrite EV.
  cbn [bind rd o_context is_initial c_id c_attr initializer attr_bytes_zero]. rewrite EP.
  cbn [bind rd o_context]. eexists. split; [reflexivity|]. cbn [put w_vars w_threads].
  rewrite setv_eq, setv_neq, setv_eq by exact N. auto.
Qed.

(** * C93: detach *)

(** On a system where initialised attributes are not all zero bytes and attributes must be
    initialised to be destroyed (as POSIX asks), detach() is undefined. *)
Theorem C93_detach_refuted : forall w v n k st,
  w_vars w v = Some (TObj (Some (TContext (Id n) AInit)) st) ->
  nth_error (w_threads w) n = Some k ->
  tstep false false w (TDetach v) = UB.
Proof.
  intros w v n k st EV EK. cbn [tstep]. unfold get. rewrite EV. cbn [bind].
  unfold do_detach_object. cbn [rd o_context bind]. unfold do_detach. cbn [c_id].
  unfold thread_of. rewrite EK. cbn [bind]. destruct (k_released k); [reflexivity|].
  cbn [bind attr_bytes_zero c_attr attr_destroy initializer]. reflexivity.
Qed.

(** On the other systems the thread is released and goes on by itself, and the object is as
    new. *)
Theorem C93_detach_partial : forall az le w v n k st,
  az = true \/ le = true ->
  w_vars w v = Some (TObj (Some (TContext (Id n) AInit)) st) ->
  nth_error (w_threads w) n = Some k -> k_released k = false ->
  exists w', tstep az le w (TDetach v) = Ok (w', None) /\
    w_vars w' v = Some (TObj (Some initializer) 0) /\
    nth_error (w_threads w') n = Some (KThread (k_object k) (k_phase k) true).
Proof.
  intros az le w v n k st S EV EK R. cbn [tstep]. unfold get. rewrite EV. cbn [bind].
  unfold do_detach_object. cbn [rd o_context bind]. unfold do_detach. cbn [c_id].
  unfold thread_of. rewrite EK. cbn [bind]. rewrite R. cbn [bind attr_bytes_zero c_attr].
  destruct az; cbn [bind attr_destroy c_attr initializer].
  - eexists. split; [reflexivity|]. cbn [put set_thread w_vars w_threads].
    rewrite setv_eq, nth_error_upd_eq by exact (nth_lt _ _ _ EK). auto.
  - destruct S as [X|X]; [discriminate|]. rewrite X. cbn [bind]. eexists. split; [reflexivity|].
    cbn [put set_thread w_vars w_threads].
    rewrite setv_eq, nth_error_upd_eq by exact (nth_lt _ _ _ EK). auto.
Qed.

Example C93_case : exists w rs,
  truns false true (t_start 0) [TNew 4; TRun 4 0 0; KBegin 0; TDetach 4; KEnd 0; TDelete 4] = Ok (w, rs)
  /\ w_threads w = [KThread 4 Ended true].
Proof. do 2 eexists. split; vm_compute; reflexivity. Qed.

(** A detached thread keeps working on its object: the object must not be deleted before. *)
Theorem C93_delete_refuted : forall az le errno v,
  truns az le (t_start errno) [TNew v; TRun v 0 0; TDetach v; TDelete v] = UB.
Proof.
  intros az le errno v. unfold t_start.
  repeat (cbn [truns tstep free w_vars bind fst snd put w_threads get do_run rd o_context is_initial c_id
       c_attr initializer attr_bytes_zero return_result Z.eqb o_status length app nth_error upd
       set_thread do_detach do_detach_object attr_destroy do_join thread_of k_released k_phase k_object
       in_use existsb andb orb setv];
    rewrite ?Nat.eqb_refl; unfold get, free, setv, thread_of, in_use, move_assign, do_join, do_detach_object, do_detach, set_thread, put).
  destruct az, le; cbn; rewrite ?Nat.eqb_refl; reflexivity.
Qed.

(** * C94: getStatus tells whether run() worked *)

(** The status is taken from errno, which the pthread functions do not set: a failure is
    reported exactly if errno happens not to be 0. *)
Theorem C94_status_partial : forall az le errno v r2, 
  exists w rs, truns az le (t_start errno) [TNew v; TRun v 0 r2; TGetStatus v] = Ok (w, rs) /\
    rs = [None; None; Some (if (r2 =? 0)%Z then 0%Z else (- errno)%Z)] /\
    (length (w_threads w) = if (r2 =? 0)%Z then 1 else 0).
Proof.
  intros az le errno v r2. unfold t_start.
  repeat (cbn [truns tstep free w_vars bind fst snd put w_threads get do_run rd o_context is_initial c_id
       c_attr initializer attr_bytes_zero Z.eqb o_status length app nth_error upd setv w_errno];
    rewrite ?Nat.eqb_refl; unfold get, free, setv, thread_of, return_result).
  destruct (r2 =? 0)%Z; cbn; unfold setv; rewrite ?Nat.eqb_refl; do 2 eexists; (split; [reflexivity|]);
    split; reflexivity.
Qed.

Theorem C94_status_refuted : forall az le v e, e <> 0%Z ->
  exists w, truns az le (t_start 0) [TNew v; TRun v 0 e; TGetStatus v] = Ok (w, [None; None; Some 0%Z]) /\
    w_threads w = [].
Proof.
  intros az le v e NE. destruct (C94_status_partial az le 0 v e) as (w & rs & E & -> & L).
  apply Z.eqb_neq in NE. rewrite NE in *. exists w. split; [exact E|]. destruct (w_threads w); [reflexivity|discriminate].
Qed.

(** If the attributes cannot be initialised and errno is 0, they are used all the same. *)
Theorem C94_attributes_refuted : forall az le v e r2, e <> 0%Z ->
  truns az le (t_start 0) [TNew v; TRun v e r2] = UB.
Proof.
  intros az le v e r2 NE. apply Z.eqb_neq in NE. unfold t_start.
  repeat (cbn [truns tstep free w_vars bind fst snd put w_threads get do_run rd o_context is_initial c_id
       c_attr initializer attr_bytes_zero Z.eqb o_status length app nth_error upd setv w_errno Z.opp];
    rewrite ?Nat.eqb_refl, ?NE; unfold get, free, setv, thread_of, return_result).
  reflexivity.
Qed.

(** * C95: isWorking tells whether the body runs *)

Theorem C95_working_partial : forall az le w v n k st r,
  w_vars w v = Some (TObj (Some (TContext (Id n) AInit)) st) ->
  nth_error (w_threads w) n = Some k -> k_phase k <> Ended ->
  tstep az le w (TIsWorking v r) = Ok (w, Some 1%Z).
Proof.
  intros az le w v n k st r EV EK NE. cbn [tstep]. unfold get. rewrite EV.
  cbn [bind rd o_context c_id]. unfold thread_of. rewrite EK. cbn [bind].
  destruct (k_phase k); congruence.
Qed.

(** For a body that has ended the answer is what the system says (0 with glibc from 2.34 on,
    reported as "working"); for an object that was not started, or was joined, it is
    undefined. *)
Theorem C95_refuted : forall az le errno v r,
  truns az le (t_start errno) [TNew v; TIsWorking v r] = UB /\
  truns az le (t_start errno) [TNew v; TRun v 0 0; TJoin v; TIsWorking v r] = UB /\
  exists w, truns az le (t_start errno) [TNew v; TRun v 0 0; KBegin 0; KEnd 0; TIsWorking v 0]
            = Ok (w, [None; None; None; None; Some 1%Z]).
Proof.
  intros az le errno v r. unfold t_start.
  repeat (cbn [truns tstep free w_vars bind fst snd put w_threads get do_run rd o_context is_initial c_id
       c_attr initializer attr_bytes_zero return_result Z.eqb o_status length app nth_error upd
       set_thread do_join thread_of k_released k_phase k_object setv];
    rewrite ?Nat.eqb_refl; unfold get, free, setv, thread_of).
  split; [reflexivity|]. split; [reflexivity|]. eexists. reflexivity.
Qed.

Print Assumptions C91_lifetime_partial.
Print Assumptions C91_join_refuted.
Print Assumptions C91_run_join_refuted.
Print Assumptions C91_running_refuted.
Print Assumptions C91_failed_run_refuted.
Print Assumptions C91_run_twice_refuted.
Print Assumptions C92_move_refuted.
Print Assumptions C92_assign_refuted.
Print Assumptions C92_self_assign_refuted.
Print Assumptions C92_assign_partial.
Print Assumptions C93_detach_refuted.
Print Assumptions C93_detach_partial.
Print Assumptions C93_delete_refuted.
Print Assumptions C94_status_partial.
Print Assumptions C94_status_refuted.
Print Assumptions C94_attributes_refuted.
Print Assumptions C95_working_partial.
Print Assumptions C95_refuted.
