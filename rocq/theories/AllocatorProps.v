(** C121, C122: arrays and objects made by the allocators. *)
From Coq Require Import List Arith Bool ZArith Lia.
From Verif Require Import Base BaseLemmas AllocatorModel AllocatorSpec AllocatorProofs.
Import ListNotations.

Section Props.
  Context {A : Type}.
  Variable moved : A -> A.
  Variable type_size : nat.

  (** ** C121: what the user gets *)

  (** After every proper history of constructions and destructions (and whatever requests for
      memory fail) every variable of the user is null or points to a block that holds exactly
      the objects asked for, and two variables never share a block. *)
  Theorem C121_arrays_partial : forall h : list (acall A),
    1 <= type_size -> proper_history type_size [] h ->
    exists w, arun moved type_size a_start h = Ok w
      /\ length (h_vars w) = length (arrays_run h)
      /\ (forall v x, nth_error (arrays_run h) v = Some x -> points_to w v x)
      /\ (forall v v' b, nth_error (h_vars w) v = Some (Some b) ->
            nth_error (h_vars w) v' = Some (Some b) -> v = v').
  Proof.
    intros h S1 P. destruct (arun_ok moved type_size S1 h a_start [] ainv_start P) as (w & E & I).
    exists w. destruct I. auto.
  Qed.

  (** Refuted without "of a named object": several objects made of one temporary; every object
      after the first gets what the move before it left. *)
  Theorem C121_rvalue_refuted : forall (x : A) n,
    1 <= type_size -> representable type_size n -> 2 <= n -> moved x <> x ->
    exists w l, arun moved type_size a_start [AArray n (Rvalue x) true] = Ok w
      /\ points_to w 0 (Some l)
      /\ nth_error l 0 = Some x /\ nth_error l 1 = Some (moved x)
      /\ l <> repeat x n.
  Proof.
    intros x n S1 R N M. exists (AW [Some (map Some (passed moved (Rvalue x) n))] [Some 0] 0),
      (passed moved (Rvalue x) n).
    cbn [arun astep]. rewrite (array_construct_ok moved type_size S1 _ _ _ R).
    cbn [bind h_blocks h_vars h_lost a_start app length]. split; [reflexivity|].
    destruct n as [|[|n]]; [lia|lia|]. cbn [passed nth_error repeat].
    split; [exists 0; auto|]. split; [reflexivity|]. split; [reflexivity|]. congruence.
  Qed.

  (** Refuted without the bound on the size: the number of bytes wraps, the block is too small
      for the objects, and they are constructed behind its end. *)
  Theorem C121_overflow_refuted : forall (a : argument A) n h w,
    1 <= type_size -> ~ representable type_size n ->
    arun moved type_size a_start h = Ok w ->
    arun moved type_size a_start (h ++ [AArray n a true]) = UB.
  Proof.
    intros a n h w S1 R E. rewrite arun_app, E. cbn [bind arun astep].
    rewrite (array_construct_overflow moved type_size S1 _ _ _ R). reflexivity.
  Qed.

  (** ** C122: nothing is lost *)

  (** After every proper history as many blocks are allocated as variables are not null, and
      every object was destroyed before its memory was freed. *)
  Theorem C122_no_leak_partial : forall h : list (acall A),
    1 <= type_size -> proper_history type_size [] h ->
    exists w, arun moved type_size a_start h = Ok w
      /\ live_blocks w = not_null (arrays_run h)
      /\ h_lost w = 0.
  Proof.
    intros h S1 P. destruct (arun_ok moved type_size S1 h a_start [] ainv_start P) as (w & E & I).
    exists w. destruct I. auto.
  Qed.

  (** destroy with a count below the length: the rest of the objects is never destroyed. *)
  Theorem C122_count_small_refuted : forall (h : list (acall A)) v n l,
    1 <= type_size -> proper_history type_size [] h ->
    nth_error (arrays_run h) v = Some (Some l) -> n < length l ->
    exists w, arun moved type_size a_start (h ++ [AArrayDestroy v n]) = Ok w
      /\ h_lost w = length l - n /\ 0 < h_lost w.
  Proof.
    intros h v n l S1 P E N.
    destruct (arun_ok moved type_size S1 h a_start [] ainv_start P) as (w & R & I).
    rewrite arun_app, R. cbn [bind arun astep].
    destruct (I_points _ _ I _ _ E) as (b & E1 & E2). unfold read. rewrite E1. cbn [bind].
    rewrite (array_destroy_some type_size S1 w b l n E2) by lia. cbn [bind]. eexists.
    split; [reflexivity|]. cbn [h_lost]. rewrite (I_lost _ _ I). lia.
  Qed.

  (** destroy with a count above the length: a destructor runs behind the array. *)
  Theorem C122_count_large_refuted : forall (h : list (acall A)) v n l,
    1 <= type_size -> proper_history type_size [] h ->
    nth_error (arrays_run h) v = Some (Some l) -> length l < n ->
    arun moved type_size a_start (h ++ [AArrayDestroy v n]) = UB.
  Proof.
    intros h v n l S1 P E N.
    destruct (arun_ok moved type_size S1 h a_start [] ainv_start P) as (w & R & I).
    rewrite arun_app, R. cbn [bind arun astep].
    destruct (I_points _ _ I _ _ E) as (b & E1 & E2). unfold read. rewrite E1. cbn [bind].
    rewrite (array_destroy_over type_size S1 w b l n E2) by lia. reflexivity.
  Qed.

  (** destroy of a null pointer (a construction that failed, or a second destroy): undefined
      behaviour, for objects always, for arrays unless the count is 0. *)
  Theorem C122_null_refuted : forall (h : list (acall A)) v,
    1 <= type_size -> proper_history type_size [] h ->
    nth_error (arrays_run h) v = Some None ->
    arun moved type_size a_start (h ++ [AObjectDestroy v]) = UB
    /\ (forall n, arun moved type_size a_start (h ++ [AArrayDestroy v (S n)]) = UB).
  Proof.
    intros h v S1 P E.
    destruct (arun_ok moved type_size S1 h a_start [] ainv_start P) as (w & R & I).
    pose proof (I_points _ _ I _ _ E) as E1. cbn [points_to] in E1.
    split; [|intros n]; rewrite arun_app, R; cbn [bind arun astep]; unfold read; rewrite E1;
      reflexivity.
  Qed.
End Props.

(** ** Cases *)

Definition case_history : list (acall nat) :=
  [AArray 3 (Lvalue 7) true; AObject (Rvalue 5) true; AArray 2 (Lvalue 1) false;
   AArrayDestroy 2 0; AArrayDestroy 0 3; AObject (Lvalue 9) true; AObjectDestroy 1].

Example C121_case : proper_history 8 [] case_history
  /\ arrays_run case_history = [None; None; None; Some [9]]
  /\ exists w, arun (fun _ => 0) 8 a_start case_history = Ok w
       /\ points_to w 3 (Some [9]) /\ live_blocks w = 1 /\ h_lost w = 0.
Proof.
  split; [|split; [reflexivity|]].
  - unfold case_history, representable. cbn [proper_history proper_call arrays_step app set_array nth_error].
    repeat split; try lia; try (vm_compute; reflexivity); eexists; reflexivity.
  - eexists. split; [vm_compute; reflexivity|]. split; [|split; reflexivity].
    exists 2. split; reflexivity.
Qed.

Example C121_rvalue_case : representable 8 2
  /\ exists w, arun (fun _ => 0) 8 a_start [AArray 2 (Rvalue 5) true] = Ok w
       /\ points_to w 0 (Some [5; 0]).
Proof.
  split; [vm_compute; reflexivity|]. eexists. split; [vm_compute; reflexivity|].
  exists 0. split; reflexivity.
Qed.

(** 2^60 + 1 objects of 16 bytes. *)
Example C121_overflow_case : ~ representable 16 (Z.to_nat (2 ^ 60 + 1)).
Proof. unfold representable. rewrite Z2Nat.id by lia. lia. Qed.

Example C122_case :
  exists w, arun (fun _ => 0) 8 a_start [AArray 3 (Lvalue 7) true; AArrayDestroy 0 1] = Ok w
    /\ h_lost w = 2.
Proof. eexists. split; [vm_compute; reflexivity|]. reflexivity. Qed.

Print Assumptions C121_arrays_partial.
Print Assumptions C121_rvalue_refuted.
Print Assumptions C121_overflow_refuted.
Print Assumptions C122_no_leak_partial.
Print Assumptions C122_count_small_refuted.
Print Assumptions C122_count_large_refuted.
Print Assumptions C122_null_refuted.
