(** Property C06, completed: exactly which histories of a StaticVector of objects are defined. *)
From Coq Require Import List Arith Lia Bool.
From Verif Require Import Base BaseLemmas Store StoreLemmas StaticVectorModel StaticVectorSpec
  StaticVectorProofs.
Import ListNotations.

(** The first range in front of the end that is erased ends the history, whatever comes after it. *)
Lemma inner_range_breaks {A} (moved : A -> A) dflt cap : forall (ops : list (sv_op A)) l rest k,
  length l + length rest = cap -> valid cap l ops -> ~ along tail_range cap l ops ->
  sv_run Tracked moved dflt (SVec (St (map (@Some A) l ++ rest) k) (length l)) ops = UB.
Proof.
  induction ops as [|op ops IH]; intros l rest k Hc Hv Hn; cbn [along valid sv_run] in *; [tauto|].
  destruct Hv as [V1 V2].
  assert (D : tail_range l op \/ ~ tail_range l op).
  { destruct op; cbn; auto. destruct (Nat.eq_dec b e), (Nat.eq_dec e (length l)); tauto. }
  destruct D as [D|D].
  - destruct (step_ok Tracked moved dflt cap l rest k op Hc V1 (or_intror D)) as (r1 & k1 & E & L & _).
    rewrite E. cbn [bind]. apply IH; tauto.
  - destruct op; cbn in D; try tauto. cbn [valid_op] in V1. cbn [sv_step].
    rewrite erase_range_UB; [reflexivity|lia|lia].
Qed.

(** Every history with valid positions, for elements with constructors and destructors: it is defined
    exactly if no range in front of the end is erased, and then the contents are those of the
    bounded sequence. *)
Theorem C06_objects_exact_partial :
  forall (A : Type) (moved : A -> A) (dflt : A) (cap : nat) (ops : list (sv_op A)),
    valid cap [] ops ->
    (along tail_range cap [] ops ->
       exists v, sv_run Tracked moved dflt (sv_new cap) ops = Ok v
         /\ sv_elements v = Ok (spec_run cap ops)
         /\ sv_size v = length (spec_run cap ops) /\ sv_capacity v = cap)
    /\ (~ along tail_range cap [] ops -> sv_run Tracked moved dflt (sv_new cap) ops = UB).
Proof.
  intros A moved dflt cap ops Hv.
  assert (Hc : length (@nil A) + length (raw A cap) = cap).
  { unfold raw. rewrite repeat_length. reflexivity. }
  change (sv_new (A := A) cap) with (SVec (St (map (@Some A) [] ++ raw A cap) 0) (length (@nil A))).
  split; intros Ha.
  - destruct (run_ok Tracked moved dflt cap ops [] (raw A cap) 0 Hc Hv (or_intror Ha))
      as (r & k & E & L & _).
    eexists. split; [exact E|]. split; [apply elements_ok|]. split; [reflexivity|].
    unfold sv_capacity. cbn [sv_store st_cells]. rewrite app_length, map_length. exact L.
  - apply (inner_range_breaks moved dflt cap); auto.
Qed.

(** One history of each kind. *)
Example C06_objects_exact_case :
  (let ops := [PushBack 1; PushBack 2; PushBack 3; Erase 0; EraseRange 1 2; PushBack 4] in
   valid 3 [] ops /\ along tail_range 3 [] ops /\ spec_run 3 ops = [2; 4])
  /\ (let ops := [PushBack 1; PushBack 2; PushBack 3; EraseRange 0 2; PushBack 4] in
      valid 3 [] ops /\ ~ along tail_range 3 [] ops).
Proof. cbv. repeat split; try lia; auto. Qed.

Print Assumptions C06_objects_exact_partial.
