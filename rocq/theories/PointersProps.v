(** C24, C25: theorems about UniquePointer and SharedPointer. *)
From Coq Require Import List Arith ZArith Lia Bool.
From Verif Require Import Base BaseLemmas PointersModel PointersSpec PointersProofs.
Import ListNotations.

(** * C24: a UniquePointer owns its object, exactly once *)

(** Any number of pointer variables, any history. No step is undefined (so no object is
    destroyed twice); every pointer is empty or owns what it should; every object that is
    still alive has exactly one owner; so no object is left behind. *)
Theorem C24_unique_owner : forall (A : Type) (n : nat) (os : list (u_op A)),
  u_ok (repeat None n) os ->
  exists w, u_run (u_start n) os = Ok w /\
    (forall p x, present (u_result (repeat None n) os) p (Some x) ->
                 u_bool w p = Ok true /\ u_deref w p = Ok x) /\
    (forall p, present (u_result (repeat None n) os) p None -> u_bool w p = Ok false) /\
    (forall i x, nth_error (u_objs w) i = Some (Some x) ->
       exists p, u_field w p = Ok (Some i) /\
                 present (u_result (repeat None n) os) p (Some x) /\
                 forall q, u_field w q = Ok (Some i) -> q = p).
Proof.
  intros A n os D.
  destruct (u_run_ok os _ _ (u_start_inv n) D) as (w & E & H).
  exists w. split; [exact E|]. split; [|split].
  - intros p x Hp. destruct (u_inv_lookup _ _ _ _ H Hp) as (v & Hv & i & -> & Hi).
    unfold u_bool, u_deref. rewrite (u_field_at _ _ _ Hv). cbn [bind]. rewrite Hi. auto.
  - intros p Hp. destruct (u_inv_lookup _ _ _ _ H Hp) as (v & Hv & ->).
    unfold u_bool. rewrite (u_field_at _ _ _ Hv). reflexivity.
  - intros i x Hi. destruct H as (Hl & Hr & Hinj & Ho).
    destruct (Ho _ _ Hi) as [p Hp]. exists p. split; [apply u_field_at; auto|]. split.
    + unfold present. destruct (nth_error (u_result (repeat None n) os) p) as [c|] eqn:Ec.
      * specialize (Hr _ _ _ Hp Ec). destruct c as [[y|]|]; cbn in Hr; try discriminate.
        destruct Hr as (j & [= <-] & Hj). congruence.
      * apply nth_error_None in Ec.
        assert (p < length (u_vars w)) by (apply nth_error_Some; congruence). lia.
    + intros q Hq. unfold u_field in Hq.
      destruct (nth_error (u_vars w) q) as [[|o]|] eqn:Eq; try discriminate.
      injection Hq as ->. eapply Hinj; eauto.
Qed.

(** In particular: when all pointers are gone, all objects are destroyed. *)
Theorem C24_no_leak : forall (A : Type) (n : nat) (os : list (u_op A)),
  u_ok (repeat None n) os ->
  (forall p x, ~ present (u_result (repeat None n) os) p (Some x)) ->
  exists w, u_run (u_start n) os = Ok w /\ forall c, In c (u_objs w) -> c = None.
Proof.
  intros A n os D G. destruct (C24_unique_owner A n os D) as (w & E & _ & _ & H).
  exists w. split; [exact E|]. intros [x|] Hc; auto. exfalso.
  apply In_nth_error in Hc. destruct Hc as [i Hi].
  destruct (H _ _ Hi) as (p & _ & Hp & _). eapply G; eauto.
Qed.

Example C24_case :
  let os := [UNew 0 10; UNew 1 20; UMove 2 0; UAssign 1 2; UAssign 1 1; UNew 3 30;
             UClean 3; UEmpty 4; UAssign 4 0; UDestroy 0; UDestroy 1] in
  u_ok (repeat (@None (option nat)) 5) os /\
  (exists w, u_run (u_start 5) os = Ok w /\ u_objs w = [None; None; None]).
Proof.
  split.
  - cbn. repeat (split; [repeat split; try reflexivity; eexists; reflexivity|]). exact I.
  - eexists. split; [vm_compute; reflexivity|reflexivity].
Qed.

(** * C25: a SharedPointer's object is destroyed when the last owner releases it *)

(** The covered histories: construction, copies, moves, assignments and destructions of any
    number of pointers, where no release leaves exactly one owner behind. Then nothing is
    undefined and all owners see their object. (What is missing: the other releases, and
    the destruction itself; see the refutations below.) *)
Theorem C25_shared_alive_partial : forall (A : Type) (n : nat) (os : list (s_op A)),
  (Z.of_nat n < 2 ^ 64)%Z ->
  s_ok (s_none n) os ->
  exists w, s_run (s_start n) os = Ok w /\
    forall p o, owns (s_result (s_none n) os) p o ->
      alive w o /\ s_bool w p = Ok true /\
      exists x, nth_error (ss_vals (s_result (s_none n) os)) o = Some x /\
                s_deref w p = Ok x.
Proof.
  intros A n os HB D.
  destruct (s_run_ok n HB os _ _ (s_start_inv n)) as (w & E & H & _); auto.
  { cbn. apply repeat_length. }
  exists w. split; [exact E|]. intros p o Hp.
  destruct (s_val _ _ _ _ H Hp) as (x & Hx & Ho).
  assert (Hv := s_lookup _ _ _ _ H Hp). cbn [tr] in Hv.
  split; [do 2 eexists; exact Ho|].
  unfold s_bool, s_deref, s_field. rewrite Hv. cbn [bind]. split; [reflexivity|].
  exists x. split; [exact Hx|]. unfold s_get. rewrite Ho. reflexivity.
Qed.

Example C25_shared_alive_case :
  let os := [SNew 0 10; SCopy 1 0; SCopy 2 0; SMove 3 1; SNew 4 20; SAssign 4 0;
             SDestroy 3; SMoveAssign 4 0] in
  (Z.of_nat 5 < 2 ^ 64)%Z /\
  s_ok (s_none 5) (firstn 7 os) /\
  owns (s_result (s_none 5) (firstn 7 os)) 2 0 /\
  owners (s_result (s_none 5) (firstn 7 os)) 0 = 3.
Proof.
  split; [reflexivity|]. split; [|split; reflexivity].
  cbn. repeat split; try reflexivity; try (eexists; reflexivity);
    intros o; unfold owns, owners; cbn; intros [= <-]; discriminate.
Qed.

Lemma s_run_app {A} (os : list (s_op A)) : forall w0 w1 os',
  s_run w0 os = Ok w1 -> s_run w0 (os ++ os') = s_run w1 os'.
Proof.
  induction os as [|a os IH]; intros w0 w1 os'; cbn [s_run app].
  - intros [= ->]. reflexivity.
  - destruct (s_step w0 a); cbn [bind]; try discriminate. apply IH.
Qed.

(** The last owner never destroys the object: after any covered history, when the only owner
    of an object is destroyed, the object stays, and no pointer owns it any more. *)
Theorem C25_last_release_refuted : forall (A : Type) (n : nat) (os : list (s_op A)) p o,
  (Z.of_nat n < 2 ^ 64)%Z ->
  s_ok (s_none n) os ->
  owns (s_result (s_none n) os) p o -> owners (s_result (s_none n) os) o = 1 ->
  exists w, s_run (s_start n) (os ++ [SDestroy p]) = Ok w /\ alive w o /\
            owners (s_result (s_none n) (os ++ [SDestroy p])) o = 0.
Proof.
  intros A n os p o HB D Hp Hc.
  destruct (s_run_ok n HB os _ _ (s_start_inv n)) as (w & E & H & L); auto.
  { cbn. apply repeat_length. }
  destruct (s_clean_many n w _ p o H L HB Hp) as (x & Hx & Ec); [lia|].
  assert (Er : s_run (s_start n) (os ++ [SDestroy p]) =
               Ok (s_set (SW (upd (s_objs w) o (Some (size_t (Z.of_nat 1 - 2), x))) (s_vars w)) p SAbsent)).
  { rewrite (s_run_app _ _ _ _ E). cbn [s_run s_step].
    unfold s_destroy. rewrite Ec, Hc. reflexivity. }
  eexists. split; [exact Er|]. split.
  - unfold alive, s_set. cbn [s_objs]. do 2 eexists. apply nth_error_upd_eq.
    destruct (s_val _ _ _ _ H Hp) as (y & _ & Ho). apply nth_error_Some. congruence.
  - unfold s_result. rewrite fold_left_app. fold (s_result (s_none n) os). cbn [fold_left s_spec].
    unfold owns in Hp. assert (C := count_upd o _ _ _ None Hp). unfold one in C. cbn [is_owner] in C.
    rewrite Nat.eqb_refl in C. unfold count in C. unfold owners in *. cbn [ss_vars]. lia.
Qed.

Example C25_last_release_case :
  s_ok (s_none 1) [SNew 0 true] /\ owns (s_result (s_none 1) [SNew 0 true]) 0 0 /\
  owners (s_result (s_none 1) [SNew 0 true]) 0 = 1.
Proof. cbn. repeat split; reflexivity. Qed.

(** The object is destroyed too early: when one of exactly two owners is destroyed, the
    object is destroyed although the other still owns it; any use of the other, or even its
    destruction, is undefined. *)
Theorem C25_early_destruction_refuted :
  forall (A : Type) (n : nat) (os : list (s_op A)) p q o,
  (Z.of_nat n < 2 ^ 64)%Z ->
  s_ok (s_none n) os ->
  owns (s_result (s_none n) os) p o -> owns (s_result (s_none n) os) q o -> p <> q ->
  owners (s_result (s_none n) os) o = 2 ->
  owns (s_result (s_none n) (os ++ [SDestroy p])) q o /\
  exists w, s_run (s_start n) (os ++ [SDestroy p]) = Ok w /\ destroyed w o /\
            s_deref w q = UB /\ s_destroy w q = UB.
Proof.
  intros A n os p q o HB D Hp Hq N Hc.
  destruct (s_run_ok n HB os _ _ (s_start_inv n)) as (w & E & H & L); auto.
  { cbn. apply repeat_length. }
  split.
  { unfold owns, s_result. rewrite fold_left_app. cbn [fold_left s_spec ss_vars].
    rewrite nth_error_upd_neq; auto. }
  assert (Ec := s_drop_two _ _ _ _ H Hp Hc).
  rewrite (s_run_app _ _ _ _ E). cbn [s_run s_step]. unfold s_destroy at 1. rewrite Ec. cbn [bind].
  eexists. split; [reflexivity|].
  assert (Hd : nth_error (upd (s_objs w) o None) o = Some None).
  { apply nth_error_upd_eq.
    destruct (s_val _ _ _ _ H Hp) as (y & _ & Ho). apply nth_error_Some. congruence. }
  assert (Hv : nth_error (upd (upd (s_vars w) p (SPresent Nil)) p SAbsent) q = Some (SPresent (To o))).
  { rewrite !nth_error_upd_neq by auto. apply (s_lookup _ _ _ _ H Hq). }
  split; [exact Hd|]. split.
  - unfold s_deref, s_field, s_set. cbn [s_vars]. rewrite Hv. cbn [bind s_get s_objs].
    rewrite Hd. reflexivity.
  - unfold s_destroy, s_clean, s_field, s_set. cbn [s_vars]. rewrite Hv. cbn [bind s_get s_objs].
    rewrite Hd. reflexivity.
Qed.

Example C25_early_destruction_case :
  let os := [SNew 0 true; SCopy 1 0] in
  s_ok (s_none 2) os /\ owns (s_result (s_none 2) os) 0 0 /\
  owns (s_result (s_none 2) os) 1 0 /\ owners (s_result (s_none 2) os) 0 = 2.
Proof. cbn. repeat split; try reflexivity. eexists; reflexivity. Qed.

(** clean() does not let go: called on one of three owners it leaves the pointer referring
    to the object, so that its destructor releases a second time and destroys the object
    although two owners are left. *)
Theorem C25_clean_refuted :
  forall (A : Type) (n : nat) (os : list (s_op A)) p o,
  (Z.of_nat n < 2 ^ 64)%Z ->
  s_ok (s_none n) os ->
  owns (s_result (s_none n) os) p o ->
  owners (s_result (s_none n) os) o = 3 ->
  (exists w x, s_run (s_start n) (os ++ [SClean p]) = Ok w /\ s_deref w p = Ok x) /\
  (exists w, s_run (s_start n) (os ++ [SClean p; SDestroy p]) = Ok w /\ destroyed w o) /\
  owners (s_result (s_none n) (os ++ [SClean p; SDestroy p])) o = 2.
Proof.
  intros A n os p o HB D Hp Hc.
  destruct (s_run_ok n HB os _ _ (s_start_inv n)) as (w & E & H & L); auto.
  { cbn. apply repeat_length. }
  destruct (s_clean_many n w _ p o H L HB Hp) as (x & Hx & Ec); [lia|]. rewrite Hc in Ec.
  assert (Hv := s_lookup _ _ _ _ H Hp). cbn [tr] in Hv.
  destruct (s_val _ _ _ _ H Hp) as (y & Hy & Ho).
  assert (Hol : o < length (s_objs w)) by (apply nth_error_Some; congruence).
  split; [|split].
  - rewrite (s_run_app _ _ _ _ E). cbn [s_run s_step]. rewrite Ec. cbn [bind].
    do 2 eexists. split; [reflexivity|].
    unfold s_deref, s_field. cbn [s_vars]. rewrite Hv. cbn [bind s_get s_objs].
    rewrite nth_error_upd_eq by auto. reflexivity.
  - rewrite (s_run_app _ _ _ _ E). cbn [s_run s_step]. rewrite Ec. cbn [bind].
    unfold s_destroy, s_clean, s_field. cbn [s_vars]. rewrite Hv. cbn [bind s_get s_objs].
    rewrite nth_error_upd_eq by auto. cbn [bind].
    change (size_t (size_t (Z.of_nat 3 - 2) - 1) =? 0)%Z with true. cbn [bind].
    eexists. split; [reflexivity|]. unfold destroyed, s_set. cbn [s_objs].
    apply nth_error_upd_eq. rewrite upd_length; auto.
  - unfold s_result. rewrite fold_left_app. fold (s_result (s_none n) os).
    cbn [fold_left s_spec ss_vars]. unfold owns in Hp.
    assert (C := count_upd o _ _ _ None Hp). unfold one in C. cbn [is_owner] in C.
    rewrite Nat.eqb_refl in C. unfold count in C. unfold owners in *. cbn [ss_vars].
    rewrite upd_upd_eq. lia.
Qed.

Example C25_clean_case :
  let os := [SNew 0 true; SCopy 1 0; SCopy 2 1] in
  s_ok (s_none 3) os /\ owns (s_result (s_none 3) os) 0 0 /\
  owners (s_result (s_none 3) os) 0 = 3.
Proof. cbn. repeat split; try reflexivity; eexists; reflexivity. Qed.

(** An empty (moved-from) pointer cannot be copied, assigned from, or tested; a
    default-constructed one cannot even be destroyed. *)
Theorem C25_empty_refuted : forall (A : Type) (w : sworld A) p q,
  nth_error (s_vars w) q = Some (SPresent Nil) ->
  s_bool w q = UB /\ s_copy w p q = UB /\
  (forall m, nth_error (s_vars w) p = Some (SPresent m) -> s_assign w p q = UB) /\
  (forall w', s_default w p = Ok w' -> s_destroy w' p = UB).
Proof.
  intros A w p q Hq. split; [|split; [|split]].
  - unfold s_bool, s_field. rewrite Hq. reflexivity.
  - unfold s_copy, s_fresh, s_field. rewrite Hq.
    destruct (nth_error (s_vars w) p) as [[|m]|]; reflexivity.
  - intros m Hp. unfold s_assign.
    destruct (s_clean w p) as [w1| |] eqn:Ec; cbn [bind]; [|reflexivity|].
    2:{ exfalso. unfold s_clean, s_field in Ec. rewrite Hp in Ec. cbn [bind] in Ec.
        destruct m as [| |i]; try discriminate. unfold s_get in Ec.
        destruct (nth_error (s_objs w) i) as [[[c x]|]|]; cbn [bind] in Ec; try discriminate.
        destruct (_ =? 0)%Z; discriminate. }
    assert (Hq1 : nth_error (s_vars w1) q = Some (SPresent Nil)).
    { unfold s_clean, s_field in Ec. rewrite Hp in Ec. cbn [bind] in Ec.
      destruct m as [| |i]; try discriminate.
      - congruence.
      - destruct (s_get w (To i)) as [[[j c] x]| |]; cbn [bind] in Ec; try discriminate.
        destruct (_ =? 0)%Z; injection Ec as <-; cbn [s_vars]; auto.
        rewrite nth_error_updx. destruct (p =? q) eqn:Epq; auto.
        apply Nat.eqb_eq in Epq. subst q. congruence. }
    unfold s_field. rewrite Hq1. reflexivity.
  - intros w' Hd. unfold s_default, s_fresh in Hd.
    destruct (nth_error (s_vars w) p) as [[|m]|] eqn:E; try discriminate.
    injection Hd as <-. unfold s_destroy, s_clean, s_field, s_set. cbn [s_vars].
    rewrite nth_error_upd_eq; [reflexivity|]. apply nth_error_Some. congruence.
Qed.

Example C25_empty_case :
  exists w, s_run (s_start 3) [SNew 0 true; SMove 1 0] = Ok w /\
            nth_error (s_vars w) 0 = Some (SPresent Nil) /\
            exists w', s_default w 2 = Ok w'.
Proof.
  eexists. split; [vm_compute; reflexivity|]. split; [reflexivity|].
  eexists. vm_compute. reflexivity.
Qed.

Print Assumptions C24_unique_owner.
Print Assumptions C24_no_leak.
Print Assumptions C25_shared_alive_partial.
Print Assumptions C25_last_release_refuted.
Print Assumptions C25_early_destruction_refuted.
Print Assumptions C25_clean_refuted.
Print Assumptions C25_empty_refuted.
