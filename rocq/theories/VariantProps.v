(** C26-C29, C60, C61: theorems about Variant. *)
From Coq Require Import List Arith ZArith Lia Bool.
From Verif Require Import Base BaseLemmas VariantModel VariantSpec PointersProofs VariantProofs.
Import ListNotations.

Lemma nth_index_of ts t :
  (0 <= index_of ts t)%Z -> nth_error ts (Z.to_nat (index_of ts t)) = Some t.
Proof.
  induction ts as [|a r IH]; cbn [index_of]; [lia|].
  destruct (Nat.eqb_spec a t) as [->|N]; [reflexivity|].
  destruct (Z.ltb_spec (index_of r t) 0); [lia|]. intros _.
  rewrite Z2Nat.inj_add by lia. cbn. apply IH; auto.
Qed.

(** * C26: a Variant holds what was stored last *)

(** Any number of variants and any covered history (VariantSpec.v). Missing: what a copy of a
    named variant does to its source, and assignment from a variant that is not set. *)
Theorem C26_variant_partial :
  forall (V : Type) (mv : V -> V) (ts : list nat) (n : nat) (os : list (v_op V)),
  (Z.of_nat (length ts) < 2 ^ 63)%Z ->
  v_ok mv ts (repeat None n) os ->
  exists w, v_run mv ts (v_start n) os = Ok w /\
  forall p c, holds_in (v_result mv ts (repeat None n) os) p c ->
  exists v, var w p = Ok v /\
    match c with
    | None => v_is_set v = false /\ forall t, v_get ts v t = Ok None
    | Some (t, x) =>
        v_is_set v = true /\ nth_error ts (Z.to_nat (v_index v)) = Some t /\
        v_get ts v t = Ok (Some x) /\
        forall u, u <> t -> v_get ts v u = Ok None
    end.
Proof.
  intros V mv ts n os Hs D.
  destruct (v_run_ok mv ts Hs os _ _ (v_start_inv ts n) D) as (w & E & H).
  exists w. split; [exact E|]. intros p c Hp.
  exists (mk ts c). split; [eapply var_at; eauto|].
  assert (Hw := proj1 (proj2 H) _ _ Hp).
  assert (S := is_set_mk ts c Hw).
  destruct c as [[t x]|].
  - assert (I := Hw). cbn in I. apply index_of_in in I.
    split; [exact S|]. split; [apply nth_index_of; exact I|]. split.
    + unfold v_get. rewrite S. cbn [mk v_index v_cell]. rewrite Z.eqb_refl. cbn [andb].
      assert (G : vs_get ts t = true) by (apply vs_get_in; exact Hw). rewrite G.
      cbn. rewrite Nat.eqb_refl. reflexivity.
    + intros u N. unfold v_get. cbn [mk v_index].
      destruct (Z.eqb_spec (index_of ts u) (index_of ts t)) as [Eq|]; [|reflexivity].
      exfalso. apply N. symmetry. apply (index_of_inj ts); auto.
  - split; [exact S|]. intros t. unfold v_get. rewrite S, andb_false_r. reflexivity.
Qed.

Example C26_case :
  let os := [VDefault 0; VSet 0 7 100; VFrom 1 8 200; VCopy 2 1; VSet 2 7 300; VAssign 1 0;
             VMove 3 2; VReset 0; VSet 0 9 1; VDestroy 1; VMoveAssign 0 3] in
  v_ok (fun _ => 0) [7; 8] (repeat None 4) os /\
  v_result (fun _ => 0) [7; 8] (repeat None 4) os =
    [Some (Some (7, 300)); None; Some (Some (7, 0)); Some (Some (7, 0))].
Proof.
  split; [|reflexivity]. cbn. unfold no_var, is_var, holds_in, content; cbn.
  repeat (split; [repeat split; try reflexivity; try (eexists; reflexivity);
                  try (right; left; discriminate); auto|]). exact I.
Qed.

(** * C27: lifetimes *)

(** Every program that never copies a named, not const, not set variant: no object is
    destroyed that is not there, and the objects constructed but not destroyed are exactly
    those held by variants that are set. *)
Theorem C27_lifetimes_partial :
  forall (V : Type) (mv : V -> V) (ts : list nat) (n : nat) (os : list (v_op V)),
  (Z.of_nat (length ts) < 2 ^ 63)%Z ->
  v_valid_run mv ts (v_start n) os ->
  exists w, v_run mv ts (v_start n) os = Ok w /\ w_made w = w_gone w + set_count w.
Proof.
  intros V mv ts n os Hs D. eapply v_valid_run_ok; eauto. apply v_start_inv.
Qed.

Example C27_case :
  let os := [VDefault 0; VSet 0 7 100; VCopyNamed 1 0; VDefault 2; VAssign 0 2; VSet 0 8 5;
             VDestroy 1] in
  v_valid_run (fun _ => 0) [7; 8] (v_start 3) os.
Proof.
  unfold lives; cbn. repeat (split; [repeat split; eauto; try (eexists; reflexivity)|
    intros ? [= <-]; cbn]). exact I.
Qed.

(** The missing part: a copy of a named, not const, not set variant cannot itself be copied or
    moved: the index calculation overflows. *)
Theorem C27_copy_of_unset_refuted :
  forall (V : Type) (mv : V -> V) (ts : list nat) (w : world V) p q r i,
  ts <> [] -> var w q = Ok (VR i None) -> (i < 0)%Z ->
  fresh w p = Ok tt -> fresh w r = Ok tt -> p <> r ->
  exists w', v_copy_named mv ts w p q = Ok w' /\
             v_copy mv ts w' r p = UB /\ v_move mv ts w' r p = UB.
Proof.
  intros V mv ts w p q r i Hts Hq Hi Hp Hr N.
  assert (E : v_copy_named mv ts w p q = Ok (put w p (Some (VR ssize_min None)))).
  { unfold v_copy_named. rewrite Hp, Hq. cbn [bind v_index].
    destruct (Z.leb_spec 0 i); [lia|]. reflexivity. }
  eexists. split; [exact E|].
  assert (Hr' : fresh (put w p (Some (VR (V := V) ssize_min None))) r = Ok tt).
  { unfold fresh, put in *. cbn [w_vars]. rewrite nth_error_upd_neq; auto. }
  assert (Hp' : var (put w p (Some (VR (V := V) ssize_min None))) p = Ok (VR ssize_min None)).
  { unfold var, put, fresh in *. cbn [w_vars]. rewrite nth_error_upd_eq; auto.
    apply nth_error_Some. destruct (nth_error (w_vars w) p); congruence. }
  unfold v_copy, v_move. rewrite Hr', Hp'. cbn [bind v_index v_cell].
  destruct ts as [|a ts']; [congruence|]. split; reflexivity.
Qed.

Example C27_copy_of_unset_case :
  exists w, v_run (fun x => x) [7; 8] (v_start 3) [VDefault (V := nat) 0] = Ok w /\
    var w 0 = Ok (VR (-1) None) /\ fresh w 1 = Ok tt /\ fresh w 2 = Ok tt.
Proof. eexists. split; [vm_compute; reflexivity|]. repeat split. Qed.

(** * C28: assignment and equality *)

(** Assigning from a set variant, or onto one that is not set, is part of
    C26_variant_partial. Otherwise nothing happens: the old value stays. *)
Theorem C28_assign_unset_refuted :
  forall (V : Type) (mv : V -> V) (ts : list nat) (w : world V) p q u v,
  var w p = Ok u -> v_is_set u = true -> var w q = Ok v -> v_is_set v = false ->
  v_assign mv ts w p q = Ok w /\ v_move_assign mv ts w p q = Ok w.
Proof.
  intros V mv ts w p q u v Hp Su Hq Sv. unfold v_assign, v_move_assign.
  rewrite Hp, Hq. cbn [bind]. rewrite Sv, andb_false_r. auto.
Qed.

Example C28_assign_unset_case :
  exists w, v_run (fun x => x) [7; 8] (v_start 2) [VFrom 0 7 100; VDefault 1] = Ok w /\
    (exists u, var w 0 = Ok u /\ v_is_set u = true) /\
    (exists v, var w 1 = Ok v /\ v_is_set v = false).
Proof.
  eexists. split; [vm_compute; reflexivity|].
  split; eexists; split; reflexivity.
Qed.

(** == of two variants compares alternative and value, if both are set. *)
Theorem C28_equality_partial :
  forall (V : Type) (mv : V -> V) (eqv : nat -> V -> V -> bool) (ts : list nat) (n : nat)
         (os : list (v_op V)) p q t x u y,
  (Z.of_nat (length ts) < 2 ^ 63)%Z ->
  v_ok mv ts (repeat None n) os ->
  holds_in (v_result mv ts (repeat None n) os) p (Some (t, x)) ->
  holds_in (v_result mv ts (repeat None n) os) q (Some (u, y)) ->
  exists w v1 v2, v_run mv ts (v_start n) os = Ok w /\ var w p = Ok v1 /\ var w q = Ok v2 /\
    v_equal eqv ts v1 v2 = Ok ((t =? u) && eqv t x y).
Proof.
  intros V mv eqv ts n os p q t x u y Hs D Hp Hq.
  destruct (v_run_ok mv ts Hs os _ _ (v_start_inv ts n) D) as (w & E & H).
  exists w, (mk ts (Some (t, x))), (mk ts (Some (u, y))).
  split; [exact E|]. split; [eapply var_at; eauto|]. split; [eapply var_at; eauto|].
  assert (Wp := proj1 (proj2 H) _ _ Hp). assert (Wq := proj1 (proj2 H) _ _ Hq).
  unfold v_equal. rewrite !is_set_mk by auto. cbn [andb].
  assert (Ip := Wp). cbn in Ip. apply index_of_in in Ip.
  change (v_index (mk ts (Some (t, x)))) with (index_of ts t).
  change (v_index (mk ts (Some (u, y)))) with (index_of ts u).
  destruct (Z.eqb_spec (index_of ts t) (index_of ts u)) as [Eq|N].
  - apply index_of_inj in Eq; auto. subst u. rewrite Nat.eqb_refl. cbn [andb].
    apply vs_equal_at; auto.
  - destruct (Nat.eqb_spec t u); [congruence|]. reflexivity.
Qed.

Example C28_equality_case :
  let os := [VFrom 0 7 100; VFrom 1 8 100] in
  v_ok (fun x => x) [7; 8] (repeat None 2) os /\
  holds_in (v_result (fun x => x) [7; 8] (repeat None 2) os) 0 (Some (7, 100)) /\
  holds_in (v_result (fun x => x) [7; 8] (repeat None 2) os) 1 (Some (8, 100)).
Proof. repeat split. Qed.

(** A variant that is not set is not equal to anything, not even to itself. *)
Theorem C28_equality_refuted :
  forall (V : Type) (eqv : nat -> V -> V -> bool) (ts : list nat) (v : variant V),
  v_is_set v = false -> v_equal eqv ts v v = Ok false.
Proof. intros V eqv ts v H. unfold v_equal. rewrite H. reflexivity. Qed.

Example C28_equality_refuted_case : v_is_set (VR (V := nat) (-1) None) = false.
Proof. reflexivity. Qed.

(** * C29: access by index *)

(** get<INDEX>() gives a pointer for every alternative, whatever is stored; the const
    version does as soon as anything is stored. Reading the object through the pointer is
    undefined. *)
Theorem C29_index_access_refuted :
  forall (V : Type) (ts : list nat) (v : variant V) (i t : nat),
  nth_error ts i = Some t ->
  v_get_index ts v t = true /\
  (v_is_set v = true -> v_get_index_const ts v t = true) /\
  (v_cell v = None -> as_type t (v_cell v) = UB) /\
  (forall u x, v_cell v = Some (u, x) -> u <> t -> as_type t (v_cell v) = UB).
Proof.
  intros V ts v i t Hi. apply nth_error_In in Hi. apply vs_get_in in Hi.
  split; [exact Hi|]. split; [|split].
  - intros S. unfold v_get_index_const. rewrite S. exact Hi.
  - intros ->. reflexivity.
  - intros u x -> N. cbn. apply Nat.eqb_neq in N. rewrite N. reflexivity.
Qed.

(** What does hold: the const version gives null on a variant that is not set. *)
Theorem C29_index_access_partial :
  forall (V : Type) (ts : list nat) (v : variant V) (t : nat),
  v_is_set v = false -> v_get_index_const ts v t = false.
Proof. intros V ts v t S. unfold v_get_index_const. rewrite S. reflexivity. Qed.

(** Exactly: the pointer is not null for every alternative whatever is stored, const or not, except that
    the const version looks whether anything is stored; reading through it is defined only if the
    alternative is the stored one, and then gives the stored value. *)
Theorem C29_exact_partial :
  forall (V : Type) (ts : list nat) (v : variant V) (t : nat),
  (v_get_index ts v t = true <-> In t ts) /\
  (v_get_index_const ts v t = true <-> v_is_set v = true /\ In t ts) /\
  (forall x, as_type t (v_cell v) = Ok x <-> v_cell v = Some (t, x)).
Proof.
  intros V ts v t. split; [apply vs_get_in|]. split.
  - unfold v_get_index_const. destruct (v_is_set v).
    + rewrite vs_get_in. tauto.
    + intuition discriminate.
  - intros x. destruct (v_cell v) as [[u y]|]; cbn; [|split; discriminate].
    destruct (Nat.eqb_spec u t) as [->|N]; split; intros H; try discriminate H; injection H as H; congruence.
Qed.

Example C29_case :
  v_is_set (VR 0 (Some (7, 100))) = true /\ nth_error [7; 8] 1 = Some 8 /\
  v_is_set (VR (V := nat) (-1) None) = false.
Proof. repeat split. Qed.

(** * C60: storing or copying from a named object *)

(** Copying a named variant that is not const moves its object away: the source then holds
    the moved-from value. *)
Theorem C60_copy_named_refuted :
  forall (V : Type) (mv : V -> V) (ts : list nat) (n : nat) (os : list (v_op V)) p q t x,
  (Z.of_nat (length ts) < 2 ^ 63)%Z ->
  v_ok mv ts (repeat None n) os ->
  holds_in (v_result mv ts (repeat None n) os) q (Some (t, x)) ->
  no_var (v_result mv ts (repeat None n) os) p ->
  exists w w' v v', v_run mv ts (v_start n) os = Ok w /\ v_copy_named mv ts w p q = Ok w' /\
    var w q = Ok v /\ v_get ts v t = Ok (Some x) /\
    var w' q = Ok v' /\ v_get ts v' t = Ok (Some (mv x)).
Proof.
  intros V mv ts n os p q t x Hs D Hq Hp.
  destruct (v_run_ok mv ts Hs os _ _ (v_start_inv ts n) D) as (w & E & H).
  destruct (v_step_act mv ts Hs w _ (VCopyNamed p q) H) as (w' & E' & H').
  { cbn. split; eauto. }
  assert (Wq := proj1 (proj2 H) _ _ Hq).
  exists w, w', (mk ts (Some (t, x))), (mk ts (Some (t, mv x))).
  split; [exact E|]. split; [exact E'|].
  assert (G : forall z : V, v_get ts (mk ts (Some (t, z))) t = Ok (Some z)).
  { intros z. unfold v_get. rewrite is_set_mk by exact Wq. cbn [mk v_index v_cell].
    rewrite Z.eqb_refl. cbn [andb].
    assert (G : vs_get ts t = true) by (apply vs_get_in; exact Wq). rewrite G.
    cbn. rewrite Nat.eqb_refl. reflexivity. }
  split; [eapply var_at; eauto|]. split; [apply G|]. split; [|apply G].
  eapply var_at; [exact H'|]. cbn [act].
  rewrite nth_error_upd_eq.
  - unfold content. unfold holds_in in Hq. rewrite Hq. reflexivity.
  - rewrite upd_length. apply nth_error_Some. unfold holds_in in Hq. congruence.
Qed.

Example C60_copy_named_case :
  let os := [VFrom 0 7 100] in
  v_ok (fun _ => 0) [7; 8] (repeat None 2) os /\
  holds_in (v_result (fun _ => 0) [7; 8] (repeat None 2) os) 0 (Some (7, 100)) /\
  no_var (v_result (fun _ => 0) [7; 8] (repeat None 2) os) 1.
Proof. repeat split. Qed.

(** set called with a named object that is not const stores its value and moves from it;
    with a const object it stores the value and leaves the object alone. *)
Theorem C60_set_named_refuted :
  forall (V : Type) (mv : V -> V) (ts : list nat) (n : nat) (os : list (v_op V)) p t x,
  (Z.of_nat (length ts) < 2 ^ 63)%Z ->
  v_ok mv ts (repeat None n) os ->
  is_var (v_result mv ts (repeat None n) os) p -> In t ts ->
  exists w w' v, v_run mv ts (v_start n) os = Ok w /\
    v_set_named mv ts w p t x = Ok (w', mv x) /\ v_set_const ts w p t x = Ok (w', x) /\
    var w' p = Ok v /\ v_get ts v t = Ok (Some x).
Proof.
  intros V mv ts n os p t x Hs D Hp It.
  destruct (v_run_ok mv ts Hs os _ _ (v_start_inv ts n) D) as (w & E & H).
  destruct (v_step_act mv ts Hs w _ (VSet p t x) H Hp) as (w' & E' & H').
  exists w, w', (mk ts (Some (t, x))).
  split; [exact E|]. cbn [v_step] in E'. unfold v_set_named, v_set_const. rewrite E'.
  split; [reflexivity|]. split; [reflexivity|]. split.
  - eapply var_at; [exact H'|]. cbn [act v_spec]. destruct Hp as (c & Hp). unfold holds_in in Hp.
    rewrite nth_error_upd_eq by (apply nth_error_Some; congruence).
    unfold stored. destruct (in_dec Nat.eq_dec t ts); [reflexivity|contradiction].
  - unfold v_get. rewrite is_set_mk by exact It. cbn [mk v_index v_cell].
    rewrite Z.eqb_refl. cbn [andb].
    assert (G : vs_get ts t = true) by (apply vs_get_in; exact It). rewrite G.
    cbn. rewrite Nat.eqb_refl. reflexivity.
Qed.

Example C60_set_named_case :
  let os := [VFrom 0 7 100] in
  v_ok (fun _ => 0) [7; 8] (repeat None 2) os /\
  is_var (v_result (fun _ => 0) [7; 8] (repeat None 2) os) 0 /\ In 8 [7; 8].
Proof. split; [repeat split|]. split; [eexists; reflexivity|cbn; auto]. Qed.

(** Copying a const variant leaves all other variants as they were. *)
Theorem C60_copy_const_partial :
  forall (V : Type) (mv : V -> V) (ts : list nat) (w w' : world V) p q r,
  v_copy mv ts w p q = Ok w' -> r <> p -> var w' r = var w r.
Proof.
  intros V mv ts w w' p q r E N. unfold v_copy in E.
  destruct (fresh w p); cbn [bind] in E; try discriminate.
  destruct (var w q) as [v| |]; cbn [bind] in E; try discriminate.
  destruct (vs_assign mv ts (v_index v) (v_cell v) false) as [[c d]| |];
    cbn [bind fst] in E; try discriminate.
  injection E as <-. unfold var, store, put.
  destruct c; cbn [w_vars]; rewrite nth_error_upd_neq; auto.
Qed.

Example C60_copy_const_case :
  exists w w', v_run (fun _ => 0) [7; 8] (v_start 2) [VFrom 0 7 100] = Ok w /\
    v_copy (fun _ => 0) [7; 8] w 1 0 = Ok w'.
Proof. do 2 eexists. split; vm_compute; reflexivity. Qed.

(** * C61: uniqueness of a parameter pack *)

Lemma in_pack_in t ts : in_pack t ts = true <-> In t ts.
Proof.
  induction ts as [|a r IH]; cbn [in_pack In]; [intuition discriminate|].
  rewrite orb_true_iff, IH, Nat.eqb_eq. intuition congruence.
Qed.

(** A pack without repetition is accepted, and a pack of two is judged correctly. *)
Theorem C61_unique_partial : forall ts,
  2 <= length ts -> NoDup ts -> is_unique_pack ts = true.
Proof.
  induction ts as [|a r IH]; cbn [length]; [lia|]. intros L N.
  inversion N as [|? ? Na Nr]; subst.
  destruct r as [|b [|c r']].
  - cbn in L. lia.
  - cbn. apply negb_true_iff, Nat.eqb_neq. intros ->. apply Na. left; auto.
  - change (is_unique_pack (a :: b :: c :: r')) with
      (in_pack a (b :: c :: r') || is_unique_pack (b :: c :: r')).
    rewrite IH; [apply orb_true_r|cbn; lia|exact Nr].
Qed.

Theorem C61_unique_pair_partial : forall a b,
  is_unique_pack [a; b] = true <-> NoDup [a; b].
Proof.
  intros a b. cbn. rewrite negb_true_iff, Nat.eqb_neq. split.
  - intros N. constructor; [intros [E|[]]; auto|]. constructor; [intros []|constructor].
  - intros N E. inversion N as [|? ? H]; subst. apply H. left; auto.
Qed.

Example C61_case : 2 <= length [1; 2; 3] /\ NoDup [1; 2; 3].
Proof. split; [cbn; lia|]. repeat constructor; cbn; intuition discriminate. Qed.

(** Every pack of three or more whose first type occurs again is accepted. *)
Theorem C61_unique_refuted : forall a ts,
  2 <= length ts -> In a ts -> is_unique_pack (a :: ts) = true /\ ~ NoDup (a :: ts).
Proof.
  intros a ts L I. split.
  - destruct ts as [|b [|c r]]; cbn in L; try lia.
    change (is_unique_pack (a :: b :: c :: r)) with
      (in_pack a (b :: c :: r) || is_unique_pack (b :: c :: r)).
    apply orb_true_iff. left. apply in_pack_in; auto.
  - intros N. inversion N; auto.
Qed.

Example C61_unique_refuted_case : 2 <= length [1; 2] /\ In 1 [1; 2].
Proof. split; cbn; auto. Qed.

(** Exactly: the only packs that are refused are those whose last two types are the same while all
    others are different. *)
Theorem C61_exact_partial : forall ts, 2 <= length ts ->
  (is_unique_pack ts = false <-> exists l x, ts = l ++ [x; x] /\ NoDup (l ++ [x])).
Proof.
  induction ts as [|a r IH]; cbn [length]; [lia|]. intros L.
  destruct r as [|b [|c r']].
  - cbn in L. lia.
  - cbn [is_unique_pack]. rewrite negb_false_iff, Nat.eqb_eq. split.
    + intros ->. exists [], b. split; [reflexivity|]. repeat constructor. intros [].
    + intros ([|y [|z l]] & x & E & _); cbn in E; [congruence|discriminate|].
      injection E as _ _ E. destruct l; discriminate E.
  - change (is_unique_pack (a :: b :: c :: r')) with
      (in_pack a (b :: c :: r') || is_unique_pack (b :: c :: r')).
    rewrite orb_false_iff, IH by (cbn; lia). split.
    + intros (Na & l & x & E & N). exists (a :: l), x. rewrite E. split; [reflexivity|].
      cbn [app]. constructor; [|exact N]. intros I.
      assert (Q : in_pack a (b :: c :: r') = true).
      { apply in_pack_in. rewrite E. rewrite in_app_iff in *. cbn in *. tauto. }
      congruence.
    + intros ([|y l] & x & E & N); cbn [app] in E; [discriminate|].
      injection E as -> E. cbn [app] in N. inversion N as [|? ? Ny Nl]; subst.
      split; [|eauto]. destruct (in_pack y (b :: c :: r')) eqn:Q; [|reflexivity].
      apply in_pack_in in Q. rewrite E in Q. destruct Ny. rewrite in_app_iff in *. cbn in *. tauto.
Qed.
Example C61_exact_case :
  is_unique_pack [1; 2; 3; 3] = false /\ [1; 2; 3; 3] = [1; 2] ++ [3; 3] /\ NoDup ([1; 2] ++ [3]) /\
  is_unique_pack [1; 1; 3; 3] = true.
Proof. repeat split. repeat constructor; cbn; intuition discriminate. Qed.

Print Assumptions C26_variant_partial.
Print Assumptions C27_lifetimes_partial.
Print Assumptions C27_copy_of_unset_refuted.
Print Assumptions C28_assign_unset_refuted.
Print Assumptions C28_equality_partial.
Print Assumptions C28_equality_refuted.
Print Assumptions C29_index_access_refuted.
Print Assumptions C29_index_access_partial.
Print Assumptions C29_exact_partial.
Print Assumptions C60_copy_named_refuted.
Print Assumptions C60_set_named_refuted.
Print Assumptions C60_copy_const_partial.
Print Assumptions C61_unique_partial.
Print Assumptions C61_unique_pair_partial.
Print Assumptions C61_unique_refuted.
Print Assumptions C61_exact_partial.
