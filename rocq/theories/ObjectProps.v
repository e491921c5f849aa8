(** C34, C35: theorems about Object. *)
From Coq Require Import List Arith ZArith Lia Bool.
From Verif Require Import Base BaseLemmas UtilsModel ObjectModel ObjectSpec PointersProofs
  VariantProofs ObjectProofs.
Import ListNotations.

(** Where Objects can lie: [align] is a power of two, all addresses are multiples of it. *)
Definition placed (align : Z) (addr : nat -> Z) : Prop :=
  (exists k, (0 <= k <= 40 /\ align = 2 ^ k)%Z) /\
  forall p, (0 < addr p < 2 ^ 47 /\ addr p mod align = 0)%Z.

(** Any number of Objects and any covered history (ObjectSpec.v): nothing is undefined, the
    values made and not destroyed are those held, and get<T>() of every Object gives the value
    it should hold. *)
Theorem C34_lifetimes_partial :
  forall (V : Type) (size align : Z) (addr : nat -> Z) (n : nat) (os : list (b_op V)),
  placed align addr -> b_ok size align addr (repeat None n) os ->
  exists w, b_run size align addr (b_start n) os = Ok w /\
    bw_made w = bw_gone w + b_held (b_result (repeat None n) os) /\
    forall p c, b_holds (b_result (repeat None n) os) p c ->
    exists v, bvar w p = Ok v /\
      match c with
      | None => b_bool v = false
      | Some (t, x) => b_bool v = true /\ b_get addr w p t = Ok x
      end.
Proof.
  intros V size align addr n os [Ha Hp] D.
  assert (R := fun p => proj1 (Hp p)). assert (A := fun p => proj2 (Hp p)).
  destruct (b_run_ok size align addr R A Ha os _ _ (b_start_inv size align addr n) D)
    as (w & E & H).
  exists w. split; [exact E|]. split; [apply H|]. intros p c Hc.
  destruct (bvar_at size align addr _ _ _ _ H Hc) as (v & Hv & Hn & Rl).
  exists v. split; [exact Hv|]. destruct c as [[t x]|].
  - assert (G := Rl). destruct G as (G & Dt & C). unfold b_bool. rewrite C. split; [reflexivity|].
    unfold b_get. rewrite Hv. cbn [bind]. eapply b_object_at; eauto.
  - cbn in Rl. unfold b_bool. rewrite Rl. reflexivity.
Qed.

(** Without over-aligned types every program is covered: C34 and C35 hold in full. *)
Theorem C34_lifetimes_small_partial :
  forall (V : Type) (size align : Z) (addr : nat -> Z) (n : nat) (os : list (b_op V)),
  placed align addr -> b_valid_run size align (repeat None n) os ->
  exists w, b_run size align addr (b_start n) os = Ok w /\
    bw_made w = bw_gone w + b_held (b_result (repeat None n) os) /\
    forall p c, b_holds (b_result (repeat None n) os) p c ->
    exists v, bvar w p = Ok v /\
      match c with
      | None => b_bool v = false
      | Some (t, x) => b_bool v = true /\ b_get addr w p t = Ok x
      end.
Proof.
  intros V size align addr n os P D. apply C34_lifetimes_partial; auto.
  assert (S : forall p t x, nth_error (repeat (@None (option (ctype * V))) n) p =
            Some (Some (Some (t, x))) -> good_type size align t /\ (ct_align t <= align)%Z).
  { intros p t x E. apply nth_error_repeat' in E. discriminate. }
  revert S D. generalize (repeat (@None (option (ctype * V))) n) as s.
  induction os as [|o os IH]; intros s S D; cbn [b_valid_run b_ok] in *; auto.
  destruct D as [D1 D2]. split.
  - assert (C : forall q, match b_content s q with
                          | Some (t, _) => good_type size align t /\ (ct_align t <= align)%Z
                          | None => True
                          end).
    { intros q. unfold b_content. destruct (nth_error s q) as [[[[t x]|]|]|] eqn:E; auto.
      exact (S _ _ _ E). }
    destruct P as [Pk Pa].
    assert (SP : forall p q, same_position addr p q (b_content s q)).
    { intros p q. apply (same_position_small size align addr);
        [intros r; apply Pa|exact Pk|apply C]. }
    destruct o; cbn [b_valid b_covered] in *; intuition.
  - apply IH; auto. intros p t x.
    destruct o as [p'|p' t' x'|p' q'|p' q'|p' t' x'|p']; cbn [b_spec b_valid] in *;
      rewrite ?nth_error_updx, ?upd_length.
    + destruct (p' =? p); [destruct (p' <? length s); discriminate|eauto].
    + destruct (p' =? p); [|eauto]. destruct (p' <? length s); [|discriminate].
      intros [= -> ->]. tauto.
    + destruct (q' =? p); [destruct (q' <? length s); discriminate|].
      destruct (p' =? p); [|eauto]. destruct (p' <? length s); [|discriminate].
      intros [= E]. unfold b_content in E.
      destruct (nth_error s q') as [[c|]|] eqn:Eq; try discriminate. subst c. eauto.
    + destruct (q' =? p); [destruct (q' <? length s); discriminate|].
      destruct (p' =? p); [|eauto]. destruct (p' <? length s); [|discriminate].
      intros [= E]. unfold b_content in E.
      destruct (nth_error s q') as [[c|]|] eqn:Eq; try discriminate. subst c. eauto.
    + destruct (p' =? p); [|eauto]. destruct (p' <? length s); [|discriminate].
      intros [= -> ->]. tauto.
    + destruct (p' =? p); [destruct (p' <? length s); discriminate|eauto].
Qed.

Example C34_case :
  let t := CT 1 4 4 in
  let u := CT 2 16 8 in
  let os := [BFrom 0 t 10; BDefault 1; BMoveAssign 1 0; BSet 1 u 20; BMove 2 1; BDestroy 2;
             BMoveAssign 0 0] in
  b_valid_run 32 8 (repeat None 3) os.
Proof.
  cbn. unfold b_none, b_exists, b_holds, good_type; cbn.
  repeat split; try lia; try (eexists; reflexivity);
    try (exists 2%Z; cbn; lia); try (exists 3%Z; cbn; lia).
Qed.

Example C34_placed_case : placed 8 (fun p => 8 * Z.of_nat (1 + p mod 1000))%Z.
Proof.
  split; [exists 3%Z; cbn; lia|]. intros p. cbn beta.
  assert (p mod 1000 < 1000) by (apply Nat.mod_upper_bound; lia).
  split; [|rewrite Z.mul_comm; apply Z.mod_mul; lia].
  change (2 ^ 47)%Z with 140737488355328%Z. lia.
Qed.

(** * C35: over-aligned types *)

(** A value whose type is aligned more strictly than the storage: when the two Objects lie
    differently with respect to that alignment, the moved-to Object does not give the value,
    and ending it is undefined. Source and target are any Objects after any covered
    history. *)
Theorem C35_move_refuted :
  forall (V : Type) (size align : Z) (addr : nat -> Z) (n : nat) (os : list (b_op V)) w p q t x,
  placed align addr -> b_ok size align addr (repeat None n) os ->
  b_run size align addr (b_start n) os = Ok w ->
  b_holds (b_result (repeat None n) os) q (Some (t, x)) ->
  b_exists (b_result (repeat None n) os) p -> p <> q ->
  (addr p mod ct_align t <> addr q mod ct_align t)%Z ->
  exists w' v, b_step size align addr w (BMoveAssign p q) = Ok w' /\ bvar w' p = Ok v /\
    b_bool v = true /\ b_get addr w' p t = UB /\ b_step size align addr w' (BDestroy p) = UB.
Proof.
  intros V size align addr n os w p q t x [Ha Hp] D E Hq (d & Hd) N NP.
  assert (R := fun p => proj1 (Hp p)). assert (A := fun p => proj2 (Hp p)).
  destruct (b_run_ok size align addr R A Ha os _ _ (b_start_inv size align addr n) D)
    as (w0 & E0 & H).
  rewrite E in E0. injection E0 as <-.
  set (s := b_result (repeat None n) os) in *. clearbody s.
  destruct (b_clear_ok size align addr R w s p d H Hd) as (w1 & E1 & H1 & _).
  unfold b_holds in *.
  assert (Lp : p < length s) by (apply nth_error_Some; congruence).
  destruct (bvar_at size align addr w1 _ q (Some (t, x)) H1) as (v & Hv & Hn & Rl).
  { rewrite nth_error_upd_neq; auto. }
  destruct Rl as (G & Dt & C).
  assert (L1 : p < length (bw_vars w1)).
  { rewrite (proj1 H1), upd_length. auto. }
  set (w' := bput (bput w1 p (Some (OB (ob_data v) (ob_callback v)))) q
               (Some (OB (ob_data v) None))).
  assert (Vp : bvar w' p = Ok (OB (ob_data v) (ob_callback v))).
  { unfold w', bvar, bput. cbn [bw_vars]. rewrite nth_error_upd_neq by auto.
    rewrite nth_error_upd_eq; auto. }
  exists w', (OB (ob_data v) (ob_callback v)).
  assert (Bad : b_object addr p (OB (ob_data v) (ob_callback v)) t = UB).
  { unfold b_object. rewrite (b_offset_ok size align addr R p t G). cbn [bind ob_data].
    rewrite Dt. destruct (Z.eqb_spec (shift addr p t) (shift addr q t)) as [Es|]; [|reflexivity].
    exfalso. apply NP. destruct G as (_ & _ & k & Hk & Ek).
    assert (P : (0 < ct_align t)%Z) by (rewrite Ek; apply Z.pow_pos_nonneg; lia).
    assert (Bp := Z.mod_pos_bound (addr p) (ct_align t) P).
    assert (Bq := Z.mod_pos_bound (addr q) (ct_align t) P).
    unfold shift in Es.
    destruct (Z.eqb_spec (addr p mod ct_align t) 0);
      destruct (Z.eqb_spec (addr q mod ct_align t) 0); lia. }
  split; [|split; [exact Vp|split; [|split]]].
  - cbn [b_step]. unfold b_move_assign. rewrite E1. cbn [bind]. rewrite Hv. cbn [bind].
    unfold bvar, bput. cbn [bw_vars]. rewrite nth_error_upd_neq by auto. rewrite Hn. reflexivity.
  - unfold b_bool. cbn. rewrite C. reflexivity.
  - unfold b_get. rewrite Vp. cbn [bind]. exact Bad.
  - cbn [b_step]. unfold b_destroy. rewrite Vp. cbn [bind ob_callback].
    rewrite C in Bad |- *. unfold b_callback. rewrite Bad. reflexivity.
Qed.

(** Both Objects may be neighbours: pointer-aligned storage of 64 bytes, a type with size and
    alignment 16. *)
Example C35_case :
  let addr := fun p => (8 * Z.of_nat (1 + p mod 1000))%Z in
  let t := CT 1 16 16 in
  placed 8 addr /\ b_ok 64 8 addr (repeat None 2) [BFrom 0 t 10; BDefault 1] /\
  b_holds (b_result (repeat None 2) [BFrom 0 t 10; BDefault 1]) 0 (Some (t, 10)) /\
  (addr 1%nat mod ct_align t <> addr 0%nat mod ct_align t)%Z.
Proof.
  split; [apply C34_placed_case|]. cbn. unfold b_none, good_type; cbn.
  repeat split; try lia. exists 4%Z. lia.
Qed.

Print Assumptions C34_lifetimes_partial.
Print Assumptions C34_lifetimes_small_partial.
Print Assumptions C35_move_refuted.
