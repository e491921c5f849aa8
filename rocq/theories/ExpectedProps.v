(** C32, C33: theorems about the two Expected classes. *)
From Coq Require Import List Arith ZArith Lia Bool.
From Verif Require Import Base BaseLemmas VariantModel VariantSpec VariantProofs ExpectedModel
  ExpectedSpec PointersProofs ExpectedProofs.
Import ListNotations.

(** * C32: lifetimes in flame_ide::Expected *)

(** Any number of objects and any covered history (ExpectedSpec.v): nothing is undefined (in
    particular nothing is destroyed twice), and the objects made and not destroyed are those
    still held plus one for every value handed over. Missing: copy assignment to an Expected
    that holds something, self-move, and the destruction of the handed over values. *)
Theorem C32_lifetimes_partial :
  forall (V : Type) (mv : V -> V) (n : nat) (os : list (x_op V)),
  x_ok (x_empty n) os ->
  exists w, x_run mv (x_start n) os = Ok w /\
    xw_made w = xw_gone w + x_held (x_result (x_empty n) os)
                + xs_taken (x_result (x_empty n) os).
Proof.
  intros V mv n os D.
  destruct (x_run_ok mv os _ _ (x_start_inv n) D) as (w & E & H).
  exists w. split; [exact E|]. apply H.
Qed.

Example C32_case :
  let os := [XDefault 0; XSet 0 Result 10; XSet 0 Error 11; XCopy 1 0; XFrom 2 Result 12;
             XMoveAssign 1 2; XIfConst 1 Result; XIf 1 Result (fun x => x); XAssign 1 0;
             XDestroy 1; XDestroy 0] in
  x_ok (x_empty 3) os /\
  x_result (x_empty 3) os =
    XS [None; None; Some None] [(Result, 12); (Result, 12)] 2.
Proof.
  split; [|reflexivity]. cbn. unfold x_none, x_exists, x_holds, x_content; cbn.
  repeat (split; [repeat split; try reflexivity; try (eexists; reflexivity);
                  try (left; discriminate); auto|]).
  exact I.
Qed.

(** A value handed over is never destroyed: after any covered history, take what [p] holds
    and end [p]; one object more than before is made and neither gone nor held. *)
Theorem C32_taken_leak_refuted :
  forall (V : Type) (mv : V -> V) (n : nat) (os : list (x_op V)) w p k x h,
  x_ok (x_empty n) os -> x_run mv (x_start n) os = Ok w ->
  x_holds (x_result (x_empty n) os) p (Some (k, x)) ->
  exists w', x_run mv w [XIf p k h; XDestroy p] = Ok w' /\
    xw_made w' = xw_made w /\ xw_gone w' = xw_gone w.
Proof.
  intros V mv n os w p k x h D E Hp.
  destruct (x_run_ok mv os _ _ (x_start_inv n) D) as (w0 & E0 & H).
  rewrite E in E0. injection E0 as <-.
  destruct (xvar_at _ _ _ _ H Hp) as (v & Hx & Hn & Ha & Hw).
  apply xabs_some in Ha; auto. subst v.
  assert (Hl : p < length (xw_vars w)) by (apply nth_error_Some; congruence).
  cbn [x_run x_step]. unfold x_if. rewrite Hx. cbn [bind x_state].
  rewrite kind_eqb_refl. unfold x_object. cbn [x_cell]. rewrite kind_eqb_refl. cbn [bind].
  unfold x_destroy, x_clear, xvar, xput, x_log. cbn [xw_vars].
  rewrite nth_error_upd_eq by auto. cbn [bind x_state].
  eexists. split; [reflexivity|]. split; reflexivity.
Qed.

Example C32_taken_case :
  let os := [XFrom 0 Error 5; XMove 1 0] in
  x_ok (x_empty 2) os /\ x_holds (x_result (x_empty 2) os) 1 (Some (Error, 5)).
Proof.
  cbn. unfold x_none, x_exists, x_holds, x_content; cbn.
  repeat split; try (eexists; reflexivity).
Qed.

(** Copy assignment to an Expected that holds something destroys the value twice: at once if
    the source holds something, otherwise when the target ends. *)
Theorem C32_copy_assign_refuted :
  forall (V : Type) (mv : V -> V) (n : nat) (os : list (x_op V)) w p q c d,
  x_ok (x_empty n) os -> x_run mv (x_start n) os = Ok w ->
  x_holds (x_result (x_empty n) os) p (Some c) -> x_holds (x_result (x_empty n) os) q d ->
  match d with
  | Some _ => x_step mv w (XAssign p q) = UB
  | None => exists w', x_step mv w (XAssign p q) = Ok w' /\ x_step mv w' (XDestroy p) = UB
  end.
Proof.
  intros V mv n os w p q [k x] d D E Hp Hq.
  destruct (x_run_ok mv os _ _ (x_start_inv n) D) as (w0 & E0 & H).
  rewrite E in E0. injection E0 as <-.
  destruct (xvar_at _ _ _ _ H Hp) as (v & Hx & Hn & Ha & Hw).
  apply xabs_some in Ha; auto. subst v.
  assert (Hl : p < length (xw_vars w)) by (apply nth_error_Some; congruence).
  destruct (xvar_at _ _ _ _ H Hq) as (u & Hy & Hnq & Haq & Hwq).
  assert (C : x_clear w p = Ok (XW (upd (xw_vars w) p (Some (XR (Some k) None)))
                                   (xw_made w) (S (xw_gone w)) (xw_calls w))).
  { unfold x_clear. rewrite Hx. cbn [bind x_state]. unfold x_object. cbn [x_cell].
    rewrite kind_eqb_refl. reflexivity. }
  destruct (Nat.eq_dec p q) as [<-|N].
  - unfold x_holds in *. rewrite Hp in Hq. injection Hq as <-.
    cbn [x_step]. unfold x_assign. rewrite C. cbn [bind]. unfold xvar. cbn [xw_vars].
    rewrite nth_error_upd_eq by auto. reflexivity.
  - assert (Yq : xvar (XW (upd (xw_vars w) p (Some (XR (Some k) None)))
                          (xw_made w) (S (xw_gone w)) (xw_calls w)) q = Ok u).
    { unfold xvar. cbn [xw_vars]. rewrite nth_error_upd_neq by auto. rewrite Hnq. reflexivity. }
    destruct d as [[j y]|].
    + apply xabs_some in Haq; auto. subst u.
      cbn [x_step]. unfold x_assign. rewrite C. cbn [bind]. rewrite Yq. cbn [bind x_state].
      unfold x_object. cbn [x_cell]. rewrite kind_eqb_refl. cbn [bind].
      unfold x_set, x_clear, xvar. cbn [xw_vars]. rewrite nth_error_upd_eq by auto. reflexivity.
    + cbn [x_step]. unfold x_assign. rewrite C. cbn [bind]. rewrite Yq. cbn [bind].
      rewrite (xabs_none _ Hwq Haq). eexists. split; [reflexivity|].
      unfold x_destroy, x_clear, xvar. cbn [xw_vars]. rewrite nth_error_upd_eq by auto.
      reflexivity.
Qed.

Example C32_copy_assign_case :
  let os := [XFrom 0 Error 5; XFrom 1 Result 6; XDefault 2] in
  x_ok (x_empty 3) os /\ x_holds (x_result (x_empty 3) os) 0 (Some (Error, 5)) /\
  x_holds (x_result (x_empty 3) os) 1 (Some (Result, 6)) /\
  x_holds (x_result (x_empty 3) os) 2 None.
Proof. cbn. unfold x_none, x_exists, x_holds, x_content; cbn. repeat split. Qed.

(** * C33: handlers *)

(** The calls made over any covered history are those of the specification, and what each
    object holds afterwards is what the specification says. *)
Theorem C33_handlers_partial :
  forall (V : Type) (mv : V -> V) (n : nat) (os : list (x_op V)),
  x_ok (x_empty n) os ->
  exists w, x_run mv (x_start n) os = Ok w /\
    xw_calls w = xs_calls (x_result (x_empty n) os) /\
    forall p c, x_holds (x_result (x_empty n) os) p c ->
    exists v, xvar w p = Ok v /\
      match c with
      | None => x_state v = None
      | Some (k, x) => x_state v = Some k /\ x_object v k = Ok x
      end.
Proof.
  intros V mv n os D.
  destruct (x_run_ok mv os _ _ (x_start_inv n) D) as (w & E & H).
  exists w. split; [exact E|]. split; [apply H|]. intros p c Hp.
  destruct (xvar_at _ _ _ _ H Hp) as (v & Hx & Hn & Ha & Hw). exists v. split; [exact Hx|].
  destruct c as [[k x]|].
  - apply xabs_some in Ha; auto. subst v. split; [reflexivity|].
    unfold x_object. cbn. rewrite kind_eqb_refl. reflexivity.
  - apply xabs_none; auto.
Qed.

(** Spelled out for the chain ifResult(f).ifError(g), as consuming calls and as const calls,
    in both orders, followed by any chain of further handler calls on the same object: after
    any covered history the matching handler is called once, with the stored value, the other
    one is not, and after the consuming chain no handler is called again. *)
Definition handler_call (V : Type) (p : nat) (o : x_op V) : Prop :=
  match o with
  | XIf q _ _ | XIfConst q _ => q = p
  | _ => False
  end.

Theorem C33_chain_partial :
  forall (V : Type) (mv : V -> V) (n : nat) (os : list (x_op V)) w p c k k' h h'
         (more : list (x_op V)),
  x_ok (x_empty n) os -> x_run mv (x_start n) os = Ok w ->
  x_holds (x_result (x_empty n) os) p c -> k <> k' -> Forall (handler_call V p) more ->
  (exists w', x_run mv w [XIfConst p k; XIfConst p k'] = Ok w' /\
     xw_calls w' = xw_calls w ++ match c with Some (j, x) => [(j, x)] | None => [] end /\
     xvar w' p = xvar w p) /\
  (exists w', x_run mv w ([XIf p k h; XIf p k' h'] ++ more) = Ok w' /\
     xw_calls w' = xw_calls w ++ match c with Some (j, x) => [(j, x)] | None => [] end /\
     exists v, xvar w' p = Ok v /\ x_state v = None).
Proof.
  intros V mv n os w p c k k' h h' more D E Hp N Hm.
  destruct (x_run_ok mv os _ _ (x_start_inv n) D) as (w0 & E0 & H).
  rewrite E in E0. injection E0 as <-.
  set (s := x_result (x_empty n) os) in *. clearbody s.
  destruct (xvar_at _ _ _ _ H Hp) as (v & Hx & Hn & Ha & Hw).
  assert (Hl : p < length (xw_vars w)) by (apply nth_error_Some; congruence).
  assert (M : forall l w1 v1, Forall (handler_call V p) l -> xvar w1 p = Ok v1 ->
                x_state v1 = None -> x_run mv w1 l = Ok w1).
  { induction l as [|o l IH]; intros w1 v1 F X S; [reflexivity|].
    inversion F as [|? ? F1 F2]; subst. destruct o; cbn in F1; try contradiction; subst;
      cbn [x_run x_step]; unfold x_if, x_if_const; rewrite X; cbn [bind]; rewrite S;
      cbn [bind]; eapply IH; eauto. }
  split.
  - destruct c as [[j x]|].
    + apply xabs_some in Ha; auto. subst v.
      cbn [x_run x_step]. unfold x_if_const. rewrite Hx. cbn [bind x_state].
      unfold xvar in Hx.
      destruct j, k, k'; try congruence; cbn [kind_eqb bind]; unfold x_object, xvar, x_log;
        cbn [x_cell kind_eqb bind xw_vars]; rewrite Hn; cbn [bind x_state kind_eqb x_cell];
        eexists; (split; [reflexivity|]); split; auto.
    + cbn [x_run x_step]. unfold x_if_const. rewrite Hx. cbn [bind].
      rewrite (xabs_none _ Hw Ha). cbn [bind]. rewrite Hx. cbn [bind].
      rewrite (xabs_none _ Hw Ha). cbn [bind]. eexists. split; [reflexivity|].
      rewrite app_nil_r. auto.
  - destruct c as [[j x]|].
    + apply xabs_some in Ha; auto. subst v.
      set (w1 := xput (x_log w j x) p
                   (Some (XR None (Some (j, (if kind_eqb j k then h else h') x))))).
      assert (X1 : xvar w1 p = Ok (XR None (Some (j, (if kind_eqb j k then h else h') x)))).
      { unfold w1, xvar, xput, x_log. cbn [xw_vars]. rewrite nth_error_upd_eq; auto. }
      assert (R : x_run mv w [XIf p k h; XIf p k' h'] = Ok w1).
      { cbn [x_run x_step]. unfold x_if at 1. rewrite Hx. cbn [bind x_state].
        destruct j, k, k'; try congruence; cbn [kind_eqb bind] in *; unfold x_object;
          cbn [x_cell kind_eqb bind]; unfold x_if;
          (fold w1; rewrite X1 || rewrite Hx); cbn [bind x_state kind_eqb x_cell];
          unfold x_object; cbn [x_cell kind_eqb bind]; reflexivity. }
      exists w1. rewrite x_run_app, R. cbn [bind]. split; [eapply M; eauto|].
      split; [reflexivity|]. eauto.
    + assert (S := xabs_none _ Hw Ha). exists w. split.
      * apply (M _ _ v); auto. apply Forall_app. split; auto.
        constructor; [reflexivity|]. constructor; [reflexivity|]. constructor.
      * rewrite app_nil_r. eauto.
Qed.

Example C33_chain_case :
  let os := [XFrom 0 Error 5] in
  x_ok (x_empty 1) os /\ x_holds (x_result (x_empty 1) os) 0 (Some (Error, 5)) /\
  Error <> Result /\ Forall (handler_call nat 0) [XIf 0 Error S; XIfConst 0 Error].
Proof. cbn. repeat split; try discriminate. repeat constructor. Qed.

(** ** flame_ide::templates::Expected

    [holds_in s p (Some (t_kind k, x))]: [p] holds the result or error [x]; the history [os] is
    any covered history of the variant inside (VariantSpec.v). *)
Lemma t_size : (Z.of_nat (length t_types) < 2 ^ 63)%Z.
Proof. cbn. lia. Qed.
Lemma t_kind_in k : In (t_kind k) t_types.
Proof. destruct k; cbn; auto. Qed.

Lemma t_get_mk {V} (x : V) k j :
  v_get t_types (mk t_types (Some (t_kind k, x))) (t_kind j) =
  Ok (if kind_eqb k j then Some x else None).
Proof. destruct k, j; reflexivity. Qed.

(** The matching handler, and no other, is called, with the stored value; a const call leaves
    everything as it is; after done() no handler is called. *)
Theorem C33_templates_partial :
  forall (V : Type) (mv : V -> V) (n : nat) (os : list (v_op V)) p c,
  v_ok mv t_types (repeat None n) os ->
  holds_in (v_result mv t_types (repeat None n) os) p
           (option_map (fun kx : kind * V => (t_kind (fst kx), snd kx)) c) ->
  exists w, v_run mv t_types (v_start n) os = Ok w /\
    (forall j, te_if_const w p j =
       Ok match c with
          | Some (k, x) => if kind_eqb k j then Some x else None
          | None => None
          end) /\
    (forall j h, exists w', te_if h w p j =
       Ok (match c with
           | Some (k, x) => if kind_eqb k j then Some x else None
           | None => None
           end, w')) /\
    (exists w', te_done w p = Ok w' /\ forall j, te_if_const w' p j = Ok None /\
                forall h, te_if h w' p j = Ok (None, w')).
Proof.
  intros V mv n os p c D Hp.
  destruct (v_run_ok mv t_types t_size os _ _ (v_start_inv t_types n) D) as (w & E & H).
  exists w. split; [exact E|].
  assert (Hv := var_at _ _ _ _ _ H Hp).
  assert (G : forall j, te_if_const w p j =
       Ok match c with
          | Some (k, x) => if kind_eqb k j then Some x else None
          | None => None
          end).
  { intros j. unfold te_if_const. rewrite Hv. cbn [bind]. destruct c as [[k x]|].
    - apply t_get_mk.
    - destruct j; reflexivity. }
  split; [exact G|]. split.
  - intros j h. specialize (G j). unfold te_if_const in G. unfold te_if. rewrite Hv in *.
    cbn [bind] in *. rewrite G. cbn [bind].
    destruct c as [[k x]|]; [destruct (kind_eqb k j)|]; eauto.
  - destruct (v_step_act mv t_types t_size w _ (VReset p) H) as (w' & E' & H').
    { eexists. exact Hp. }
    exists w'. split; [exact E'|].
    assert (Hp' : holds_in (act mv t_types (v_result mv t_types (repeat None n) os) (VReset p))
                           p None).
    { unfold holds_in in *. cbn. rewrite nth_error_upd_eq; auto.
      apply nth_error_Some. congruence. }
    assert (Hv' := var_at _ _ _ _ _ H' Hp').
    intros j. unfold te_if_const, te_if. rewrite Hv'. destruct j; split; reflexivity.
Qed.

Example C33_templates_case :
  let os := [VFrom 0 (t_kind Result) 100; VSet 0 (t_kind Error) 5] in
  v_ok (fun _ => 0) t_types (repeat None 1) os /\
  holds_in (v_result (fun _ => 0) t_types (repeat None 1) os) 0
    (option_map (fun kx : kind * nat => (t_kind (fst kx), snd kx)) (Some (Error, 5))).
Proof. cbn. repeat split. eexists. reflexivity. Qed.

(** The consuming calls do not consume: the handler is called again, with whatever the first
    call left behind. *)
Theorem C33_templates_again_refuted :
  forall (V : Type) (mv : V -> V) (n : nat) (os : list (v_op V)) p k x h h',
  v_ok mv t_types (repeat None n) os ->
  holds_in (v_result mv t_types (repeat None n) os) p (Some (t_kind k, x)) ->
  exists w w1 w2, v_run mv t_types (v_start n) os = Ok w /\
    te_if h w p k = Ok (Some x, w1) /\ te_if h' w1 p k = Ok (Some (h x), w2).
Proof.
  intros V mv n os p k x h h' D Hp.
  destruct (v_run_ok mv t_types t_size os _ _ (v_start_inv t_types n) D) as (w & E & H).
  exists w. assert (Hv := var_at _ _ _ _ _ H Hp).
  assert (Hl : p < length (w_vars w)).
  { apply nth_error_Some. unfold var in Hv. destruct (nth_error (w_vars w) p); congruence. }
  assert (S : te_if h w p k = Ok (Some x, put w p (Some (mk t_types (Some (t_kind k, h x)))))).
  { unfold te_if. rewrite Hv. cbn [bind]. rewrite t_get_mk.
    destruct k; reflexivity. }
  do 2 eexists. split; [exact E|]. split; [exact S|].
  unfold te_if, var, put. cbn [w_vars]. rewrite nth_error_upd_eq by auto. cbn [bind].
  rewrite t_get_mk. rewrite kind_eqb_refl. cbn [bind]. reflexivity.
Qed.

Example C33_templates_again_case :
  let os := [VFrom 0 (t_kind Result) 100] in
  v_ok (fun _ => 0) t_types (repeat None 1) os /\
  holds_in (v_result (fun _ => 0) t_types (repeat None 1) os) 0 (Some (t_kind Result, 100)).
Proof. cbn. repeat split. Qed.

(** * C62: assigning a value to a templates::Expected *)

(** A const or temporary result, or a temporary error, is what handlers then see. *)
Theorem C62_assign_partial :
  forall (V : Type) (mv : V -> V) (n : nat) (os : list (v_op V)) p k x,
  v_ok mv t_types (repeat None n) os ->
  is_var (v_result mv t_types (repeat None n) os) p ->
  exists w w', v_run mv t_types (v_start n) os = Ok w /\ te_set w p k x = Ok w' /\
    forall j, te_if_const w' p j = Ok (if kind_eqb k j then Some x else None).
Proof.
  intros V mv n os p k x D Hp.
  destruct (v_run_ok mv t_types t_size os _ _ (v_start_inv t_types n) D) as (w & E & H).
  destruct (v_step_act mv t_types t_size w _ (VSet p (t_kind k) x) H Hp) as (w' & E' & H').
  exists w, w'. split; [exact E|]. split; [exact E'|]. intros j.
  unfold te_if_const.
  assert (Hv : var w' p = Ok (mk t_types (Some (t_kind k, x)))).
  { eapply var_at; [exact H'|]. destruct Hp as (c & Hp). unfold holds_in in *.
    cbn [act v_spec]. rewrite nth_error_upd_eq by (apply nth_error_Some; congruence).
    unfold stored. destruct (in_dec Nat.eq_dec (t_kind k) t_types) as [|F]; [reflexivity|].
    exfalso. apply F, t_kind_in. }
  rewrite Hv. cbn [bind]. apply t_get_mk.
Qed.

(** The same for a new Expected made from a result or an error. *)
Theorem C62_construct :
  forall (V : Type) (mv : V -> V) (n : nat) (os : list (v_op V)) p k x,
  v_ok mv t_types (repeat None n) os ->
  no_var (v_result mv t_types (repeat None n) os) p ->
  exists w w', v_run mv t_types (v_start n) os = Ok w /\ te_from w p k x = Ok w' /\
    forall j, te_if_const w' p j = Ok (if kind_eqb k j then Some x else None).
Proof.
  intros V mv n os p k x D Hp.
  destruct (v_run_ok mv t_types t_size os _ _ (v_start_inv t_types n) D) as (w & E & H).
  destruct (v_step_act mv t_types t_size w _ (VFrom p (t_kind k) x) H Hp) as (w' & E' & H').
  exists w, w'. split; [exact E|]. split; [exact E'|]. intros j.
  unfold te_if_const.
  assert (Hv : var w' p = Ok (mk t_types (Some (t_kind k, x)))).
  { eapply var_at; [exact H'|]. unfold holds_in, no_var in *.
    cbn [act v_spec]. rewrite nth_error_upd_eq by (apply nth_error_Some; congruence).
    unfold stored. destruct (in_dec Nat.eq_dec (t_kind k) t_types) as [|F]; [reflexivity|].
    exfalso. apply F, t_kind_in. }
  rewrite Hv. cbn [bind]. apply t_get_mk.
Qed.

Example C62_construct_case :
  v_ok (fun _ => 0) t_types (repeat None 2) [VFrom 0 (t_kind Result) 100] /\
  no_var (v_result (fun _ => 0) t_types (repeat None 2) [VFrom 0 (t_kind Result) 100]) 1.
Proof. cbn. repeat split. Qed.

(** A const error is lost, together with what was there: no handler is called afterwards. *)
Theorem C62_assign_const_error_refuted :
  forall (V : Type) (mv : V -> V) (n : nat) (os : list (v_op V)) p x,
  v_ok mv t_types (repeat None n) os ->
  is_var (v_result mv t_types (repeat None n) os) p ->
  exists w w', v_run mv t_types (v_start n) os = Ok w /\ te_set_const_error w p x = Ok w' /\
    forall j, te_if_const w' p j = Ok None.
Proof.
  intros V mv n os p x D Hp.
  destruct (v_run_ok mv t_types t_size os _ _ (v_start_inv t_types n) D) as (w & E & H).
  destruct (v_step_act mv t_types t_size w _ (VSet p t_const_error x) H Hp) as (w' & E' & H').
  exists w, w'. split; [exact E|]. split; [exact E'|]. intros j.
  unfold te_if_const.
  assert (Hv : var w' p = Ok (mk t_types (@None (nat * V)))).
  { eapply var_at; [exact H'|]. destruct Hp as (c & Hp). unfold holds_in in *.
    cbn [act v_spec]. rewrite nth_error_upd_eq by (apply nth_error_Some; congruence).
    reflexivity. }
  rewrite Hv. destruct j; reflexivity.
Qed.

Example C62_case :
  let os := [VFrom 0 (t_kind Result) 100] in
  v_ok (fun _ => 0) t_types (repeat None 1) os /\
  is_var (v_result (fun _ => 0) t_types (repeat None 1) os) 0.
Proof. cbn. repeat split. eexists. reflexivity. Qed.

(** * C63: copying a templates::Expected *)

(** The copy has the value, and the source is left with the moved-from value although it is
    const in the interface. *)
Theorem C63_copy_refuted :
  forall (V : Type) (mv : V -> V) (n : nat) (os : list (v_op V)) p q k x,
  v_ok mv t_types (repeat None n) os ->
  holds_in (v_result mv t_types (repeat None n) os) q (Some (t_kind k, x)) ->
  no_var (v_result mv t_types (repeat None n) os) p ->
  exists w w', v_run mv t_types (v_start n) os = Ok w /\ te_copy mv w p q = Ok w' /\
    te_if_const w q k = Ok (Some x) /\
    te_if_const w' p k = Ok (Some x) /\ te_if_const w' q k = Ok (Some (mv x)).
Proof.
  intros V mv n os p q k x D Hq Hp.
  destruct (v_run_ok mv t_types t_size os _ _ (v_start_inv t_types n) D) as (w & E & H).
  destruct (v_step_act mv t_types t_size w _ (VCopyNamed p q) H) as (w' & E' & H').
  { cbn. split; eauto. }
  assert (N : q <> p) by (unfold holds_in, no_var in *; congruence).
  exists w, w'. split; [exact E|]. split; [exact E'|]. unfold te_if_const.
  assert (C : content (v_result mv t_types (repeat None n) os) q = Some (t_kind k, x)).
  { unfold content, holds_in in *. rewrite Hq. reflexivity. }
  assert (A : var w' p = Ok (mk t_types (Some (t_kind k, x)))).
  { eapply var_at; [exact H'|]. cbn [act]. rewrite C. unfold holds_in, no_var in *.
    rewrite nth_error_upd_neq by auto.
    apply nth_error_upd_eq. apply nth_error_Some. congruence. }
  assert (B : var w' q = Ok (mk t_types (Some (t_kind k, mv x)))).
  { eapply var_at; [exact H'|]. cbn [act]. rewrite C. unfold holds_in, no_var in *.
    apply nth_error_upd_eq. rewrite upd_length. apply nth_error_Some. congruence. }
  rewrite (var_at _ _ _ _ _ H Hq), A, B. cbn [bind]. rewrite !t_get_mk, kind_eqb_refl. auto.
Qed.

Example C63_case :
  let os := [VFrom 0 (t_kind Error) 100] in
  v_ok (fun _ => 0) t_types (repeat None 2) os /\
  holds_in (v_result (fun _ => 0) t_types (repeat None 2) os) 0 (Some (t_kind Error, 100)) /\
  no_var (v_result (fun _ => 0) t_types (repeat None 2) os) 1.
Proof. cbn. repeat split. Qed.

Print Assumptions C32_lifetimes_partial.
Print Assumptions C32_taken_leak_refuted.
Print Assumptions C32_copy_assign_refuted.
Print Assumptions C33_handlers_partial.
Print Assumptions C33_chain_partial.
Print Assumptions C33_templates_partial.
Print Assumptions C33_templates_again_refuted.
Print Assumptions C62_assign_partial.
Print Assumptions C62_assign_const_error_refuted.
(** For values that a move leaves as they are (numbers, plain structures) copy and source are equal
    afterwards, so that the copy is one. *)
Theorem C63_copy_partial :
  forall (V : Type) (mv : V -> V) (n : nat) (os : list (v_op V)) p q k x,
  mv x = x ->
  v_ok mv t_types (repeat None n) os ->
  holds_in (v_result mv t_types (repeat None n) os) q (Some (t_kind k, x)) ->
  no_var (v_result mv t_types (repeat None n) os) p ->
  exists w w', v_run mv t_types (v_start n) os = Ok w /\ te_copy mv w p q = Ok w' /\
    te_if_const w q k = Ok (Some x) /\
    te_if_const w' p k = Ok (Some x) /\ te_if_const w' q k = Ok (Some x).
Proof.
  intros V mv n os p q k x M D Hq Hp.
  destruct (C63_copy_refuted V mv n os p q k x D Hq Hp) as (w & w' & R). rewrite M in R. eauto.
Qed.

Print Assumptions C63_copy_refuted.
Print Assumptions C63_copy_partial.
Print Assumptions C62_construct.
