(** C34, C35: exactly what Objects do in any program. *)
From Coq Require Import List Arith ZArith Lia Bool.
From Verif Require Import Base BaseLemmas UtilsModel ObjectModel ObjectSpec ObjectExactSpec PointersProofs
  VariantProofs ObjectProofs ObjectProps.
Import ListNotations.

Lemma upd_comm : forall {B} (l : list B) i j x y, i <> j -> upd (upd l i x) j y = upd (upd l j y) i x.
Proof.
  induction l as [|b l IH]; intros [|i] [|j] x y N; cbn; auto; try congruence. rewrite IH; auto.
Qed.

Section Exact.
  Context {V : Type}.
  Variables (size align : Z) (addr : nat -> Z).
  Hypothesis addr_range : forall p, (0 < addr p < 2 ^ 47)%Z.
  Hypothesis addr_aligned : forall p, (addr p mod align = 0)%Z.
  Hypothesis align_pow : exists k, (0 <= k <= 40 /\ align = 2 ^ k)%Z.
  Notation state := (list (option (content V))).

  Definition offset_of (t : ctype) (r : Z) : Z := (if r =? 0 then 0 else ct_align t - r)%Z.
  Definition is (v : object V) (c : content V) : Prop :=
    match c with
    | Nothing => ob_callback v = None
    | Value t x r => good_type size align t /\ (0 <= r < ct_align t)%Z /\
        ob_data v = Some (offset_of t r, t, x) /\ ob_callback v = Some t
    end.
  Definition full (c : option (content V)) : bool := match c with Some (Value _ _ _) => true | _ => false end.
  Definition like (w : bworld V) (s : state) : Prop :=
    length (bw_vars w) = length s /\
    (forall p, match nth_error (bw_vars w) p, nth_error s p with
               | Some (Some v), Some (Some c) => is v c
               | Some None, Some None => True
               | None, None => True
               | _, _ => False
               end) /\
    bw_made w = bw_gone w + length (filter full s).

  Lemma like_upd w s p c v c' m g :
    like w s -> nth_error s p = Some c ->
    match v, c' with Some v, Some c => is v c | None, None => True | _, _ => False end ->
    m + (if full c then 1 else 0) + bw_gone w = bw_made w + g + (if full c' then 1 else 0) ->
    like (BW (upd (bw_vars w) p v) m g) (upd s p c').
  Proof.
    intros (L & H & M) Hp R E. split; [|split]; cbn [bw_vars bw_made bw_gone].
    - rewrite !upd_length. exact L.
    - intros q. rewrite !nth_error_updx. destruct (Nat.eqb_spec p q) as [<-|N].
      + assert (p < length s) by (apply nth_error_Some; congruence).
        rewrite L. destruct (Nat.ltb_spec p (length s)); [|lia].
        destruct v, c'; auto.
      + apply H.
    - assert (C := countb_upd full s p c c' Hp). lia.
  Qed.

  Lemma object_at p v t x r t' : is v (Value t x r) -> good_type size align t' ->
    b_object addr p v t' = if ctype_eqb t' t && (position addr p t =? r)%Z then Ok x else UB.
  Proof.
    intros (G & B & D & C) G'. unfold b_object. rewrite (b_offset_ok size align addr addr_range p t' G').
    cbn [bind]. rewrite D. destruct (ctype_eqb t' t) eqn:E; [|now rewrite andb_false_r].
    assert (t' = t) as ->.
    { unfold ctype_eqb in E. apply andb_prop in E. destruct E as (E & E3). apply andb_prop in E. destruct E as (E1 & E2).
      apply Nat.eqb_eq in E1. apply Z.eqb_eq in E2, E3. destruct t, t'. cbn in *. congruence. }
    rewrite andb_true_r. cbn [andb].
    replace (shift addr p t =? offset_of t r)%Z with (position addr p t =? r)%Z; auto.
    unfold shift, offset_of, position.
    assert (Bp := Z.mod_pos_bound (addr p) (ct_align t) ltac:(lia)).
    destruct (Z.eqb_spec (addr p mod ct_align t) 0), (Z.eqb_spec r 0);
      destruct (Z.eqb_spec (addr p mod ct_align t) r); symmetry;
      ((apply Z.eqb_eq; lia) || (apply Z.eqb_neq; lia)).
  Qed.

  Lemma var_at w s p : like w s ->
    match nth_error s p with
    | Some (Some c) => exists v, bvar w p = Ok v /\ nth_error (bw_vars w) p = Some (Some v) /\ is v c
    | Some None => bvar w p = UB /\ nth_error (bw_vars w) p = Some None
    | None => bvar w p = UB /\ nth_error (bw_vars w) p = None
    end.
  Proof.
    intros (_ & H & _). specialize (H p). unfold bvar.
    destruct (nth_error (bw_vars w) p) as [[v|]|], (nth_error s p) as [[c|]|]; try contradiction; eauto.
  Qed.

  (* What a call does and what it should do. *)
  Definition does (r : outcome (bworld V)) (e : option state) : Prop :=
    match e with None => r = UB | Some s => exists w, r = Ok w /\ like w s end.

  Lemma clear_does w s p : like w s -> does (b_clear addr w p) (x_clear addr s p).
  Proof.
    intros H. pose proof (var_at w s p H) as A. unfold x_clear, b_clear.
    destruct (nth_error s p) as [[c|]|] eqn:E; try (destruct A as (-> & _); reflexivity).
    destruct A as (v & -> & N & I). cbn [bind].
    assert (Hl : p < length (bw_vars w)) by (apply nth_error_Some; congruence).
    destruct c as [|t x r].
    - cbn in I. rewrite I. cbn [reached does]. exists w. split; auto. now rewrite upd_self.
    - assert (I' := I). destruct I' as (G & B & D & C). rewrite C. unfold b_callback.
      rewrite (object_at p v t x r t I G), ctype_eqb_refl. cbn [andb reached].
      destruct (position addr p t =? r)%Z; cbn [bind]; [|reflexivity].
      unfold bvar. cbn [bw_vars]. rewrite nth_error_upd_eq by auto. cbn [bind ob_data does].
      eexists. split; [reflexivity|]. unfold bput. cbn [bw_vars bw_made bw_gone]. rewrite upd_upd_eq.
      eapply like_upd; eauto; [reflexivity|]. cbn [full]. lia.
  Qed.
  Lemma new_does w s p : like w s -> does (b_default w p) (x_new s p).
  Proof.
    intros H. pose proof (var_at w s p H) as A. unfold x_new, b_default, bfresh.
    destruct (nth_error s p) as [[c|]|] eqn:E.
    - destruct A as (v & _ & N & _). now rewrite N.
    - destruct A as (_ & N). rewrite N. cbn [bind does]. eexists. split; [reflexivity|].
      eapply like_upd; eauto; [reflexivity|]. cbn. lia.
    - destruct A as (_ & N). now rewrite N.
  Qed.

  (* The variable is empty when something is put into it. *)
  Lemma put_does w s p t x : like w s -> nth_error s p = Some (Some Nothing) -> good_type size align t ->
    does (let! o := b_offset addr p t in
          if (0 <=? o)%Z && (o + ct_size t <=? size)%Z then
            Ok (BW (upd (bw_vars w) p (Some (OB (Some (o, t, x)) (Some t)))) (S (bw_made w)) (bw_gone w))
          else UB) (x_put addr (Some s) p t x).
  Proof.
    intros H E G. rewrite (b_offset_ok size align addr addr_range p t G). cbn [bind].
    destruct (shift_fits size align addr addr_aligned align_pow p t G) as (F1 & F2).
    rewrite (proj2 (Z.leb_le _ _)) by lia. rewrite (proj2 (Z.leb_le _ _)) by lia. cbn [andb x_put does].
    eexists. split; [reflexivity|]. eapply like_upd; eauto.
    - cbn [is]. split; [auto|]. split; [|split; reflexivity].
      destruct G as (_ & _ & k & Hk & Ek). apply Z.mod_pos_bound. rewrite Ek. apply Z.pow_pos_nonneg; lia.
    - cbn [full]. lia.
  Qed.
  Lemma take_does w s p q : like w s -> nth_error s p = Some (Some Nothing) ->
    does (let! v := bvar w q in
          let w := bput w p (Some (OB (ob_data v) (ob_callback v))) in
          let! v := bvar w q in
          Ok (bput w q (Some (OB (ob_data v) None)))) (x_take (Some s) p q).
  Proof.
    intros H E. pose proof (var_at w s q H) as A. cbn [x_take].
    assert (Lp : p < length s) by (apply nth_error_Some; congruence).
    destruct (nth_error s q) as [[c|]|] eqn:Q; try (destruct A as (-> & _); reflexivity).
    destruct A as (v & -> & N & I). cbn [bind]. cbn zeta.
    destruct (Nat.eq_dec p q) as [->|D].
    - unfold bvar, bput. cbn [bw_vars bw_made bw_gone]. rewrite nth_error_upd_eq by (destruct H as (-> & _); auto).
      cbn [bind ob_data does]. eexists. split; [reflexivity|]. rewrite !upd_upd_eq.
      rewrite E in Q. injection Q as <-. eapply like_upd; eauto; [reflexivity|]. cbn. lia.
    - unfold bvar, bput. cbn [bw_vars bw_made bw_gone]. rewrite nth_error_upd_neq by auto. rewrite N.
      cbn [bind does]. eexists. split; [reflexivity|].
      assert (H' : like (BW (upd (bw_vars w) q (Some (OB (ob_data v) None))) (bw_made w)
                     (bw_gone w + if full (Some c) then 1 else 0)) (upd s q (Some Nothing))).
      { eapply like_upd; eauto; [reflexivity|]. cbn [full]. destruct c; lia. }
      assert (U : upd (upd (bw_vars w) p (Some (OB (ob_data v) (ob_callback v)))) q (Some (OB (ob_data v) None))
                  = upd (upd (bw_vars w) q (Some (OB (ob_data v) None))) p (Some (OB (ob_data v) (ob_callback v)))).
      { apply upd_comm. auto. }
      assert (U' : upd (upd s p (Some c)) q (Some Nothing) = upd (upd s q (Some Nothing)) p (Some c)) by now apply upd_comm.
      rewrite U, U'.
      refine (like_upd (BW _ _ _) _ p (Some Nothing) (Some _) (Some c) _ _ H' _ _ _).
      + rewrite nth_error_upd_neq; auto.
      + destruct v; exact I.
      + cbn [bw_made bw_gone full]. destruct c; lia.
  Qed.

  Lemma does_bind r e (k : bworld V -> outcome (bworld V)) (k' : option state -> option state) :
    does r e -> k' None = None ->
    (forall w s, r = Ok w -> e = Some s -> like w s -> does (k w) (k' (Some s))) ->
    does (let! w := r in k w) (k' e).
  Proof.
    intros D K0 K. destruct e as [s|].
    - destruct D as (w & -> & L). cbn [bind]. now apply K.
    - rewrite D. cbn [bind]. rewrite K0. reflexivity.
  Qed.
  Lemma after_clear (s : state) p s' : x_clear addr s p = Some s' -> nth_error s' p = Some (Some Nothing).
  Proof.
    unfold x_clear. destruct (nth_error s p) as [[c|]|] eqn:E; try discriminate.
    destruct (reached addr p c); try discriminate. injection 1 as <-.
    apply nth_error_upd_eq. apply nth_error_Some. congruence.
  Qed.
  Lemma after_new (s : state) p s' : @x_new V s p = Some s' -> nth_error s' p = Some (Some Nothing).
  Proof.
    unfold x_new. destruct (nth_error s p) as [[c|]|] eqn:E; try discriminate. injection 1 as <-.
    apply nth_error_upd_eq. apply nth_error_Some. congruence.
  Qed.

  Lemma step_does w s o : like w s -> Forall (good_type size align) (types_of o) ->
    does (b_step size align addr w o) (x_step addr s o).
  Proof.
    intros H G. destruct o as [p|p t x|p q|p q|p t x|p]; cbn [b_step x_step].
    - now apply new_does.
    - inversion G; subst. unfold b_from.
      apply (does_bind _ _ _ (fun e => x_put addr e p t x) (new_does w s p H) eq_refl).
      intros w1 s1 _ E1 L1. apply after_new in E1. unfold b_set. rewrite accepts_good by auto.
      pose proof (clear_does w1 s1 p L1) as C. unfold x_clear in C. rewrite E1 in C. cbn [reached] in C.
      destruct C as (w2 & -> & L2). cbn [bind]. rewrite upd_self in L2 by auto.
      now apply put_does.
    - unfold b_move. apply (does_bind _ _ _ (fun e => x_take e p q) (new_does w s p H) eq_refl).
      intros w1 s1 _ E1 L1. apply after_new in E1. unfold b_move_assign.
      pose proof (clear_does w1 s1 p L1) as C. unfold x_clear in C. rewrite E1 in C. cbn [reached] in C.
      destruct C as (w2 & -> & L2). cbn [bind]. rewrite upd_self in L2 by auto.
      now apply take_does.
    - unfold b_move_assign. apply (does_bind _ _ _ (fun e => x_take e p q) (clear_does w s p H) eq_refl).
      intros w1 s1 _ E1 L1. apply after_clear in E1. now apply take_does.
    - inversion G; subst. unfold b_set. rewrite accepts_good by auto.
      apply (does_bind _ _ _ (fun e => x_put addr e p t x) (clear_does w s p H) eq_refl).
      intros w1 s1 _ E1 L1. apply after_clear in E1. now apply put_does.
    - pose proof (var_at w s p H) as A. unfold b_destroy, x_clear.
      destruct (nth_error s p) as [[c|]|] eqn:E; try (destruct A as (-> & _); reflexivity).
      destruct A as (v & -> & N & I). cbn [bind].
      destruct c as [|t x r].
      + cbn in I. rewrite I. cbn [reached does]. eexists. split; [reflexivity|]. rewrite upd_upd_eq.
        unfold bput. eapply like_upd; eauto. cbn. lia.
      + assert (I' := I). destruct I' as (G' & B & D & C). rewrite C. unfold b_callback.
        rewrite (object_at p v t x r t I G'), ctype_eqb_refl. cbn [andb reached].
        destruct (position addr p t =? r)%Z; cbn [bind]; [|reflexivity]. cbn [does].
        eexists. split; [reflexivity|]. unfold bput. cbn [bw_vars bw_made bw_gone]. rewrite !upd_upd_eq.
        eapply like_upd; eauto. cbn [full]. lia.
  Qed.
  Lemma run_does : forall os w s, like w s -> Forall (fun o => Forall (good_type size align) (types_of o)) os ->
    does (b_run size align addr w os) (x_steps addr s os).
  Proof.
    induction os as [|o os IH]; intros w s H G; cbn [b_run x_steps].
    - exists w. auto.
    - inversion G as [|? ? G1 G2]; subst. pose proof (step_does w s o H G1) as D.
      destruct (x_step addr s o) as [s1|].
      + destruct D as (w1 & -> & L). cbn [bind]. now apply IH.
      + rewrite D. reflexivity.
  Qed.
End Exact.

(** C34, C35. For every program of Objects that stores types the class accepts: the program is undefined if and only if
    an Object that holds a value at a position it does not look at is destroyed, assigned to or moved to; otherwise
    the values made and not destroyed are those held, operator bool tells which Objects hold one, and get<T>() gives
    the value exactly when T is its type and it is reached. Missing: get of values that are not reached (refuted). *)
Theorem C34_exact_partial :
  forall (V : Type) (size align : Z) (addr : nat -> Z) (n : nat) (os : list (b_op V)),
  placed align addr -> Forall (fun o => Forall (good_type size align) (types_of o)) os ->
  match x_steps addr (repeat None n) os with
  | None => b_run size align addr (b_start n) os = UB
  | Some s => exists w, b_run size align addr (b_start n) os = Ok w /\
      bw_made w = bw_gone w + x_held s /\
      forall p, match nth_error s p with
                | Some (Some Nothing) => exists v, bvar w p = Ok v /\ b_bool v = false
                | Some (Some (Value t x r)) => exists v, bvar w p = Ok v /\ b_bool v = true /\
                    forall t', good_type size align t' ->
                      b_get addr w p t' = if ctype_eqb t' t && (position addr p t =? r)%Z then Ok x else UB
                | _ => bvar w p = UB
                end
  end.
Proof.
  intros V size align addr n os [Ha Hp] G.
  assert (R := fun p => proj1 (Hp p)). assert (A := fun p => proj2 (Hp p)).
  assert (L0 : like size align (@b_start V n) (repeat None n)).
  { split; [|split]; cbn.
    - now rewrite !repeat_length.
    - intros p. destruct (Nat.lt_ge_cases p n) as [L|L].
      + rewrite !nth_error_repeat by auto. exact I.
      + rewrite !(proj2 (nth_error_None _ _)) by (rewrite repeat_length; auto). exact I.
    - induction n; auto. }
  pose proof (run_does size align addr R A Ha os _ _ L0 G) as D.
  destruct (x_steps addr (repeat None n) os) as [s|]; [|exact D].
  destruct D as (w & E & L). exists w. split; [exact E|]. split; [exact (proj2 (proj2 L))|].
  intros p. pose proof (var_at size align w s p L) as X.
  destruct (nth_error s p) as [[[|t x r]|]|].
  - destruct X as (v & Hv & _ & C). exists v. split; auto. unfold b_bool. cbn in C. now rewrite C.
  - destruct X as (v & Hv & _ & C). exists v. split; auto. assert (C' := C). destruct C' as (_ & _ & _ & Cb).
    unfold b_bool. rewrite Cb. split; auto. intros t' G'. unfold b_get. rewrite Hv. cbn [bind].
    now apply (object_at size align addr R).
  - tauto.
  - tauto.
Qed.

(* A value with the alignment 16 is moved away from its position, and back to it: there it can be used again. *)
Example C34_exact_case :
  let addr := fun p => (8 * Z.of_nat (1 + p mod 1000))%Z in
  let t := CT 1 16 16 in
  placed 8 addr /\
  Forall (fun o => Forall (good_type 64 8) (types_of o)) [BFrom 0 t 10; BDefault 1; BMoveAssign 1 0] /\
  x_steps addr (repeat None 2) [BFrom 0 t 10; BDefault 1; BMoveAssign 1 0] = Some [Some Nothing; Some (Value t 10 8%Z)] /\
  reached addr 1 (Value t 10 8%Z) = false /\
  x_steps addr (repeat None 2) [BFrom 0 t 10; BDefault 1; BMoveAssign 1 0; BDestroy 1] = None /\
  x_steps addr (repeat None 2) [BFrom 0 t 10; BDefault 1; BMoveAssign 1 0; BMoveAssign 0 1]
    = Some [Some (Value t 10 8%Z); Some Nothing] /\
  x_steps addr (repeat None 2) [BFrom 0 t 10; BDefault 1; BMoveAssign 1 0; BMoveAssign 0 1; BDestroy 0; BDestroy 1]
    = Some [None; None].
Proof.
  cbv zeta. split; [apply C34_placed_case|]. split.
  - repeat (apply Forall_cons || apply Forall_nil). unfold good_type. cbn. repeat split; try lia. exists 4%Z. lia.
  - repeat split; vm_compute; reflexivity.
Qed.

Print Assumptions C34_exact_partial.
