(** C178 - C190: theorems about the type traits. *)
From Coq Require Import List Bool Arith ZArith Lia.
From Verif Require Import CppTypes TraitsModel TraitsSpec.
Import ListNotations.

(** * Lemmas about types *)

Lemma set_c_set_c b b' t : set_c b (set_c b' t) = set_c b t.
Proof. induction t; cbn; congruence. Qed.
Lemma set_v_set_v b b' t : set_v b (set_v b' t) = set_v b t.
Proof. induction t; cbn; congruence. Qed.
Lemma set_c_id t : is_c t = false -> set_c false t = t.
Proof. induction t; cbn; intros; f_equal; auto. Qed.
Lemma set_v_id t : is_v t = false -> set_v false t = t.
Proof. induction t; cbn; intros; f_equal; auto. Qed.
Lemma set_c_true_id t : is_c t = true -> set_c true t = t.
Proof. induction t; cbn; intros; try congruence; f_equal; auto. Qed.
Lemma set_v_true_id t : is_v t = true -> set_v true t = t.
Proof. induction t; cbn; intros; try congruence; f_equal; auto. Qed.
Lemma is_c_set_c_false t : is_c (set_c false t) = false.
Proof. induction t; cbn; auto. Qed.
Lemma is_v_set_v_false t : is_v (set_v false t) = false.
Proof. induction t; cbn; auto. Qed.
Lemma is_c_set_v b t : is_c (set_v b t) = is_c t.
Proof. induction t; cbn; auto. Qed.
Lemma is_v_set_c b t : is_v (set_c b t) = is_v t.
Proof. induction t; cbn; auto. Qed.
Lemma set_cv t : set_c false (set_v false t) = set_v false (set_c false t).
Proof. induction t; cbn; auto. congruence. Qed.

Lemma without_const t r : r = set_c false t -> without is_c mk_const t r.
Proof.
  intros ->. unfold without, mk_const. rewrite is_c_set_c_false, set_c_set_c.
  split; [reflexivity|split; [reflexivity|]]. intros r' H E.
  rewrite <- (set_c_id r' H), <- (set_c_set_c false true r'), E. apply set_c_set_c.
Qed.
Lemma without_volatile t r : r = set_v false t -> without is_v mk_volatile t r.
Proof.
  intros ->. unfold without, mk_volatile. rewrite is_v_set_v_false, set_v_set_v.
  split; [reflexivity|split; [reflexivity|]]. intros r' H E.
  rewrite <- (set_v_id r' H), <- (set_v_set_v false true r'), E. apply set_v_set_v.
Qed.

Lemma builtin_eqb_spec a b : builtin_eqb a b = true <-> a = b.
Proof. destruct a, b; cbn; split; congruence. Qed.
Lemma name_eqb_spec a b : name_eqb a b = true <-> a = b.
Proof.
  destruct a, b; cbn; try (split; congruence).
  - rewrite builtin_eqb_spec. split; congruence.
  - rewrite Nat.eqb_eq. split; congruence.
Qed.
Lemma ty_eqb_spec : forall t u, ty_eqb t u = true <-> t = u.
Proof.
  induction t; destruct u; cbn; try (split; congruence);
    rewrite ?andb_true_iff, ?eqb_true_iff, ?Nat.eqb_eq, ?name_eqb_spec, ?IHt; try intuition congruence.
Qed.

(** * C178: removing const, volatile or a reference *)

Theorem C178_remove :
  forall t, exists_ t = true ->
  (exists r, remove_const t = Some r /\ without is_c mk_const t r) /\
  (exists r, remove_volatile t = Some r /\ without is_v mk_volatile t r) /\
  (exists r, remove_reference t = Some r /\ referred t r).
Proof.
  intros t E. repeat split.
  - unfold remove_const, as_const, specialise. cbn. destruct (is_c t) eqn:C; eexists.
    + split; [reflexivity|]. apply without_const. reflexivity.
    + split; [reflexivity|]. apply without_const. symmetry. apply set_c_id, C.
  - unfold remove_volatile, as_volatile, specialise. cbn. destruct (is_v t) eqn:C; eexists.
    + split; [reflexivity|]. apply without_volatile. reflexivity.
    + split; [reflexivity|]. apply without_volatile. symmetry. apply set_v_id, C.
  - unfold remove_reference, specialise.
    destruct t; cbn in *; eexists; (split; [reflexivity|]); unfold referred;
      (split; [intros; split; try congruence|auto]).
    all: intros ->; cbn in E; rewrite ?andb_false_r in E; cbn in E; discriminate.
Qed.

(** const volatile int (&)[3]. *)
Example C178_case :
  exists_ (Lref (Arr (Named true true (Builtin Int)) 3)) = true /\
  remove_reference (Lref (Arr (Named true true (Builtin Int)) 3))
    = Some (Arr (Named true true (Builtin Int)) 3) /\
  remove_const (Arr (Named true true (Builtin Int)) 3) = Some (Arr (Named false true (Builtin Int)) 3).
Proof. vm_compute. auto. Qed.

(** * C179: predicates *)

Lemma qualifiable_c t : is_c t = true -> qualifiable t.
Proof. intros H u p. destruct t; cbn in H; repeat split; congruence. Qed.
Lemma qualifiable_v t : is_v t = true -> qualifiable t.
Proof. intros H u p. destruct t; cbn in H; repeat split; congruence. Qed.

Lemma const_iff t : exists_ t = true -> (is_c t = true <-> mk_const t = t /\ qualifiable t).
Proof.
  intros E. split.
  - intros H. split; [apply set_c_true_id, H|apply qualifiable_c, H].
  - unfold mk_const, qualifiable. intros [H Q]. induction t; cbn in *; try congruence.
    + destruct (Q t 0) as (? & _). congruence.
    + destruct (Q t 0) as (_ & ? & _). congruence.
    + apply IHt.
      * rewrite !andb_true_iff in E. intuition.
      * congruence.
      * intros u p. rewrite !andb_true_iff, !negb_true_iff in E.
        destruct t; cbn in E; repeat split; try congruence; intuition congruence.
    + destruct (Q t params) as (_ & _ & ?). congruence.
Qed.
Lemma volatile_iff t : exists_ t = true -> (is_v t = true <-> mk_volatile t = t /\ qualifiable t).
Proof.
  intros E. split.
  - intros H. split; [apply set_v_true_id, H|apply qualifiable_v, H].
  - unfold mk_volatile, qualifiable. intros [H Q]. induction t; cbn in *; try congruence.
    + destruct (Q t 0) as (? & _). congruence.
    + destruct (Q t 0) as (_ & ? & _). congruence.
    + apply IHt.
      * rewrite !andb_true_iff in E. intuition.
      * congruence.
      * intros u p. rewrite !andb_true_iff, !negb_true_iff in E.
        destruct t; cbn in E; repeat split; try congruence; intuition congruence.
    + destruct (Q t params) as (_ & _ & ?). congruence.
Qed.

Lemma is_some_as_const t : is_some (as_const t) = is_c t.
Proof. unfold as_const. destruct (is_c t); reflexivity. Qed.
Lemma is_some_as_volatile t : is_some (as_volatile t) = is_v t.
Proof. unfold as_volatile. destruct (is_v t); reflexivity. Qed.

Theorem C179_predicates :
  forall t, exists_ t = true ->
  (is_const t = true <-> mk_const t = t /\ qualifiable t) /\
  (is_volatile t = true <-> mk_volatile t = t /\ qualifiable t) /\
  (is_lvalue t = true <-> exists u, t = Lref u) /\
  (is_rvalue t = true <-> exists u, t = Rref u) /\
  (is_reference t = true <-> exists u, t = Lref u \/ t = Rref u) /\
  (forall u, same_types t u = true <-> t = u).
Proof.
  intros t E. unfold is_const, is_volatile. rewrite is_some_as_const, is_some_as_volatile.
  split; [apply const_iff, E|]. split; [apply volatile_iff, E|].
  unfold is_lvalue, is_rvalue, is_reference.
  split; [|split; [|split]].
  - destruct t; cbn; split; try discriminate; try (intros [u ?]; discriminate); eauto.
  - destruct t; cbn; split; try discriminate; try (intros [u ?]; discriminate); eauto.
  - destruct t; cbn; split; try discriminate; try (intros [u [?|?]]; discriminate); eauto.
  - intros u. unfold same_types. rewrite <- ty_eqb_spec. destruct (ty_eqb t u); split; auto.
Qed.

Example C179_case :
  exists_ (Arr (Ptr true false (Named false true (User 4))) 2) = true /\
  is_const (Arr (Ptr true false (Named false true (User 4))) 2) = true /\
  is_volatile (Arr (Ptr true false (Named false true (User 4))) 2) = false.
Proof. vm_compute. auto. Qed.

(** * C180: pointers *)

(** Right for pointers that are not const or volatile themselves, and for what is no pointer. *)
Theorem C180_pointer_partial :
  forall t,
  (forall u, t = Ptr false false u -> is_pointer t = true /\ remove_pointer t = Some u) /\
  ((forall c v u, t <> Ptr c v u) -> is_pointer t = false /\ remove_pointer t = Some t).
Proof.
  intros t. split.
  - intros u ->. auto.
  - intros N. destruct t; try (split; reflexivity). destruct (N c v t eq_refl).
Qed.

(** A pointer that is const or volatile is not recognised, whatever it points to. *)
Theorem C180_qualified_pointer_refuted :
  forall c v u, c || v = true ->
  is_pointer (Ptr c v u) = false /\ remove_pointer (Ptr c v u) = Some (Ptr c v u).
Proof. intros [] [] u H; cbn in H; try discriminate; split; reflexivity. Qed.

Example C180_case : exists_ (Ptr true false (Named true false (Builtin Char))) = true.
Proof. reflexivity. Qed.

(** * C181: RemoveAll *)

Lemma as_ptr_cv c v t : c || v = true -> as_ptr (Ptr c v t) = None.
Proof. destruct c, v; cbn; congruence. Qed.

(** One instantiation. *)
Lemma remove_all_step fuel t :
  remove_all_in (S fuel) t =
  match is_c t, is_v t with
  | true, true => None
  | true, false => remove_all_in fuel (set_c false t)
  | false, true => remove_all_in fuel (set_v false t)
  | false, false =>
      match t with
      | Ptr _ _ u | Lref u | Rref u =>
          bind (match t with Ptr _ _ _ => remove_pointer u | _ => remove_reference u end)
               (remove_all_in fuel)
      | _ => Some t
      end
  end.
Proof.
  cbn [remove_all_in]. unfold as_const, as_volatile.
  destruct (is_c t) eqn:C, (is_v t) eqn:V.
  - cbn. destruct (as_ptr t) eqn:P; [destruct t; cbn in *; congruence|].
    destruct t; reflexivity.
  - assert (P : as_ptr t = None) by (destruct t; cbn in *; try reflexivity; subst; reflexivity).
    assert (L : as_lref t = None) by (destruct t; cbn in *; congruence).
    assert (R : as_rref t = None) by (destruct t; cbn in *; congruence).
    rewrite P, L, R. cbn.
    unfold remove_const, as_const. rewrite is_c_set_c_false. reflexivity.
  - assert (P : as_ptr t = None)
      by (destruct t; cbn in *; try reflexivity; subst; reflexivity).
    assert (L : as_lref t = None) by (destruct t; cbn in *; congruence).
    assert (R : as_rref t = None) by (destruct t; cbn in *; congruence).
    rewrite P, L, R. cbn.
    unfold remove_volatile, as_volatile. rewrite is_v_set_v_false. reflexivity.
  - destruct t; cbn in *; subst; cbn; try reflexivity.
Qed.

(** Where nothing is referred to, RemoveReference and RemovePointer of what follows. *)
Lemma remove_reference_id u : is_ref u = false -> remove_reference u = Some u.
Proof. destruct u; cbn; auto; discriminate. Qed.

Lemma depth_set_c b t : depth (set_c b t) = depth t.
Proof. induction t; cbn; congruence. Qed.
Lemma depth_set_v b t : depth (set_v b t) = depth t.
Proof. induction t; cbn; congruence. Qed.

(** The number of instantiations that are needed: one for every qualifier of a layer and one for
    the layer. *)
Definition flags (t : ty) : nat := (if is_c t then 1 else 0) + (if is_v t then 1 else 0).
Fixpoint need (t : ty) : nat :=
  match t with
  | Ptr _ _ u | Lref u | Rref u => flags t + S (need u)
  | _ => flags t + 1
  end.

Lemma flags_le t : flags t <= 2.
Proof. unfold flags. destruct (is_c t), (is_v t); cbn; lia. Qed.
Lemma need_depth t : need t <= depth t.
Proof.
  induction t; cbn [need depth];
    match goal with |- context [flags ?x] => pose proof (flags_le x) end;
    try (unfold flags in *; cbn [is_c is_v] in *); lia.
Qed.

Fixpoint bare_f (t : ty) : ty :=
  match t with
  | Ptr _ _ u | Lref u | Rref u => bare_f u
  | _ => set_c false (set_v false t)
  end.
Fixpoint doubly_f (t : ty) : bool :=
  (is_c t && is_v t) || match t with Ptr _ _ u | Lref u | Rref u => doubly_f u | _ => false end.

Lemma bare_f_bare t : bare t (bare_f t).
Proof.
  induction t; cbn [bare_f]; try (constructor; assumption);
    apply bare_end; intros; try split; congruence.
Qed.
Lemma bare_unique t r : bare t r -> r = bare_f t.
Proof.
  induction 1; cbn; auto. destruct t; cbn; auto.
  - destruct (H c v t eq_refl).
  - destruct (H0 t); congruence.
  - destruct (H0 t); congruence.
Qed.
Lemma doubly_f_iff t : doubly_f t = true <-> doubly t.
Proof.
  split.
  - induction t; cbn [doubly_f]; rewrite orb_true_iff, andb_true_iff; intros [[H1 H2]|H];
      try (apply doubly_here; assumption); try discriminate.
    + apply doubly_ptr; auto.
    + apply doubly_lref; auto.
    + apply doubly_rref; auto.
  - induction 1.
    + destruct t; cbn [doubly_f]; rewrite H, H0; reflexivity.
    + cbn [doubly_f]. rewrite IHdoubly. apply orb_true_r.
    + exact IHdoubly.
    + exact IHdoubly.
Qed.

Definition answer (t : ty) : option ty := if doubly_f t then None else Some (bare_f t).

Lemma bare_f_set_c b t : bare_f (set_c b t) = bare_f t.
Proof.
  destruct t; cbn; auto. f_equal. rewrite !set_cv, set_c_set_c. reflexivity.
Qed.
Lemma bare_f_set_v b t : bare_f (set_v b t) = bare_f t.
Proof. destruct t; cbn; auto. rewrite set_v_set_v. reflexivity. Qed.
Lemma answer_set_c t : is_v t = false -> answer (set_c false t) = answer t.
Proof.
  intros V. unfold answer. rewrite bare_f_set_c.
  replace (doubly_f (set_c false t)) with (doubly_f t); [reflexivity|].
  destruct t; cbn in *; subst; rewrite ?is_c_set_c_false, ?V, ?andb_false_r; auto.
Qed.
Lemma answer_set_v t : is_c t = false -> answer (set_v false t) = answer t.
Proof.
  intros V. unfold answer. rewrite bare_f_set_v.
  replace (doubly_f (set_v false t)) with (doubly_f t); [reflexivity|].
  destruct t; cbn in *; subst; rewrite ?is_c_set_v, ?V; auto.
Qed.
Lemma need_set_c t : is_c t = true -> S (need (set_c false t)) = need t.
Proof. destruct t; cbn; unfold flags; cbn; intros H; rewrite ?H, ?is_c_set_c_false, ?is_v_set_c; try lia; discriminate. Qed.
Lemma need_set_v t : is_v t = true -> S (need (set_v false t)) = need t.
Proof.
  destruct t; cbn; unfold flags; cbn; intros H; rewrite ?H, ?is_v_set_v_false, ?is_c_set_v; try lia;
    discriminate.
Qed.
Lemma need_pos t : 1 <= need t.
Proof. destruct t; cbn; lia. Qed.

Lemma remove_all_in_answer : forall n t, need t <= n -> forall fuel, need t <= fuel ->
  remove_all_in fuel t = answer t.
Proof.
  induction n as [n IH] using lt_wf_ind. intros t Hn fuel Hf.
  pose proof (need_pos t) as NP. destruct fuel as [|fuel]; [lia|].
  rewrite remove_all_step.
  destruct (is_c t) eqn:C, (is_v t) eqn:V.
  - unfold answer. destruct t; cbn [doubly_f]; rewrite C, V; reflexivity.
  - pose proof (need_set_c t C). rewrite <- (answer_set_c t V).
    apply (IH (need (set_c false t))); lia.
  - pose proof (need_set_v t V). rewrite <- (answer_set_v t C).
    apply (IH (need (set_v false t))); lia.
  - assert (F : flags t = 0) by (unfold flags; rewrite C, V; reflexivity).
    destruct t as [c v k|c v|c v u|c v k r p fc fv|u|u|u k|r p];
      cbn [need] in Hn, Hf; try rewrite F in Hn, Hf; try (cbn in Hn, Hf).
    + cbn in C, V. subst. reflexivity.
    + cbn in C, V. subst. reflexivity.
    + cbn in C, V. subst.
      assert (E : answer (Ptr false false u) = answer u) by reflexivity. rewrite E.
      unfold remove_pointer, specialise.
      destruct (as_ptr u) as [w|] eqn:P; cbn [matching bind].
      * destruct u as [| |[] [] w'| | | | |]; cbn in P; try discriminate. injection P as ->.
        assert (E2 : answer (Ptr false false w) = answer w) by reflexivity. rewrite E2.
        cbn in Hn, Hf. apply (IH (need w)); lia.
      * apply (IH (need u)); lia.
    + cbn in C, V. subst. reflexivity.
    + assert (E : answer (Lref u) = answer u) by reflexivity. rewrite E.
      destruct (is_ref u) eqn:R.
      * destruct u as [| | | |w|w| |]; try discriminate; cbn [remove_reference specialise as_lref as_rref matching bind];
          [change (answer (Lref w)) with (answer w)|change (answer (Rref w)) with (answer w)];
          cbn in Hn, Hf; apply (IH (need w)); lia.
      * rewrite (remove_reference_id u R). cbn [bind]. apply (IH (need u)); lia.
    + assert (E : answer (Rref u) = answer u) by reflexivity. rewrite E.
      destruct (is_ref u) eqn:R.
      * destruct u as [| | | |w|w| |]; try discriminate; cbn [remove_reference specialise as_lref as_rref matching bind];
          [change (answer (Lref w)) with (answer w)|change (answer (Rref w)) with (answer w)];
          cbn in Hn, Hf; apply (IH (need w)); lia.
      * rewrite (remove_reference_id u R). cbn [bind]. apply (IH (need u)); lia.
    + unfold answer. cbn [doubly_f]. rewrite C, V. cbn [orb andb bare_f].
      rewrite (set_v_id (Arr u k) V), (set_c_id (Arr u k) C). reflexivity.
    + reflexivity.
Qed.

Lemma remove_all_answer t : remove_all t = answer t.
Proof. apply (remove_all_in_answer (depth t)); apply need_depth. Qed.

(** The bare type, for every type on the way to which nothing is both const and volatile. *)
Theorem C181_remove_all_partial :
  forall t, ~ doubly t ->
  exists r, remove_all t = Some r /\ bare t r /\ forall r', bare t r' -> r' = r.
Proof.
  intros t N. exists (bare_f t). rewrite remove_all_answer. unfold answer.
  destruct (doubly_f t) eqn:D; [destruct N; apply doubly_f_iff, D|].
  split; [reflexivity|]. split; [apply bare_f_bare|]. intros r' H. apply bare_unique, H.
Qed.

(** const int *const &. *)
Example C181_case :
  ~ doubly (Lref (Ptr true false (Named true false (Builtin Int)))) /\
  remove_all (Lref (Ptr true false (Named true false (Builtin Int)))) = Some (number Int).
Proof. split; [rewrite <- doubly_f_iff; vm_compute; discriminate|reflexivity]. Qed.

(** If something is, the use of RemoveAll does not compile: the specialisations for const T and
    volatile T both match. *)
Theorem C181_const_volatile_refuted :
  forall t, doubly t -> remove_all t = None.
Proof.
  intros t D. rewrite remove_all_answer. unfold answer. apply doubly_f_iff in D. rewrite D.
  reflexivity.
Qed.

(** const volatile int &. *)
Example C181_refuted_case :
  doubly (Lref (Named true true (Builtin Int))) /\
  bare (Lref (Named true true (Builtin Int))) (number Int).
Proof. split; [apply doubly_f_iff; reflexivity|apply (bare_f_bare (Lref (Named true true (Builtin Int))))]. Qed.

(** * C182: the traits that add *)

Theorem C182_add_partial :
  forall t, exists_ t = true -> (forall u, t <> Lref u /\ t <> Rref u) ->
  (forall c v, t <> Void c v) ->
  add_reference t = Some (Lref t) /\ add_move_reference t = Some (Rref t) /\
  add_const t = Some (mk_const t) /\ add_pointer t = Some (Ptr false false t) /\
  exists d, default_traits_of t = Some d /\ dt_type d = Some t /\
    dt_const_reference d = Some (Lref (mk_const t)) /\
    dt_pointer_to_const d = Some (Ptr false false (mk_const t)) /\
    dt_const_pointer d = Some (Ptr true false t).
Proof.
  intros t E R V.
  assert (L : mk_lref t = Some (Lref t)).
  { destruct t; try reflexivity; [destruct (V c v eq_refl)|destruct (R t); congruence|destruct (R t); congruence]. }
  assert (RR : mk_rref t = Some (Rref t)).
  { destruct t; try reflexivity; [destruct (V c v eq_refl)|destruct (R t); congruence|destruct (R t); congruence]. }
  assert (P : mk_ptr t = Some (Ptr false false t)).
  { unfold mk_ptr. destruct t; try reflexivity; [destruct (R t); congruence|destruct (R t); congruence]. }
  assert (LC : mk_lref (mk_const t) = Some (Lref (mk_const t))).
  { destruct t; try reflexivity; [destruct (V c v eq_refl)|destruct (R t); congruence|destruct (R t); congruence]. }
  assert (PC : mk_ptr (mk_const t) = Some (Ptr false false (mk_const t))).
  { destruct t; try reflexivity; destruct (R t); congruence. }
  assert (D : default_traits_of t =
    Some (DefaultTraits (Some t) (Some (Lref t)) (Some (Rref t)) (Some (Lref (mk_const t)))
            (Some (Ptr false false t)) (Some (Ptr false false (mk_const t))) (Some (Ptr true false t)))).
  { assert (G : default_traits_of t =
      match as_const t with
      | Some u =>
          let type := mk_const u in
          declared (DefaultTraits (Some type) (mk_lref (mk_const type)) (mk_rref (mk_const type))
                      (mk_lref (mk_const type)) (mk_ptr (mk_const type)) (mk_ptr (mk_const type))
                      (option_map mk_const (mk_ptr (mk_const type))))
      | None =>
          declared (DefaultTraits (Some t) (mk_lref t) (mk_rref t) (mk_lref (mk_const t))
                      (mk_ptr t) (mk_ptr (mk_const t)) (option_map mk_const (mk_ptr t)))
      end) by (destruct t; try reflexivity; destruct (V c v eq_refl)).
    rewrite G. clear G. unfold as_const. destruct (is_c t) eqn:C.
    - unfold mk_const in *. rewrite !set_c_set_c. rewrite (set_c_true_id t C), L, RR, P in *. reflexivity.
    - rewrite L, RR, P, LC, PC. reflexivity. }
  unfold add_reference, add_move_reference, add_const, add_pointer. rewrite D. cbn.
  repeat (split; [reflexivity|]). eexists. repeat (split; [reflexivity|]). reflexivity.
Qed.

Example C182_case :
  exists_ (Arr (Named true false (User 1)) 4) = true /\
  add_pointer (Arr (Named true false (User 1)) 4) = Some (Ptr false false (Arr (Named true false (User 1)) 4)).
Proof. vm_compute. auto. Qed.

(** AddVolatile adds a pointer: it gives a volatile pointer to the type, for every type for which
    it compiles. *)
Theorem C182_volatile_refuted :
  forall t r, exists_ t = true -> add_volatile t = Some r -> r = Ptr false true t /\ r <> mk_volatile t.
Proof.
  intros t r E H.
  assert (G : r = Ptr false true t).
  { unfold add_volatile, default_traits_of in H.
    destruct t as [c v k|c v|c v u|c v k r0 p fc fv|u|u|u k|r0 p]; try discriminate.
    - destruct c, v; cbn in H; congruence.
    - destruct c, v; cbn in H; try discriminate; congruence.
    - destruct c, v; cbn in H; congruence.
    - destruct c, v; cbn in H; congruence.
    - unfold as_const in H. cbn [is_c] in H. destruct (is_c u) eqn:C.
      + cbn in H. unfold mk_const in H. cbn in H. rewrite !set_c_set_c in H.
        rewrite (set_c_true_id u C) in H. congruence.
      + cbn in H. congruence.
    - cbn in H. congruence. }
  split; [exact G|]. subst. clear. unfold mk_volatile. intros H.
  assert (S : forall b t, depth (set_v b t) = depth t) by apply depth_set_v.
  apply (f_equal depth) in H. rewrite S in H. cbn in H. lia.
Qed.

Example C182_volatile_case : add_volatile (number Int) = Some (Ptr false true (number Int)).
Proof. reflexivity. Qed.

(** None of them can be used with a reference: the pointer to a reference that DefaultTraits
    declares does not exist. Nor with void, except AddPointer with void. *)
Theorem C182_references_refuted :
  forall t, (exists u, t = Lref u \/ t = Rref u) ->
  add_reference t = None /\ add_move_reference t = None /\ add_const t = None /\
  add_pointer t = None /\ add_volatile t = None.
Proof. intros t [u [->| ->]]; repeat split; reflexivity. Qed.
Theorem C182_void_refuted :
  forall c v,
  add_reference (Void c v) = None /\ add_move_reference (Void c v) = None /\
  add_const (Void c v) = None /\
  (c || v = true -> add_pointer (Void c v) = None).
Proof. intros [] []; repeat split; try reflexivity; intros H; discriminate H. Qed.

(** * C183, C184: lists of types *)

Lemma same_types_spec t u : same_types t u = true <-> t = u.
Proof. unfold same_types. rewrite <- ty_eqb_spec. destruct (ty_eqb t u); split; auto. Qed.
Lemma same_types_false t u : same_types t u = false <-> t <> u.
Proof. rewrite <- same_types_spec. destruct (same_types t u); split; congruence. Qed.

Lemma index_of_type_range t l : (-1 <= index_of_type t l)%Z.
Proof.
  induction l as [|u l IH]; cbn [index_of_type]; [lia|]. destruct (same_types t u); [lia|].
  destruct (Z.ltb_spec (index_of_type t l) 0); lia.
Qed.

(** GetIndexOfType gives the first place of the type, -1 exactly if the type is not there;
    GetTypeByIndex gives the type at a place; ComparingTypeWithPack tells whether the type is
    there. *)
Theorem C183_index :
  forall t l,
  (index_of_type t l = (-1)%Z <-> ~ In t l) /\
  (forall i, index_of_type t l = Z.of_nat i <->
     nth_error l i = Some t /\ forall j, j < i -> nth_error l j <> Some t) /\
  (forall i u, nth_error l i = Some u -> type_by_index i l = Some u) /\
  (l <> [] -> exists b, compare_with_pack t l = Some b /\ (b = true <-> In t l)).
Proof.
  intros t l. split; [|split; [|split]].
  - induction l as [|u l IH]; cbn [index_of_type In]; [tauto|].
    destruct (same_types t u) eqn:E.
    + apply same_types_spec in E. subst. split; [intros G; exfalso; lia|intros G; exfalso; tauto].
    + apply same_types_false in E. pose proof (index_of_type_range t l).
      destruct (Z.ltb_spec (index_of_type t l) 0); split; intros G.
      * assert (~ In t l) by (apply IH; lia). intuition congruence.
      * apply IH. tauto.
      * exfalso. lia.
      * exfalso. assert (index_of_type t l = (-1)%Z) by (apply IH; tauto). lia.
  - induction l as [|u l IH]; intros i.
    + cbn. split; [lia|]. intros [G _]. destruct i; discriminate.
    + cbn [index_of_type]. destruct (same_types t u) eqn:E.
      * apply same_types_spec in E. subst. split.
        -- intros G. assert (i = 0) by lia. subst. split; [reflexivity|]. intros j J. lia.
        -- intros [_ G]. destruct i; [reflexivity|]. exfalso. apply (G 0); [lia|reflexivity].
      * apply same_types_false in E. pose proof (index_of_type_range t l).
        destruct (Z.ltb_spec (index_of_type t l) 0).
        -- split; [lia|]. intros [G F]. destruct i as [|i]; [cbn in G; congruence|].
           exfalso. assert (index_of_type t l = Z.of_nat i); [|lia].
           apply IH. split; [exact G|]. intros j J. apply (F (S j)). lia.
        -- destruct i as [|i].
           ++ split; [lia|]. intros [G _]. cbn in G. congruence.
           ++ split.
              ** intros G. assert (I : index_of_type t l = Z.of_nat i) by lia.
                 apply IH in I. destruct I as [I1 I2]. split; [exact I1|].
                 intros [|j] J; cbn; [congruence|apply I2; lia].
              ** intros [G F]. assert (index_of_type t l = Z.of_nat i); [|lia].
                 apply IH. split; [exact G|]. intros j J. apply (F (S j)). lia.
  - induction l as [|u l IH]; intros [|i] w; cbn; auto; discriminate.
  - induction l as [|u l IH]; [congruence|]. intros _.
    destruct l as [|u' l].
    + exists (same_types t u). split; [reflexivity|]. rewrite same_types_spec. cbn. intuition.
    + destruct IH as (b & E & Hb); [discriminate|].
      exists (same_types t u || b). split; [cbn [compare_with_pack] in *; rewrite E; reflexivity|].
      rewrite orb_true_iff, same_types_spec, Hb. cbn [In]. intuition.
Qed.

Example C183_case :
  index_of_type (number Int) [number Char; number Int; number Int] = 1%Z /\
  index_of_type (Named true false (Builtin Int)) [number Char; number Int] = (-1)%Z /\
  compare_with_pack (number Int) [number Char; number Int] = Some true.
Proof. vm_compute. auto. Qed.

(** An index that is too large by two or more does not compile. *)
Theorem C184_out_of_range_partial :
  forall i l, length l < i -> type_by_index i l = None.
Proof.
  induction i as [|i IH]; intros [|u l] H; cbn in *; try lia; auto. apply IH. lia.
Qed.
(** The index right behind the last type gives void. *)
Theorem C184_void_refuted :
  forall l, type_by_index (length l) l = Some (Void false false).
Proof. induction l; cbn; auto. Qed.
Example C184_case : type_by_index 2 [number Char; number Int] = Some (Void false false).
Proof. reflexivity. Qed.

(** * C185: move and forward *)

(** The expression is an object of type [t]. *)
Definition object (t : ty) : Prop :=
  exists_ t = true /\ (forall u p, t <> Lref u /\ t <> Rref u /\ t <> Fun u p) /\ (forall c v, t <> Void c v).

Lemma object_mk t : object t -> mk_rref t = Some (Rref t) /\ mk_lref t = Some (Lref t) /\ is_fun t = false.
Proof.
  intros (E & R & V). destruct t; repeat split; try reflexivity;
    try (destruct (V c v eq_refl)); destruct (R t 0) as (A & B & C); try congruence.
  destruct (R t params) as (? & ? & ?). congruence.
Qed.

Lemma implb_refl b : implb b b = true.
Proof. destruct b; reflexivity. Qed.
Lemma ty_eqb_refl t : ty_eqb t t = true.
Proof. apply ty_eqb_spec. reflexivity. Qed.

(** move gives an xvalue of the type of its argument. forward<T>(x) of a named parameter x that was
    declared as T &&, and forward<decltype(x)>(x), give x with the category that the argument of
    the parameter had. *)
Theorem C185_move_forward :
  forall t, object t ->
  (forall k, move (t, k) = Some (t, Xvalue)) /\
  (forall k, forward (deduced (t, k)) (t, Lvalue) = Some (t, k)) /\
  (forall k param, mk_rref (deduced (t, k)) = Some param -> forward param (t, Lvalue) = Some (t, k)).
Proof.
  intros t O. destruct (object_mk t O) as (RR & LL & FF). destruct O as (E & R & V).
  assert (RF : remove_reference t = Some t).
  { apply remove_reference_id. destruct t; try reflexivity; destruct (R t 0) as (A & B & _); congruence. }
  split; [|split].
  - intros [|]; unfold move; cbn [deduced].
    + cbn. rewrite RR. cbn. rewrite FF. reflexivity.
    + rewrite RF. cbn [bind]. rewrite RR. cbn. rewrite FF. reflexivity.
  - intros [|]; unfold forward; cbn [deduced].
    + cbn. rewrite ty_eqb_refl, !implb_refl. reflexivity.
    + rewrite RR, LL. cbn. rewrite ty_eqb_refl, !implb_refl, FF. reflexivity.
  - intros [|] param; cbn [deduced].
    + cbn. intros [= <-]. unfold forward. cbn. rewrite ty_eqb_refl, !implb_refl. reflexivity.
    + rewrite RR. intros [= <-]. unfold forward. cbn.
      rewrite ty_eqb_refl, !implb_refl, FF. reflexivity.
Qed.

Example C185_case : object (Named true false (User 3)).
Proof. split; [reflexivity|]. split; intros; repeat split; discriminate. Qed.

(** An expression that is an xvalue already is refused (if the type is no reference, or one to
    an rvalue). *)
Theorem C185_xvalue_refused :
  forall t, object t -> forward t (t, Xvalue) = None /\ forward (Rref t) (t, Xvalue) = None.
Proof.
  intros t O. destruct (object_mk t O) as (RR & LL & FF).
  assert (N : is_lvalue t = false).
  { destruct O as (_ & R & _). destruct t; try reflexivity. destruct (R t 0) as (A & _). congruence. }
  unfold forward. rewrite RR, LL. cbn. rewrite N, ty_eqb_refl, !implb_refl. cbn.
  destruct (is_c t && negb (is_v t)); split; reflexivity.
Qed.

(** * C186: signedness *)

Theorem C186_fixed_width_partial :
  forall p k b s w, In b (fixed_width p) -> integer p k b = Some (s, w) ->
  is_signed p (number b) = Some s /\ is_unsigned p (number b) = Some (negb s) /\
  exists bs bu, make_signed p (number b) = Some (number bs) /\
    make_unsigned p (number b) = Some (number bu) /\
    integer p k bs = Some (true, w) /\ integer p k bu = Some (false, w) /\
    (s = true -> bs = b) /\ (s = false -> bu = b).
Proof.
  intros p k b s w H I. destruct p; cbn in H;
    repeat (destruct H as [<-|H]; [cbn in I; injection I as <- <-; cbn;
      (split; [reflexivity|]); (split; [reflexivity|]); do 2 eexists;
      (split; [reflexivity|]); (split; [reflexivity|]); (split; [reflexivity|]);
      (split; [reflexivity|]); split; congruence|]); contradiction.
Qed.
Example C186_case : In Long (fixed_width LP64) /\ integer LP64 true Long = Some (true, 64%Z).
Proof. cbn. auto 10. Qed.

(** char is neither signed nor unsigned, and stays what it is. *)
Theorem C186_char_refuted :
  forall p, is_signed p (number Char) = Some false /\ is_unsigned p (number Char) = Some false /\
  make_signed p (number Char) = Some (number Char) /\
  make_unsigned p (number Char) = Some (number Char).
Proof. intros []; vm_compute; auto. Qed.
(** A const integer is neither, and stays what it is; so is a pointer to an integer. *)
Theorem C186_const_refuted :
  forall p b, In b (fixed_width p) ->
  let t := Named true false (Builtin b) in
  is_signed p t = Some false /\ is_unsigned p t = Some false /\
  make_signed p t = Some t /\ make_unsigned p t = Some t.
Proof. intros p b H. destruct p; cbn in H; repeat (destruct H as [<-|H]; [vm_compute; auto|]); contradiction. Qed.
Theorem C186_pointer_refuted :
  forall p b, In b (fixed_width p) ->
  let t := Ptr false false (number b) in
  is_signed p t = Some false /\ is_unsigned p t = Some false /\
  make_signed p t = Some t /\ make_unsigned p t = Some t.
Proof. intros p b H. destruct p; cbn in H; repeat (destruct H as [<-|H]; [vm_compute; auto|]); contradiction. Qed.
(** The 64-bit type (or, on Windows, the 32-bit type) that is not the one of <stdint.h> is not
    accepted. *)
Theorem C186_other_refuted :
  forall p k b, integer p k b <> None -> ~ In b (fixed_width p) -> b <> Char ->
  is_signed p (number b) = None /\ make_unsigned p (number b) = None.
Proof.
  intros p k b I N C. destruct p, b; cbn in *; try congruence;
    try (exfalso; apply N; auto 12; fail); vm_compute; auto.
Qed.
Example C186_other_case :
  integer LP64 true LLong = Some (true, 64%Z) /\ ~ In LLong (fixed_width LP64) /\ LLong <> Char.
Proof. repeat split; try discriminate. cbn. intuition discriminate. Qed.

(** * C187: limits *)

Theorem C187_limits :
  forall p k b s w volatile, In b (fixed_width p) -> integer p k b = Some (s, w) ->
  exists low high, number_limits p (Named false volatile (Builtin b)) = Some (low, high) /\
  representable s w low /\ representable s w high /\
  forall x, representable s w x <-> (low <= x <= high)%Z.
Proof.
  intros p k b s w volatile H I. destruct p; cbn in H;
    repeat (destruct H as [<-|H]; [cbn in I; injection I as <- <-; destruct volatile;
      do 2 eexists; (split; [vm_compute; reflexivity|]); unfold representable; cbn;
      (split; [lia|]); (split; [lia|]); intros x; split; lia|]); contradiction.
Qed.
Example C187_case :
  In SChar (fixed_width LLP64) /\ number_limits LLP64 (Named false true (Builtin SChar)) = Some (-128, 127)%Z.
Proof. cbn. auto. Qed.

(** * C188: primitive types *)

(** For types on the way to which nothing is both const and volatile, the functions tell whether
    the bare type is one of the types of Types. *)
Theorem C188_bare_partial :
  forall p t r, ~ doubly t -> bare t r ->
  exists i f, is_integral_type p t = Some i /\ is_float_type t = Some f /\
    is_primitive_type p t = Some (i || f) /\
    (i = true <-> exists b, r = number b /\ (b = Char \/ In b (fixed_width p))) /\
    (f = true <-> exists b, r = number b /\ (b = Float \/ b = Double \/ b = LDouble)).
Proof.
  intros p t r N B. apply bare_unique in B. subst.
  unfold is_integral_type, is_float_type, is_primitive_type. rewrite !remove_all_answer.
  unfold answer. destruct (doubly_f t) eqn:D; [destruct N; apply doubly_f_iff, D|].
  exists (is_integral p (bare_f t)), (is_float (bare_f t)). cbn [option_map].
  generalize (bare_f t). intros r. repeat (split; [reflexivity|]).
  assert (K : forall b, is_builtin r b = true <-> r = number b) by (intros; apply ty_eqb_spec).
  assert (F : is_float r = true <-> exists b, r = number b /\ (b = Float \/ b = Double \/ b = LDouble)).
  { unfold is_float, one_of. cbn. rewrite !orb_true_iff, !K. split.
    - intros [H|[H|[H|H]]]; try discriminate; eauto 6.
    - intros (b & -> & [->|[->| ->]]); auto. }
  split; [f_equal; unfold is_integral|split; [|exact F]].
  - unfold is_primitive, is_float, one_of. cbn.
    destruct (is_builtin r Float), (is_builtin r Double), (is_builtin r LDouble);
      cbn; rewrite ?andb_false_r, ?orb_true_r, ?orb_false_r, ?andb_true_r; reflexivity.
  - unfold is_integral. rewrite andb_true_iff, negb_true_iff. split.
    + intros [P NF]. unfold is_primitive, one_of in P. cbn in P. unfold is_float, one_of in NF. cbn in NF.
      rewrite !orb_false_iff in NF. destruct NF as (N1 & N2 & N3 & _).
      rewrite N1, N2, N3, !orb_true_iff, !K in P.
      destruct p; cbn in P; cbn [fixed_width app];
        decompose [or] P; try discriminate; eexists; (split; [eassumption|]); cbn; auto 14.
    + intros (b & -> & H). destruct p, b; cbn in H; decompose [or] H; try discriminate; try contradiction;
        vm_compute; auto.
Qed.
Example C188_case : ~ doubly (Ptr true false (number Int)) /\ bare (Ptr true false (number Int)) (number Int).
Proof.
  split; [rewrite <- doubly_f_iff; vm_compute; discriminate|].
  apply (bare_f_bare (Ptr true false (number Int))).
Qed.

(** Of every type, exactly: besides the eight fixed-width types themselves, those whose bare type
    is one of them or char compile, are neither signed nor unsigned and stay what they are; with all
    others the traits do not compile. *)
Theorem C186_exact_partial :
  forall p t, (forall b, In b (fixed_width p) -> t <> number b) ->
  ((~ doubly t /\ exists b, bare t (number b) /\ (b = Char \/ In b (fixed_width p))) ->
   is_signed p t = Some false /\ is_unsigned p t = Some false /\
   make_signed p t = Some t /\ make_unsigned p t = Some t) /\
  (~ (~ doubly t /\ exists b, bare t (number b) /\ (b = Char \/ In b (fixed_width p))) ->
   is_signed p t = None /\ is_unsigned p t = None /\ make_signed p t = None /\ make_unsigned p t = None).
Proof.
  intros p t NF.
  assert (K : forall b, In b (fixed_width p) -> is_builtin t b = false).
  { intros b I. destruct (is_builtin t b) eqn:E; [|reflexivity]. apply ty_eqb_spec in E. destruct (NF b I E). }
  assert (A : asserted p t = true <->
              ~ doubly t /\ exists b, bare t (number b) /\ (b = Char \/ In b (fixed_width p))).
  { unfold asserted. split.
    - rewrite remove_all_answer. unfold answer. destruct (doubly_f t) eqn:D; [discriminate|]. intros H.
      assert (N : ~ doubly t) by (intros Q; apply doubly_f_iff in Q; congruence).
      split; [exact N|].
      destruct (C188_bare_partial p t (bare_f t) N (bare_f_bare t)) as (i & f & I & _ & _ & [I1 _] & _).
      unfold is_integral_type in I. rewrite remove_all_answer in I. unfold answer in I. rewrite D in I.
      cbn [option_map] in I. injection I as I. unfold is_integral in I. rewrite H in I.
      destruct (I1 (eq_sym I)) as (b & Eb & Ib). exists b. split; [rewrite <- Eb; apply bare_f_bare|exact Ib].
    - intros (N & b & B & Ib).
      destruct (C188_bare_partial p t _ N B) as (i & f & I & _ & _ & [_ I2] & _).
      unfold is_integral_type in I. destruct (remove_all t) as [u|]; [|discriminate]. cbn [option_map] in I.
      injection I as I. unfold is_integral in I. rewrite I. apply I2. eauto. }
  assert (F : is_signed p t = (if asserted p t then Some false else None) /\
              is_unsigned p t = (if asserted p t then Some false else None) /\
              make_signed p t = (if asserted p t then Some t else None) /\
              make_unsigned p t = (if asserted p t then Some t else None)).
  { unfold is_signed, is_unsigned, make_signed, make_unsigned, one_of. cbn [existsb].
    destruct p; cbn [long_t ulong_t] in *;
      repeat match goal with
      | |- context [is_builtin t ?b] => rewrite (K b) by (vm_compute; tauto)
      end; cbn [orb]; auto. }
  destruct F as (-> & -> & -> & ->).
  split; intros H; destruct (asserted p t) eqn:E.
  - auto.
  - apply A in H. discriminate H.
  - destruct H. apply A. reflexivity.
  - auto.
Qed.
(** const int & and void *. *)
Example C186_exact_case :
  (forall b, In b (fixed_width LP64) -> Lref (Named true false (Builtin Int)) <> number b) /\
  (~ doubly (Lref (Named true false (Builtin Int)))
   /\ exists b, bare (Lref (Named true false (Builtin Int))) (number b) /\ (b = Char \/ In b (fixed_width LP64))) /\
  (forall b, ~ bare (Ptr false false (Void false false)) (number b)).
Proof.
  split; [discriminate|]. split.
  - split; [rewrite <- doubly_f_iff; vm_compute; discriminate|]. exists Int.
    split; [apply (bare_f_bare (Lref (Named true false (Builtin Int))))|cbn; auto 12].
  - intros b B. apply bare_unique in B. cbn in B. discriminate B.
Qed.

(** Hence pointers to primitive types, at any depth, are told to be primitive, and integral. *)
Theorem C188_pointer_refuted :
  forall p b c v, In b (fixed_width p) -> c && v = false ->
  is_primitive_type p (Ptr c v (number b)) = Some true /\
  is_integral_type p (Ptr c v (number b)) = Some true.
Proof.
  intros p b c v H CV.
  destruct c, v; try discriminate; destruct p; cbn in H;
    repeat (destruct H as [<-|H]; [vm_compute; auto|]); contradiction.
Qed.
(** bool, wchar_t and the 64-bit integer type that is not used by <stdint.h> are not primitive. *)
Theorem C188_missing_refuted :
  forall p, is_primitive_type p (number Bool) = Some false /\
  is_primitive_type p (number WChar) = Some false /\
  is_primitive_type p (number (match p with LP64 => LLong | LLP64 => Long end)) = Some false.
Proof. intros []; vm_compute; auto. Qed.
(** The traits, in contrast to the functions, do not know qualified types. *)
Theorem C188_traits_refuted :
  forall p b c v, c || v = true -> is_primitive p (Named c v (Builtin b)) = false /\
  is_integral p (Named c v (Builtin b)) = false /\ is_float (Named c v (Builtin b)) = false.
Proof. intros p b [] [] H; try discriminate; destruct p, b; vm_compute; auto. Qed.

(** * C189: return types of functions *)

Theorem C189_return_partial :
  forall r params cls fc fv,
  function_return (Ptr false false (Fun r params)) = Some r /\
  function_return (Mem false false cls r params fc fv) = Some r.
Proof. intros r params cls [] []; split; reflexivity. Qed.
(** Not for functions themselves, references to them, and const pointers. *)
Theorem C189_others_refuted :
  forall r params c v, c || v = true ->
  function_return (Fun r params) = None /\ function_return (Lref (Fun r params)) = None /\
  function_return (Ptr c v (Fun r params)) = None /\
  forall cls fc fv, function_return (Mem c v cls r params fc fv) = None.
Proof. intros r params [] [] H; try discriminate; repeat split; reflexivity. Qed.
(** Exactly the unqualified pointers to functions and to member functions. *)
Theorem C189_exact_partial :
  forall t r, function_return t = Some r <->
  (exists params, t = Ptr false false (Fun r params)) \/
  (exists cls params fc fv, t = Mem false false cls r params fc fv).
Proof.
  intros t r. split.
  - destruct t as [| | [] [] u | [] [] cls r0 params fc fv | | | |]; cbn [function_return]; try discriminate.
    + destruct u; try discriminate. intros [= ->]. left. eauto.
    + intros H. right. exists cls, params, fc, fv. destruct fc, fv; injection H as ->; reflexivity.
  - intros [(params & ->)|(cls & params & fc & fv & ->)]; [reflexivity|]. destruct fc, fv; reflexivity.
Qed.
Example C189_case : exists_ (Ptr true false (Fun (number Int) 0)) = true.
Proof. reflexivity. Qed.

(** * C190: isEqual of ranges *)

(** Ranges of elements with different bare types are accepted. *)
Theorem C190_different_partial :
  forall t u r s, ~ doubly t -> ~ doubly u -> bare t r -> bare u s -> r <> s ->
  is_equal_accepted t u = Some true.
Proof.
  intros t u r s N1 N2 B1 B2 D. apply bare_unique in B1, B2. subst.
  unfold is_equal_accepted. rewrite !remove_all_answer. unfold answer.
  destruct (doubly_f t) eqn:D1; [destruct N1; apply doubly_f_iff, D1|].
  destruct (doubly_f u) eqn:D2; [destruct N2; apply doubly_f_iff, D2|].
  cbn. rewrite (proj2 (same_types_false _ _) D). reflexivity.
Qed.
(** No two ranges of elements with the same bare type can be compared. *)
Theorem C190_same_refuted :
  forall t u r, bare t r -> bare u r -> is_equal_accepted t u = None.
Proof.
  intros t u r B1 B2. apply bare_unique in B1, B2. subst.
  unfold is_equal_accepted. rewrite !remove_all_answer. unfold answer.
  destruct (doubly_f t); [reflexivity|]. destruct (doubly_f u); [reflexivity|].
  cbn. rewrite (proj2 (same_types_spec _ _) B2). reflexivity.
Qed.
(** Accepted exactly for different bare types, neither of which is behind something both const and
    volatile; otherwise the call does not compile. *)
Theorem C190_exact_partial :
  forall t u,
  ((~ doubly t /\ ~ doubly u /\ forall r, bare t r -> ~ bare u r) -> is_equal_accepted t u = Some true) /\
  (~ (~ doubly t /\ ~ doubly u /\ forall r, bare t r -> ~ bare u r) -> is_equal_accepted t u = None).
Proof.
  intros t u. split.
  - intros (N1 & N2 & D). apply (C190_different_partial t u (bare_f t) (bare_f u)); auto using bare_f_bare.
    intros E. apply (D (bare_f t)); [apply bare_f_bare|]. rewrite E. apply bare_f_bare.
  - intros H. unfold is_equal_accepted. rewrite !remove_all_answer. unfold answer.
    destruct (doubly_f t) eqn:D1; [reflexivity|]. destruct (doubly_f u) eqn:D2; [reflexivity|].
    cbn [bind]. destruct (same_types (bare_f t) (bare_f u)) eqn:E; [reflexivity|]. exfalso. apply H.
    split; [intros Q; apply doubly_f_iff in Q; congruence|].
    split; [intros Q; apply doubly_f_iff in Q; congruence|].
    intros r B1 B2. apply bare_unique in B1, B2. apply same_types_false in E. congruence.
Qed.
(** int & and char compare; int & and const int & do not. *)
Example C190_exact_case :
  is_equal_accepted (Lref (number Int)) (number Char) = Some true /\
  is_equal_accepted (Lref (number Int)) (Lref (Named true false (Builtin Int))) = None.
Proof. split; reflexivity. Qed.
Example C190_case : bare (Lref (number Int)) (number Int) /\ bare (Lref (Named true false (Builtin Int))) (number Int).
Proof.
  split; [apply (bare_f_bare (Lref (number Int)))|apply (bare_f_bare (Lref (Named true false (Builtin Int))))].
Qed.

Print Assumptions C178_remove.
Print Assumptions C179_predicates.
Print Assumptions C180_pointer_partial.
Print Assumptions C180_qualified_pointer_refuted.
Print Assumptions C181_remove_all_partial.
Print Assumptions C181_const_volatile_refuted.
Print Assumptions C182_add_partial.
Print Assumptions C182_volatile_refuted.
Print Assumptions C182_references_refuted.
Print Assumptions C182_void_refuted.
Print Assumptions C183_index.
Print Assumptions C184_out_of_range_partial.
Print Assumptions C184_void_refuted.
Print Assumptions C185_move_forward.
Print Assumptions C185_xvalue_refused.
Print Assumptions C186_fixed_width_partial.
Print Assumptions C186_char_refuted.
Print Assumptions C186_const_refuted.
Print Assumptions C186_pointer_refuted.
Print Assumptions C186_other_refuted.
Print Assumptions C186_exact_partial.
Print Assumptions C187_limits.
Print Assumptions C188_bare_partial.
Print Assumptions C188_pointer_refuted.
Print Assumptions C188_missing_refuted.
Print Assumptions C188_traits_refuted.
Print Assumptions C189_return_partial.
Print Assumptions C189_others_refuted.
Print Assumptions C189_exact_partial.
Print Assumptions C190_different_partial.
Print Assumptions C190_same_refuted.
Print Assumptions C190_exact_partial.
