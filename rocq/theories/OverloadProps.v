(** Property C216: a copy of a pointer, Variant, ... is a copy. And, for C215, that the functions of
    ForwardModel call the overload that the rules of the language choose. *)
From Coq Require Import List Bool ZArith Arith Lia.
From Verif Require Import Base CppTypes TraitsModel TraitsProps PointersModel ObjectModel ForwardModel
  ForwardProps OverloadModel.
From Verif Require PointersProofs BaseLemmas.
Import ListNotations.

(** ** Specification *)

(** The class of number [n], an instance of a template. *)
Definition class (n : nat) : ty := Named false false (User n).

(** What is copied: a named object, a named const object, a temporary (or the result of move). *)
Definition named (n : nat) : value := (class n, Lvalue).
Definition named_const (n : nat) : value := (Named true false (User n), Lvalue).
Definition temporary (n : nat) : value := (class n, Xvalue).

(** ** The functions that are called *)

Ltac resolve :=
  cbv -[Nat.eqb]; rewrite ?Nat.eqb_refl; try reflexivity.

Lemma shared_called n : called (shared_constructors (class n)) (named n) = Some FromAny
  /\ called (shared_constructors (class n)) (named_const n) = Some Copying
  /\ called (shared_constructors (class n)) (temporary n) = Some Moving.
Proof. repeat split; resolve. Qed.

(** No type of elements is the class itself, which would contain itself. *)
Definition other_class (n : nat) (t : ty) : Prop := ty_eqb (plain t) (class n) = false.

Lemma unique_called n t : other_class n t ->
  called (unique_constructors (class n) t) (named n) = Some FromAny
  /\ called (unique_constructors (class n) t) (named_const n) = None
  /\ called (unique_constructors (class n) t) (temporary n) = Some Moving.
Proof.
  intros H. destruct t as [c v [b|m]|c v|c v t|c v k r ps fc fv|t|t|t k|r ps];
    try (destruct c, v); try (repeat split; resolve; fail).
  all: assert (E : (m =? n) = false) by exact H;
    assert (E' : (n =? m) = false) by (rewrite Nat.eqb_sym; exact E);
    repeat split; cbv -[Nat.eqb]; rewrite ?Nat.eqb_refl, ?E, ?E'; reflexivity.
Qed.

Lemma variant_called n : called (variant_constructors (class n)) (named n) = Some FromAny
  /\ called (variant_constructors (class n)) (named_const n) = Some Copying
  /\ called (variant_constructors (class n)) (temporary n) = Some Moving.
Proof. repeat split; resolve. Qed.
Lemma object_called n : called (object_functions (class n)) (named n) = Some FromAny
  /\ called (object_functions (class n)) (named_const n) = None
  /\ called (object_functions (class n)) (temporary n) = Some Moving.
Proof. repeat split; resolve. Qed.
Lemma implicit_called n : called (implicit_constructors (class n)) (named n) = Some FromAny
  /\ called (implicit_constructors (class n)) (named_const n) = Some Copying
  /\ called (implicit_constructors (class n)) (temporary n) = Some FromAny.
Proof. repeat split; resolve. Qed.
Lemma substep_called n : called (substep_constructors (class n)) (named n) = Some FromAny
  /\ called (substep_constructors (class n)) (named_const n) = Some Copying
  /\ called (substep_constructors (class n)) (temporary n) = Some Moving.
Proof. repeat split; resolve. Qed.

(** ** C216: copies of pointers *)

Section Pointers.
  Context {A : Type}.
  Implicit Types (w : sworld A) (of_bool : option (bool -> A)).

  Lemma set_read (vars : list svar) p v : p < length vars -> nth_error (upd vars p v) p = Some v.
  Proof. intros H. apply BaseLemmas.nth_error_upd_eq, H. Qed.

  (** A copy of a const SharedPointer, and one made of a temporary, refers to the object of the
      original; the first counts, the second leaves none behind. *)
  Theorem C216_shared_partial : forall n of_bool w p q i c x,
    s_field w q = Ok (To i) -> nth_error (s_objs w) i = Some (Some (c, x)) ->
    nth_error (s_vars w) p = Some SAbsent ->
    (exists w', shared_from of_bool (class n) (named_const n) w p q = Some (Ok w')
      /\ s_field w' p = Ok (To i) /\ s_field w' q = Ok (To i)
      /\ nth_error (s_objs w') i = Some (Some (size_t (c + 1), x)))
    /\ (exists w', shared_from of_bool (class n) (temporary n) w p q = Some (Ok w')
      /\ s_field w' p = Ok (To i) /\ s_field w' q = Ok Nil /\ s_objs w' = s_objs w).
  Proof.
    intros n of_bool w p q i c x Q O P. destruct (shared_called n) as (_ & C & M).
    unfold shared_from. rewrite C, M.
    assert (Hp : p < length (s_vars w)) by (apply nth_error_Some; congruence).
    assert (Hi : i < length (s_objs w)) by (apply nth_error_Some; congruence).
    unfold s_field in Q. destruct (nth_error (s_vars w) q) as [[|m]|] eqn:Eq; try discriminate.
    injection Q as ->.
    assert (N : p <> q) by (intros ->; congruence).
    assert (Hq : q < length (s_vars w)) by (apply nth_error_Some; congruence).
    split.
    - exists (SW (upd (s_objs w) i (Some (size_t (c + 1), x))) (upd (s_vars w) p (SPresent (To i)))).
      split; [|split; [|split]].
      + unfold s_copy, s_fresh, s_field, s_incr, s_get. rewrite P, Eq. cbn. rewrite O. reflexivity.
      + unfold s_field. cbn [s_vars]. rewrite set_read by exact Hp. reflexivity.
      + unfold s_field. cbn [s_vars]. rewrite BaseLemmas.nth_error_upd_neq by auto. rewrite Eq. reflexivity.
      + cbn [s_objs]. apply BaseLemmas.nth_error_upd_eq, Hi.
    - exists (SW (s_objs w) (upd (upd (s_vars w) p (SPresent (To i))) q (SPresent Nil))).
      split; [|split; [|split]]; [..|reflexivity].
      + unfold s_move, s_fresh, s_field. rewrite P, Eq. reflexivity.
      + unfold s_field. cbn [s_vars]. rewrite BaseLemmas.nth_error_upd_neq by auto.
        rewrite set_read by exact Hp. reflexivity.
      + unfold s_field. cbn [s_vars]. rewrite set_read by (rewrite BaseLemmas.upd_length; exact Hq). reflexivity.
  Qed.

  (** A copy of a SharedPointer that is not const, in every state and for every type: it does not
      compile, or (if an object can be made of a bool) the copy has an object of its own, made of
      true; the object of the original is not shared and not counted. *)
  Theorem C216_shared_refuted : forall n of_bool w p q i c x,
    s_field w q = Ok (To i) -> nth_error (s_objs w) i = Some (Some (c, x)) ->
    nth_error (s_vars w) p = Some SAbsent ->
    match of_bool with
    | None => shared_from of_bool (class n) (named n) w p q = None
    | Some f => exists w' j, shared_from of_bool (class n) (named n) w p q = Some (Ok w')
        /\ s_field w' p = Ok (To j) /\ s_field w' q = Ok (To i) /\ j <> i
        /\ s_deref w' p = Ok (f true) /\ nth_error (s_objs w') i = Some (Some (c, x))
    end.
  Proof.
    intros n of_bool w p q i c x Q O P. destruct (shared_called n) as (C & _).
    unfold shared_from. rewrite C. destruct of_bool as [f|]; [|reflexivity].
    assert (Hp : p < length (s_vars w)) by (apply nth_error_Some; congruence).
    assert (Hi : i < length (s_objs w)) by (apply nth_error_Some; congruence).
    exists (SW (s_objs w ++ [Some (0%Z, f true)]) (upd (s_vars w) p (SPresent (To (length (s_objs w)))))).
    exists (length (s_objs w)).
    assert (F : s_field (SW (s_objs w ++ [Some (0%Z, f true)])
        (upd (s_vars w) p (SPresent (To (length (s_objs w)))))) p = Ok (To (length (s_objs w)))).
    { unfold s_field. cbn [s_vars]. rewrite set_read by exact Hp. reflexivity. }
    split; [|split; [exact F|split; [|split; [lia|split]]]].
    - cbn [option_map]. unfold s_bool. rewrite Q. cbn. unfold s_new, s_fresh. rewrite P. reflexivity.
    - unfold s_field in Q |- *. cbn [s_vars].
      destruct (nth_error (s_vars w) q) as [[|m]|] eqn:Eq; try discriminate.
      rewrite BaseLemmas.nth_error_upd_neq by congruence. rewrite Eq. exact Q.
    - unfold s_deref. rewrite F. cbn [bind Base.bind s_get s_objs].
      rewrite nth_error_app2 by lia. rewrite Nat.sub_diag. reflexivity.
    - cbn [s_objs]. rewrite nth_error_app1 by exact Hi. exact O.
  Qed.

  (** A UniquePointer that is const cannot be copied, whatever its type; nor can another, if objects of
      the type cannot be made of a bool. *)
  Theorem C216_unique_partial : forall n t of_bool (w : uworld A) p q, other_class n t ->
    unique_from of_bool (class n) t (named_const n) w p q = None
    /\ unique_from None (class n) t (named n) w p q = None
    /\ unique_from of_bool (class n) t (temporary n) w p q = Some (u_move w p q).
  Proof.
    intros n t of_bool w p q H. destruct (unique_called n t H) as (N & C & M).
    unfold unique_from. rewrite N, C, M. auto.
  Qed.

  (** A UniquePointer to an int, a bool, ... that is not const is copied: the copy has an object of its
      own that says whether the original was empty. *)
  Theorem C216_unique_refuted : forall n t (f : bool -> A) (w : uworld A) p q o, other_class n t ->
    u_field w q = Ok o -> nth_error (u_vars w) p = Some Absent ->
    exists w' : uworld A, unique_from (Some f) (class n) t (named n) w p q = Some (Ok w')
      /\ u_deref w' p = Ok (f (match o with Some _ => true | None => false end))
      /\ u_field w' q = Ok o.
  Proof.
    intros n t f w p q o H Q P. destruct (unique_called n t H) as (N & _).
    unfold unique_from. rewrite N. cbn [option_map]. unfold u_bool. rewrite Q. cbn [Base.bind].
    unfold u_new, u_fresh. rewrite P. cbn [Base.bind].
    assert (Hp : p < length (u_vars w)) by (apply nth_error_Some; congruence).
    eexists. split; [reflexivity|]. split.
    - unfold u_deref, u_field. cbn [u_vars u_objs]. rewrite BaseLemmas.nth_error_upd_eq by exact Hp.
      cbn [Base.bind]. rewrite nth_error_app2 by lia. rewrite Nat.sub_diag. reflexivity.
    - unfold u_field in Q |- *. cbn [u_vars].
      destruct (nth_error (u_vars w) q) as [[|o']|] eqn:Eq; try discriminate.
      rewrite BaseLemmas.nth_error_upd_neq by congruence. rewrite Eq. exact Q.
  Qed.
End Pointers.

(** ** C216: copies of the others *)

(** Const objects are copied and temporaries are moved; an Object is not copied at all. *)
Theorem C216_others_partial : forall n t can size align me, other_class n t ->
  (size < ct_size me)%Z ->
  variant_from (class n) (named_const n) = Copied /\ variant_from (class n) (temporary n) = Moved
  /\ substep_from (class n) (named_const n) = Copied /\ substep_from (class n) (temporary n) = Moved
  /\ aligned_from can (class n) (named_const n) = Copied
  /\ initializer_list_from t (class n) (named_const n) = Copied
  /\ object_from size align me (class n) (named_const n) = Nothing
  /\ object_from size align me (class n) (named n) = Nothing
  /\ object_from size align me (class n) (temporary n) = Moved.
Proof.
  intros n t can size align me H S.
  unfold variant_from, substep_from, aligned_from, initializer_list_from, object_from.
  destruct (variant_called n) as (_ & -> & ->). destruct (substep_called n) as (_ & -> & ->).
  destruct (implicit_called n) as (_ & -> & _). destruct (object_called n) as (-> & -> & ->).
  repeat split; try reflexivity.
  unfold b_accepts. replace (ct_size me <=? size)%Z with false by (symmetry; apply Z.leb_gt; exact S).
  reflexivity.
Qed.

(** Of a named one that is not const: a Variant is moved from instead of copied; a Substep calls the
    initialisation of the step; an AlignedObject makes a T of the AlignedObject, if at all, and an
    InitializerList does not compile, both even of a temporary, so that they cannot be passed or
    returned by value. *)
Theorem C216_others_refuted : forall n t can, other_class n t ->
  variant_from (class n) (named n) = Moved
  /\ substep_from (class n) (named n) = Element
  /\ aligned_from can (class n) (named n) = (if can then Element else Nothing)
  /\ aligned_from can (class n) (temporary n) = (if can then Element else Nothing)
  /\ initializer_list_from t (class n) (named n) = Nothing
  /\ initializer_list_from t (class n) (temporary n) = Nothing.
Proof.
  intros n t can H. unfold variant_from, substep_from, aligned_from, initializer_list_from.
  destruct (variant_called n) as (-> & _). destruct (substep_called n) as (-> & _).
  destruct (implicit_called n) as (-> & _ & ->).
  assert (E : ty_eqb t (class n) = false).
  { destruct (ty_eqb t (class n)) eqn:E; [|reflexivity]. apply ty_eqb_spec in E. subst t.
    unfold other_class in H. cbn in H. rewrite Nat.eqb_refl in H. discriminate. }
  unfold named, temporary. cbn [fst plain set_v set_c class]. fold (class n). rewrite E. repeat split.
Qed.

(** ** C215: the overloads that are called *)

Lemma plain_const t : plain (mk_const t) = plain t.
Proof. unfold plain, mk_const. rewrite !set_cv, set_c_set_c. reflexivity. Qed.

(** [either] and [any_or_either] of ForwardModel take the overload that the rules choose. *)
Theorem C215_pair_overloads : forall t arg r l, element_type t -> TraitsProps.object (fst arg) ->
  either t arg r l
  = match called (pair_functions t) arg with
    | Some FromElementMoved => r (t, Lvalue)
    | Some FromElement => l (mk_const t, Lvalue)
    | _ => None
    end.
Proof.
  intros t [u k] r l E O. pose proof E as (Ot & C & V). destruct (object_mk t Ot) as (_ & _ & Ft).
  unfold either, called, best, pair_functions. cbn [length seq filter nth_error].
  unfold better, parameter_type. cbn [fn_parameter others firstn skipn app forallb is_template].
  destruct (binds (Rref t) (u, k)) eqn:B1; destruct (binds (Lref (mk_const t)) (u, k)) eqn:B2.
  - destruct k.
    + cbn [binds] in B1. rewrite Ft, andb_false_r in B1. discriminate.
    + unfold binds_better. cbn [snd is_rref referred negb andb orb]. fold (plain t).
      rewrite plain_const, ty_eqb_refl, C.
      destruct (const_c t Ot) as (-> & _). cbn. reflexivity.
  - reflexivity.
  - reflexivity.
  - reflexivity.
Qed.

Lemma called_any t u k : element_type t -> TraitsProps.object u ->
  called (construct_functions t) (u, k)
  = Some (if ty_eqb u t then match k with Xvalue => FromElementMoved | Lvalue => FromAny end
          else if ty_eqb u (mk_const t) then match k with Xvalue => FromAny | Lvalue => FromElement end
          else FromAny).
Proof.
  intros E O. pose proof E as (Ot & C & V). destruct (object_mk t Ot) as (_ & _ & Ft).
  destruct (object_mk u O) as (Ru & Lu & Fu). destruct (const_c t Ot) as (C' & V' & _).
  assert (D : mk_rref (deduced (u, k)) = Some (match k with Lvalue => Lref u | Xvalue => Rref u end))
    by (destruct k; [reflexivity|exact Ru]).
  assert (B : binds (match k with Lvalue => Lref u | Xvalue => Rref u end) (u, k) = true).
  { destruct k; cbn [binds]; rewrite ty_eqb_refl, !implb_refl; reflexivity. }
  assert (P : forall v, is_c v = false -> is_v v = false -> plain v = v).
  { intros v Hc Hv. unfold plain. rewrite set_v_id, set_c_id; auto. }
  assert (Pt : plain t = t) by (apply P; assumption).
  unfold called, best, construct_functions. cbn [length seq filter nth_error].
  unfold better, parameter_type. cbn [fn_parameter others firstn skipn app forallb is_template].
  rewrite D, B.
  destruct (ty_eqb u t) eqn:E1.
  - apply ty_eqb_spec in E1. subst u. destruct (binds_rvalue t E) as (B1 & B2 & _).
    destruct (binds_const t E k) as (B3 & _). destruct k; rewrite ?B1, ?B2, ?B3; unfold binds_better;
      cbn [snd is_rref referred negb andb orb]; rewrite ?plain_const, ?Pt, ?ty_eqb_refl, ?C, ?C', ?V', ?V; reflexivity.
  - destruct (ty_eqb u (mk_const t)) eqn:E2.
    + apply ty_eqb_spec in E2. subst u. destruct (binds_rvalue t E) as (_ & _ & B1).
      destruct (binds_const t E k) as (_ & B3). rewrite B1, B3. unfold binds_better.
      destruct k; cbn [snd is_rref referred negb andb orb];
        rewrite ?plain_const, ?Pt, ?ty_eqb_refl, ?C, ?C', ?V', ?V; reflexivity.
    + assert (N : (ty_eqb t (plain u) && implb (is_v u) false)%bool = false).
      { destruct (ty_eqb t (plain u)) eqn:E3; [|reflexivity]. apply ty_eqb_spec in E3.
        destruct (is_v u) eqn:Vu; [reflexivity|]. exfalso.
        unfold plain in E3. rewrite (set_v_id u Vu) in E3. destruct (is_c u) eqn:Cu.
        - assert (H : u = mk_const t) by (rewrite E3; unfold mk_const; rewrite set_c_set_c, set_c_true_id; auto).
          rewrite H, ty_eqb_refl in E2. discriminate.
        - rewrite (set_c_id u Cu) in E3. rewrite E3, ty_eqb_refl in E1. discriminate. }
      assert (B1 : binds (Rref t) (u, k) = false).
      { destruct k; cbn [binds]; fold (plain t) (plain u); rewrite Pt, V;
          destruct (ty_eqb t (plain u)); cbn [andb] in *; rewrite ?N, ?andb_false_r; reflexivity. }
      assert (B2 : binds (Lref (mk_const t)) (u, k) = false).
      { destruct k; cbn [binds]; fold (plain (mk_const t)) (plain u); rewrite plain_const, Pt, V', V;
          destruct (ty_eqb t (plain u)); cbn [andb] in *; rewrite ?N, ?andb_false_r; reflexivity. }
      rewrite B1, B2. reflexivity.
Qed.

Theorem C215_any_overloads : forall t arg any r l, element_type t -> TraitsProps.object (fst arg) ->
  any_or_either t arg any r l
  = match called (construct_functions t) arg with
    | Some FromElementMoved => r (t, Lvalue)
    | Some FromElement => l (mk_const t, Lvalue)
    | Some FromAny => any arg
    | _ => None
    end.
Proof.
  intros t [u k] any r l E O. cbn [fst] in O. rewrite called_any by assumption.
  unfold any_or_either. cbn [fst snd].
  destruct (ty_eqb u t); [destruct k; reflexivity|].
  destruct (ty_eqb u (mk_const t)); [destruct k; reflexivity|reflexivity].
Qed.

(** Object: *)
Lemma object_value_called n t k : element_type t -> other_class n t ->
  called (object_functions (class n)) (t, k) = Some FromAny
  /\ called (object_functions (class n)) (mk_const t, k)
     = Some (match k with Lvalue => FromAnyConst | Xvalue => FromAny end).
Proof.
  intros E H. pose proof E as (Ot & C & V). destruct (object_mk t Ot) as (Rt & Lt & Ft).
  destruct (const_c t Ot) as (C' & V' & _ & CC). pose proof (object_const t Ot) as Oc.
  destruct (object_mk (mk_const t) Oc) as (Rc & Lc & Fc).
  assert (Pt : plain t = t) by (unfold plain; rewrite set_v_id, set_c_id; auto).
  assert (X : ty_eqb (class n) t = false).
  { unfold other_class in H. rewrite Pt in H. destruct (ty_eqb (class n) t) eqn:X; [|reflexivity].
    apply ty_eqb_spec in X. rewrite <- X, ty_eqb_refl in H. discriminate. }
  assert (N : forall u k, u = t \/ u = mk_const t ->
    binds (Lref (mk_const (class n))) (u, k) = false /\ binds (Rref (class n)) (u, k) = false).
  { intros u j [-> | ->]; destruct j; cbn [binds]; fold (plain t) (plain (mk_const t))
      (plain (class n)) (plain (mk_const (class n))); rewrite ?plain_const, Pt;
      change (plain (class n)) with (class n); rewrite X; auto. }
  assert (D : forall u j, u = t \/ u = mk_const t ->
    mk_rref (deduced (u, j)) = Some (match j with Lvalue => Lref u | Xvalue => Rref u end)
    /\ mk_lref (mk_const u) = Some (Lref (mk_const t))
    /\ binds (match j with Lvalue => Lref u | Xvalue => Rref u end) (u, j) = true
    /\ binds (Lref (mk_const t)) (u, j) = true).
  { intros u j U. split; [|split; [|split]].
    - destruct j; [reflexivity|]. destruct U as [-> | ->]; assumption.
    - destruct U as [-> | ->]; rewrite ?CC; exact Lc.
    - destruct j; cbn [binds]; rewrite ty_eqb_refl, !implb_refl; reflexivity.
    - destruct (binds_const t E j). destruct U as [-> | ->]; assumption. }
  assert (R : forall u j, u = t \/ u = mk_const t -> called (object_functions (class n)) (u, j)
    = (let p := match j with Lvalue => Lref u | Xvalue => Rref u end in
       let q := Lref (mk_const t) in
       if binds_better (u, j) p q then Some FromAny else Some FromAnyConst)).
  { intros u j U. destruct (N u j U) as (N1 & N2). destruct (D u j U) as (D1 & D2 & D3 & D4).
    unfold called, best, object_functions. cbn [length seq filter nth_error].
    unfold better, parameter_type. cbn [fn_parameter others firstn skipn app forallb is_template fst].
    rewrite N1, N2, D1, D2, D3, D4. cbn zeta.
    destruct (binds_better (u, j) _ (Lref (mk_const t))) eqn:B.
    - assert (B' : binds_better (u, j) (Lref (mk_const t)) (match j with Lvalue => Lref u | Xvalue => Rref u end)
        = false).
      { unfold binds_better in *. destruct U as [-> | ->], j; cbn [snd is_rref referred negb andb orb] in *;
          rewrite ?plain_const, ?Pt, ?ty_eqb_refl, ?C, ?C', ?V', ?V in *; reflexivity || discriminate. }
      rewrite B'. cbn. reflexivity.
    - rewrite ?orb_true_r. cbn. destruct (binds_better (u, j) (Lref (mk_const t)) _); cbn; reflexivity. }
  rewrite !R by auto. cbn zeta. unfold binds_better.
  destruct k; cbn [snd is_rref referred negb andb orb];
    rewrite ?plain_const, ?Pt, ?ty_eqb_refl, ?C, ?C', ?V', ?V; auto.
Qed.

(** An Object that is made of a named object moves from it, whatever the type. To assign a named object does
    not compile. *)
Theorem C215_object_refuted : forall n t V (moved : V -> V) (x : V), element_type t -> other_class n t ->
  given moved (object_holds (class n)) (t, Lvalue) x = Some (x, moved x)
  /\ (moved x <> x -> ~ right moved (object_holds (class n)) (t, Lvalue))
  /\ object_assigned (class n) (t, Lvalue) = None.
Proof.
  intros n t V moved x E H.
  assert (G : given moved (object_holds (class n)) (t, Lvalue) x = Some (x, moved x)).
  { unfold given, object_holds. rewrite (proj1 (object_value_called n t Lvalue E H)).
    cbn [fst]. rewrite (move_named t E). cbn [bind fst]. rewrite (move_named t E). cbn [bind option_map].
    rewrite (taken_x t E). reflexivity. }
  split; [exact G|]. split.
  - intros D R. specialize (R x). rewrite G in R. cbn in R. congruence.
  - unfold object_assigned. rewrite (proj1 (object_value_called n t Lvalue E H)). reflexivity.
Qed.

(** A const object is copied and a temporary is moved, when it is made and when it is assigned. *)
Theorem C215_object_partial : forall n t V (moved : V -> V), element_type t -> other_class n t ->
  right moved (object_holds (class n)) (mk_const t, Lvalue)
  /\ right moved (object_holds (class n)) (t, Xvalue)
  /\ right moved (object_assigned (class n)) (mk_const t, Lvalue)
  /\ right moved (object_assigned (class n)) (t, Xvalue).
Proof.
  intros n t V moved E H.
  repeat split; apply taken_spec; unfold object_holds, object_assigned; cbn [fst snd];
    rewrite ?(proj2 (object_value_called n t Lvalue E H)), ?(proj1 (object_value_called n t Xvalue E H)).
  - eexists. split; reflexivity.
  - exists (t, Xvalue). rewrite (move_named t E). cbn [bind fst]. rewrite (move_named t E). auto.
  - eexists. split; reflexivity.
  - exists (t, Xvalue). rewrite (move_named t E). auto.
Qed.

(** ** Cases *)

(** SharedPointer<int> (class 0), SharedPointer<X> for a class X that cannot be made of a bool. *)
Example C216_case :
  let w := SW [Some (1%Z, 42%Z)] [SAbsent; SPresent (To 0)] in
  shared_from (Some Z.b2z) (class 0) (named_const 0) w 0 1
    = Some (Ok (SW [Some (2%Z, 42%Z)] [SPresent (To 0); SPresent (To 0)]))
  /\ shared_from (Some Z.b2z) (class 0) (named 0) w 0 1
    = Some (Ok (SW [Some (1%Z, 42%Z); Some (0%Z, 1%Z)] [SPresent (To 1); SPresent (To 0)]))
  /\ shared_from None (class 0) (named 0) w 0 1 = None.
Proof. repeat split; reflexivity. Qed.

Example C216_other_case : other_class 0 (Named false false (Builtin Int)) /\ other_class 0 (class 1)
  /\ element_type (class 1) /\ (16 < ct_size (CT 0 24 8))%Z
  /\ unique_from (Some Z.b2z) (class 0) (Named false false (Builtin Int)) (named 0)
       (UW [Some 42%Z] [Absent; Present (Some 0)]) 0 1
     = Some (Ok (UW [Some 42%Z; Some 1%Z] [Present (Some 1); Present (Some 0)])).
Proof.
  repeat split; try reflexivity; try discriminate; intros; discriminate.
Qed.

Print Assumptions C216_shared_partial.
Print Assumptions C216_shared_refuted.
Print Assumptions C216_unique_partial.
Print Assumptions C216_unique_refuted.
Print Assumptions C216_others_partial.
Print Assumptions C216_others_refuted.
Print Assumptions C215_pair_overloads.
Print Assumptions C215_any_overloads.
Print Assumptions C215_object_refuted.
Print Assumptions C215_object_partial.
