(** A reference wrapper refers to the object it is made from (C228). *)
From Coq Require Import List Bool ZArith Lia.
From Verif Require Import Base BaseLemmas ReferenceModel ReferenceSpec.
Import ListNotations.

Lemma refers m t l : (exists c, nth_error m l = Some (Some c)) -> refers_to m (RW t (Some l)) l.
Proof.
  intros (c & E). unfold refers_to, rw_get, rw_arrow, rw_bool. cbn [rw_value]. rewrite E. auto.
Qed.

(** What holds: of a number, of a named pointer, and of the value of a pointer, makeReferenceWrapper makes
    a wrapper that refers to the object given. *)
Theorem C228_make_partial :
  forall m a l,
  given m a l -> (exists c, nth_error m l = Some (Some c)) ->
  exists w, make_reference_wrapper m a = Some (Ok w) /\ refers_to m w l.
Proof.
  intros m a l G E. destruct a as [[c | u c] x | u v]; cbn in G; subst.
  - eexists. split; [reflexivity | apply refers; exact E].
  - unfold make_reference_wrapper. cbn. rewrite G. cbn [bind]. eexists.
    split; [reflexivity | apply refers; exact E].
  - eexists. split; [reflexivity | apply refers; exact E].
Qed.

Example C228_make_case :
  let m := [Some (Number 5); Some (Location (Some 0))] in
  given m (Named (NumberType false) 0) 0 /\ given m (Named (PointerType (NumberType false) false) 1) 0 /\
  given m (PointerValue (NumberType false) (Some 0)) 0.
Proof. repeat split. Qed.

(** makeConstReferenceWrapper does so too, except of a named pointer to an object that is not const. *)
Theorem C228_make_const_partial :
  forall m a l,
  given m a l -> (exists c, nth_error m l = Some (Some c)) ->
  (forall u c x, a = Named (PointerType u c) x -> const_of u = true) ->
  exists w, make_const_reference_wrapper m a = Some (Ok w) /\ refers_to m w l /\ const_of (rw_type w) = true.
Proof.
  intros m a l G E C. destruct a as [[c | u c] x | u v]; cbn in G; subst.
  - eexists. split; [reflexivity|]. split; [apply refers; exact E | reflexivity].
  - unfold make_const_reference_wrapper. cbn. rewrite (C u c x eq_refl). cbn. rewrite G. cbn [bind].
    eexists. split; [reflexivity|]. split; [apply refers; exact E | destruct u; reflexivity].
  - unfold make_const_reference_wrapper. cbn. rewrite andb_false_r. cbn [bind]. eexists.
    split; [reflexivity|]. split; [apply refers; exact E | destruct u; reflexivity].
Qed.

Example C228_make_const_case :
  let m := [Some (Number 5); Some (Location (Some 0))] in
  given m (Named (PointerType (NumberType true) false) 1) 0 /\
  (forall u c x, Named (PointerType (NumberType true) false) 1 = Named (PointerType u c) x ->
     const_of u = true).
Proof. split; [reflexivity|]. intros u c x H. injection H as <- _ _. reflexivity. Qed.

(** What fails: of a named pointer to an object that is not const, it makes a wrapper of the pointer: one
    that refers to the pointer, not to the object, follows the pointer when that is changed, and is not empty
    although the pointer is null. *)
Theorem C228_make_const_refuted :
  forall m u c x v,
  const_of u = false -> nth_error m x = Some (Some (Location v)) ->
  exists w, make_const_reference_wrapper m (Named (PointerType u c) x) = Some (Ok w) /\
    refers_to m w x /\ rw_type w = PointerType u true /\ rw_read m w = Ok (Location v).
Proof.
  intros m u c x v U E. unfold make_const_reference_wrapper. cbn. rewrite U. cbn. eexists.
  split; [reflexivity|]. split; [apply refers; eauto|]. split; [reflexivity|].
  unfold rw_read, rw_get. cbn. rewrite E. cbn [bind]. rewrite E. reflexivity.
Qed.

Example C228_make_const_refuted_case :
  let m := [Some (Number 5); Some (Location (Some 0))] in
  const_of (NumberType false) = false /\ nth_error m 1 = Some (Some (Location (Some 0))) /\
  given m (Named (PointerType (NumberType false) false) 1) 0.
Proof. repeat split. Qed.

(** The object and the wrapper are one: what is written through the wrapper is in the object, what is written
    to the object is read through the wrapper, and no other object changes. *)
Theorem C228_alias_partial :
  forall m w l c,
  refers_to m w l -> const_of (rw_type w) = false ->
  exists m', rw_write m w c = Some (Ok m') /\
    nth_error m' l = Some (Some c) /\ rw_read m' w = Ok c /\ refers_to m' w l /\ length m' = length m /\
    (forall x, x <> l -> nth_error m' x = nth_error m x) /\
    (forall d, rw_read (upd m l (Some d)) w = Ok d).
Proof.
  intros m w l c (G & A & B) C. unfold rw_write. rewrite C, G. cbn [bind]. eexists. split; [reflexivity|].
  assert (V : rw_value w = Some l /\ exists d, nth_error m l = Some (Some d)).
  { unfold rw_get in G. destruct (rw_value w) as [a|]; [| discriminate G].
    destruct (nth_error m a) as [[d|]|] eqn:E; try discriminate G. injection G as ->. eauto. }
  destruct V as (V & d & E).
  assert (L : l < length m) by (apply nth_error_Some; congruence).
  assert (R : forall d, rw_read (upd m l (Some d)) w = Ok d).
  { intro d'. unfold rw_read, rw_get. rewrite V, nth_error_upd_eq by exact L. cbn [bind].
    rewrite nth_error_upd_eq by exact L. reflexivity. }
  split; [apply nth_error_upd_eq; exact L|]. split; [apply R|]. split.
  - destruct w as [t v]. cbn in V. subst v. apply refers. rewrite nth_error_upd_eq by exact L. eauto.
  - split; [apply upd_length|]. split; [| exact R].
    intros x D. apply nth_error_upd_neq. auto.
Qed.

Example C228_alias_case :
  refers_to [Some (Number 5)] (RW (NumberType false) (Some 0)) 0.
Proof. repeat split. Qed.

(** Through a wrapper of a const object nothing is written. *)
Theorem C228_const_partial :
  forall m a w c,
  make_const_reference_wrapper m a = Some (Ok w) -> rw_write m w c = None.
Proof.
  intros m a w c H. unfold rw_write. replace (const_of (rw_type w)) with true; [reflexivity|].
  unfold make_const_reference_wrapper in H.
  destruct (choose_const a) as [[]|]; [| | discriminate H].
  - destruct a as [t x | u v]; cbn in H; [| discriminate H].
    injection H as <-. cbn. destruct t; reflexivity.
  - destruct (pointer_value m a); cbn in H; try discriminate H.
    injection H as <-. cbn. destruct (pointee_type a); reflexivity.
Qed.

(** An empty wrapper is told by operator bool, and its use is UB; so is the use of one whose object is gone,
    which operator bool does not tell. *)
Theorem C228_empty_partial :
  forall m w,
  (rw_bool w = false -> rw_value w = None /\ rw_get m w = UB /\ rw_arrow m w = UB) /\
  (forall t, rw_bool (rw_of_pointer t None) = false).
Proof.
  intros m [t [v|]]; (split; [intro H; try discriminate H; auto | reflexivity]).
Qed.

Theorem C228_gone_refuted :
  forall m w l,
  refers_to m w l ->
  rw_bool w = true /\ rw_get (upd m l None) w = UB /\ rw_arrow (upd m l None) w = UB.
Proof.
  intros m w l (G & A & B). split; [exact B|].
  unfold rw_get, rw_arrow in *. destruct (rw_value w) as [a|]; [| discriminate G].
  destruct (nth_error m a) as [[d|]|] eqn:E; try discriminate G. injection G as ->.
  rewrite nth_error_upd_eq by (apply nth_error_Some; congruence). auto.
Qed.

(** getReference of a number, and getConstReference of a number and of a pointer to an object that is not
    const, are the object; for other pointers they do not compile. *)
Theorem C228_get_partial :
  forall m t x,
  object_at m t x ->
  get_reference m (Named t x) = match t with NumberType _ => Some (Ok x) | PointerType _ _ => None end /\
  get_const_reference m (Named t x) =
    match t with
    | NumberType _ => Some (Ok x)
    | PointerType u _ => if const_of u then None else Some (Ok x)
    end.
Proof.
  intros m [c | u c] x (v & E); unfold get_reference, get_const_reference; cbn.
  - rewrite E. auto.
  - split; [reflexivity|]. destruct (const_of u); cbn; [reflexivity|]. rewrite E. reflexivity.
Qed.

Example C228_get_case : object_at [Some (Number 5)] (NumberType true) 0.
Proof. eexists. reflexivity. Qed.

(** What getConstReference gives for a temporary refers to nothing. *)
Theorem C228_temporary_refuted :
  forall m c z,
  exists m' a, get_const_reference_temporary m (NumberType c) (Number z) = Some (Ok (m', a)) /\
    forall t, rw_get m' (RW t (Some a)) = UB.
Proof.
  intros m c z. unfold get_const_reference_temporary, get_const_reference. cbn.
  rewrite nth_error_app2, Nat.sub_diag by lia. cbn. do 2 eexists. split; [reflexivity|].
  intro t. unfold rw_get. cbn [rw_value]. rewrite nth_error_app2, Nat.sub_diag by lia. reflexivity.
Qed.

Print Assumptions C228_make_partial.
Print Assumptions C228_make_const_partial.
Print Assumptions C228_make_const_refuted.
Print Assumptions C228_alias_partial.
Print Assumptions C228_const_partial.
Print Assumptions C228_empty_partial.
Print Assumptions C228_gone_refuted.
Print Assumptions C228_get_partial.
Print Assumptions C228_temporary_refuted.
