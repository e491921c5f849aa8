(** Properties C214 and C215: what becomes of the objects that are given to a container, an allocator or
    a pointer. *)
From Coq Require Import List Bool Arith Lia.
From Verif Require Import CppTypes TraitsModel TraitsProps ForwardModel.
Import ListNotations.

(** ** Specification *)

(** A type that elements can have: an object type, without const and volatile. *)
Definition element_type (t : ty) : Prop := object t /\ is_c t = false /\ is_v t = false.

(** The argument is an object of the type [t], const or not; named, or a temporary or the result of
    move. *)
Definition object_of (t : ty) (arg : value) : Prop := fst arg = t \/ fst arg = mk_const t.

(** Afterwards a named object, or a const one, has its value still; another one was moved from. *)
Definition left_in {V} (moved : V -> V) (arg : value) (x : V) : V :=
  match arg with
  | (t, Xvalue) => if is_c t then x else moved x
  | (t, Lvalue) => x
  end.

(** The call passes every object on as it should: the element is made of it, a named object is copied,
    any other is moved. *)
Definition right {V} (moved : V -> V) (via : value -> option value) (arg : value) : Prop :=
  forall x, given moved via arg x = Some (x, left_in moved arg x).

(** ** Types *)

Lemma object_const t : object t -> object (mk_const t).
Proof.
  intros (E & R & V). unfold mk_const. destruct t; cbn [set_c].
  - repeat split; try discriminate.
  - destruct (V c v eq_refl).
  - repeat split; try discriminate. exact E.
  - repeat split; try discriminate. exact E.
  - destruct (R t 0) as (H & _). congruence.
  - destruct (R t 0) as (_ & H & _). congruence.
  - split; [|split; intros; repeat split; discriminate].
    clear V R. cbn [exists_] in *. rewrite !andb_true_iff in E. destruct E as ((((E & A) & B) & C) & D).
    rewrite D, andb_true_r. rewrite !andb_true_iff.
    assert (X : exists_ (set_c true t) = exists_ t /\ is_ref (set_c true t) = is_ref t
      /\ is_void (set_c true t) = is_void t /\ is_fun (set_c true t) = is_fun t).
    { clear. induction t; cbn [set_c exists_ is_ref is_void is_fun]; auto.
      destruct IHt as (-> & -> & -> & ->). auto. }
    destruct X as (-> & -> & -> & ->). auto.
  - destruct (R t params) as (_ & _ & H). congruence.
Qed.

Lemma const_c t : object t -> is_c (mk_const t) = true /\ is_v (mk_const t) = is_v t
  /\ set_c false (set_v false (mk_const t)) = set_c false (set_v false t)
  /\ mk_const (mk_const t) = mk_const t.
Proof.
  unfold mk_const. induction t; intros O; cbn [set_c is_c is_v set_v]; auto.
  - destruct O as (_ & R & _). destruct (R t 0) as (H & _). congruence.
  - destruct O as (_ & R & _). destruct (R t 0) as (_ & H & _). congruence.
  - destruct IHt as (A & B & C & D).
    { destruct O as (E & _ & _). cbn [exists_] in E. rewrite !andb_true_iff in E.
      destruct E as ((((E & A) & B) & C) & D). apply negb_true_iff in A, B, C.
      split; [exact E|]. split; intros; repeat split; intros ->; discriminate. }
    rewrite A, B, C, D. auto.
  - destruct O as (_ & R & _). destruct (R t params) as (_ & _ & H). congruence.
Qed.

Section Passing.
  Context (t : ty).
  Hypothesis Et : element_type t.

  Let Ot : object t := proj1 Et.

  Lemma object_of_object arg : object_of t arg -> object (fst arg).
  Proof. intros [-> | ->]; [exact Ot|apply object_const, Ot]. Qed.

  Lemma taken_spec V (moved : V -> V) via arg :
    (exists a, via arg = Some a /\ taken a = taken arg) -> right moved via arg.
  Proof.
    intros (a & E & H) x. unfold given. rewrite E. cbn [option_map]. rewrite H.
    destruct arg as [u [|]]; cbn [taken snd fst left_in]; [reflexivity|]. destruct (is_c u); reflexivity.
  Qed.

  (** Passes on an object of the type as an object of the type, that may be moved from only if the
      first could. *)
  Definition good (f : value -> option value) : Prop :=
    forall arg, object_of t arg -> exists a, f arg = Some a /\ object_of t a /\ taken a = taken arg.

  Lemma good_right V (moved : V -> V) f arg : good f -> object_of t arg -> right moved f arg.
  Proof. intros G H. apply taken_spec. destruct (G arg H) as (a & ? & _ & ?). eauto. Qed.

  Lemma binds_rvalue : binds (Rref t) (t, Xvalue) = true /\ binds (Rref t) (t, Lvalue) = false
    /\ forall k, binds (Rref t) (mk_const t, k) = false.
  Proof.
    destruct (object_mk t Ot) as (_ & _ & F). pose proof Et as (_ & C & V).
    destruct (const_c t Ot) as (C' & V' & _).
    cbn [binds]. rewrite ty_eqb_refl, !implb_refl, F, C, C', V', V. repeat split.
    intros [|]; rewrite !andb_false_r; reflexivity.
  Qed.

  Lemma binds_const k : binds (Lref (mk_const t)) (t, k) = true
    /\ binds (Lref (mk_const t)) (mk_const t, k) = true.
  Proof.
    pose proof Et as (_ & C & V). destruct (const_c t Ot) as (C' & V' & S' & _).
    destruct k; cbn [binds]; rewrite S', ty_eqb_refl, C', V', V; rewrite ?C, ?C'; auto.
  Qed.

  Lemma either_cases arg r l : object_of t arg ->
    (taken arg = true /\ arg = (t, Xvalue) /\ either t arg r l = r (t, Lvalue))
    \/ (taken arg = false /\ either t arg r l = l (mk_const t, Lvalue)).
  Proof.
    destruct binds_rvalue as (B1 & B2 & B3). pose proof Et as (_ & C & _).
    destruct (const_c t Ot) as (C' & _).
    intros H. destruct arg as [u k]. destruct H as [H | H]; cbn [fst] in H; subst u;
      unfold either, taken; cbn [snd fst].
    - destruct k.
      + right. rewrite B2. destruct (binds_const Lvalue) as [-> _]. auto.
      + left. rewrite B1, C. auto.
    - right. rewrite B3. destruct (binds_const k) as [_ ->]. rewrite C'. destruct k; auto.
  Qed.

  Lemma move_named : move (t, Lvalue) = Some (t, Xvalue).
  Proof. apply (proj1 (C185_move_forward t Ot)). Qed.
  Lemma forward_named : forward t (t, Lvalue) = Some (t, Xvalue).
  Proof. apply (proj1 (proj2 (C185_move_forward t Ot)) Xvalue). Qed.
  Lemma named_const : object_of t (mk_const t, Lvalue).
  Proof. right. reflexivity. Qed.
  Lemma xvalue_of : object_of t (t, Xvalue).
  Proof. left. reflexivity. Qed.

  Lemma good_either r l :
    (exists a, r (t, Lvalue) = Some a /\ object_of t a /\ taken a = true) ->
    (exists a, l (mk_const t, Lvalue) = Some a /\ object_of t a /\ taken a = false) ->
    good (fun arg => either t arg r l).
  Proof.
    intros Hr Hl arg H. destruct (either_cases arg r l H) as [(T & _ & ->)|(T & ->)]; rewrite T; auto.
  Qed.

  Lemma taken_x : taken (t, Xvalue) = true.
  Proof. pose proof Et as (_ & C & _). unfold taken. cbn [snd fst]. rewrite C. reflexivity. Qed.

  Lemma good_move_either f : good f ->
    good (fun arg => either t arg (fun o => bind (move o) f) f).
  Proof.
    intros G. apply good_either.
    - rewrite move_named. cbn [bind]. destruct (G _ xvalue_of) as (a & ? & ? & E). rewrite taken_x in E. eauto.
    - destruct (G _ named_const) as (a & ? & ? & E). eauto.
  Qed.

  Lemma good_placement : good (placement_new t).
  Proof.
    apply good_either.
    - exists (t, Xvalue). rewrite forward_named. auto using xvalue_of, taken_x.
    - eexists. split; [reflexivity|]. auto using named_const.
  Qed.

  Lemma good_some : good Some.
  Proof. intros arg H. eauto. Qed.

  Lemma good_bind f g : good f -> good g -> good (fun a => bind (f a) g).
  Proof.
    intros F G arg H. destruct (F arg H) as (a & -> & Ha & Ta). cbn [bind].
    destruct (G a Ha) as (b & ? & ? & ?). exists b. repeat split; auto. congruence.
  Qed.
End Passing.

(** Arguments of any type. *)
Lemma hand_decltype arg : object (fst arg) -> hand_on ByDecltype arg = Some arg.
Proof.
  destruct arg as [u k]. cbn [fst]. intros O. destruct (C185_move_forward u O) as (_ & _ & H).
  unfold hand_on. cbn [fst]. destruct (mk_rref (deduced (u, k))) as [p|] eqn:E; cbn [bind].
  - apply H. exact E.
  - destruct (object_mk u O) as (RR & LL & _). destruct k; cbn in E; congruence.
Qed.
Lemma hand_args arg : object (fst arg) -> hand_on ByArgs arg = Some arg.
Proof.
  destruct arg as [u k]. intros O. apply (proj1 (proj2 (C185_move_forward u O)) k).
Qed.
Lemma hand_deduction u k : object u -> hand_on ByDeduction (u, k) = Some (u, Xvalue).
Proof.
  intros O. destruct (object_mk u O) as (RR & _ & F). unfold hand_on, forward_deduced. cbn [fst].
  rewrite RR. cbn [bind as_value]. rewrite F. reflexivity.
Qed.

(** Passes everything on just as it was given. *)
Definition transparent (f : value -> option value) : Prop :=
  forall arg, object (fst arg) -> f arg = Some arg.

Lemma transparent_bind f g : transparent f -> transparent g -> transparent (fun a => bind (f a) g).
Proof. intros F G arg H. rewrite (F arg H). apply G, H. Qed.
Lemma transparent_right V (moved : V -> V) f arg : transparent f -> object (fst arg) -> right moved f arg.
Proof. intros F H. apply taken_spec. rewrite (F arg H). eauto. Qed.
Lemma transparent_good t f : element_type t -> transparent f -> good t f.
Proof. intros E F arg H. exists arg. rewrite (F arg (object_of_object t E arg H)). auto. Qed.

Lemma emplace_transparent : transparent emplace_new.
Proof. exact hand_decltype. Qed.
Lemma array_emplaceBack_transparent : transparent array_emplaceBack.
Proof. apply transparent_bind; exact hand_decltype. Qed.
Lemma array_emplace_transparent e : transparent (array_emplace e).
Proof.
  apply transparent_bind; [exact hand_decltype|].
  destruct e; [apply array_emplaceBack_transparent|apply emplace_transparent].
Qed.
Lemma vector_emplaceBack_transparent n : transparent (vector_emplaceBack n).
Proof.
  induction n; [apply transparent_bind; exact hand_decltype|].
  apply (transparent_bind (hand_on ByDecltype) (vector_emplaceBack n)); [exact hand_decltype|exact IHn].
Qed.
Lemma list_emplace_transparent i : transparent (list_emplace i).
Proof.
  destruct i; [exact hand_decltype|]. apply transparent_bind; exact hand_decltype.
Qed.
Lemma shared_transparent : transparent shared_new.
Proof.
  apply (transparent_bind (hand_on ByArgs) (fun a => bind (hand_on ByDecltype a) (fun a =>
    bind (emplace_new a) (hand_on ByDecltype)))); [exact hand_args|].
  apply (transparent_bind (hand_on ByDecltype) (fun a => bind (emplace_new a) (hand_on ByDecltype)));
    [exact hand_decltype|]. apply transparent_bind; exact hand_decltype.
Qed.
Lemma aligned_transparent d : transparent (aligned_new d).
Proof.
  apply (transparent_bind (fun arg => if d then hand_on ByArgs arg else Some arg)
    (fun a => bind (hand_on ByArgs a) emplace_new)).
  - intros arg H. destruct d; [apply hand_args, H|reflexivity].
  - apply transparent_bind; [exact hand_args|exact emplace_transparent].
Qed.
Lemma helper_transparent i : transparent (helper_init i).
Proof.
  induction i; [exact hand_decltype|].
  apply (transparent_bind (hand_on ByDecltype) (helper_init i)); [exact hand_decltype|exact IHi].
Qed.
Lemma initializer_transparent i : transparent (initializer_list_new i).
Proof. apply transparent_bind; [exact hand_decltype|apply helper_transparent]. Qed.

Lemma given_all_right V (moved : V -> V) f args :
  (forall a x, In (a, x) args -> right moved f a) ->
  given_all moved f args = Some (map snd args, map (fun ax => left_in moved (fst ax) (snd ax)) args).
Proof.
  induction args as [|[a x] args IH]; intros H; [reflexivity|]. cbn [given_all].
  rewrite (H a x (or_introl eq_refl) x). cbn [bind]. rewrite IH by (intros; apply (H a0 x0); right; auto).
  reflexivity.
Qed.

(** ** C214: objects are made in place of the arguments that were given *)

(** The functions that make an element, or an object of a pointer or of other holders, in place of any
    number of arguments of any types. *)
Inductive in_place : (value -> option value) -> Prop :=
| InArrayBack : in_place array_emplaceBack
| InArray at_end : in_place (array_emplace at_end)
| InVectorBack retries : in_place (vector_emplaceBack retries)
| InListEnds : in_place list_emplaceBack
| InList inside : in_place (list_emplace inside)
| InShared : in_place shared_new
| InAligned default : in_place (aligned_new default)
| InInitializers number : in_place (initializer_list_new number).

Lemma in_place_transparent f : in_place f -> transparent f.
Proof.
  intros [].
  - apply array_emplaceBack_transparent.
  - apply array_emplace_transparent.
  - apply vector_emplaceBack_transparent.
  - exact hand_decltype.
  - apply list_emplace_transparent.
  - apply shared_transparent.
  - apply aligned_transparent.
  - apply initializer_transparent.
Qed.

(** With any arguments of any object types: the new object is made of all of them in their order, those
    that were named by the caller, and the const ones, have their values still, the others were
    moved from. *)
Theorem C214_emplace_partial : forall f V (moved : V -> V) args, in_place f ->
  (forall a x, In (a, x) args -> object (fst a)) ->
  given_all moved f args = Some (map snd args, map (fun ax => left_in moved (fst ax) (snd ax)) args).
Proof.
  intros f V moved args I H. apply given_all_right. intros a x Hin.
  apply transparent_right; [apply in_place_transparent, I|apply (H a x Hin)].
Qed.

(** ObjectAllocator::construct and UniquePointer with one argument: the same, unless it is an object of
    the type itself that may be moved from (C215_construct_refuted). *)
Lemma construct_transparent t arg : element_type t -> object (fst arg) -> arg <> (t, Xvalue) ->
  object_construct t arg = Some arg /\ unique_new t arg = Some arg.
Proof.
  intros E O N. destruct arg as [u k]. cbn [fst] in O.
  assert (OC : object_construct t (u, k) = Some (u, k)).
  { unfold object_construct, any_or_either. cbn [fst snd]. destruct (ty_eqb u t) eqn:Eu.
    - apply ty_eqb_spec in Eu. subst u. destruct k; [|destruct (N eq_refl)].
      rewrite (hand_decltype (t, Lvalue) O). apply (emplace_transparent (t, Lvalue) O).
    - destruct (ty_eqb u (mk_const t)) eqn:Ec.
      + apply ty_eqb_spec in Ec. subst u. destruct k.
        * apply (emplace_transparent (mk_const t, Lvalue) O).
        * rewrite (hand_decltype (mk_const t, Xvalue) O). apply (emplace_transparent (mk_const t, Xvalue) O).
      + rewrite (hand_decltype (u, k) O). apply (emplace_transparent (u, k) O). }
  split; [exact OC|].
  unfold unique_new, any_or_either. cbn [fst snd]. destruct (ty_eqb u t) eqn:Eu.
  - apply ty_eqb_spec in Eu. subst u. destruct k; [|destruct (N eq_refl)].
    rewrite (hand_args (t, Lvalue) O). exact OC.
  - destruct (ty_eqb u (mk_const t)) eqn:Ec.
    + apply ty_eqb_spec in Ec. subst u. destruct k; [exact OC|].
      rewrite (hand_args (mk_const t, Xvalue) O). exact OC.
    + rewrite (hand_args (u, k) O). exact OC.
Qed.
Theorem C214_pointer_partial : forall t arg V (moved : V -> V), element_type t -> object (fst arg) ->
  arg <> (t, Xvalue) -> right moved (object_construct t) arg /\ right moved (unique_new t) arg.
Proof.
  intros t arg V moved E O N. destruct (construct_transparent t arg E O N) as [C U].
  split; apply taken_spec; eauto.
Qed.

(** Vector::emplace takes, except at the end, an object of the element type only. *)
Lemma vector_emplace_good t e : element_type t -> forall n, good t (vector_emplace n e t).
Proof.
  intros E. assert (H : good t (hand_on ByDecltype)) by (apply transparent_good; [exact E|exact hand_decltype]).
  induction n.
  - apply (good_bind t (hand_on ByDecltype)); [exact H|]. destruct e.
    + apply transparent_good; [exact E|apply vector_emplaceBack_transparent].
    + apply good_placement, E.
  - apply (good_bind t (hand_on ByDecltype) (vector_emplace n e t)); assumption.
Qed.
Theorem C214_vector_emplace_partial : forall t retries at_end arg V (moved : V -> V), element_type t ->
  object_of t arg -> right moved (vector_emplace retries at_end t) arg.
Proof. intros. apply (good_right t); [apply vector_emplace_good; assumption|assumption]. Qed.

(** HybridVector::emplaceBack and emplace, and CircularArray::emplaceBack: every named object that is not
    const is moved from as well, whatever the state of the container. A const object and a
    temporary are passed on as they should be. *)
Definition takes_all (f : value -> option value) : Prop :=
  forall u k, object u -> f (u, k) = Some (u, Xvalue).
Lemma hybrid_emplaceBack_takes s : takes_all (hybrid_emplaceBack s).
Proof.
  unfold hybrid_emplaceBack. intros u k O.
  destruct s as [|n|n|[n|]]; cbn [hybrid_emplaceBack_in hybrid_next];
    rewrite ?hand_deduction by assumption; cbn [bind]; rewrite ?hand_deduction by assumption; cbn [bind];
    rewrite ?hand_deduction by assumption; cbn [bind];
    first [apply (array_emplaceBack_transparent (u, Xvalue) O)
      | apply (vector_emplaceBack_transparent n (u, Xvalue) O)].
Qed.
Lemma circular_emplaceBack_takes : takes_all circular_emplaceBack.
Proof. intros u k O. apply hand_deduction, O. Qed.

Theorem C214_named_refuted : forall u V (moved : V -> V) (x : V) s, object u -> is_c u = false ->
  given moved (hybrid_emplaceBack s) (u, Lvalue) x = Some (x, moved x)
  /\ given moved circular_emplaceBack (u, Lvalue) x = Some (x, moved x)
  /\ (moved x <> x -> ~ right moved (hybrid_emplaceBack s) (u, Lvalue)
        /\ ~ right moved circular_emplaceBack (u, Lvalue)).
Proof.
  intros u V moved x s O C.
  assert (A : given moved (hybrid_emplaceBack s) (u, Lvalue) x = Some (x, moved x)).
  { unfold given. rewrite hybrid_emplaceBack_takes by exact O. cbn. rewrite C. reflexivity. }
  assert (B : given moved circular_emplaceBack (u, Lvalue) x = Some (x, moved x)).
  { unfold given. rewrite circular_emplaceBack_takes by exact O. cbn. rewrite C. reflexivity. }
  split; [exact A|]. split; [exact B|]. intros N.
  split; intros R; specialize (R x); rewrite ?A, ?B in R; cbn in R; congruence.
Qed.

Theorem C214_others_partial : forall arg V (moved : V -> V) s, object (fst arg) ->
  is_c (fst arg) = true \/ snd arg = Xvalue ->
  right moved (hybrid_emplaceBack s) arg /\ right moved circular_emplaceBack arg.
Proof.
  intros [u k] V moved s O H. cbn [fst snd] in *.
  split; apply taken_spec; exists (u, Xvalue); split;
    [apply hybrid_emplaceBack_takes, O | | apply circular_emplaceBack_takes, O | ];
    destruct H as [H | ->]; try reflexivity; unfold taken; cbn [fst snd]; rewrite H; destruct k; reflexivity.
Qed.

(** HybridVector::emplace of an object of the element type: the same; a HybridVector that has no memory yet
    passes the name on first, so that it takes the object too. *)
Lemma hybrid_emplace_takes t e s : element_type t -> forall k,
  hybrid_emplace s e t (t, k) = Some (t, Xvalue).
Proof.
  intros E k. pose proof (proj1 E) as O.
  assert (A : array_emplace e (t, Xvalue) = Some (t, Xvalue)) by (apply array_emplace_transparent; exact O).
  assert (W : forall n, vector_emplace n e t (t, Xvalue) = Some (t, Xvalue)).
  { assert (H : hand_on ByDecltype (t, Xvalue) = Some (t, Xvalue)) by (apply hand_decltype; exact O).
    induction n; cbn [vector_emplace]; rewrite H; cbn [bind]; [|exact IHn].
    destruct e; [apply (vector_emplaceBack_transparent 0 (t, Xvalue) O)|].
    destruct (either_cases t E (t, Xvalue) (fun obj => forward t obj) (fun obj => Some obj)
      (or_introl eq_refl)) as [(_ & _ & H')|(T & _)].
    - unfold placement_new. rewrite H'. apply forward_named, E.
    - rewrite (taken_x t E) in T. discriminate. }
  unfold hybrid_emplace. destruct s as [|n|n|[n|]]; cbn [hybrid_emplace_in hybrid_next];
    change (hand_on ByName (t, k)) with (Some (t, Lvalue));
    repeat (rewrite ?(hand_deduction t) by exact O; cbn [bind]); auto.
Qed.
Theorem C214_hybrid_emplace_refuted : forall t V (moved : V -> V) (x : V) s at_end, element_type t ->
  given moved (hybrid_emplace s at_end t) (t, Lvalue) x = Some (x, moved x)
  /\ given moved (hybrid_emplace s at_end t) (t, Xvalue) x = Some (x, moved x)
  /\ (moved x <> x -> ~ right moved (hybrid_emplace s at_end t) (t, Lvalue)).
Proof.
  intros t V moved x s e E. unfold right, given.
  pose proof E as (_ & C & _).
  assert (T : taken (t, Xvalue) = true) by (apply taken_x, E).
  repeat rewrite (hybrid_emplace_takes t e s E). cbn [option_map]. rewrite T.
  split; [reflexivity|]. split; [reflexivity|]. intros N R. specialize (R x).
  cbn in R. congruence.
Qed.

(** ** C215: an object of the element type is copied if it has a name, and moved from if it has not *)

Lemma array_pushBack_good t : element_type t -> good t (array_pushBack t).
Proof. intros E. apply (good_move_either t E (placement_new t)), good_placement, E. Qed.
Lemma array_add_good t : element_type t -> good t (array_add t).
Proof. intros E. apply (good_move_either t E (array_pushBack t)), array_pushBack_good, E. Qed.
Lemma array_insert_good t e : element_type t -> good t (array_insert e t).
Proof.
  intros E. destruct e.
  - apply (good_move_either t E (array_pushBack t)), array_pushBack_good, E.
  - apply (good_move_either t E Some), good_some.
Qed.
Lemma vector_pushBack_good t n : element_type t -> good t (vector_pushBack n t).
Proof.
  intros E. induction n.
  - apply (good_move_either t E (placement_new t)), good_placement, E.
  - apply (good_move_either t E (vector_pushBack n t)), IHn.
Qed.
Lemma hybrid_pushBack_good t s : element_type t -> good t (hybrid_pushBack s t).
Proof.
  intros E. unfold hybrid_pushBack.
  assert (R : forall d, good t (hybrid_pushBack_in (S d) HasRoom t)).
  { intros d. apply (good_move_either t E (array_pushBack t)), array_pushBack_good, E. }
  assert (W : forall d n, good t (hybrid_pushBack_in (S d) (IsVector n) t)).
  { intros d n. apply (good_move_either t E (vector_pushBack n t)), vector_pushBack_good, E. }
  assert (F : forall d n, good t (hybrid_pushBack_in (S (S d)) (IsFull n) t)).
  { intros d n. apply (good_move_either t E (hybrid_pushBack_in (S d) (IsVector n) t)), W. }
  destruct s as [|n|n|[n|]]; auto.
  - apply (good_move_either t E (hybrid_pushBack_in 2 (IsFull n) t)), F.
  - apply (good_move_either t E (hybrid_pushBack_in 2 HasRoom t)), R.
Qed.
Lemma optional_new_good t : element_type t -> good t (optional_new t).
Proof. intros E. apply (good_move_either t E (placement_new t)), good_placement, E. Qed.
Lemma optional_assign_good t : element_type t -> good t (optional_assign t).
Proof.
  intros E. apply (good_either t E).
  - exists (t, Xvalue). rewrite (move_named t E). auto using xvalue_of, taken_x.
  - eexists. split; [reflexivity|]. auto using named_const.
Qed.

(** The functions that are given one object of the element type. *)
Inductive adding (t : ty) : (value -> option value) -> Prop :=
| AddArray : adding t (array_pushBack t)
| AddArrayPlus : adding t (array_add t)
| AddArrayInsert at_end : adding t (array_insert at_end t)
| AddVector retries : adding t (vector_pushBack retries t)
| AddHybrid s : adding t (hybrid_pushBack s t)
| AddCircular : adding t (circular_pushBack t)
| AddOptional : adding t (optional_new t)
| AddOptionalAssign : adding t (optional_assign t).

Theorem C215_adding_partial : forall t f arg V (moved : V -> V), element_type t -> adding t f ->
  object_of t arg -> right moved f arg.
Proof.
  intros t f arg V moved E A H. apply (good_right t); [|exact H].
  destruct A; auto using array_pushBack_good, array_add_good, array_insert_good, vector_pushBack_good,
    hybrid_pushBack_good, optional_new_good, optional_assign_good.
Qed.

(** The elements of a StaticVector that is moved from are all moved from, not copied. *)
Theorem C215_array_move_partial : forall t, element_type t ->
  exists a, array_move_element t = Some a /\ taken a = true.
Proof.
  intros t E. unfold array_move_element. rewrite (forward_named t E). cbn [bind].
  destruct (array_pushBack_good t E _ (xvalue_of t)) as (a & ? & _ & T). rewrite (taken_x t E) in T. eauto.
Qed.

(** Never moved: List::pushBack, pushFront, += and insert copy even a temporary. So for a type that can be
    moved and not copied they do not compile. A named object is copied as it should be. *)
Lemma node_new_named t k : element_type t -> k = t \/ k = mk_const t ->
  node_new t (k, Lvalue) = Some (mk_const t, Lvalue).
Proof.
  intros E H. unfold node_new.
  destruct (either_cases t E (k, Lvalue) (fun o => Some o) (fun o => Some o)) as [(T & _)|(_ & ->)].
  - destruct H as [-> | ->]; [left|right]; reflexivity.
  - discriminate.
  - reflexivity.
Qed.
Lemma node_construct_named t k : element_type t -> k = t \/ k = mk_const t ->
  node_construct t (k, Lvalue) = Some (mk_const t, Lvalue).
Proof.
  intros E H. assert (O : object (fst (k, Lvalue))).
  { apply (object_of_object t E). exact H. }
  unfold node_construct. rewrite (hand_decltype _ O). cbn [bind]. rewrite (emplace_transparent _ O).
  cbn [bind]. apply node_new_named; assumption.
Qed.
Lemma list_push_copies t arg : element_type t -> object_of t arg ->
  list_push t arg = Some (mk_const t, Lvalue).
Proof.
  intros E H. unfold list_push.
  destruct (either_cases t E arg (node_construct t) (node_construct t) H) as [(_ & _ & ->)|(_ & ->)];
    apply node_construct_named; auto.
Qed.

Inductive adding_to_list (t : ty) : (value -> option value) -> Prop :=
| AddListEnds : adding_to_list t (list_push t)
| AddListPlus : adding_to_list t (list_add t).

Lemma list_copies t f arg : element_type t -> adding_to_list t f -> object_of t arg ->
  f arg = Some (mk_const t, Lvalue).
Proof.
  intros E A H. destruct A; [apply list_push_copies; assumption|].
  unfold list_add.
  destruct (either_cases t E arg (fun o => bind (move o) (list_push t)) (list_push t) H)
    as [(_ & _ & ->)|(_ & ->)].
  - rewrite (move_named t E). apply list_push_copies; [assumption|left; reflexivity].
  - apply list_push_copies; [assumption|right; reflexivity].
Qed.

Theorem C215_list_refuted : forall t f V (moved : V -> V) (x : V), element_type t -> adding_to_list t f ->
  (forall arg, object_of t arg -> given moved f arg x = Some (x, x))
  /\ (moved x <> x -> ~ right moved f (t, Xvalue)).
Proof.
  intros t f V moved x E A.
  assert (G : forall arg, object_of t arg -> given moved f arg x = Some (x, x)).
  { intros arg H. unfold given. rewrite (list_copies t f arg E A H). reflexivity. }
  split; [exact G|]. intros N R. specialize (R x). rewrite (G _ (xvalue_of t)) in R.
  pose proof E as (_ & C & _). cbn in R. rewrite C in R. congruence.
Qed.

(** List::insert of a temporary: inside the list the node is made of move(object), and copies it
    too. *)
Theorem C215_list_insert_refuted : forall t inside V (moved : V -> V) (x : V), element_type t ->
  (forall arg, object_of t arg -> given moved (list_insert inside t) arg x = Some (x, x))
  /\ (moved x <> x -> ~ right moved (list_insert inside t) (t, Xvalue)).
Proof.
  intros t i V moved x E.
  assert (N : node_construct t (t, Xvalue) = Some (t, Lvalue)).
  { unfold node_construct. rewrite (hand_decltype (t, Xvalue) (proj1 E)). cbn [bind].
    rewrite (emplace_transparent (t, Xvalue) (proj1 E)). cbn [bind]. unfold node_new.
    destruct (either_cases t E (t, Xvalue) (fun o => Some o) (fun o => Some o) (xvalue_of t))
      as [(_ & _ & ->)|(T & _)]; [reflexivity|]. rewrite (taken_x t E) in T. discriminate. }
  assert (G : forall arg, object_of t arg -> given moved (list_insert i t) arg x = Some (x, x)).
  { intros arg H. unfold given, list_insert. set (inner := if i then node_construct t else list_push t).
    destruct (either_cases t E arg (fun o => bind (move o) inner) inner H) as [(_ & _ & ->)|(_ & ->)].
    - rewrite (move_named t E). cbn [bind]. unfold inner. destruct i.
      + rewrite N. reflexivity.
      + rewrite (list_push_copies t _ E (xvalue_of t)). reflexivity.
    - unfold inner. destruct i.
      + rewrite node_construct_named by auto. reflexivity.
      + rewrite (list_push_copies t _ E (named_const t)). reflexivity. }
  split; [exact G|]. intros D R. specialize (R x). rewrite (G _ (xvalue_of t)) in R.
  pose proof E as (_ & C & _). cbn in R. rewrite C in R. congruence.
Qed.

(** ObjectAllocator::construct and UniquePointer copy the temporary they are given. *)
Theorem C215_construct_refuted : forall t f V (moved : V -> V) (x : V), element_type t ->
  f = object_construct t \/ f = unique_new t ->
  given moved f (t, Xvalue) x = Some (x, x) /\ (moved x <> x -> ~ right moved f (t, Xvalue)).
Proof.
  intros t f V moved x E F.
  assert (N : (t, Lvalue) <> (t, Xvalue)) by discriminate.
  assert (O : given moved f (t, Xvalue) x = Some (x, x)).
  { unfold given. destruct F as [-> | ->].
    - unfold object_construct, any_or_either. cbn [fst snd]. rewrite ty_eqb_refl. unfold placement_new.
      destruct (either_cases t E (t, Lvalue) (fun obj => forward t obj) (fun obj => Some obj)
        (or_introl eq_refl)) as [(T & _)|(_ & ->)]; [discriminate|reflexivity].
    - unfold unique_new, any_or_either. cbn [fst snd]. rewrite ty_eqb_refl.
      rewrite (proj1 (construct_transparent t (t, Lvalue) E (proj1 E) N)). reflexivity. }
  split; [exact O|]. intros D R. specialize (R x). rewrite O in R.
  pose proof E as (_ & C & _). cbn in R. rewrite C in R. congruence.
Qed.

(** These do not compile for any element type: Vector::insert and HybridVector::insert of a temporary, the
    moves of a StaticArray and the move of a Vector into one of another kind. *)
Theorem C215_no_compile_refuted : forall t at_end in_vector, element_type t ->
  vector_insert at_end t (t, Xvalue) = None
  /\ hybrid_insert in_vector at_end t (t, Xvalue) = None
  /\ static_array_move_element t = None
  /\ vector_convert_element t = None.
Proof.
  intros t e i E. destruct (binds_rvalue t E) as (B1 & B2 & _).
  assert (V : vector_insert e t (t, Xvalue) = None) by (unfold vector_insert, either; rewrite B1; reflexivity).
  split; [exact V|]. split; [|split].
  - unfold hybrid_insert, either at 1. rewrite B1, (move_named t E). cbn [bind]. rewrite V.
    destruct (array_insert e t (t, Xvalue)); reflexivity.
  - unfold static_array_move_element. rewrite B2. reflexivity.
  - unfold vector_convert_element. rewrite B2. reflexivity.
Qed.

(** Of a named object they do insert a copy. *)
Theorem C215_insert_named_partial : forall t at_end in_vector arg V (moved : V -> V), element_type t ->
  object_of t arg -> arg <> (t, Xvalue) ->
  right moved (vector_insert at_end t) arg /\ right moved (hybrid_insert in_vector at_end t) arg.
Proof.
  intros t e i arg V moved E H N.
  assert (L : forall r l, taken arg = false /\ either t arg r l = l (mk_const t, Lvalue)).
  { intros r l. destruct (either_cases t E arg r l H) as [(_ & A & _)|A]; [destruct (N A)|exact A]. }
  assert (A : exists a, array_insert e t (mk_const t, Lvalue) = Some a /\ taken a = false).
  { destruct (array_insert_good t e E _ (named_const t)) as (a & ? & _ & ?). eauto. }
  assert (W : exists a, (if e then vector_pushBack 0 t (mk_const t, Lvalue) else Some (mk_const t, Lvalue)) = Some a
    /\ taken a = false).
  { destruct e; [|eauto]. destruct (vector_pushBack_good t 0 E _ (named_const t)) as (a & ? & _ & ?). eauto. }
  assert (W' : exists a, vector_insert e t (mk_const t, Lvalue) = Some a /\ taken a = false).
  { unfold vector_insert.
    destruct (either_cases t E _ (fun _ => None)
      (fun o => if e then vector_pushBack 0 t o else Some o) (named_const t)) as [(T & _)|(_ & ->)];
      [discriminate|exact W]. }
  split; apply taken_spec.
  - unfold vector_insert. destruct (L (fun _ => None) (fun o => if e then vector_pushBack 0 t o else Some o)) as [-> ->].
    exact W.
  - unfold hybrid_insert. match goal with |- context [either t arg ?r ?l] => destruct (L r l) as [-> ->] end.
    destruct i; assumption.
Qed.

(** ** Cases *)

(** int; a class. *)
Example element_types :
  element_type (Named false false (Builtin Int)) /\ element_type (Named false false (User 3)).
Proof.
  split; (split; [|split; reflexivity]); (split; [reflexivity|split; intros; repeat split; discriminate]).
Qed.

(** Vector<User>::emplaceBack(a, move(b), c), with two reallocations; a is named, c is const; what was moved
    from is 0. *)
Example C214_case :
  let u := Named false false (User 3) in
  given_all (fun _ => 0) (vector_emplaceBack 2)
    [((u, Lvalue), 5); ((u, Xvalue), 6); ((Named true false (User 4), Lvalue), 7)]
  = Some ([5; 6; 7], [5; 0; 7])
  /\ given_all (fun _ => 0) (hybrid_emplaceBack (IsFull 1))
    [((u, Lvalue), 5); ((u, Xvalue), 6); ((Named true false (User 4), Lvalue), 7)]
  = Some ([5; 6; 7], [0; 0; 7]).
Proof. split; reflexivity. Qed.

Example C214_pointer_case :
  let u := Named false false (User 3) in
  given (fun _ => 0) (unique_new u) (Named false false (User 4), Xvalue) 5 = Some (5, 0)
  /\ given (fun _ => 0) (unique_new u) (u, Xvalue) 5 = Some (5, 5)
  /\ given (fun _ => 0) (unique_new u) (u, Lvalue) 5 = Some (5, 5).
Proof. repeat split; reflexivity. Qed.

Example C215_case :
  let u := Named false false (User 3) in
  given (fun _ => 0) (hybrid_pushBack (IsUnset (Some 1)) u) (u, Xvalue) 5 = Some (5, 0)
  /\ given (fun _ => 0) (array_insert false u) (u, Lvalue) 5 = Some (5, 5)
  /\ given (fun _ => 0) (list_push u) (u, Xvalue) 5 = Some (5, 5)
  /\ given (fun _ => 0) (vector_insert true u) (u, Lvalue) 5 = Some (5, 5).
Proof. repeat split; reflexivity. Qed.

Print Assumptions C214_emplace_partial.
Print Assumptions C214_pointer_partial.
Print Assumptions C214_vector_emplace_partial.
Print Assumptions C214_named_refuted.
Print Assumptions C214_others_partial.
Print Assumptions C214_hybrid_emplace_refuted.
Print Assumptions C215_adding_partial.
Print Assumptions C215_array_move_partial.
Print Assumptions C215_list_refuted.
Print Assumptions C215_list_insert_refuted.
Print Assumptions C215_construct_refuted.
Print Assumptions C215_no_compile_refuted.
Print Assumptions C215_insert_named_partial.
