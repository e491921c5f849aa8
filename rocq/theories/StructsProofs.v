(** Proofs about the PKCS#11 structures. *)
From Coq Require Import String List Arith Bool Lia.
From Verif Require Import Base BaseLemmas StructsModel StructsSpec.
Import ListNotations.

Definition mem (f : string) (l : list string) : bool := existsb (String.eqb f) l.

Lemma mem_In f l : mem f l = true <-> In f l.
Proof.
  unfold mem. rewrite existsb_exists. split.
  - intros (x & HI & E). apply String.eqb_eq in E. now subst.
  - intros H. exists f. split; [exact H|apply String.eqb_refl].
Qed.

Fixpoint distinct (l : list string) : bool :=
  match l with [] => true | x :: t => negb (mem x t) && distinct t end.

Lemma distinct_NoDup l : distinct l = true -> NoDup l.
Proof.
  induction l as [|x t IH]; cbn; [constructor|].
  rewrite andb_true_iff, negb_true_iff. intros [A B]. constructor; [|auto].
  rewrite <- mem_In. congruence.
Qed.

(** The statements copy every field onto the field of the same name. *)
Definition copies_all (c : code) : bool :=
  distinct (names c)
  && forallb (fun p => String.eqb (fst p) (snd p)) (c_assign c)
  && forallb (fun p => mem (snd p) (names c)) (c_assign c)
  && forallb (fun f => mem f (map fst (c_assign c))) (names c).

(** The statements put every argument into the field it is declared for. *)
Definition places_all (c : code) : bool :=
  distinct (names c) && distinct (map fst (c_params c)) && distinct (map snd (c_params c))
  && forallb (fun p => match find (fun q => String.eqb (fst q) (snd p)) (c_params c) with
                       | Some q => String.eqb (snd q) (fst p)
                       | None => false
                       end) (c_value c)
  && forallb (fun p => mem (fst p) (names c)) (c_value c)
  && forallb (fun f => mem f (map fst (c_value c))) (names c).

Section Objects.
  Context {V : Type}.
  Variable zero : V.
  Implicit Types (o : object (V := V)) (w : list (object (V := V))) (c : code).

  Lemma set_names o f v : map fst (set_field o f v) = map fst o.
  Proof.
    unfold set_field. rewrite map_map. apply map_ext. intros p.
    now destruct (String.eqb (fst p) f).
  Qed.

  Lemma field_set o f v g :
    field_value (set_field o f v) g
    = if String.eqb f g then (if mem f (map fst o) then v else None) else field_value o g.
  Proof.
    unfold field_value, set_field. induction o as [|p o IH]; cbn.
    - now destruct (String.eqb f g).
    - destruct (String.eqb (fst p) f) eqn:E; cbn.
      + apply String.eqb_eq in E. subst f.
        rewrite String.eqb_refl. cbn.
        destruct (String.eqb (fst p) g) eqn:Eg; [reflexivity|]. exact IH.
      + destruct (String.eqb (fst p) g) eqn:Eg.
        * apply String.eqb_eq in Eg. subst g.
          rewrite String.eqb_sym in E. now rewrite E.
        * rewrite IH. rewrite String.eqb_sym in E. now rewrite E.
  Qed.

  Lemma object_ext o o' :
    NoDup (map fst o) -> map fst o = map fst o' ->
    (forall f, In f (map fst o) -> field_value o f = field_value o' f) -> o = o'.
  Proof.
    revert o'. induction o as [|[f v] o IH]; intros [|[f' v'] o'] HN HE HF; cbn in *;
      try discriminate; [reflexivity|].
    injection HE as -> HE. inversion HN as [|? ? HI HN']; subst.
    f_equal.
    - f_equal. specialize (HF f' (or_introl eq_refl)). unfold field_value in HF. cbn in HF.
      now rewrite String.eqb_refl in HF.
    - apply IH; auto. intros g Hg. specialize (HF g (or_intror Hg)).
      unfold field_value in *. cbn in HF.
      destruct (String.eqb f' g) eqn:E; [|exact HF].
      apply String.eqb_eq in E. subst. contradiction.
  Qed.

  Lemma read_ok {A : Type} (l : list A) i x : nth_error l i = Some x -> read l i = Ok x.
  Proof. unfold read. now intros ->. Qed.

  Lemma write_upd {A : Type} (l : list A) i x y : nth_error l i = Some x -> write l i y = Ok (upd l i y).
  Proof.
    intros H. unfold write. assert (i < length l) by (apply nth_error_Some; congruence).
    destruct (Nat.ltb_spec i (length l)); [reflexivity|lia].
  Qed.

  (** Effect of the statements when the right operand is not the object itself. *)
  Lemma run_theirs c s : forall st w i o,
    (forall d f, In (d, f) st -> d = f) ->
    (forall d f, In (d, f) st -> In d (map fst o)) ->
    (forall d f, In (d, f) st -> field_value s f <> None) ->
    nth_error w i = Some o ->
    exists o', run_assign c st w i (Theirs s) = Ok (upd w i o')
      /\ map fst o' = map fst o
      /\ forall f, field_value o' f
                   = if mem f (map fst st) then field_value s f else field_value o f.
  Proof.
    induction st as [|[d f] st IH]; intros w i o HE HD HS HW.
    - exists o. cbn. split; [|split; [reflexivity|reflexivity]].
      f_equal. symmetry. apply list_ext. intros k.
      destruct (Nat.eq_dec k i) as [->|Hk].
      + rewrite nth_error_upd_eq; [now symmetry|]. apply nth_error_Some. congruence.
      + now rewrite nth_error_upd_neq by auto.
    - assert (d = f) by (eapply HE; left; reflexivity). subst d.
      cbn [run_assign]. unfold copy_field. cbn [operand_value bind].
      destruct (field_value s f) as [v|] eqn:Ev.
      2:{ exfalso. apply (HS f f); [left; reflexivity|exact Ev]. }
      rewrite (read_ok _ _ _ HW). cbn [bind]. rewrite (write_upd _ _ _ _ HW). cbn [bind].
      assert (Hlt : i < length w) by (apply nth_error_Some; congruence).
      edestruct (IH (upd w i (set_field o f (Some v))) i (set_field o f (Some v)))
        as (o' & R & N & Q).
      + intros; eapply HE; right; eassumption.
      + intros d g H. rewrite set_names. eapply HD. right; eassumption.
      + intros d g H. eapply HS. right; eassumption.
      + now rewrite nth_error_upd_eq.
      + exists o'. split; [|split].
        * rewrite R. f_equal. clear. revert i. induction w as [|x w IH]; intros [|i]; cbn; auto.
          f_equal. apply IH.
        * now rewrite N, set_names.
        * intros g. rewrite Q. cbn [map mem existsb]. fold (mem g (map fst st)).
          destruct (mem g (map fst st)); [now rewrite orb_true_r|rewrite orb_false_r].
          rewrite field_set. cbn. rewrite (String.eqb_sym f g).
          destruct (String.eqb g f) eqn:E; [|reflexivity].
          assert (M : mem f (map fst o) = true).
          { apply mem_In. eapply HD. left; reflexivity. }
          rewrite M. apply String.eqb_eq in E. subst g. now symmetry.
  Qed.

  (** A right operand that is another object is as good as a structure of the caller. *)
  Lemma run_ours c : forall st w i j s, i <> j -> nth_error w j = Some s ->
    run_assign c st w i (Ours j) = run_assign c st w i (Theirs s).
  Proof.
    induction st as [|[d f] st IH]; intros w i j s Hij HS; [reflexivity|].
    cbn [run_assign]. unfold copy_field. cbn [operand_value].
    rewrite (read_ok _ _ _ HS). cbn [bind].
    assert (K : forall o, nth_error (upd w i o) j = Some s)
      by (intros o; now rewrite nth_error_upd_neq by auto).
    destruct (field_value s f) as [v|].
    - destruct (read w i) as [o| |] eqn:ER; cbn [bind]; [|reflexivity|reflexivity].
      unfold write. destruct (i <? length w); cbn [bind]; [|reflexivity].
      apply IH; auto.
    - destruct (only_bytes (type_of c f)); [|reflexivity].
      destruct (read w i) as [o| |] eqn:ER; cbn [bind]; [|reflexivity|reflexivity].
      unfold write. destruct (i <? length w); cbn [bind]; [|reflexivity].
      apply IH; auto.
  Qed.

  Lemma set_same o f v : NoDup (map fst o) -> field_value o f = Some v -> set_field o f (Some v) = o.
  Proof.
    intros HN HF. apply object_ext.
    - now rewrite set_names.
    - apply set_names.
    - intros g _. rewrite field_set. destruct (String.eqb f g) eqn:E; [|reflexivity].
      apply String.eqb_eq in E. subst g. rewrite HF.
      replace (mem f (map fst o)) with true; [reflexivity|]. symmetry. apply mem_In.
      unfold field_value in HF. destruct (find _ o) as [p|] eqn:EF; [|discriminate].
      apply find_some in EF. destruct EF as [HI E]. apply String.eqb_eq in E. subst.
      now apply in_map.
  Qed.

  (** Assignment of an object to itself. *)
  Lemma run_self c : forall st w i o,
    (forall d f, In (d, f) st -> d = f) ->
    NoDup (map fst o) ->
    (forall d f, In (d, f) st -> field_value o f <> None) ->
    nth_error w i = Some o ->
    run_assign c st w i (Ours i) = Ok w.
  Proof.
    induction st as [|[d f] st IH]; intros w i o HE HN HS HW; [reflexivity|].
    assert (d = f) by (eapply HE; left; reflexivity). subst d.
    cbn [run_assign]. unfold copy_field. cbn [operand_value].
    rewrite (read_ok _ _ _ HW). cbn [bind].
    destruct (field_value o f) as [v|] eqn:Ev.
    2:{ exfalso. apply (HS f f); [left; reflexivity|exact Ev]. }
    rewrite (write_upd _ _ _ _ HW). cbn [bind].
    rewrite set_same by assumption.
    replace (upd w i o) with w.
    - apply IH with o; auto.
      + intros; eapply HE; right; eassumption.
      + intros d g H. eapply HS. right; eassumption.
    - apply list_ext. intros k. destruct (Nat.eq_dec k i) as [->|Hk].
      + rewrite nth_error_upd_eq; [now symmetry|]. apply nth_error_Some. congruence.
      + now rewrite nth_error_upd_neq by auto.
  Qed.

  Lemma copies_facts c : copies_all c = true ->
    NoDup (names c)
    /\ (forall d f, In (d, f) (c_assign c) -> d = f /\ In f (names c))
    /\ (forall f, In f (names c) -> In f (map fst (c_assign c))).
  Proof.
    unfold copies_all. rewrite !andb_true_iff, !forallb_forall. intros [[[A B] C] D].
    split; [now apply distinct_NoDup|]. split.
    - intros d f H. split.
      + specialize (B _ H). now apply String.eqb_eq in B.
      + specialize (C _ H). now apply mem_In in C.
    - intros f H. specialize (D _ H). now apply mem_In in D.
  Qed.

  Lemma parent_value c (vs : list V) f : length vs = length (c_fields c) -> In f (names c) ->
    exists v, field_value (parent_of c vs) f = Some v.
  Proof.
    unfold parent_of, names, field_value. rewrite <- (map_length fst (c_fields c)).
    generalize (map fst (c_fields c)). intros l. revert vs.
    induction l as [|g l IH]; intros [|v vs] HL HI; cbn in *; try discriminate; [contradiction|].
    destruct (String.eqb g f) eqn:E; [eexists; reflexivity|].
    destruct HI as [->|HI]; [now rewrite String.eqb_refl in E|].
    apply IH; auto.
  Qed.

  Lemma parent_names c (vs : list V) : length vs = length (c_fields c) ->
    map fst (parent_of c vs) = names c.
  Proof.
    unfold parent_of, names. rewrite <- (map_length fst (c_fields c)).
    generalize (map fst (c_fields c)). intros l. revert vs.
    induction l as [|g l IH]; intros [|v vs] HL; cbn in *; try discriminate; [reflexivity|].
    f_equal. apply IH. now injection HL.
  Qed.

  (** All objects have the fields of the class. *)
  Definition shaped c (x : worth (V := V)) : Prop :=
    match x with Some vs => length vs = length (c_fields c) | None => True end.

  Lemma seen_names c x : shaped c x -> map fst (seen c x) = names c.
  Proof.
    destruct x as [vs|]; cbn; intros H.
    - exact (parent_names c vs H).
    - rewrite map_map. apply map_id.
  Qed.

  Lemma seen_some c (vs : list V) : seen c (Some vs) = parent_of c vs.
  Proof. reflexivity. Qed.

  Lemma upd_map {A B} (g : A -> B) : forall l i x, map g (upd l i x) = upd (map g l) i (g x).
  Proof. induction l as [|y l IH]; intros [|i] x; cbn; auto. now rewrite IH. Qed.

  Lemma upd_end {A} (l : list A) x y : upd (l ++ [x]) (length l) y = l ++ [y].
  Proof. induction l as [|z l IH]; cbn; [reflexivity|]. now rewrite IH. Qed.

  Lemma nth_end {A} (l : list A) x : nth_error (l ++ [x]) (length l) = Some x.
  Proof. induction l; cbn; auto. Qed.

  Lemma copied c o (vs : list V) i w :
    copies_all c = true -> map fst o = names c -> length vs = length (c_fields c) ->
    nth_error w i = Some o ->
    run_assign c (c_assign c) w i (Theirs (parent_of c vs)) = Ok (upd w i (seen c (Some vs))).
  Proof.
    intros HC HO HL HW. destruct (copies_facts c HC) as (ND & EQ & CO).
    destruct (run_theirs c (parent_of c vs) (c_assign c) w i o) as (o' & R & N & Q); auto.
    - intros d f H. now apply EQ in H.
    - intros d f H. apply EQ in H. destruct H as [-> H]. now rewrite HO.
    - intros d f H. apply EQ in H. destruct (parent_value c vs f HL) as (v & ->); [easy|discriminate].
    - rewrite R. f_equal. f_equal. apply object_ext.
      + now rewrite N, HO.
      + rewrite N, HO. symmetry. apply seen_names. exact HL.
      + intros f Hf. rewrite Q. rewrite N, HO in Hf.
        replace (mem f (map fst (c_assign c))) with true; [reflexivity|].
        symmetry. apply mem_In. now apply CO.
  Qed.

  (** The constructor from values, when [g] tells what every assigned field should get. *)
  Lemma run_value_ok (g : string -> V) : forall st args o,
    (forall d a, In (d, a) st -> In d (map fst o)) ->
    (forall d a, In (d, a) st ->
       exists n, find (fun p => String.eqb (fst p) a) args = Some (n, g d)) ->
    exists o', run_value st args o = Ok o' /\ map fst o' = map fst o
      /\ forall f, field_value o' f = if mem f (map fst st) then Some (g f) else field_value o f.
  Proof.
    induction st as [|[d a] st IH]; intros args o HD H; cbn.
    - exists o. auto.
    - destruct (H d a (or_introl eq_refl)) as (n & Ep). rewrite Ep. cbn [snd].
      destruct (IH args (set_field o d (Some (g d)))) as (o' & R & N & Q).
      { intros d' a' H'. rewrite set_names. eapply HD. right; eassumption. }
      { intros d' a' H'. eapply H. right; eassumption. }
      exists o'. split; [exact R|]. split; [now rewrite N, set_names|].
      intros f. rewrite Q. fold (mem f (map fst st)).
      destruct (mem f (map fst st)); [now rewrite orb_true_r|rewrite orb_false_r].
      rewrite field_set, (String.eqb_sym d f).
      destruct (String.eqb f d) eqn:E; [|reflexivity].
      apply String.eqb_eq in E. subst f.
      replace (mem d (map fst o)) with true; [reflexivity|].
      symmetry. apply mem_In. eapply HD. left; reflexivity.
  Qed.

  (** Looking an argument up by its name or by the field it is declared for. *)
  Lemma same_argument : forall (l : list (string * string)) (args : list V) a d,
    length args = length l -> NoDup (map fst l) -> NoDup (map snd l) ->
    find (fun q => String.eqb (fst q) a) l = Some (a, d) ->
    exists v, find (fun p => String.eqb (fst p) a) (combine (map fst l) args) = Some (a, v)
      /\ find (fun p => String.eqb (fst p) d) (combine (map snd l) args) = Some (d, v).
  Proof.
    induction l as [|[n f] l IH]; intros [|v args] a d HL N1 N2 HF; cbn in *; try discriminate.
    inversion N1 as [|? ? I1 N1']; inversion N2 as [|? ? I2 N2']; subst.
    destruct (String.eqb n a) eqn:E.
    - injection HF as -> ->. rewrite String.eqb_refl. eauto.
    - destruct (String.eqb f d) eqn:E2.
      + exfalso. apply String.eqb_eq in E2. subst f. apply I2.
        apply find_some in HF. destruct HF as [HF _].
        change d with (snd (a, d)). now apply in_map.
      + apply IH; auto.
  Qed.

  Lemma places_facts c : places_all c = true ->
    NoDup (names c) /\ NoDup (map fst (c_params c)) /\ NoDup (map snd (c_params c))
    /\ (forall d a, In (d, a) (c_value c) ->
          find (fun q => String.eqb (fst q) a) (c_params c) = Some (a, d) /\ In d (names c))
    /\ (forall f, In f (names c) -> In f (map fst (c_value c))).
  Proof.
    unfold places_all. rewrite !andb_true_iff, !forallb_forall. intros [[[[[A B] C] D] E] G].
    split; [now apply distinct_NoDup|]. split; [now apply distinct_NoDup|].
    split; [now apply distinct_NoDup|]. split.
    - intros d a H. split.
      + specialize (D _ H). cbn in D.
        destruct (find _ (c_params c)) as [[n f]|] eqn:EF; [|discriminate].
        cbn in D. apply String.eqb_eq in D. subst f.
        apply find_some in EF. destruct EF as [_ EF]. cbn in EF. apply String.eqb_eq in EF.
        now subst n.
      + specialize (E _ H). now apply mem_In in E.
    - intros f H. specialize (G _ H). now apply mem_In in G.
  Qed.

  Lemma blank_names c : map fst (blank (V := V) c) = names c.
  Proof. unfold blank. rewrite map_map. apply map_id. Qed.

  Lemma field_of_names (g : string -> V) : forall l f, In f l ->
    field_value (combine l (map Some (map g l))) f = Some (g f).
  Proof.
    unfold field_value. induction l as [|n l IH]; intros f H; [contradiction|]. cbn.
    destruct (String.eqb n f) eqn:E; cbn.
    - apply String.eqb_eq in E. now subst.
    - destruct H as [->|H]; [now rewrite String.eqb_refl in E|]. now apply IH.
  Qed.

  Lemma placed c (args : list V) :
    places_all c = true -> length args = length (c_params c) ->
    run_value (c_value c) (combine (map fst (c_params c)) args) (blank c)
    = Ok (seen c (Some (map (fun f => match argument_for (map snd (c_params c)) args f with
                                      | Some v => v
                                      | None => zero
                                      end) (names c)))).
  Proof.
    intros HP HL. destruct (places_facts c HP) as (N0 & N1 & N2 & EQ & CO).
    set (g := fun f => match argument_for (map snd (c_params c)) args f with
                       | Some v => v | None => zero end).
    destruct (run_value_ok g (c_value c) (combine (map fst (c_params c)) args) (blank c))
      as (o' & R & N & Q).
    - intros d a H. rewrite blank_names. now apply EQ in H.
    - intros d a H. apply EQ in H. destruct H as [HF _].
      destruct (same_argument _ args a d HL N1 N2 HF) as (v & F1 & F2).
      exists a. rewrite F1. f_equal. f_equal. unfold g, argument_for.
      unfold StructsModel.object in *. rewrite F2. reflexivity.
    - rewrite R. f_equal. apply object_ext.
      + now rewrite N, blank_names.
      + rewrite N, blank_names. symmetry. apply seen_names. cbn.
        unfold names. now rewrite !map_length.
      + intros f Hf. rewrite N, blank_names in Hf. rewrite Q.
        replace (mem f (map fst (c_value c))) with true.
        * symmetry. cbn [seen]. now apply field_of_names.
        * symmetry. apply mem_In. now apply CO.
  Qed.

  (** The whole state, for all histories. *)
  Definition sees c (ws : list (worth (V := V))) : list (object (V := V)) := map (seen c) ws.

  Lemma nth_sees c (ws : list (worth (V := V))) j : nth j ws None <> None ->
    exists vs, nth j ws None = Some vs /\ nth_error (sees c ws) j = Some (seen c (Some vs)).
  Proof.
    intros H. destruct (nth j ws None) as [vs|] eqn:E; [|easy]. exists vs. split; [reflexivity|].
    unfold sees. revert j H E. induction ws as [|x ws IH]; intros [|j] H E; cbn in *; try easy.
    - now subst x.
    - now apply IH.
  Qed.

  Lemma Forall_upd {A} (P : A -> Prop) : forall l i x, Forall P l -> P x -> Forall P (upd l i x).
  Proof.
    induction l as [|y l IH]; intros [|i] x HF HX; cbn; auto; inversion HF; subst; constructor; auto.
  Qed.

  Lemma Forall_nth_some c (ws : list (worth (V := V))) j vs :
    Forall (shaped c) ws -> nth j ws None = Some vs -> length vs = length (c_fields c).
  Proof.
    revert j. induction ws as [|x ws IH]; intros [|j] HF E; cbn in *; try discriminate;
      inversion HF as [|? ? X1 X2]; subst.
    - exact X1.
    - eauto.
  Qed.

  Lemma sstep_ok c (ws : list (worth (V := V))) k :
    copies_all c = true -> (forall args, k = MakeValues args -> places_all c = true) ->
    Forall (shaped c) ws -> allowed c ws k ->
    sstep zero c (sees c ws) k = Ok (sees c (spec_step zero c ws k))
    /\ Forall (shaped c) (spec_step zero c ws k).
  Proof.
    intros HC HP HF HA.
    assert (App : forall x, Forall (shaped c) ws -> shaped c x -> Forall (shaped c) (ws ++ [x])).
    { intros x A B. apply Forall_app. split; auto. }
    assert (Len : length (sees c ws) = length ws) by (unfold sees; apply map_length).
    assert (New : forall vs, length vs = length (c_fields c) ->
      run_assign c (c_assign c) (sees c ws ++ [blank c]) (length (sees c ws))
        (Theirs (parent_of c vs)) = Ok (sees c (ws ++ [Some vs]))).
    { intros vs HL. rewrite (copied c (blank c) vs); auto.
      - rewrite upd_end. unfold sees. now rewrite map_app.
      - apply blank_names.
      - apply nth_end. }
    destruct k as [|vs|j|args|i j|i vs]; cbn [allowed sstep spec_step] in *.
    - destruct (c_default c) eqn:ED.
      + split; [|apply App; cbn; auto]. unfold sees. now rewrite map_app.
      + split; [|apply App; cbn; auto; apply map_length]. apply New. apply map_length.
    - split; [now apply New|apply App; auto].
    - destruct (nth_sees c ws j HA) as (vs & E1 & E2). rewrite E1.
      pose proof (Forall_nth_some c ws j vs HF E1) as HL.
      split; [|apply App; auto].
      assert (Hj : j < length (sees c ws)) by (apply nth_error_Some; congruence).
      rewrite run_ours with (s := parent_of c vs).
      + now apply New.
      + lia.
      + rewrite nth_error_app1 by exact Hj. exact E2.
    - rewrite (placed c args (HP args eq_refl) HA). cbn [bind].
      split.
      + unfold sees. now rewrite map_app.
      + apply App; auto. cbn. unfold names. now rewrite !map_length.
    - destruct HA as [Hi HA]. destruct (nth_sees c ws j HA) as (vs & E1 & E2). rewrite E1.
      pose proof (Forall_nth_some c ws j vs HF E1) as HL.
      split; [|apply Forall_upd; auto].
      destruct (Nat.eq_dec i j) as [->|Hij].
      + destruct (copies_facts c HC) as (ND & EQ & CO).
        rewrite run_self with (o := seen c (Some vs)); auto.
        * f_equal. unfold sees. rewrite upd_map. apply list_ext. intros k.
          destruct (Nat.eq_dec k j) as [->|Hk].
          -- rewrite nth_error_upd_eq; [exact E2|]. now rewrite map_length.
          -- now rewrite nth_error_upd_neq by auto.
        * intros d f H. now apply EQ in H.
        * rewrite seen_names; auto.
        * intros d f H. apply EQ in H. destruct (parent_value c vs f HL) as (v & Hv); [easy|].
          rewrite seen_some, Hv. discriminate.
      + rewrite run_ours with (s := parent_of c vs); auto.
        destruct (nth_error (sees c ws) i) as [o|] eqn:EO.
        2:{ apply nth_error_None in EO. lia. }
        rewrite (copied c o vs); auto.
        * unfold sees. now rewrite upd_map.
        * unfold sees in EO. rewrite nth_error_map in EO.
          destruct (nth_error ws i) as [x|] eqn:EX; [|discriminate]. injection EO as <-.
          apply seen_names. rewrite Forall_forall in HF. apply HF. eapply nth_error_In; eauto.
    - destruct HA as [Hi HL]. split; [|apply Forall_upd; auto].
      destruct (nth_error (sees c ws) i) as [o|] eqn:EO.
      2:{ apply nth_error_None in EO. lia. }
      rewrite (copied c o vs); auto.
      + unfold sees. now rewrite upd_map.
      + unfold sees in EO. rewrite nth_error_map in EO.
        destruct (nth_error ws i) as [x|] eqn:EX; [|discriminate]. injection EO as <-.
        apply seen_names. rewrite Forall_forall in HF. apply HF. eapply nth_error_In; eauto.
  Qed.

  Lemma srun_ok c : forall ks ws,
    copies_all c = true -> places_all c = true ->
    Forall (shaped c) ws -> allowed_all zero c ws ks ->
    srun zero c (sees c ws) ks = Ok (sees c (spec_run zero c ws ks)).
  Proof.
    induction ks as [|k ks IH]; intros ws HC HP HF HA; cbn; [reflexivity|].
    destruct HA as [HA HR].
    destruct (sstep_ok c ws k) as [E F]; auto.
    rewrite E. cbn [bind]. apply IH; auto.
  Qed.
End Objects.
