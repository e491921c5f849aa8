(** Theorems about copies, moves and assignments of HybridVectors: C234. *)
From Coq Require Import List Arith ZArith Lia Bool.
From Verif Require Import Base BaseLemmas Store StoreLemmas StaticVectorModel StaticVectorSpec
  StaticVectorProofs VectorModel VectorSpec VectorProofs VectorProps HybridVectorModel HybridVectorSpec
  HybridVectorProofs HybridVectorProps CloneModel HybridCopyModel HybridCopySpec.
Import ListNotations.

Section Proofs.
  Context {A : Type}.
  Variable m : mode.
  Variable moved : A -> A.
  Variable dflt : A.
  Variable mem : memory.
  Hypothesis Hmem : mem <> NoMemory.
  Variable cap : nat.
  Notation mk l rest k := (SVec (St (map (@Some A) l ++ rest) k) (length l)).

  (** A vector that can be read and destroyed. *)
  Definition loose (l : list A) (v : vec A) : Prop :=
    exists rest j c, v = Vec (mk l rest j) c.

  Definition orep (o : object A) (h : hybrid A) : Prop :=
    if o_sound o then hrep cap (o_place o) (o_items o) h
    else o_place o = Dynamic /\ exists v, h = HVec v /\ loose (o_items o) v.

  Lemma loose_destructor l v : loose l v -> exists n, vec_destructor m v = Ok n.
  Proof.
    intros (r & j & c & ->). unfold vec_destructor, vec_clean, vec_lift. cbn [vc_arr].
    destruct (clean_ok m (length l + length r) l r j eq_refl) as (r' & j' & E & _). rewrite E.
    cbn [bind]. eexists. reflexivity.
  Qed.

  Lemma orep_reset o h : orep o h -> hv_reset m h = Ok HUnset.
  Proof.
    unfold orep. destruct (o_sound o); [apply reset_hv|].
    intros (_ & v & -> & L). cbn [hv_reset]. destruct (loose_destructor _ _ L) as (n & ->). reflexivity.
  Qed.

  Lemma orep_dynamic o h : orep o h -> o_place o = Dynamic ->
    exists v, h = HVec v /\ loose (o_items o) v.
  Proof.
    unfold orep. destruct (o_sound o).
    - intros H E. rewrite E in H. destruct h as [|a|v]; cbn [hrep] in H; try contradiction.
      destruct H as (r & j & c & -> & _). eexists. split; [reflexivity|]. exists r, j, c. reflexivity.
    - intros (_ & v & -> & L) _. eauto.
  Qed.

  Lemma orep_static o h : orep o h -> o_place o <> Dynamic -> hrep cap (o_place o) (o_items o) h.
  Proof. unfold orep. destruct (o_sound o); auto. intros (E & _) N. congruence. Qed.

  Lemma vec_copy_sound l : 2 <= length l ->
    hrep cap Dynamic l (HVec (Vec (mk l [] 0) (length l))).
  Proof.
    intros H. cbn [hrep]. exists [], 0, (length l). split; [reflexivity|]. cbn [length].
    split; [lia|]. split; [lia|]. intros E. lia.
  Qed.

  Lemma orep_copy o h : orep o h -> exists h', hv_copy m cap h = Ok h' /\ orep (copied o) h'.
  Proof.
    intros R. destruct (o_place o) eqn:K.
    - pose proof (orep_static o h R ltac:(congruence)) as H. rewrite K in H.
      destruct h as [|a|v]; cbn [hrep] in H; try contradiction.
      exists HUnset. split; [reflexivity|]. unfold orep, copied. rewrite K. cbn. exact H.
    - pose proof (orep_static o h R ltac:(congruence)) as H. rewrite K in H.
      destruct h as [|a|v]; cbn [hrep] in H; try contradiction.
      destruct H as (r & j & -> & L). cbn [hv_copy]. rewrite elements_ok. cbn [bind].
      destruct (copy_fit m cap (o_items o)) as (r1 & j1 & E & L1); [lia|]. rewrite E. cbn [bind].
      eexists. split; [reflexivity|]. unfold orep, copied. rewrite K. cbn. eauto.
    - destruct (orep_dynamic o h R K) as (v & -> & (r & j & c & ->)). cbn [hv_copy].
      rewrite vec_elements_ok. cbn [bind]. rewrite vec_copy_ok. cbn [bind].
      eexists. split; [reflexivity|]. unfold orep, copied. rewrite K. cbn [o_sound o_place o_items].
      destruct (Nat.leb_spec 2 (length (o_items o))).
      + apply vec_copy_sound. exact H.
      + split; [reflexivity|]. eexists. split; [reflexivity|]. exists [], 0, (length (o_items o)). reflexivity.
  Qed.

  Lemma orep_move o h : orep o h ->
    exists h' s, hv_move m moved cap h = Ok (h', s) /\ orep o h' /\ orep (spent moved o) s.
  Proof.
    intros R. destruct (o_place o) eqn:K.
    - pose proof (orep_static o h R ltac:(congruence)) as H. rewrite K in H.
      destruct h as [|a|v]; cbn [hrep] in H; try contradiction.
      exists HUnset, HUnset. split; [reflexivity|]. unfold spent. rewrite K. auto.
    - pose proof (orep_static o h R ltac:(congruence)) as H. rewrite K in H.
      destruct h as [|a|v]; cbn [hrep] in H; try contradiction.
      destruct H as (r & j & -> & L). cbn [hv_move]. unfold hv_of_moved_array. rewrite elements_ok. cbn [bind].
      destruct (copy_fit m cap (o_items o)) as (r1 & j1 & E & L1); [lia|]. rewrite E. cbn [bind].
      cbn [sv_store sv_tail].
      pose proof (assign_list_ok m (map moved (o_items o)) (map Some (o_items o)) [] r j 0) as G.
      cbn [app] in G. rewrite G; [|rewrite !map_length; reflexivity|reflexivity|].
      2: { clear. induction (o_items o); cbn; constructor; auto. right. reflexivity. }
      cbn [bind fst snd]. eexists _, _. split; [reflexivity|]. split.
      + unfold orep in *. rewrite K in *. destruct (o_sound o); [cbn [hrep]; eauto|].
        destruct R as (D & _). discriminate.
      + unfold spent, orep. rewrite K. cbn [o_sound o_place o_items hrep].
        exists r, j. rewrite map_length. split; [reflexivity|lia].
    - destruct (orep_dynamic o h R K) as (v & -> & _). cbn [hv_move hv_of_moved_vector vec_move fst snd].
      eexists _, _. split; [reflexivity|]. split; [exact R|].
      unfold spent, orep. rewrite K. cbn [o_sound o_place o_items]. split; [reflexivity|].
      eexists. split; [reflexivity|]. exists [], 0, (vc_capacity v). reflexivity.
  Qed.

  Lemma orep_nowhere o h : orep o h -> h = HUnset <-> o_place o = Nowhere.
  Proof.
    intros R. destruct (o_place o) eqn:K.
    - pose proof (orep_static o h R ltac:(congruence)) as H. rewrite K in H.
      destruct h; cbn [hrep] in H; try contradiction. tauto.
    - pose proof (orep_static o h R ltac:(congruence)) as H. rewrite K in H.
      destruct h; cbn [hrep] in H; try contradiction. split; discriminate.
    - destruct (orep_dynamic o h R K) as (v & -> & _). split; discriminate.
  Qed.

  Lemma orep_nowhere_items o h : orep o h -> o_place o = Nowhere -> o = Obj Nowhere [] true.
  Proof.
    destruct o as [k l b]. unfold orep. cbn [o_sound o_place o_items]. intros H ->. destruct b.
    - destruct h; cbn [hrep] in H; try contradiction. subst. reflexivity.
    - destruct H; discriminate.
  Qed.

  Lemma Forall2_nth X Y (P : X -> Y -> Prop) xs ys i x : Forall2 P xs ys -> nth_error xs i = Some x ->
    exists y, nth_error ys i = Some y /\ P x y.
  Proof.
    intros F. revert i. induction F as [|a b xs ys H F IH]; intros [|i] E; cbn in E; try discriminate.
    - injection E as <-. exists b. auto.
    - apply IH in E. exact E.
  Qed.
  Lemma Forall2_upd X Y (P : X -> Y -> Prop) xs ys i x y : Forall2 P xs ys -> P x y ->
    Forall2 P (upd xs i x) (upd ys i y).
  Proof.
    intros F Q. revert i. induction F as [|a b xs ys H F IH]; intros [|i]; cbn; constructor; auto.
  Qed.
  Lemma Forall2_len X Y (P : X -> Y -> Prop) xs ys : Forall2 P xs ys -> length xs = length ys.
  Proof. induction 1; cbn; congruence. Qed.

  Lemma upd_self X (l : list X) i x : nth_error l i = Some x -> upd l i x = l.
  Proof.
    revert i. induction l as [|y l IH]; intros [|i] E; cbn in *; try discriminate.
    - injection E as ->. reflexivity.
    - rewrite IH; auto.
  Qed.

  Definition tracked : bool := match m with Tracked => true | Trivial => false end.

  Lemma step_works os hs c : Forall2 orep os hs -> call_works cap tracked os c ->
    exists hs', multi_step m moved dflt mem cap hs c = Ok hs'
      /\ Forall2 orep (program_step moved cap os c) hs'.
  Proof.
    intros F W. destruct c as [|i op|i|i|i j|i j]; cbn [multi_step program_step call_works] in *.
    - eexists. split; [reflexivity|]. apply Forall2_app; auto. constructor; auto. reflexivity.
    - destruct W as (o & E & S & V & I & N). rewrite E.
      destruct (Forall2_nth _ _ _ _ _ _ _ F E) as (h & Eh & R). unfold object_at. rewrite Eh. cbn [bind].
      unfold orep in R. rewrite S in R.
      destruct (step_hv m moved dflt mem Hmem cap (o_place o) (o_items o) h op R V I) as (h' & E' & R').
      { unfold tracked in N. destruct m; [left; reflexivity|]. right. destruct N as [N|N]; [discriminate|exact N]. }
      rewrite E'. cbn [bind]. eexists. split; [reflexivity|]. apply Forall2_upd; auto.
    - destruct (nth_error os i) as [o|] eqn:E; [|apply nth_error_None in E; lia].
      destruct (Forall2_nth _ _ _ _ _ _ _ F E) as (h & Eh & R). unfold object_at. rewrite Eh. cbn [bind].
      destruct (orep_copy o h R) as (h' & E' & R'). rewrite E'. cbn [bind].
      eexists. split; [reflexivity|]. apply Forall2_app; auto.
    - destruct (nth_error os i) as [o|] eqn:E; [|apply nth_error_None in E; lia].
      destruct (Forall2_nth _ _ _ _ _ _ _ F E) as (h & Eh & R). unfold object_at. rewrite Eh. cbn [bind].
      destruct (orep_move o h R) as (h' & s & E' & R' & Rs). rewrite E'. cbn [bind fst snd].
      eexists. split; [reflexivity|]. apply Forall2_app; auto. apply Forall2_upd; auto.
    - destruct W as (o & p & Ei & Ej & N). rewrite Ej.
      destruct (Forall2_nth _ _ _ _ _ _ _ F Ei) as (h & Eh & R).
      destruct (Forall2_nth _ _ _ _ _ _ _ F Ej) as (g & Eg & Q).
      unfold object_at. rewrite Eh, Eg. cbn [bind]. destruct (i =? j); [eauto|].
      destruct (o_place p) eqn:K.
      + pose proof (proj2 (orep_nowhere p g Q) K) as ->. cbn [hv_assign bind].
        eexists. split; [reflexivity|]. apply Forall2_upd; auto.
        rewrite (orep_nowhere_items p HUnset Q K).
        rewrite (orep_nowhere_items o h R (N eq_refl)) in R. exact R.
      + assert (G : hv_assign m cap h g = let! _ := hv_reset m h in hv_copy m cap g).
        { destruct g; auto. pose proof (proj1 (orep_nowhere p HUnset Q) eq_refl). congruence. }
        rewrite G, (orep_reset o h R). cbn [bind].
        destruct (orep_copy p g Q) as (g' & E' & Q'). rewrite E'. cbn [bind].
        eexists. split; [reflexivity|]. apply Forall2_upd; auto.
      + assert (G : hv_assign m cap h g = let! _ := hv_reset m h in hv_copy m cap g).
        { destruct g; auto. pose proof (proj1 (orep_nowhere p HUnset Q) eq_refl). congruence. }
        rewrite G, (orep_reset o h R). cbn [bind].
        destruct (orep_copy p g Q) as (g' & E' & Q'). rewrite E'. cbn [bind].
        eexists. split; [reflexivity|]. apply Forall2_upd; auto.
    - destruct W as (o & p & Ei & Ej & N). rewrite Ej.
      destruct (Forall2_nth _ _ _ _ _ _ _ F Ei) as (h & Eh & R).
      destruct (Forall2_nth _ _ _ _ _ _ _ F Ej) as (g & Eg & Q).
      unfold object_at. rewrite Eh, Eg. cbn [bind]. destruct (i =? j) eqn:Eij; [eauto|].
      destruct (o_place p) eqn:K.
      + pose proof (proj2 (orep_nowhere p g Q) K) as ->. cbn [hv_move_assign bind fst snd].
        eexists. split; [reflexivity|]. apply Forall2_upd; [apply Forall2_upd; auto|].
        * unfold spent. rewrite K. exact Q.
        * rewrite (orep_nowhere_items p HUnset Q K).
          rewrite (orep_nowhere_items o h R (N eq_refl)) in R. exact R.
      + assert (G : hv_move_assign m moved cap h g = let! _ := hv_reset m h in hv_move m moved cap g).
        { destruct g; auto. pose proof (proj1 (orep_nowhere p HUnset Q) eq_refl). congruence. }
        rewrite G, (orep_reset o h R). cbn [bind].
        destruct (orep_move p g Q) as (g' & s & E' & Q' & Qs). rewrite E'. cbn [bind fst snd].
        eexists. split; [reflexivity|]. apply Forall2_upd; [apply Forall2_upd|]; auto.
      + assert (G : hv_move_assign m moved cap h g = let! _ := hv_reset m h in hv_move m moved cap g).
        { destruct g; auto. pose proof (proj1 (orep_nowhere p HUnset Q) eq_refl). congruence. }
        rewrite G, (orep_reset o h R). cbn [bind].
        destruct (orep_move p g Q) as (g' & s & E' & Q' & Qs). rewrite E'. cbn [bind fst snd].
        eexists. split; [reflexivity|]. apply Forall2_upd; [apply Forall2_upd|]; auto.
  Qed.

  Lemma run_works cs : forall os hs, Forall2 orep os hs -> program_works moved cap tracked os cs ->
    exists hs', multi_run m moved dflt mem cap hs cs = Ok hs'
      /\ Forall2 orep (fold_left (program_step moved cap) cs os) hs'.
  Proof.
    induction cs as [|c cs IH]; intros os hs F W; cbn [multi_run fold_left]; eauto.
    destruct W as (W & Ws). destruct (step_works os hs c F W) as (hs' & E & F'). rewrite E. cbn [bind].
    apply IH; auto.
  Qed.

  Lemma loose_elements l v : loose l v -> hv_size (HVec v) = length l /\ hv_elements (HVec v) = Ok l.
  Proof.
    intros (r & j & c & ->). split; [reflexivity|]. unfold hv_elements.
    cbn [hv_begin hv_size]. change (vec_size (Vec (mk l r j) c)) with (length l).
    assert (G : forall l2 l1, l = l1 ++ l2 -> forall f, length l2 < f ->
              hv_visit f (HVec (Vec (mk l r j) c)) (IVec (Z.of_nat (length l1))) = Ok l2).
    { induction l2 as [|x l2 IH]; intros l1 El f Hf; (destruct f; [cbn in Hf; lia|]);
        cbn [hv_visit hv_end hi_eq]; unfold vc_tail; cbn [vc_arr sv_tail];
        destruct (Z.eqb_spec (Z.of_nat (length l1)) (Z.of_nat (length l))) as [E|E]; auto.
      - rewrite El, app_nil_r in E. lia.
      - rewrite El, app_length in E. cbn in E. lia.
      - cbn [negb hi_deref]. rewrite hi_vec_nat. cbn [bind]. unfold vec_index, vc_store.
        cbn [vc_arr sv_store]. rewrite load_at.
        rewrite El at 1. rewrite nth_error_app2, Nat.sub_diag by lia. cbn [nth_error bind hi_add].
        replace (Z.of_nat (length l1) + 1)%Z with (Z.of_nat (length (l1 ++ [x])))
          by (rewrite app_length; cbn; lia).
        rewrite (IH (l1 ++ [x])); [reflexivity| |cbn in Hf; lia].
        rewrite <- app_assoc. exact El. }
    apply (G l []); auto.
  Qed.

  Lemma orep_reads o h : orep o h -> place_of h = o_place o /\ hv_size h = length (o_items o)
    /\ (o_place o <> Nowhere -> hv_elements h = Ok (o_items o)) /\ hv_reset m h = Ok HUnset.
  Proof.
    intros R. pose proof (orep_reset o h R) as Z. unfold orep in R. destruct (o_sound o).
    - split; [apply (place_hv cap _ _ _ R)|]. split; [apply (size_hv cap _ _ _ R)|].
      split; [apply (elements_hv cap _ _ _ R)|exact Z].
    - destruct R as (K & v & -> & L). destruct (loose_elements _ _ L) as (S & E).
      rewrite K. split; [reflexivity|]. split; [exact S|]. split; [intros _; exact E|exact Z].
  Qed.
End Proofs.

(** C234, proved part. In every program of constructions, copies, moves, assignments and calls on any number
    of HybridVectors in which the calls are on sound objects and nothing is assigned from an object that
    holds nothing, each object has the elements of its sequence; all can be destroyed. *)
Theorem C234_program_partial :
  forall (A : Type) (m : mode) (moved : A -> A) (dflt : A) (mem : memory) (cap : nat)
         (cs : list (hv_call A)),
    mem <> NoMemory ->
    program_works moved cap (match m with Tracked => true | Trivial => false end) [] cs ->
    exists hs, multi_run m moved dflt mem cap [] cs = Ok hs
      /\ Forall2 (fun o h => place_of h = o_place o /\ hv_size h = length (o_items o)
                             /\ (o_place o <> Nowhere -> hv_elements h = Ok (o_items o))
                             /\ hv_reset m h = Ok HUnset)
           (program_run moved cap cs) hs.
Proof.
  intros A m moved dflt mem cap cs Hmem W.
  destruct (run_works m moved dflt mem Hmem cap cs [] [] (Forall2_nil _) W) as (hs & E & F).
  exists hs. split; [exact E|]. fold (program_run moved cap cs) in F. clear - F.
  induction F as [|o h os hs R F IH]; constructor; auto. apply (orep_reads m cap o h R).
Qed.

(** Three objects: the second is a copy of the first and changes alone, the third gets the contents of the
    first; the second is then assigned to the first. *)
Example C234_program_case :
  let cs := [CNew; CDo 0 (HPush 1); CDo 0 (HPush 2); CDo 0 (HPush 3); CCopy 0; CDo 1 (HErase 0); CDo 1 (HErase 0);
             CDo 1 (HPush 7); CMove 0; CAssign 0 1; CDo 0 (HPush 8); CDo 2 (HPush 9); CMoveAssign 2 0] in
  program_works (fun x => x + 100) 2 true [] cs
  /\ map (@o_items nat) (program_run (fun x => x + 100) 2 (firstn 9 cs)) = [[]; [3; 7]; [1; 2; 3]]
  /\ map (@o_items nat) (program_run (fun x => x + 100) 2 (firstn 12 cs)) = [[3; 7; 8]; [3; 7]; [1; 2; 3; 9]]
  /\ map (@o_items nat) (program_run (fun x => x + 100) 2 cs) = [[]; [3; 7]; [3; 7; 8]].
Proof.
  cbv zeta. split; [|vm_compute; repeat split].
  cbn. repeat (first [split | eexists]); try reflexivity; try lia; try discriminate; try (right; exact I);
    try (intro; discriminate).
Qed.

(** C234, refutation: assigning an object that holds nothing - it was never filled, or its last element was
    erased - is ignored, for every history of source and target. *)
Theorem C234_assign_empty_refuted :
  forall (A : Type) (m : mode) (moved : A -> A) (dflt : A) (mem : memory) (cap : nat)
         (ops ops' : list (hv_op A)),
    mem <> NoMemory ->
    let works := hv_along (fun k l op => hv_valid_op l op /\ insertion_works cap k l op
                                         /\ (m = Trivial \/ no_inner_range l op)) cap Nowhere [] in
    works ops -> works ops' ->
    place_run cap ops' = Nowhere -> hseq_run ops <> [] ->
    exists h h', hv_run m moved dflt mem cap hv_new ops = Ok h
      /\ hv_run m moved dflt mem cap hv_new ops' = Ok h' /\ hv_size h' = 0
      /\ hv_assign m cap h h' = Ok h
      /\ hv_move_assign m moved cap h h' = Ok (h, h')
      /\ hv_elements h = Ok (hseq_run ops).
Proof.
  intros A m moved dflt mem cap ops ops' Hmem works W W' N NE.
  destruct (run_hv m moved dflt mem Hmem cap ops Nowhere [] HUnset eq_refl W) as (h & E & R).
  destruct (run_hv m moved dflt mem Hmem cap ops' Nowhere [] HUnset eq_refl W') as (h' & E' & R').
  change (fold_left hseq_step ops []) with (hseq_run ops) in R. change (snd _) with (place_run cap ops) in R.
  change (fold_left hseq_step ops' []) with (hseq_run ops') in R'.
  change (snd _) with (place_run cap ops') in R'. rewrite N in R'.
  destruct h' as [|a|v]; cbn [hrep] in R'; try contradiction.
  exists h, HUnset. split; [exact E|]. split; [exact E'|]. split; [reflexivity|]. split; [reflexivity|].
  split; [reflexivity|]. apply (elements_hv cap _ _ _ R). intros K. rewrite K in R.
  destruct h; cbn [hrep] in R; try contradiction.
Qed.

(** The source had an element, and it was erased. *)
Example C234_assign_empty_case :
  let ops := [HPush 1; HPush 2; HPush 3] in let ops' := [HPush 5; HErase 0] in
  place_run 2 ops' = Nowhere /\ hseq_run ops = [1; 2; 3] /\ hseq_run ops' = []
  /\ hv_along (fun k l op => hv_valid_op l op /\ insertion_works 2 k l op
                             /\ (Tracked = Trivial \/ no_inner_range l op)) 2 Nowhere [] ops'.
Proof. cbn. repeat split; auto; lia. Qed.

(** C234, refutation: what the elements in dynamic memory have moved from cannot be used again: the next
    element is written through null. *)
Theorem C234_moved_from_refuted :
  forall (A : Type) (m : mode) (moved : A -> A) (dflt : A) (mem : memory) (cap : nat)
         (ops : list (hv_op A)) (x : A),
    mem <> NoMemory -> 0 < cap ->
    hv_along (fun k l op => hv_valid_op l op /\ insertion_works cap k l op
                            /\ (m = Trivial \/ no_inner_range l op)) cap Nowhere [] ops ->
    place_run cap ops = Dynamic ->
    exists h h' s, hv_run m moved dflt mem cap hv_new ops = Ok h
      /\ hv_move m moved cap h = Ok (h', s)
      /\ hv_elements h' = Ok (hseq_run ops) /\ hv_size s = 0
      /\ hv_step m moved dflt mem cap s (HPush x) = UB.
Proof.
  intros A m moved dflt mem cap ops x Hmem Hc W K.
  destruct (run_hv m moved dflt mem Hmem cap ops Nowhere [] HUnset eq_refl W) as (h & E & R).
  change (fold_left hseq_step ops []) with (hseq_run ops) in R. change (snd _) with (place_run cap ops) in R.
  pose proof R as R0. rewrite K in R. destruct h as [|a|v]; cbn [hrep] in R; try contradiction.
  assert (C : 0 < vc_capacity v).
  { destruct R as (r & j & c & -> & L & C1 & C0). cbn [vc_capacity]. lia. }
  exists (HVec v), (HVec v), (HVec (snd (vec_move v))).
  split; [exact E|]. split; [reflexivity|].
  split; [apply (elements_hv cap _ _ _ R0); congruence|]. split; [reflexivity|].
  destruct (C15_moved_from_refuted A m mem v x 1 C) as (_ & _ & U).
  cbn [hv_step]. unfold hv_pushBack. cbn [hv_pushBack_ref].
  change (vec_pushBack_ref m mem vfuel (snd (vec_move v)) (VExt x)) with (vec_pushBack m mem 2 (snd (vec_move v)) x).
  rewrite U. reflexivity.
Qed.

(** C234, refutation: a copy of one element in dynamic memory can never grow: pushBack() of the vector in it
    does not return, at any depth of the recursion. *)
Theorem C234_copy_of_one_refuted :
  forall (A : Type) (m : mode) (moved : A -> A) (dflt : A) (mem : memory) (cap : nat)
         (ops : list (hv_op A)) (x y : A),
    mem <> NoMemory ->
    hv_along (fun k l op => hv_valid_op l op /\ insertion_works cap k l op
                            /\ (m = Trivial \/ no_inner_range l op)) cap Nowhere [] ops ->
    place_run cap ops = Dynamic -> hseq_run ops = [x] ->
    exists h v, hv_run m moved dflt mem cap hv_new ops = Ok h
      /\ hv_copy m cap h = Ok (HVec v) /\ vec_elements v = Ok [x]
      /\ forall fuel, vec_pushBack m mem fuel v y = Diverge.
Proof.
  intros A m moved dflt mem cap ops x y Hmem W K S.
  destruct (run_hv m moved dflt mem Hmem cap ops Nowhere [] HUnset eq_refl W) as (h & E & R).
  change (fold_left hseq_step ops []) with (hseq_run ops) in R. change (snd _) with (place_run cap ops) in R.
  rewrite K, S in R. destruct h as [|a|v]; cbn [hrep] in R; try contradiction.
  destruct R as (r & j & c & -> & _).
  destruct (vec_copy m [x]) as [w| |] eqn:C; [|rewrite vec_copy_ok in C; discriminate|rewrite vec_copy_ok in C; discriminate].
  eexists _, w. split; [exact E|]. cbn [hv_copy]. rewrite vec_elements_ok. cbn [bind]. rewrite C. cbn [bind].
  split; [reflexivity|]. split.
  - rewrite vec_copy_ok in C. injection C as <-. reflexivity.
  - intros fuel. apply (C14_growth_refuted A m moved dflt mem x y 0 fuel w C).
Qed.

(** Three elements in a container with room for two, then two are popped: one is left in dynamic memory. *)
Example C234_copy_of_one_case :
  let ops := [HPush 1; HPush 2; HPush 3; HPop; HPop] in
  hseq_run ops = [1] /\ place_run 2 ops = Dynamic
  /\ hv_along (fun k l op => hv_valid_op l op /\ insertion_works 2 k l op
                             /\ (Tracked = Trivial \/ no_inner_range l op)) 2 Nowhere [] ops.
Proof. cbn. repeat split; auto. Qed.

Print Assumptions C234_program_partial.
Print Assumptions C234_assign_empty_refuted.
Print Assumptions C234_moved_from_refuted.
Print Assumptions C234_copy_of_one_refuted.
