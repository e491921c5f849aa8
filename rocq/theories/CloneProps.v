(** Theorems about clone() (C203) and about a HybridVector made of an Array or a Vector (C204). *)
From Coq Require Import List Arith ZArith Bool Lia.
From Verif Require Import Base BaseLemmas Store StoreLemmas StaticVectorModel StaticVectorProofs
  VectorModel VectorSpec VectorProofs StringModel StringSpec StringProofs StringProps HybridVectorModel
  HybridVectorSpec HybridVectorProofs CloneModel BackwardModel BackwardSpec BackwardProps.
From Verif Require ListModel ListSpec ListProps.
Import ListNotations.

(** ** C203 *)

(** Vector: no clone() ever gives a vector; on a vector whose elements can be read, with memory
    available, the whole copy is made and then the function ends without returning it. *)
Theorem C203_vector_refuted :
  forall (A : Type) (m : mode) (mem : memory) (v : vec A),
    (forall fuel w, vec_clone m mem fuel v <> Ok w)
    /\ (forall fuel xs, mem <> NoMemory -> vec_elements v = Ok xs ->
          vec_clone m mem (S fuel) v = UB).
Proof.
  intros A m mem v. split.
  - intros fuel w. unfold vec_clone, no_return.
    destruct (vec_reserve _ _ _ _); cbn; try discriminate.
    destruct (vec_elements v); cbn; try discriminate.
    destruct (vec_push_all _ _ _ _ _); cbn; discriminate.
  - intros fuel xs Hm H. unfold vec_clone.
    assert (L : vec_size v = length xs).
    { unfold vec_size. unfold vec_elements in H. destruct (vc_store v) as [c k].
      destruct (range_inv _ _ _ _ _ _ H) as (L & _). auto. }
    rewrite L.
    destruct (VectorProofs.reserve_ok (A := A) m mem Hm [] [] 0 (length xs) 0 eq_refl) as (r & j & E & Lr & _).
    cbn [map app length Nat.max] in E, Lr. unfold vec_new in *. rewrite E. cbn [bind].
    rewrite H. cbn [bind].
    destruct (VectorProofs.push_all_ok' m mem xs [] r j (length xs) fuel Lr ltac:(cbn; lia)) as (r2 & j2 & E2 & _).
    cbn [map app length] in E2. rewrite E2. reflexivity.
Qed.

Example C203_vector_case :
  let v := Vec (SVec (St [Some 1; Some 2; None] 0) 2) 3 in
  vec_elements v = Ok [1; 2] /\ vec_clone Tracked Realloc 2 v = UB.
Proof. split; reflexivity. Qed.

(** String, after any history of calls that work (the condition of C20): the clone has the
    characters and can be used from then on like any string. *)
Theorem C203_string_partial :
  forall (A : Type) (nul : A) (is_nul : A -> bool) (c : str_ctor A) (os os2 : list (str_op A))
         (cap cap2 fuel : nat),
    let l := str_seq_run is_nul (str_seq_ctor is_nul c) os in
    ctor_documented is_nul c ->
    str_documented_run is_nul (str_seq_ctor is_nul c) os ->
    str_cap_run is_nul (str_seq_ctor is_nul c) (str_cap_ctor is_nul c) os = Some cap ->
    str_documented_run is_nul l os2 ->
    str_cap_run is_nul l (length l + 1) os2 = Some cap2 ->
    4 <= fuel ->
    exists s s1 s2, str_history nul is_nul fuel c os = Ok s
      /\ str_clone nul s = Ok s1
      /\ holds nul s1 l (length l + 1)
      /\ str_run nul is_nul fuel s1 os2 = Ok s2
      /\ holds nul s2 (str_seq_run is_nul l os2) cap2.
Proof. exact C21_copy_partial. Qed.

(** List, after any history of covered calls (the condition of C17) that leaves elements in it:
    the clone has them, and the two lists do not disturb each other. *)
Theorem C203_list_partial :
  forall (A : Type) (dflt : A) (os : list (ListModel.list_op A)) (s : ListSpec.shape)
         (os2 : list (bool * ListModel.list_op A)) (s1 s2 : ListSpec.shape),
    let vals := ListSpec.list_seq_run [] os in
    ListSpec.covered_run [] ListSpec.Untouched os = Some s -> s <> ListSpec.Untouched ->
    vals <> [] ->
    ListSpec.covered_run vals s (ListSpec.calls_on true os2) = Some s1 ->
    ListSpec.covered_run vals ListSpec.Whole (ListSpec.calls_on false os2) = Some s2 ->
    exists N, forall fuel, N <= fuel -> exists h l h1 l1 h2 l2 l3,
      ListModel.list_history dflt fuel os = Ok (h, l)
      /\ list_clone dflt fuel h 1 l = Ok (h1, l1)
      /\ ListModel.list_forward fuel h1 l1 = Ok vals
      /\ ListModel.list_backward fuel h1 l1 = Ok (rev vals)
      /\ ListModel.list_forward fuel h1 l = Ok vals
      /\ ListModel.list_run2 fuel h1 l l1 os2 = Ok (h2, l2, l3)
      /\ (s1 <> ListSpec.Untouched ->
            ListModel.list_forward fuel h2 l2
            = Ok (ListSpec.list_seq_run vals (ListSpec.calls_on true os2)))
      /\ (s2 <> ListSpec.Untouched ->
            ListModel.list_forward fuel h2 l3
            = Ok (ListSpec.list_seq_run vals (ListSpec.calls_on false os2))).
Proof. exact ListProps.C58_list_copy_partial. Qed.

(** A list that was never filled, or was cleaned, cannot be cloned. *)
Theorem C203_list_empty_refuted :
  forall (A : Type) (dflt : A) (os : list (ListModel.list_op A)),
    ListSpec.covered_run [] ListSpec.Untouched os = Some ListSpec.Untouched ->
    exists N, forall fuel, N <= fuel -> exists h l,
      ListModel.list_history dflt fuel os = Ok (h, l)
      /\ list_clone dflt fuel h 1 l = UB.
Proof. exact ListProps.C58_list_copy_empty_refuted. Qed.

Section Hybrid.
  Context {A : Type}.

  Lemma take_rep m cap k l (h : hybrid A) : hrep cap k l h ->
    exists h', hv_take m cap h = Ok h' /\ hrep cap k l h'.
  Proof.
    intros H. destruct k, h as [|a|v]; cbn [hrep] in H; try contradiction.
    - exists HUnset. auto.
    - destruct H as (r & j & -> & L). cbn [hv_take]. rewrite elements_ok. cbn [bind].
      destruct (copy_fit m cap l ltac:(lia)) as (r1 & j1 & E & L1). rewrite E. cbn [bind].
      eexists. split; [reflexivity|]. cbn. eauto.
    - exists (HVec v). split; auto.
  Qed.

  Lemma of_array_rep m cap (a : svec A) l : sv_elements a = Ok l -> length l <= cap ->
    exists h, hv_of_array m cap a = Ok h /\ hrep cap Fixed l h.
  Proof.
    intros H L. unfold hv_of_array. rewrite H. cbn [bind].
    destruct (copy_fit m cap l L) as (r & j & E & Lr). rewrite E. cbn [bind].
    eexists. split; [reflexivity|]. cbn. eauto.
  Qed.

  (** Visiting a vector held by a HybridVector (no condition on its capacity). *)
  Lemma visit_vec l rest j c : hv_elements (HVec (Vec (SVec (St (map (@Some A) l ++ rest) j) (length l)) c))
    = Ok l.
  Proof.
    unfold hv_elements, hv_begin, hv_size, vec_size, vc_tail. cbn [vc_arr sv_tail].
    assert (G : forall l2 l1, l = l1 ++ l2 -> forall f, length l2 < f ->
              hv_visit f (HVec (Vec (SVec (St (map (@Some A) l ++ rest) j) (length l)) c))
                (IVec (Z.of_nat (length l1))) = Ok l2).
    { induction l2 as [|x l2 IH]; intros l1 El f Hf; (destruct f; [cbn in Hf; lia|]);
        cbn [hv_visit hv_end hi_eq]; unfold vc_tail; cbn [vc_arr sv_tail];
        destruct (Z.eqb_spec (Z.of_nat (length l1)) (Z.of_nat (length l))) as [E|E]; auto.
      - rewrite El, app_nil_r in E. lia.
      - rewrite El, app_length in E. cbn in E. lia.
      - cbn [negb hi_deref]. rewrite hi_vec_nat. cbn [bind]. unfold vec_index, vc_store.
        cbn [vc_arr sv_store]. rewrite load_at.
        rewrite El at 1. rewrite nth_error_app2, Nat.sub_diag by lia. cbn [nth_error bind hi_add].
        replace (Z.of_nat (length l1) + 1)%Z with (Z.of_nat (length (l1 ++ [x])))
          by (rewrite app_length; cbn; lia).
        rewrite (IH (l1 ++ [x])); [reflexivity| |cbn in Hf; lia].
        rewrite <- app_assoc. exact El. }
    apply (G l []); auto.
  Qed.
End Hybrid.

(** HybridVector, after any history of calls that work (the condition of C52): the clone has the
    same elements in the same kind of storage; unless it was never filled they can be visited. *)
Theorem C203_hybrid_partial :
  forall (A : Type) (m : mode) (moved : A -> A) (dflt : A) (mem : memory) (cap : nat)
         (ops : list (hv_op A)),
    mem <> NoMemory ->
    hv_along (fun k l op => hv_valid_op l op /\ insertion_works cap k l op
                            /\ (m = Trivial \/ no_inner_range l op)) cap Nowhere [] ops ->
    exists h h', hv_run m moved dflt mem cap hv_new ops = Ok h
      /\ hv_clone m cap h = Ok h'
      /\ place_of h' = place_of h
      /\ hv_size h' = length (hseq_run ops)
      /\ (place_run cap ops <> Nowhere -> hv_elements h' = Ok (hseq_run ops)).
Proof.
  intros A m moved dflt mem cap ops Hmem Ha.
  destruct (run_hv m moved dflt mem Hmem cap ops Nowhere [] HUnset eq_refl Ha) as (h & E & R).
  change (fold_left hseq_step ops []) with (hseq_run ops) in R.
  change (snd _) with (place_run cap ops) in R.
  exists h. destruct (place_run cap ops) eqn:Ep, h as [|a|v]; pose proof R as R'; cbn [hrep] in R';
    try contradiction.
  - exists HUnset. cbn. rewrite R'. repeat split; auto. congruence.
  - destruct R' as (r & j & -> & L). cbn [hv_clone].
    destruct (of_array_rep m cap (SVec (St (map Some (hseq_run ops) ++ r) j) (length (hseq_run ops)))
                (hseq_run ops)) as (t & Et & Rt); [apply elements_ok|lia|].
    rewrite Et. cbn [bind]. destruct (take_rep m cap _ _ t Rt) as (h' & E' & R').
    exists h'. split; [exact E|]. split; [exact E'|].
    rewrite (place_hv _ _ _ _ R), (place_hv _ _ _ _ R'). split; [reflexivity|].
    split; [exact (size_hv _ _ _ _ R')|]. intros Hn. exact (elements_hv _ _ _ _ R' Hn).
  - destruct R' as (r & j & c & -> & L & _). cbn [hv_clone]. unfold hv_of_vector.
    rewrite vec_elements_ok. cbn [bind]. rewrite vec_copy_ok. cbn [bind hv_take vec_move fst].
    eexists. split; [exact E|]. split; [reflexivity|]. split; [reflexivity|].
    split; [reflexivity|]. intros _. apply visit_vec.
Qed.

(** ** C204 *)

(** Made of an array (copied or moved) that fits: the same elements, and from then on it behaves
    like the sequence (under the condition of C52). The source of a copy is not touched; a
    moved-from array still has as many elements. *)
Theorem C204_from_array_partial :
  forall (A : Type) (m : mode) (moved : A -> A) (dflt : A) (mem : memory) (cap : nat)
         (a : svec A) (l : list A) (ops : list (hv_op A)),
    mem <> NoMemory -> sv_elements a = Ok l -> length l <= cap ->
    hv_along (fun k l op => hv_valid_op l op /\ insertion_works cap k l op
                            /\ (m = Trivial \/ no_inner_range l op)) cap Fixed l ops ->
    exists h h' a' h2,
      hv_of_array m cap a = Ok h /\ hv_of_moved_array m moved cap a = Ok (h', a')
      /\ hv_elements h = Ok l /\ hv_elements h' = Ok l /\ hv_size h = length l
      /\ hv_size h' = length l
      /\ sv_elements a' = Ok (map moved l)
      /\ hv_run m moved dflt mem cap h ops = Ok h2
      /\ hv_size h2 = length (fold_left hseq_step ops l)
      /\ (forall i x, nth_error (fold_left hseq_step ops l) i = Some x -> hv_index h2 i = Ok x).
Proof.
  intros A m moved dflt mem cap a l ops Hmem H L Ha.
  destruct (of_array_rep m cap a l H L) as (h & E & R).
  destruct (run_hv m moved dflt mem Hmem cap ops Fixed l h R Ha) as (h2 & E2 & R2).
  pose proof E as E0. unfold hv_of_array in E0. rewrite H in E0. cbn [bind] in E0.
  destruct (sv_copy m cap l) as [b| |] eqn:Eb; try discriminate. cbn [bind] in E0.
  injection E0 as E0.
  assert (M : exists a', hv_of_moved_array m moved cap a = Ok (h, a')
                /\ sv_elements a' = Ok (map moved l)).
  { unfold hv_of_moved_array. rewrite H. cbn [bind]. rewrite Eb. cbn [bind].
    unfold sv_elements in H. destruct a as [[c k] t]. cbn [sv_store sv_tail] in *.
    destruct (range_inv _ _ _ _ _ _ H) as (Lt & pre & post & Ec & P).
    assert (Ec' : exists post, c = map Some l ++ post).
    { destruct P as [->|P]; [destruct l; [|discriminate]; exists c; reflexivity|].
      destruct pre; [|discriminate]. eauto. }
    clear Ec. destruct Ec' as (post' & ->).
    pose proof (assign_list_ok m (map moved l) (map Some l) [] post' k 0) as G.
    cbn [app length] in G. rewrite G.
    - cbn [bind]. rewrite E0. eexists. split; [reflexivity|]. unfold sv_elements. cbn [sv_store sv_tail].
      pose proof (load_range_ok (map moved l) [] post' k t 0) as G2. cbn [app] in G2. apply G2; auto.
      rewrite map_length. auto.
    - rewrite !map_length. reflexivity.
    - reflexivity.
    - clear. induction l; constructor; auto. right. eauto. }
  destruct M as (a' & Em & Ea').
  exists h, h, a', h2.
  assert (Hn : Fixed <> Nowhere) by discriminate.
  rewrite (size_hv _ _ _ _ R), (size_hv _ _ _ _ R2), (elements_hv _ _ _ _ R Hn).
  repeat split; auto. intros i x Hx. exact (index_hv _ _ _ _ _ _ R2 Hx).
Qed.

(** Made of a vector: the same elements; of a moved one, without touching them. *)
Theorem C204_from_vector_partial :
  forall (A : Type) (m : mode) (v : vec A) (l : list A),
    vec_elements v = Ok l ->
    exists h, hv_of_vector m v = Ok h /\ hv_elements h = Ok l /\ hv_size h = length l
      /\ hv_elements (fst (hv_of_moved_vector v)) = Ok l
      /\ hv_size (fst (hv_of_moved_vector v)) = length l
      /\ vec_elements (snd (hv_of_moved_vector v)) = Ok [].
Proof.
  intros A m v l H. unfold hv_of_vector. rewrite H. cbn [bind]. rewrite vec_copy_ok. cbn [bind].
  eexists. split; [reflexivity|].
  split. { apply visit_vec. } split; [reflexivity|].
  unfold vec_elements, vc_store, vc_tail in H. destruct v as [[[c k] t] q]. cbn in H.
  destruct (range_inv _ _ _ _ _ _ H) as (Lt & pre & post & Ec & P).
  assert (Ec' : exists post, c = map Some l ++ post).
  { destruct P as [->|P]; [destruct l; [|discriminate]; exists c; reflexivity|].
    destruct pre; [|discriminate]. eauto. }
  destruct Ec' as (post' & ->). subst t. cbn [hv_of_moved_vector vec_move fst snd].
  split. { apply visit_vec. } split; reflexivity.
Qed.

(** Assigning an array or a vector to a HybridVector is never defined: the operators end without
    returning. *)
Theorem C204_assignment_refuted :
  forall (A : Type) (m : mode) (moved : A -> A) (dflt : A) (mem : memory) (cap : nat)
         (ops : list (hv_op A)) (a : svec A) (v : vec A) (l1 l2 : list A),
    mem <> NoMemory ->
    hv_along (fun k l op => hv_valid_op l op /\ insertion_works cap k l op
                            /\ (m = Trivial \/ no_inner_range l op)) cap Nowhere [] ops ->
    sv_elements a = Ok l1 -> length l1 <= cap -> vec_elements v = Ok l2 ->
    exists h, hv_run m moved dflt mem cap hv_new ops = Ok h
      /\ hv_assign_array m cap h a = UB /\ hv_assign_vector m cap h v = UB.
Proof.
  intros A m moved dflt mem cap ops a v l1 l2 Hmem Ha H1 L1 H2.
  destruct (run_hv m moved dflt mem Hmem cap ops Nowhere [] HUnset eq_refl Ha) as (h & E & R).
  exists h. split; [exact E|]. unfold hv_assign_array, hv_assign_vector.
  rewrite (reset_hv m cap _ _ _ R).
  destruct (of_array_rep m cap a l1 H1 L1) as (t & Et & Rt). rewrite Et. cbn [bind].
  destruct (take_rep m cap _ _ t Rt) as (h' & E' & _). rewrite E'. cbn [bind].
  split; [reflexivity|]. unfold hv_of_vector. rewrite H2. cbn [bind]. rewrite vec_copy_ok. reflexivity.
Qed.

Example C204_case :
  let a := SVec (St [Some 1; Some 2; None] 0) 2 in
  let v := Vec (SVec (St [Some 1; Some 2; Some 3; None] 0) 3) 4 in
  sv_elements a = Ok [1; 2] /\ vec_elements v = Ok [1; 2; 3]
  /\ (exists h, hv_of_array Tracked 3 a = Ok h /\ hv_elements h = Ok [1; 2])
  /\ (exists h, hv_clone Tracked 3 (HVec v) = Ok h /\ hv_elements h = Ok [1; 2; 3])
  /\ hv_along (fun k l op => hv_valid_op l op /\ insertion_works 3 k l op
       /\ (Tracked = Trivial \/ no_inner_range l op)) 3 Fixed [1; 2] [HPush 5; HPush 6; HErase 0].
Proof.
  cbv zeta. split; [reflexivity|]. split; [reflexivity|].
  split; [eexists; split; reflexivity|]. split; [eexists; split; reflexivity|].
  cbn. repeat split; auto; lia.
Qed.

Print Assumptions C203_vector_refuted.
Print Assumptions C203_string_partial.
Print Assumptions C203_list_partial.
Print Assumptions C203_list_empty_refuted.
Print Assumptions C203_hybrid_partial.
Print Assumptions C204_from_array_partial.
Print Assumptions C204_from_vector_partial.
Print Assumptions C204_assignment_refuted.
