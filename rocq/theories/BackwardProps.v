(** Theorems about visiting a container backwards: C202. *)
From Coq Require Import List Arith ZArith Bool Lia.
From Verif Require Import Base BaseLemmas Store StoreLemmas StaticVectorModel StaticVectorProofs
  VectorModel VectorProofs StringModel HybridVectorModel HybridVectorSpec HybridVectorProofs
  BackwardModel BackwardSpec.
Import ListNotations.

Lemma range_inv A n : forall lo (c : list (option A)) k l,
  load_range n lo (St c k) = Ok l ->
  length l = n /\ exists pre post, c = pre ++ map Some l ++ post /\ (n = 0 \/ length pre = lo).
Proof.
  induction n as [|n IH]; intros lo c k l H; cbn in H.
  { injection H as <-. split; [reflexivity|]. exists [], c. auto. }
  unfold st_load in H. cbn [st_cells] in H.
  destruct (nth_error c lo) as [[x|]|] eqn:E; cbn in H; try discriminate.
  destruct (load_range n (S lo) (St c k)) as [xs| |] eqn:E2; cbn in H; try discriminate.
  injection H as <-. destruct (IH _ _ _ _ E2) as (L & pre & post & Ec & P).
  split; [cbn; lia|].
  apply nth_error_split in E. destruct E as (p & q & -> & Lp).
  exists p.
  destruct n as [|n].
  - destruct xs; [|discriminate]. exists q. auto.
  - destruct P as [P|P]; [discriminate|].
    assert (G : pre = p ++ [Some x]
                /\ map Some xs ++ post = q).
    { assert (Hs : p ++ Some x :: q = (p ++ [Some x]) ++ q) by (rewrite <- app_assoc; reflexivity).
      rewrite Hs in Ec.
      assert (Hl : length (p ++ [Some x]) = length pre) by (rewrite app_length; cbn; lia).
      clear - Ec Hl. revert pre Ec Hl. generalize (p ++ [Some x]) as a.
      induction a as [|y a IH]; intros [|z pre] E L; cbn in *; try discriminate; auto.
      injection E as -> E. destruct (IH pre E) as [-> ->]; auto. }
    destruct G as [_ <-]. exists post. split; auto.
Qed.

Lemma contents_inv A (b : buffer A) l : contents b = Ok l ->
  length l = end_of b /\ exists post, memory_of b = map Some l ++ post.
Proof.
  assert (G : forall n c k, load_range n 0 (St c k) = Ok l ->
            length l = n /\ exists post, c = map (@Some A) l ++ post).
  { intros n c k H. destruct (range_inv _ _ _ _ _ _ H) as (L & pre & post & E & P).
    split; auto. destruct P as [->|P].
    - destruct l; [|discriminate]. exists c. reflexivity.
    - destruct pre; [|discriminate]. eauto. }
  destruct b as [a|v|v|s]; cbn [contents end_of memory_of].
  - apply G.
  - unfold sv_elements. destruct v as [[c k] t]. cbn. apply G.
  - unfold vec_elements, vc_tail, vc_store. destruct v as [[[c k] t] q]. cbn. apply G.
  - unfold str_chars. destruct s as [[c|] q t]; cbn.
    + apply G.
    + destruct t; [|discriminate]. intros [= <-]. split; auto. exists []. reflexivity.
Qed.

Lemma contents_with A (b : buffer A) l l' post :
  contents b = Ok l -> memory_of b = map Some l ++ post -> length l' = length l ->
  contents (with_memory b (map Some l' ++ post)) = Ok l'
  /\ same_shape b (with_memory b (map Some l' ++ post)).
Proof.
  intros H M L. destruct (contents_inv _ _ _ H) as (Le & _).
  assert (G : forall k, load_range (length l) 0 (St (map (@Some A) l' ++ post) k) = Ok l').
  { intros k. exact (load_range_ok l' [] post k _ 0 (eq_sym L) eq_refl). }
  assert (Sk : forall x : list A, length x = length l ->
            skipn (length l) (map (@Some A) x ++ post) = post).
  { intros x Hx. rewrite skipn_app, map_length, Hx, Nat.sub_diag.
    rewrite (skipn_all2 (map Some x)) by (rewrite map_length; lia). reflexivity. }
  destruct b as [a|v|v|s]; cbn [contents end_of memory_of with_memory same_shape] in *.
  - subst a. split; [|rewrite !app_length, !map_length; lia].
    rewrite app_length, map_length in *. destruct post; [|cbn in *; lia].
    cbn [length] in *. rewrite Nat.add_0_r, L. apply G.
  - destruct v as [[c k] t]. unfold sv_elements, sv_capacity. cbn in *. subst c t.
    split; [apply G|]. rewrite !Sk by auto. rewrite !app_length, !map_length. auto.
  - destruct v as [[[c k] t] q]. unfold vec_elements, vc_tail, vc_store in *. cbn in *. subst c t.
    split; [apply G|]. rewrite !Sk by auto. auto.
  - unfold str_chars in *. destruct s as [[c|] q t]; cbn in *.
    + subst c t. split; [apply G|]. split; auto. split; auto. split; [discriminate|].
      intros b [= <-]. eexists. split; [reflexivity|]. rewrite !Sk by auto. reflexivity.
    + subst t. destruct l; [|discriminate]. destruct l'; [|discriminate]. cbn.
      split; auto. split; auto. split; auto. split; auto. discriminate.
Qed.

Lemma each_length A St (body : St -> A -> St * A) l : forall s, length (snd (each body s l)) = length l.
Proof. induction l as [|x l IH]; intros s; cbn; auto. Qed.

Lemma each_app A St (body : St -> A -> St * A) l1 l2 : forall s,
  each body s (l1 ++ l2)
  = let r := each body s l1 in
    (fst (each body (fst r) l2), snd r ++ snd (each body (fst r) l2)).
Proof.
  induction l1 as [|x l1 IH]; intros s; cbn; [destruct (each body s l2); reflexivity|].
  rewrite IH. reflexivity.
Qed.

Lemma visit_one A St (body : St -> A -> St * A) (l1 l2 : list A) x post s :
  visit_at body (map Some (l1 ++ x :: l2) ++ post) (Z.of_nat (length l1)) s
  = Ok (fst (body s x), map Some (l1 ++ snd (body s x) :: l2) ++ post).
Proof.
  unfold visit_at. destruct (Z.ltb_spec (Z.of_nat (length l1)) 0); [lia|].
  rewrite Nat2Z.id.
  assert (E : forall y, map Some (l1 ++ y :: l2) ++ post
                = map Some l1 ++ Some y :: (map Some l2 ++ post)).
  { intros y. rewrite map_app. cbn [map]. rewrite <- app_assoc. reflexivity. }
  rewrite !E. unfold load, assign.
  assert (N : nth_error (map Some l1 ++ Some x :: (map Some l2 ++ post)) (length l1)
              = Some (Some x)).
  { rewrite nth_error_app2, map_length, Nat.sub_diag by (rewrite map_length; lia). reflexivity. }
  rewrite N. cbn [bind]. destruct (body s x) as [s' x']. cbn [bind fst snd].
  replace (length l1) with (length (map (@Some A) l1)) by apply map_length.
  rewrite upd_app_mid. reflexivity.
Qed.

Lemma walk_back_ok A St (body : St -> A -> St * A) post (l2 : list A) : forall l1 fuel s,
  length l1 < fuel ->
  walk_back false body fuel (map Some (l1 ++ l2) ++ post) (Z.of_nat (length l1) - 1) (-1) s
  = Ok (fst (each body s (rev l1)), map Some (rev (snd (each body s (rev l1))) ++ l2) ++ post).
Proof.
  intros l1 fuel s F. revert l2 s fuel F.
  induction l1 as [|x l1 IH] using rev_ind; intros l2 s fuel F.
  - destruct fuel; [lia|]. reflexivity.
  - rewrite app_length in *. cbn [length] in *. destruct fuel as [|f]; [lia|].
    cbn [walk_back].
    destruct (Z.eqb_spec (Z.of_nat (length l1 + 1) - 1) (-1)); [lia|].
    replace (Z.of_nat (length l1 + 1) - 1)%Z with (Z.of_nat (length l1)) by lia.
    rewrite <- app_assoc. cbn [app]. rewrite visit_one. cbn [bind].
    unfold before at 1. cbn [andb bind].
    rewrite IH by lia. rewrite rev_unit. cbn [each fst snd rev].
    rewrite <- app_assoc. reflexivity.
Qed.

Lemma walk_forth_ok A St (body : St -> A -> St * A) post (l2 : list A) : forall l1 fuel s,
  length l2 < fuel ->
  walk_forth body fuel (map Some (l1 ++ l2) ++ post) (Z.of_nat (length l1) - 1)
             (Z.of_nat (length (l1 ++ l2)) - 1) s
  = Ok (fst (each body s l2), map Some (l1 ++ snd (each body s l2)) ++ post).
Proof.
  induction l2 as [|x l2 IH]; intros l1 fuel s F; (destruct fuel as [|f]; [cbn in F; lia|]).
  - cbn [walk_forth]. rewrite app_nil_r, Z.eqb_refl. cbn [each fst snd]. rewrite app_nil_r.
    reflexivity.
  - cbn [walk_forth].
    destruct (Z.eqb_spec (Z.of_nat (length l1) - 1) (Z.of_nat (length (l1 ++ x :: l2)) - 1)) as [E|_].
    { rewrite app_length in E. cbn in E. lia. }
    unfold after. replace (Z.of_nat (length l1) - 1 + 1)%Z with (Z.of_nat (length l1)) by lia.
    rewrite visit_one. cbn [bind].
    specialize (IH (l1 ++ [snd (body s x)]) f (fst (body s x))).
    rewrite <- !app_assoc in IH. cbn [app] in IH.
    rewrite !app_length in *. cbn [length] in *.
    replace (Z.of_nat (length l1 + 1) - 1)%Z with (Z.of_nat (length l1)) in IH by lia.
    rewrite IH by lia. reflexivity.
Qed.

(** Every element is visited once, the last first, and what the loop writes stays; nothing else
    in the container changes. *)
Theorem C202_backward_partial :
  forall (A St : Type) (body : St -> A -> St * A) (b : buffer A) (l : list A) (s : St) (fuel : nat),
    contents b = Ok l -> length l < fuel ->
    exists b', visit_back false body fuel b s = Ok (fst (each_back body s l), b')
      /\ contents b' = Ok (snd (each_back body s l))
      /\ same_shape b b'.
Proof.
  intros A St body b l s fuel H F. destruct (contents_inv _ _ _ H) as (L & post & M).
  unfold visit_back, rbegin_of, rend_of, before. cbn [andb bind].
  rewrite <- L, M.
  pose proof (walk_back_ok A St body post [] l fuel s F) as W. rewrite !app_nil_r in W.
  change (0 - 1)%Z with (-1)%Z. rewrite W. cbn [bind].
  eexists. split; [reflexivity|].
  apply (contents_with A b l); auto. cbn. rewrite rev_length, each_length, rev_length. reflexivity.
Qed.

(** The values a loop over a reverse range sees: those of the usual loop, last first. *)
Theorem C202_values_partial :
  forall (A : Type) (b : buffer A) (l : list A) (fuel : nat),
    contents b = Ok l -> length l < fuel ->
    exists b', visit_back false (fun seen x => (seen ++ [x], x)) fuel b [] = Ok (rev l, b')
      /\ contents b' = Ok l /\ same_shape b b'.
Proof.
  intros A b l fuel H F.
  destruct (C202_backward_partial A _ (fun seen x => (seen ++ [x], x)) b l [] fuel H F)
    as (b' & E & C & Sh).
  assert (G : forall l (s : list A),
            each (fun seen x => (seen ++ [x], x)) s l = (s ++ l, l)).
  { clear. induction l as [|x l IH]; intros s; cbn; [rewrite app_nil_r; reflexivity|].
    rewrite IH. cbn. rewrite <- app_assoc. reflexivity. }
  unfold each_back in *. rewrite G in *. cbn in *. rewrite rev_involutive in C. eauto.
Qed.

(** Stepping back from rend() to rbegin() visits the elements in the usual order. *)
Theorem C202_forth_partial :
  forall (A St : Type) (body : St -> A -> St * A) (b : buffer A) (l : list A) (s : St) (fuel : nat),
    contents b = Ok l -> length l < fuel ->
    exists b', visit_forth false body fuel b s = Ok (fst (each body s l), b')
      /\ contents b' = Ok (snd (each body s l))
      /\ same_shape b b'.
Proof.
  intros A St body b l s fuel H F. destruct (contents_inv _ _ _ H) as (L & post & M).
  unfold visit_forth, rbegin_of, rend_of, before. cbn [andb bind].
  rewrite <- L, M.
  pose proof (walk_forth_ok A St body post l [] fuel s F) as W. cbn [app length] in W.
  change (Z.of_nat 0 - 1)%Z with (0 - 1)%Z in W. rewrite W. cbn [bind].
  eexists. split; [reflexivity|].
  apply (contents_with A b l); auto. apply each_length.
Qed.

(** By the rules of C++ no loop over a reverse range is defined, not even over an empty
    container: rend() forms a pointer before the memory. *)
Theorem C202_strict_refuted :
  forall (A St : Type) (body : St -> A -> St * A) (b : buffer A) (s : St) (fuel : nat),
    visit_back true body fuel b s = UB /\ visit_forth true body fuel b s = UB.
Proof.
  intros A St body b s fuel. unfold visit_back, visit_forth, rbegin_of, rend_of, before.
  cbn [andb]. destruct (Z.of_nat (end_of b) <=? 0)%Z; auto.
Qed.

Example C202_case :
  let b := BVector (Vec (SVec (St [Some 1; Some 2; Some 3; None] 0) 3) 4) in
  contents b = Ok [1; 2; 3]
  /\ visit_back false (fun seen x => (seen ++ [x], 10 * x + length seen)) 9 b []
     = Ok ([3; 2; 1], BVector (Vec (SVec (St [Some 12; Some 21; Some 30; None] 0) 3) 4))
  /\ visit_forth false (fun seen x => (seen ++ [x], x)) 9 b [] = Ok ([1; 2; 3], b)
  /\ contents (BString (Str (Some [Some 7; Some 8; Some 0]) 3 2)) = Ok [7; 8]
  /\ contents (BArray (@nil (option nat))) = Ok [].
Proof. vm_compute. repeat split; reflexivity. Qed.

(** ** HybridVector *)

Section Hybrid.
  Context {A : Type}.

  Lemma walk_hv (h : hybrid A) (l : list A) (at_ : Z -> hiter) :
    hv_rend h = at_ (-1)%Z ->
    (forall i j, hi_eq (at_ i) (at_ j) = (i =? j)%Z) ->
    (forall i, hi_dec (at_ i) = Ok (at_ (i - 1)%Z)) ->
    (forall i x, nth_error l i = Some x -> hi_deref h (at_ (Z.of_nat i)) = Ok x) ->
    forall l1 l2 fuel, l = l1 ++ l2 -> length l1 < fuel ->
      hv_walk_back fuel h (at_ (Z.of_nat (length l1) - 1)%Z) = Ok (rev l1).
  Proof.
    intros Hr He Hd Hx. induction l1 as [|x l1 IH] using rev_ind; intros l2 fuel E F.
    - destruct fuel; [lia|]. cbn [hv_walk_back]. rewrite Hr, He. reflexivity.
    - destruct fuel as [|f]; [lia|]. rewrite app_length in *. cbn [length] in *.
      cbn [hv_walk_back]. rewrite Hr, He.
      destruct (Z.eqb_spec (Z.of_nat (length l1 + 1) - 1) (-1)); [lia|]. cbn [negb].
      replace (Z.of_nat (length l1 + 1) - 1)%Z with (Z.of_nat (length l1)) by lia.
      rewrite (Hx _ x). 2:{ rewrite E, <- app_assoc, nth_error_app2, Nat.sub_diag by lia. reflexivity. }
      cbn [bind]. rewrite Hd. cbn [bind]. rewrite (IH (x :: l2)); [|rewrite E, <- app_assoc; reflexivity|lia].
      cbn [bind]. rewrite rev_unit. reflexivity.
  Qed.

  Lemma backward_hv cap k l (h : hybrid A) : hrep cap k l h -> k <> Nowhere ->
    hv_backward h = Ok (rev l).
  Proof.
    intros H Hk. unfold hv_backward. rewrite (size_hv _ _ _ _ H).
    destruct k, h as [|a|v]; cbn [hrep] in H; try contradiction; try (destruct (Hk eq_refl)).
    - destruct H as (r & j & -> & L).
      apply (walk_hv _ l (fun i => IArr i)) with (l2 := []); auto; [|rewrite app_nil_r; auto].
      intros i x Hx. cbn [hi_deref]. rewrite hi_arr_nat. cbn [bind].
      unfold sv_index. cbn [sv_store]. rewrite load_at.
      rewrite Hx. reflexivity.
    - destruct H as (r & j & c & -> & L & _).
      apply (walk_hv _ l (fun i => IVec i)) with (l2 := []); auto; [|rewrite app_nil_r; auto].
      intros i x Hx. cbn [hi_deref]. rewrite hi_vec_nat. cbn [bind].
      unfold vec_index, vc_store. cbn [vc_arr sv_store]. rewrite load_at.
      rewrite Hx. reflexivity.
  Qed.
End Hybrid.

(** HybridVector, after any history of calls that work (the condition of C52) and unless it was
    never filled: the elements are visited last first. *)
Theorem C202_hybrid_partial :
  forall (A : Type) (m : mode) (moved : A -> A) (dflt : A) (mem : memory) (cap : nat)
         (ops : list (hv_op A)),
    mem <> NoMemory ->
    hv_along (fun k l op => hv_valid_op l op /\ insertion_works cap k l op
                            /\ (m = Trivial \/ no_inner_range l op)) cap Nowhere [] ops ->
    place_run cap ops <> Nowhere ->
    exists h, hv_run m moved dflt mem cap hv_new ops = Ok h
      /\ hv_elements h = Ok (hseq_run ops)
      /\ hv_backward h = Ok (rev (hseq_run ops))
      /\ (forall i x, nth_error (hseq_run ops) i = Some x -> hv_data_at h i = Ok x).
Proof.
  intros A m moved dflt mem cap ops Hmem Ha Hn.
  destruct (run_hv m moved dflt mem Hmem cap ops Nowhere [] HUnset eq_refl Ha) as (h & E & R).
  change (fold_left hseq_step ops []) with (hseq_run ops) in R.
  change (snd _) with (place_run cap ops) in R.
  exists h. split; [exact E|]. split; [apply (elements_hv cap _ _ _ R Hn)|].
  split; [exact (backward_hv cap _ _ _ R Hn)|].
  intros i x Hx. destruct (place_run cap ops), h as [|a|v]; cbn [hrep] in R; try contradiction.
  - destruct R as (r & j & -> & L). cbn [hv_data_at sv_store]. rewrite load_at, Hx. reflexivity.
  - destruct R as (r & j & c & -> & L & _). cbn [hv_data_at]. unfold vc_store. cbn [vc_arr sv_store].
    rewrite load_at, Hx. reflexivity.
Qed.

(** A HybridVector that was never filled, or was emptied by erase: the loop does not end at once,
    it reads through an unset iterator. *)
Theorem C202_hybrid_empty_refuted :
  forall (A : Type) (m : mode) (moved : A -> A) (dflt : A) (mem : memory) (cap : nat)
         (ops : list (hv_op A)),
    mem <> NoMemory ->
    hv_along (fun k l op => hv_valid_op l op /\ insertion_works cap k l op
                            /\ (m = Trivial \/ no_inner_range l op)) cap Nowhere [] ops ->
    place_run cap ops = Nowhere ->
    hseq_run ops = []
    /\ exists h, hv_run m moved dflt mem cap hv_new ops = Ok h
      /\ hv_size h = 0 /\ hv_backward h = UB.
Proof.
  intros A m moved dflt mem cap ops Hmem Ha Hn.
  destruct (run_hv m moved dflt mem Hmem cap ops Nowhere [] HUnset eq_refl Ha) as (h & E & R).
  change (fold_left hseq_step ops []) with (hseq_run ops) in R.
  change (snd _) with (place_run cap ops) in R. rewrite Hn in R.
  destruct h as [|a|v]; cbn [hrep] in R; try contradiction.
  split; [exact R|]. exists HUnset. auto.
Qed.

Example C202_hybrid_case :
  let ops := [HPush 1; HPush 2; HPush 3; HInsert 0 9; HErase 1] in
  place_run 3 ops = Dynamic /\ hseq_run ops = [9; 2; 3]
  /\ (exists h, hv_run Tracked id 0 Realloc 3 hv_new ops = Ok h /\ hv_backward h = Ok [3; 2; 9])
  /\ place_run 3 [HPush 1; HErase 0] = Nowhere
  /\ (exists h, hv_run Tracked id 0 Realloc 3 hv_new [HPush 1; HErase 0] = Ok h
        /\ hv_backward h = UB).
Proof. vm_compute. repeat split; eexists; split; reflexivity. Qed.

Print Assumptions C202_backward_partial.
Print Assumptions C202_values_partial.
Print Assumptions C202_forth_partial.
Print Assumptions C202_strict_refuted.
Print Assumptions C202_hybrid_partial.
Print Assumptions C202_hybrid_empty_refuted.
