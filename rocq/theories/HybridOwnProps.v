(** C217 for HybridVector: which of its own elements can be added to it. *)
From Coq Require Import List Arith ZArith Bool Lia.
From Verif Require Import Base BaseLemmas Store StoreLemmas StaticVectorModel StaticVectorSpec
  StaticVectorProofs VectorModel VectorSpec HybridVectorModel HybridVectorSpec HybridOwnModel
  AliasModel AliasSpec AliasProofs.
From Verif Require Import VectorProofs.
From Verif Require HybridVectorProofs.
Import ListNotations.

(** * Specification *)

(** The container was made by a history of calls that work (C52) and holds [l]. *)
Definition hv_reached {A} (m : mode) (moved : A -> A) (dflt : A) (mem : memory) (cap : nat)
    (h : hybrid A) (l : list A) : Prop :=
  mem <> NoMemory /\
  exists ops, hv_along (fun k l op => hv_valid_op l op /\ insertion_works cap k l op
                                      /\ (m = Trivial \/ no_inner_range l op)) cap Nowhere [] ops
    /\ hv_run m moved dflt mem cap hv_new ops = Ok h /\ l = hseq_run ops.

(** What insert(begin() + p, v[j]) inserts when there is room: the element if it is in front of
    the position or the position is the end; the element before it if it is behind the position;
    what is left after it was moved from if it is at the position. *)
Definition own_inserted {A} (moved : A -> A) (l : list A) (p j : nat) : option A :=
  if (p =? length l) || (j <? p) then nth_error l j
  else if j =? p then option_map moved (nth_error l j)
  else nth_error l (j - 1).

(** * Proofs *)

Section Proofs.
  Context {A : Type}.
  Variable m : mode.
  Variable moved : A -> A.
  Variable dflt : A.
  Variable mem : memory.
  Hypothesis Hmem : mem <> NoMemory.
  Variable cap : nat.
  Notation mk l rest k := (SVec (St (map (@Some A) l ++ rest) k) (length l)).

  Lemma one_part (l : list A) i x : nth_error l i = Some x -> part i (S i) l = [x].
  Proof. intros Hx. unfold part. replace (S i - i) with 1 by lia. rewrite (skipn_nth _ _ _ Hx). reflexivity. Qed.

  Lemma own_found (l : list A) p j : p <= length l -> j < length l ->
    exists y, own_inserted moved l p j = Some y /\ found moved p j (S j) l [y].
  Proof.
    intros Hp Hj. unfold own_inserted, found. replace (S j - j) with 1 by lia.
    destruct (nth_error l j) as [x|] eqn:Ex; [|apply nth_error_None in Ex; lia].
    destruct (Nat.eqb_spec p (length l)) as [->|Np]; cbn [orb].
    - exists x. split; [reflexivity|]. left. split; [auto|]. rewrite (one_part l j x Ex). reflexivity.
    - destruct (Nat.ltb_spec j p).
      + exists x. split; [reflexivity|]. left. split; [right; lia|]. rewrite (one_part l j x Ex). reflexivity.
      + destruct (Nat.eqb_spec j p) as [->|Nj].
        * exists (moved x). split; [reflexivity|]. right. right. split; [lia|]. split; [reflexivity|].
          rewrite (one_part l p x Ex). reflexivity.
        * destruct (nth_error l (j - 1)) as [y|] eqn:Ey; [|apply nth_error_None in Ey; lia].
          exists y. split; [reflexivity|]. right. left. split; [lia|]. split; [lia|].
          rewrite <- (one_part l (j - 1) y Ey). f_equal. lia.
  Qed.

  (** A dangling argument is read, whatever the position. *)
  Lemma push_dangling f (v : vec A) : vc_tail v <> vc_capacity v ->
    vec_pushBack_ref m mem (S f) v VDangling = UB.
  Proof. intros N. cbn [vec_pushBack_ref]. destruct (Nat.eqb_spec (vc_tail v) (vc_capacity v)); [lia|]. reflexivity. Qed.

  Lemma insert_dangling f (l : list A) r k c it : length l + length r = c -> length l < c -> it <= length l ->
    vec_insert_ref m moved dflt mem (S f) (Vec (mk l r k) c) it VDangling = UB.
  Proof.
    intros L Lt Hi. cbn [vec_insert_ref]. unfold vec_size, vc_tail. cbn [vc_arr sv_tail vc_capacity].
    destruct (Nat.ltb_spec (length l) c); [|lia].
    destruct (Nat.eqb_spec it (length l)) as [->|Hn].
    - apply push_dangling. unfold vc_tail. cbn [vc_arr sv_tail vc_capacity]. lia.
    - destruct (open_gap m moved dflt c l r k it 1 L) as (gap & r' & k2 & E2 & _); try lia.
      cbn [construct_dflt] in E2. unfold vc_store. cbn [vc_arr sv_store].
      destruct (st_construct m (St (map Some l ++ r) k) (length l) dflt) as [s1| |];
        cbn [bind] in E2 |- *; try discriminate.
      rewrite E2. reflexivity.
  Qed.

  (** A full vector reads what it has given back. *)
  Lemma full_own (l : list A) k it j f : length l <> 1 -> it <= length l ->
    vec_pushBack_ref m mem (S (S f)) (Vec (mk l [] k) (length l)) (VOwn j) = UB
    /\ vec_insert_ref m moved dflt mem (S (S f)) (Vec (mk l [] k) (length l)) it (VOwn j) = UB.
  Proof.
    intros H1 Hi. pose proof (grow_gt _ H1) as Hg.
    destruct (reserve_ok m mem Hmem l [] k (grow (length l)) (length l)) as (r & k' & E & L & _).
    { cbn. lia. }
    rewrite Nat.max_r in E, L by lia.
    assert (SV : survive (Vec (mk l [] k) (length l)) (Vec (mk l r k') (grow (length l))) (VOwn j) = VDangling).
    { unfold survive. cbn [vc_capacity]. destruct (Nat.eqb_spec (length l) (grow (length l))); [lia|]. reflexivity. }
    assert (T : vc_tail (Vec (mk l [] k) (length l)) = length l) by reflexivity.
    assert (Z : vec_size (Vec (mk l [] k) (length l)) = length l) by reflexivity.
    split; cbn [vec_pushBack_ref vec_insert_ref]; rewrite ?Z, ?T; cbn [vc_capacity].
    - rewrite Nat.eqb_refl. cbn [negb]. rewrite next_capacity_grow, E. cbn [bind]. rewrite SV.
      apply push_dangling. unfold vc_tail. cbn [vc_arr sv_tail vc_capacity]. lia.
    - rewrite Nat.ltb_irrefl, next_capacity_grow, E. cbn [bind]. rewrite SV. apply insert_dangling; lia.
  Qed.

  Lemma insert_own_hv k (l : list A) h p j : HybridVectorProofs.hrep cap k l h -> p <= length l -> j < length l ->
    (length l < hv_capacity h ->
       exists y h', own_inserted moved l p j = Some y /\ hv_insert_own m moved dflt mem cap h p j = Ok h'
         /\ HybridVectorProofs.hrep cap k (insert_at p [y] l) h' /\ hv_capacity h' = hv_capacity h) /\
    (hv_capacity h <= length l -> hv_insert_own m moved dflt mem cap h p j = UB).
  Proof.
    intros H Hp Hj. unfold hv_insert_own. rewrite (HybridVectorProofs.at_hv cap k l h p H Hp). cbn [bind].
    destruct (own_found l p j Hp Hj) as (y & Ey & Fo).
    assert (LY : length (insert_at p [y] l) = length l + 1) by (rewrite insert_at_length by lia; reflexivity).
    destruct k.
    - destruct h; cbn in H; try contradiction. subst l. cbn in Hj. lia.
    - pose proof H as H0. destruct h as [|a|v]; cbn [HybridVectorProofs.hrep] in H; try contradiction.
      destruct H as (r & i & -> & L). cbn [hv_capacity]. rewrite (HybridVectorProofs.sv_capacity_mk l r i), L.
      cbn [hv_insert_ref]. rewrite (HybridVectorProofs.sv_size_mk l r i), (HybridVectorProofs.sv_capacity_mk l r i), L.
      split; intros HL.
      + destruct (Nat.ltb_spec (length l) cap); [|lia]. rewrite HybridVectorProofs.hi_arr_nat. cbn [bind as_arg].
        rewrite insert_arg_own.
        destruct (insert_own_ok m moved dflt cap l r i p j (S j) [y]) as (r' & i' & E & L'); auto; try lia.
        unfold bounded in E, L'. rewrite LY in E, L'. destruct (Nat.leb_spec (length l + 1) cap); [|lia].
        rewrite E. cbn [bind]. exists y. eexists. split; [exact Ey|]. split; [reflexivity|].
        rewrite LY in *. split.
        * cbn [HybridVectorProofs.hrep]. exists r', i'. rewrite LY. split; [reflexivity|lia].
        * cbn [hv_capacity]. unfold sv_capacity. cbn [sv_store st_cells]. rewrite app_length, map_length, LY. lia.
      + destruct (Nat.ltb_spec (length l) cap); [lia|].
        destruct (HybridVectorProofs.useVector_ok m mem Hmem cap l (HArr (mk l r i)) H0) as (r1 & i1 & E & L1).
        rewrite E. cbn [bind hv_begin hi_minus hi_add lost]. cbn [hv_insert_ref].
        rewrite Z.add_0_l.
        destruct p as [|p].
        * cbn [Z.of_nat Z.sub Z.opp Z.add hi_vec Z.leb Z.compare Z.to_nat bind]. change vfuel with 2.
          rewrite insert_dangling by lia. reflexivity.
        * unfold hi_vec. destruct (Z.leb_spec 0 (0 - Z.of_nat (S p))); [lia|]. reflexivity.
    - destruct h as [|a|v]; cbn [HybridVectorProofs.hrep] in H; try contradiction.
      destruct H as (r & i & c & -> & L & C1 & C0). cbn [hv_capacity vc_capacity]. cbn [hv_insert_ref].
      rewrite HybridVectorProofs.hi_vec_nat. cbn [bind]. change vfuel with 2. split; intros HL.
      + rewrite vec_insert_ref_own by auto.
        destruct (vec_insert_own_ok m moved dflt mem 1 l r i c p j (S j) [y]) as (r' & i' & E & L'); auto; try lia.
        rewrite E. cbn [bind]. exists y. eexists. split; [exact Ey|]. split; [reflexivity|]. split; [|reflexivity].
        cbn [HybridVectorProofs.hrep]. exists r', i', c. auto.
      + assert (r = []) as -> by (destruct r; auto; cbn in L; lia). cbn in L. rewrite Nat.add_0_r in L. subst c.
        destruct (full_own l i p j 0) as (_ & E); auto. rewrite E. reflexivity.
  Qed.

  Lemma push_is_insert k (l : list A) h j : HybridVectorProofs.hrep cap k l h -> j < length l -> length l < hv_capacity h ->
    hv_push_own m mem cap h j = hv_insert_own m moved dflt mem cap h (length l) j.
  Proof.
    intros H Hj HL. unfold hv_push_own, hv_insert_own.
    rewrite (HybridVectorProofs.at_hv cap k l h (length l) H) by lia. cbn [bind].
    destruct k.
    - destruct h; cbn in H; try contradiction. subst l. cbn in Hj. lia.
    - destruct h as [|a|v]; cbn [HybridVectorProofs.hrep] in H; try contradiction.
      destruct H as (r & i & -> & L). cbn [hv_capacity] in HL. rewrite (HybridVectorProofs.sv_capacity_mk l r i), L in HL.
      cbn [hv_pushBack_ref hv_insert_ref]. rewrite (HybridVectorProofs.sv_size_mk l r i), (HybridVectorProofs.sv_capacity_mk l r i), L.
      destruct (Nat.ltb_spec (length l) cap); [|lia]. rewrite HybridVectorProofs.hi_arr_nat. cbn [bind as_arg].
      unfold sv_insert_arg. rewrite (HybridVectorProofs.sv_size_mk l r i), (HybridVectorProofs.sv_capacity_mk l r i), L.
      destruct (Nat.ltb_spec (length l) cap); [|lia]. cbn [sv_tail]. rewrite Nat.eqb_refl. reflexivity.
    - destruct h as [|a|v]; cbn [HybridVectorProofs.hrep] in H; try contradiction.
      destruct H as (r & i & c & -> & L & C1 & C0). cbn [hv_capacity vc_capacity] in HL. cbn [hv_pushBack_ref hv_insert_ref].
      rewrite HybridVectorProofs.hi_vec_nat. cbn [bind]. change vfuel with 2. cbn [vec_insert_ref].
      unfold vec_size at 1, vc_tail at 1 2. cbn [vc_arr sv_tail vc_capacity].
      destruct (Nat.ltb_spec (length l) c); [|lia]. rewrite Nat.eqb_refl. reflexivity.
  Qed.

  Lemma push_own_full k (l : list A) h j : HybridVectorProofs.hrep cap k l h -> j < length l -> hv_capacity h <= length l ->
    hv_push_own m mem cap h j = UB.
  Proof.
    intros H Hj HL. unfold hv_push_own. destruct k.
    - destruct h; cbn in H; try contradiction. subst l. cbn in Hj. lia.
    - pose proof H as H0. destruct h as [|a|v]; cbn [HybridVectorProofs.hrep] in H; try contradiction.
      destruct H as (r & i & -> & L). cbn [hv_capacity] in HL. rewrite (HybridVectorProofs.sv_capacity_mk l r i), L in HL.
      cbn [hv_pushBack_ref]. rewrite (HybridVectorProofs.sv_size_mk l r i), (HybridVectorProofs.sv_capacity_mk l r i), L.
      destruct (Nat.ltb_spec (length l) cap); [lia|].
      destruct (HybridVectorProofs.useVector_ok m mem Hmem cap l (HArr (mk l r i)) H0) as (r1 & i1 & E & L1).
      rewrite E. cbn [bind lost hv_pushBack_ref]. change vfuel with 2. rewrite push_dangling; [reflexivity|].
      unfold vc_tail. cbn [vc_arr sv_tail vc_capacity]. lia.
    - destruct h as [|a|v]; cbn [HybridVectorProofs.hrep] in H; try contradiction.
      destruct H as (r & i & c & -> & L & C1 & C0). cbn [hv_capacity vc_capacity] in HL. cbn [hv_pushBack_ref].
      assert (r = []) as -> by (destruct r; auto; cbn in L; lia). cbn in L. rewrite Nat.add_0_r in L. subst c.
      change vfuel with 2. destruct (full_own l i (length l) j 0) as (E & _); auto. rewrite E. reflexivity.
  Qed.
End Proofs.

(** * C217 *)

(** After every history of calls that work, at every position and for every element: insert of an
    element of the container itself is defined exactly if the container is not full, and inserts
    [own_inserted]; pushBack too, and adds the element. *)
Theorem C217_hybrid_exact_partial :
  forall (A : Type) (m : mode) (moved : A -> A) (dflt : A) (mem : memory) cap (h : hybrid A) (l : list A),
    hv_reached m moved dflt mem cap h l ->
    (forall p j, p <= length l -> j < length l ->
       if length l <? hv_capacity h then
         exists y h', own_inserted moved l p j = Some y /\
           hv_insert_own m moved dflt mem cap h p j = Ok h' /\
           hv_elements h' = Ok (insert_at p [y] l) /\ hv_capacity h' = hv_capacity h
       else hv_insert_own m moved dflt mem cap h p j = UB) /\
    (forall j x, nth_error l j = Some x ->
       if length l <? hv_capacity h then
         exists h', hv_push_own m mem cap h j = Ok h' /\ hv_elements h' = Ok (l ++ [x])
       else hv_push_own m mem cap h j = UB).
Proof.
  intros A m moved dflt mem cap h l (Hmem & ops & Ha & E & ->).
  destruct (HybridVectorProofs.run_hv m moved dflt mem Hmem cap ops Nowhere [] HUnset eq_refl Ha) as (h' & E' & R).
  unfold hv_new in E. rewrite E in E'. injection E' as <-.
  change (fold_left hseq_step ops []) with (hseq_run ops) in R.
  set (k := snd _) in R. clearbody k.
  assert (NW : 0 < length (hseq_run ops) -> k <> Nowhere).
  { intros Hl ->. destruct h; cbn in R; try contradiction. rewrite R in Hl. cbn in Hl. lia. }
  split.
  - intros p j Hp Hj. destruct (insert_own_hv m moved dflt mem Hmem cap k _ h p j R Hp Hj) as (Y & N).
    destruct (Nat.ltb_spec (length (hseq_run ops)) (hv_capacity h)) as [HL|HL]; [|exact (N HL)].
    destruct (Y HL) as (y & h' & Ey & Ei & R' & C). exists y, h'. repeat split; auto.
    eapply HybridVectorProofs.elements_hv; [exact R'|]. apply NW. lia.
  - intros j x Hx. assert (Hj : j < length (hseq_run ops)) by (apply nth_error_Some; congruence).
    destruct (Nat.ltb_spec (length (hseq_run ops)) (hv_capacity h)) as [HL|HL].
    + rewrite (push_is_insert m moved dflt mem cap k _ h j R Hj HL).
      destruct (insert_own_hv m moved dflt mem Hmem cap k _ h (length (hseq_run ops)) j R (le_n _) Hj) as (Y & _).
      destruct (Y HL) as (y & h' & Ey & Ei & R' & C). exists h'. split; [exact Ei|].
      unfold own_inserted in Ey. rewrite Nat.eqb_refl in Ey. cbn [orb] in Ey. rewrite Hx in Ey. injection Ey as <-.
      erewrite HybridVectorProofs.elements_hv; [|exact R'|apply NW; lia].
      unfold insert_at. rewrite firstn_all, skipn_all, app_nil_r. reflexivity.
    + eapply push_own_full; eassumption.
Qed.

(** A full container, in the fixed part or in dynamic memory, reads what it has given back; and with
    room an element behind the position is not the one that is inserted. *)
Theorem C217_hybrid_refuted :
  forall (A : Type) (m : mode) (moved : A -> A) (dflt : A) (mem : memory) cap (h : hybrid A) (l : list A),
    hv_reached m moved dflt mem cap h l ->
    (length l = hv_capacity h -> forall p j, p <= length l -> j < length l ->
       hv_insert_own m moved dflt mem cap h p j = UB /\ hv_push_own m mem cap h j = UB) /\
    (length l < hv_capacity h -> forall p j y, p < j -> j < length l -> nth_error l (j - 1) = Some y ->
       exists h', hv_insert_own m moved dflt mem cap h p j = Ok h' /\ hv_elements h' = Ok (insert_at p [y] l)).
Proof.
  intros A m moved dflt mem cap h l H. destruct (C217_hybrid_exact_partial A m moved dflt mem cap h l H) as (I & P).
  split.
  - intros E p j Hp Hj. specialize (I p j Hp Hj).
    destruct (nth_error l j) as [x|] eqn:Ex; [|apply nth_error_None in Ex; lia]. specialize (P j x Ex).
    rewrite E, Nat.ltb_irrefl in I, P. auto.
  - intros E p j y Hp Hj Hy. assert (Hp' : p <= length l) by lia. specialize (I p j Hp' Hj).
    destruct (Nat.ltb_spec (length l) (hv_capacity h)); [|lia]. destruct I as (y' & h' & Ey & Ei & El & _).
    exists h'. split; [exact Ei|]. unfold own_inserted in Ey.
    destruct (Nat.eqb_spec p (length l)); [lia|]. destruct (Nat.ltb_spec j p); [lia|]. cbn [orb] in Ey.
    destruct (Nat.eqb_spec j p); [lia|]. congruence.
Qed.

(** A fixed part of 3: with two elements in it, full, and in dynamic memory. *)
Example C217_hybrid_case :
  exists h2 h3 h4,
    hv_run Tracked (fun _ => 0) 0 Realloc 3 hv_new (map HPush [7; 8]) = Ok h2
    /\ hv_run Tracked (fun _ => 0) 0 Realloc 3 hv_new (map HPush [7; 8; 9]) = Ok h3
    /\ hv_run Tracked (fun _ => 0) 0 Realloc 3 hv_new (map HPush [7; 8; 9; 5]) = Ok h4
    /\ hv_reached Tracked (fun _ => 0) 0 Realloc 3 h4 [7; 8; 9; 5]
    /\ (let! u := hv_insert_own Tracked (fun _ => 0) 0 Realloc 3 h2 0 1 in hv_elements u) = Ok [7; 7; 8]
    /\ (let! u := hv_insert_own Tracked (fun _ => 0) 0 Realloc 3 h2 1 0 in hv_elements u) = Ok [7; 7; 8]
    /\ (let! u := hv_insert_own Tracked (fun _ => 0) 0 Realloc 3 h2 0 0 in hv_elements u) = Ok [0; 7; 8]
    /\ hv_insert_own Tracked (fun _ => 0) 0 Realloc 3 h3 0 1 = UB
    /\ hv_push_own Tracked Realloc 3 h3 1 = UB
    /\ (let! u := hv_push_own Tracked Realloc 3 h4 1 in hv_elements u) = Ok [7; 8; 9; 5; 8].
Proof.
  do 3 eexists. repeat (split; [vm_compute; reflexivity|]). split.
  - split; [discriminate|]. exists (map HPush [7; 8; 9; 5]). split; [|split; vm_compute; reflexivity].
    cbn. repeat split; auto.
  - vm_compute. repeat split; reflexivity.
Qed.

Print Assumptions C217_hybrid_exact_partial.
Print Assumptions C217_hybrid_refuted.
