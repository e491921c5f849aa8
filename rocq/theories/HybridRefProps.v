(** C239: what references and iterators to the elements of a HybridVector refer to after further calls. *)
From Coq Require Import List Arith ZArith Bool Lia.
From Verif Require Import Base BaseLemmas Store StaticVectorModel StaticVectorSpec StaticVectorProofs
  VectorModel VectorSpec VectorProofs HybridVectorModel HybridVectorSpec HybridVectorProofs
  GrowthSpec GrowthProps RefSpec RefProofs RefProps HybridRefSpec.
Import ListNotations.
Local Open Scope outcome_scope.

Section Steps.
  Context {A : Type}.
  Variable m : mode.
  Variable moved : A -> A.
  Variable dflt : A.
  Variable mem : memory.
  Hypothesis Hmem : mem <> NoMemory.
  Variable cap : nat.
  Notation hrep := (hrep cap).

  Lemma run_app ops later (h : hybrid A) :
    hv_run m moved dflt mem cap h (ops ++ later)
    = let! h := hv_run m moved dflt mem cap h ops in hv_run m moved dflt mem cap h later.
  Proof.
    revert h. induction ops as [|o ops IH]; intros h; [reflexivity|]. cbn [app hv_run].
    destruct (hv_step m moved dflt mem cap h o) as [h1| |]; cbn [bind]; auto.
  Qed.

  Lemma reached_rep ops (h : hybrid A) : hv_reached m moved dflt mem cap ops h ->
    exists k, hrep k (hseq_run ops) h.
  Proof.
    intros (_ & W & E).
    assert (W' : hv_along (fun k l op => hv_valid_op l op /\ insertion_works cap k l op
                 /\ (m = Trivial \/ no_inner_range l op)) cap Nowhere (@nil A) ops).
    { revert W. apply hv_along_weaken. tauto. }
    destruct (run_hv m moved dflt mem Hmem cap ops Nowhere [] hv_new eq_refl W') as (h' & E' & R).
    rewrite E' in E. injection E as <-. eauto.
  Qed.

  Lemma hkeeps_nth (l : list A) i x op : nth_error l i = Some x -> hkeeps l i op -> hv_valid_op l op ->
    nth_error (hseq_step l op) i = Some x.
  Proof.
    intros H K V. assert (Hi : i < length l) by (apply nth_error_Some; congruence).
    destruct op; cbn [hkeeps hv_valid_op hseq_step] in *; try contradiction;
      try (apply nth_app; exact H); try (apply nth_insert_at; assumption).
    - rewrite nth_removelast; auto.
    - apply nth_erase_at; auto.
    - apply nth_erase_at; auto.
  Qed.

  (** The fixed part. *)
  Lemma fixed_step l h op i x : hrep Fixed l h -> nth_error l i = Some x ->
    hv_valid_op l op -> hkeeps l i op -> hstays cap cap Fixed l op -> no_inner_range l op ->
    exists h', hv_step m moved dflt mem cap h op = Ok h' /\ hrep Fixed (hseq_step l op) h'.
  Proof.
    intros R Hx V K Sy T. pose proof (hkeeps_nth l i x op Hx K V) as Q.
    assert (P : place_step cap Fixed l op = Fixed /\ insertion_works cap Fixed l op).
    { assert (Q' : i < length (hseq_step l op)) by (apply nth_error_Some; congruence).
      destruct op; cbn [place_step grow_place shrink_place insertion_works hstays hkeeps] in *;
        try contradiction; split; auto; try discriminate;
        try (match goal with |- context [?a <=? ?b] => destruct (Nat.leb_spec a b); auto; lia end);
        try (match goal with |- context [?a =? 0] => destruct (Nat.eqb_spec a 0); auto; lia end).
      - split; [discriminate|]. intros _ ?. lia.
      - split; [discriminate|]. split; [intros _ ?; lia|]. intros (? & ? & ?). lia. }
    destruct P as [P W].
    destruct (step_hv m moved dflt mem Hmem cap Fixed l h op R V W (or_intror T)) as (h' & E & R').
    rewrite P in R'. eauto.
  Qed.

  (** Dynamic memory: the calls are those of a Vector that stays within its capacity. *)
  Lemma dynamic_step l rest j c op i x : length l + length rest = c -> nth_error l i = Some x ->
    hv_valid_op l op -> hkeeps l i op -> hstays cap c Dynamic l op -> no_inner_range l op ->
    exists rest' j', hv_step m moved dflt mem cap (HVec (Vec (SVec (St (map (@Some A) l ++ rest) j) (length l)) c)) op
        = Ok (HVec (Vec (SVec (St (map (@Some A) (hseq_step l op) ++ rest') j') (length (hseq_step l op))) c))
      /\ length (hseq_step l op) + length rest' = c.
  Proof.
    intros L Hx V K Sy T.
    assert (At : forall p, hv_at (HVec (Vec (SVec (St (map (@Some A) l ++ rest) j) (length l)) c)) p = Ok (IVec (Z.of_nat p))).
    { intros [|p]; reflexivity. }
    pose proof (fun o => within_step m moved dflt mem l rest j c o 0 L) as W.
    destruct op; cbn [hv_step hseq_step hkeeps hstays hv_valid_op no_inner_range] in *; try contradiction.
    - destruct (W (VPush x0) Sy) as (r & j' & E & L'). cbn [vec_step seq_step] in E, L'.
      unfold hv_pushBack. cbn [hv_pushBack_ref].
      change (vec_pushBack_ref m mem vfuel ?v (VExt x0)) with (vec_pushBack m mem 2 v x0).
      rewrite E. exists r, j'. auto.
    - destruct (W VPop I) as (r & j' & E & L'). cbn [vec_step seq_step] in E, L'.
      cbn [hv_popBack]. rewrite E. exists r, j'. auto.
    - destruct (W (VInsert p x0) (conj V Sy)) as (r & j' & E & L'). cbn [vec_step seq_step] in E, L'.
      rewrite At. cbn [bind hv_insert_at]. rewrite hi_vec_nat. cbn [bind]. change vfuel with 2.
      rewrite E. exists r, j'. auto.
    - destruct (W (VInsertRange p xs)) as (r & j' & E & L'); [cbn; lia|]. cbn [vec_step seq_step] in E, L'.
      rewrite At. cbn [bind hv_insert_range_at]. rewrite hi_vec_nat. cbn [bind]. change vfuel with 2.
      rewrite E. exists r, j'. auto.
    - destruct (W (VEmplace p x0) (conj V Sy)) as (r & j' & E & L'). cbn [vec_step seq_step] in E, L'.
      rewrite At. cbn [bind hv_emplace_at]. rewrite hi_vec_nat. cbn [bind]. change vfuel with 2.
      rewrite E. exists r, j'. auto.
    - destruct (W (VErase p) V) as (r & j' & E & L'). cbn [vec_step seq_step] in E, L'.
      rewrite At. cbn [bind hv_erase_at]. rewrite hi_vec_nat. cbn [bind]. rewrite E. cbn [bind].
      unfold shrink_vector, vec_size, vc_tail. cbn [vc_arr sv_tail].
      destruct (Nat.ltb_spec (length (erase_at p (S p) l)) cap); [lia|]. exists r, j'. auto.
    - destruct (W (VEraseRange b e) (conj V T)) as (r & j' & E & L'). cbn [vec_step seq_step] in E, L'.
      rewrite !At. cbn [bind hv_erase_range_at]. rewrite !hi_vec_nat. cbn [bind]. rewrite E. cbn [bind].
      unfold shrink_vector, vec_size, vc_tail. cbn [vc_arr sv_tail].
      destruct (Nat.ltb_spec (length (erase_at b e l)) cap); [lia|]. exists r, j'. auto.
  Qed.

  (** The same representation, with the capacity. *)
  Definition hrepc (k : place) (c : nat) (l : list A) (h : hybrid A) : Prop :=
    match k, h with
    | Fixed, HArr _ => c = cap /\ hrep Fixed l h
    | Dynamic, HVec v => exists rest j, v = Vec (SVec (St (map (@Some A) l ++ rest) j) (length l)) c
        /\ length l + length rest = c /\ c <> 1 /\ (c = 0 -> cap = 0)
    | _, _ => False
    end.

  Lemma hrepc_of k l h i x : hrep k l h -> nth_error l i = Some x -> hrepc k (hv_capacity h) l h.
  Proof.
    intros R Hx. destruct k, h; cbn [HybridVectorProofs.hrep hrepc] in *; try contradiction.
    - subst l. destruct i; discriminate.
    - destruct R as (r & j & -> & L). cbn [hv_capacity]. rewrite sv_capacity_mk. split; [exact L|]. eauto.
    - destruct R as (r & j & c & -> & L & C1 & C0). cbn. exists r, j. auto.
  Qed.

  Lemma keep_run i x later : forall k c l h, hrepc k c l h -> nth_error l i = Some x ->
    all_along hseq_step (fun l op => hv_valid_op l op /\ hkeeps l i op /\ hstays cap c k l op /\ no_inner_range l op)
      l later ->
    exists h', hv_run m moved dflt mem cap h later = Ok h' /\ hrepc k c (fold_left hseq_step later l) h'
      /\ nth_error (fold_left hseq_step later l) i = Some x.
  Proof.
    induction later as [|op later IH]; intros k c l h R Hx W; [exists h; auto|].
    destruct W as [(V & K & Sy & T) W2]. cbn [hv_run fold_left].
    pose proof (hkeeps_nth l i x op Hx K V) as Hx'.
    destruct k, h as [|a|v]; cbn [hrepc] in R; try contradiction.
    - destruct R as [-> R]. destruct (fixed_step l (HArr a) op i x R Hx V K Sy T) as (h1 & E1 & R1).
      rewrite E1. cbn [bind]. apply IH; auto.
      destruct h1; cbn in R1 |- *; try contradiction. auto.
    - destruct R as (r & j & -> & L & C).
      destruct (dynamic_step l r j c op i x L Hx V K Sy T) as (r1 & j1 & E1 & L1).
      rewrite E1. cbn [bind]. apply IH; auto. cbn. exists r1, j1. auto.
  Qed.

  Lemma deref_hrepc k c l h i x : hrepc k c l h -> nth_error l i = Some x ->
    hv_at h i = Ok (iter k i) /\ hi_deref h (iter k i) = Ok x /\ place_of h = k /\ hv_capacity h = c
    /\ hv_elements h = Ok l.
  Proof.
    intros R Hx. destruct k, h as [|a|v]; cbn [hrepc] in R; try contradiction.
    - destruct R as [-> R]. pose proof (deref_hv cap Fixed l _ i x R Hx) as D.
      pose proof (elements_hv cap Fixed l _ R ltac:(discriminate)) as El.
      cbn in R. destruct R as (r & j & -> & L).
      split; [destruct i; reflexivity|]. split; [exact D|]. split; [reflexivity|]. split; [|exact El].
      cbn [hv_capacity]. rewrite sv_capacity_mk. exact L.
    - assert (R' : hrep Dynamic l (HVec v)).
      { destruct R as (r & j & -> & L & C). cbn. exists r, j, c. auto. }
      pose proof (deref_hv cap Dynamic l _ i x R' Hx) as D.
      pose proof (elements_hv cap Dynamic l _ R' ltac:(discriminate)) as El.
      destruct R as (r & j & -> & L & C). split; [destruct i; reflexivity|]. split; [exact D|]. auto.
  Qed.
End Steps.

(** As long as only elements behind it are added and removed and the elements stay where they are, an
    iterator (a reference) to an element, taken before, reads that element; no room is asked of the system. *)
Theorem C239_reference_partial :
  forall (A : Type) (m : mode) (moved : A -> A) (dflt : A) (mem : memory) cap (ops later : list (hv_op A)) h i x,
    hv_reached m moved dflt mem cap ops h -> nth_error (hseq_run ops) i = Some x ->
    all_along hseq_step
      (fun l op => hv_valid_op l op /\ hkeeps l i op /\ hstays cap (hv_capacity h) (place_of h) l op
                   /\ no_inner_range l op) (hseq_run ops) later ->
    exists it h', hv_at h i = Ok it /\ hi_deref h it = Ok x
      /\ hv_run m moved dflt mem cap h later = Ok h'
      /\ hi_deref h' it = Ok x /\ hv_at h' i = Ok it
      /\ place_of h' = place_of h /\ hv_capacity h' = hv_capacity h
      /\ hv_elements h' = Ok (hseq_run (ops ++ later)) /\ nth_error (hseq_run (ops ++ later)) i = Some x.
Proof.
  intros A m moved dflt mem cap ops later h i x R Hx W. pose proof (proj1 R) as M.
  destruct (reached_rep m moved dflt mem M cap ops h R) as (k & Rk).
  rewrite (place_hv cap k _ h Rk) in *.
  pose proof (hrepc_of cap k _ h i x Rk Hx) as Rc.
  destruct (keep_run m moved dflt mem M cap i x later k _ _ h Rc Hx W) as (h' & E & R' & Hx').
  destruct (deref_hrepc cap k _ _ h i x Rc Hx) as (A1 & D1 & P1 & C1 & _).
  destruct (deref_hrepc cap k _ _ h' i x R' Hx') as (A2 & D2 & P2 & C2 & El).
  unfold hseq_run in *. rewrite fold_left_app. exists (iter k i), h'. auto 20.
Qed.

(** [1; 2; 3] in the fixed part of five, and [1; 2; 3; 4] in dynamic memory behind a fixed part of three. *)
Example C239_reference_case :
  (exists h, hv_reached Tracked (fun x => x) 0 Realloc 5 [HPush 1; HPush 2; HPush 3] h
     /\ all_along hseq_step (fun l op => hv_valid_op l op /\ hkeeps l 1 op
          /\ hstays 5 (hv_capacity h) (place_of h) l op /\ no_inner_range l op) [1; 2; 3]
          [HPush 4; HInsert 2 9; HErase 2; HPop; HEraseRange 2 3; HInsertRange 2 [7; 8]])
  /\ exists h, hv_reached Tracked (fun x => x) 0 Realloc 3 [HPush 1; HPush 2; HPush 3; HPush 4] h
     /\ place_of h = Dynamic
     /\ all_along hseq_step (fun l op => hv_valid_op l op /\ hkeeps l 1 op
          /\ hstays 3 (hv_capacity h) (place_of h) l op /\ no_inner_range l op) [1; 2; 3; 4]
          [HErase 3; HPop; HInsertRange 2 [7; 8]; HPush 5; HEmplace 2 6].
Proof.
  split; eexists; split.
  - split; [discriminate|]. split; [|vm_compute; reflexivity].
    cbn. repeat split; auto; try discriminate; lia.
  - cbn. repeat split; auto; lia.
  - split; [discriminate|]. split; [|vm_compute; reflexivity].
    cbn. repeat split; auto; try discriminate; lia.
  - split; [reflexivity|]. cbn. repeat split; auto; lia.
Qed.

(** Erasing the last element moves all others, if there are then fewer than the fixed part has room for:
    an iterator to an element in front of it is not valid any more, though popBack, which removes the same
    element, leaves it valid. *)
Theorem C239_erase_refuted :
  forall (A : Type) (m : mode) (moved : A -> A) (dflt : A) (mem : memory) cap (ops : list (hv_op A)) h i x,
    hv_reached m moved dflt mem cap ops h -> place_of h = Dynamic -> length (hseq_run ops) = cap ->
    nth_error (hseq_run ops) i = Some x -> S i < cap ->
    exists it h1 h2, hv_at h i = Ok it /\ hi_deref h it = Ok x
      /\ hv_step m moved dflt mem cap h (HErase (cap - 1)) = Ok h1 /\ hi_deref h1 it = UB
      /\ hv_elements h1 = Ok (removelast (hseq_run ops))
      /\ hv_step m moved dflt mem cap h HPop = Ok h2 /\ hi_deref h2 it = Ok x
      /\ hv_elements h2 = Ok (removelast (hseq_run ops)).
Proof.
  intros A m moved dflt mem cap ops h i x R P Lc Hx Hi. pose proof (proj1 R) as M.
  destruct (reached_rep m moved dflt mem M cap ops h R) as (k & Rk).
  rewrite (place_hv cap k _ h Rk) in P. subst k. set (l := hseq_run ops) in *.
  destruct (deref_hrepc cap Dynamic _ l h i x (hrepc_of cap Dynamic l h i x Rk Hx) Hx) as (A1 & D1 & _).
  assert (El : erase_at (cap - 1) (S (cap - 1)) l = removelast l).
  { unfold erase_at. rewrite removelast_firstn_len. rewrite (skipn_all2 (n := S (cap - 1))) by lia.
    rewrite app_nil_r. f_equal. lia. }
  assert (Lr : length (removelast l) = cap - 1).
  { rewrite removelast_firstn_len, firstn_length. lia. }
  assert (Hr : nth_error (removelast l) i = Some x) by (rewrite nth_removelast; auto; lia).
  destruct (step_hv m moved dflt mem M cap Dynamic l h (HErase (cap - 1)) Rk) as (h1 & E1 & R1);
    [cbn; lia|exact I|right; exact I|].
  destruct (step_hv m moved dflt mem M cap Dynamic l h HPop Rk) as (h2 & E2 & R2);
    [exact I|exact I|right; exact I|].
  cbn [place_step hseq_step] in R1, R2. rewrite El in R1. cbn [shrink_place] in R1. rewrite Lr in R1.
  destruct (Nat.ltb_spec (cap - 1) cap); [|lia].
  exists (iter Dynamic i), h1, h2. split; [exact A1|]. split; [exact D1|]. split; [exact E1|].
  split. { destruct h1; cbn in R1; try contradiction. reflexivity. }
  split; [apply (elements_hv cap Fixed); [exact R1|discriminate]|]. split; [exact E2|].
  split; [apply (deref_hv cap Dynamic _ _ _ _ R2 Hr)|].
  apply (elements_hv cap Dynamic); [exact R2|discriminate].
Qed.
(** Four elements, one more than the fixed part, and one taken out by popBack. *)
Example C239_erase_case :
  exists h, hv_reached Tracked (fun x => x) 0 Realloc 3 [HPush 1; HPush 2; HPush 3; HPush 4; HPop] h
     /\ place_of h = Dynamic /\ hseq_run [HPush 1; HPush 2; HPush 3; HPush 4; HPop] = [1; 2; 3].
Proof.
  eexists. split; [split; [discriminate|]; split; [|vm_compute; reflexivity]|split; reflexivity].
  cbn. repeat split; auto; try discriminate; lia.
Qed.

(** One element more than the fixed part has room for: no iterator is valid any more. *)
Theorem C239_leaves_partial :
  forall (A : Type) (m : mode) (moved : A -> A) (dflt : A) (mem : memory) cap (ops : list (hv_op A)) h i x y,
    hv_reached m moved dflt mem cap ops h -> place_of h = Fixed ->
    nth_error (hseq_run ops) i = Some x ->
    exists it h', hv_at h i = Ok it /\ hi_deref h it = Ok x
      /\ hv_step m moved dflt mem cap h (HPush y) = Ok h'
      /\ hi_deref h' it = (if length (hseq_run ops) <? cap then Ok x else UB).
Proof.
  intros A m moved dflt mem cap ops h i x y R P Hx. pose proof (proj1 R) as M.
  destruct (reached_rep m moved dflt mem M cap ops h R) as (k & Rk).
  rewrite (place_hv cap k _ h Rk) in P. subst k. set (l := hseq_run ops) in *.
  destruct (deref_hrepc cap Fixed _ l h i x (hrepc_of cap Fixed l h i x Rk Hx) Hx) as (A1 & D1 & _).
  destruct (step_hv m moved dflt mem M cap Fixed l h (HPush y) Rk I I (or_intror I)) as (h1 & E1 & R1).
  exists (iter Fixed i), h1. split; [exact A1|]. split; [exact D1|]. split; [exact E1|].
  cbn [place_step grow_place hseq_step] in R1.
  destruct (Nat.ltb_spec (length l) cap), (Nat.leb_spec (length l + 1) cap); try lia.
  - apply (deref_hv cap Fixed _ _ _ _ R1). apply nth_app. exact Hx.
  - destruct h1; cbn in R1; try contradiction. reflexivity.
Qed.
Example C239_leaves_case :
  exists h, hv_reached Tracked (fun x => x) 0 Realloc 2 [HPush 1; HPush 2] h /\ place_of h = Fixed.
Proof.
  eexists. split; [split; [discriminate|]; split; [|vm_compute; reflexivity]|reflexivity].
  cbn. repeat split; auto; try discriminate; lia.
Qed.

Print Assumptions C239_reference_partial.
Print Assumptions C239_erase_refuted.
Print Assumptions C239_leaves_partial.
