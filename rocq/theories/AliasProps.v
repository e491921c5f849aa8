(** Property C217: an element of a container, or a part of it, can be added to the container; and the
    range calls of C215. *)
From Coq Require Import List Arith Bool Lia.
From Verif Require Import Base BaseLemmas Store StoreLemmas StaticVectorModel StaticVectorSpec
  StaticVectorProofs VectorModel VectorSpec ListModel ListSpec StringModel StringSpec
  CircularArrayModel CircularArraySpec AliasModel AliasSpec AliasProofs AliasTextProofs.
From Verif Require Import VectorProofs.
From Verif Require ListProofs ListRun ListTwo StringProofs StringProps CircularArrayProofs.
Import ListNotations.

Ltac computed := vm_compute; repeat split; try reflexivity; try discriminate; try lia; auto.

(** ** StaticVector *)

(** pushBack(v[j]), emplaceBack(v[j]) and += with a part of the vector itself are right; insert and
    emplace are right at the end, and elsewhere when what is added comes from before the position. *)
Theorem C217_static_vector_partial :
  forall (A : Type) (m : mode) (moved : A -> A) (dflt : A) cap (v : svec A) (l : list A),
    sv_reached m moved dflt cap v l ->
    (forall j x, nth_error l j = Some x ->
       exists v', sv_pushBack_arg m v (Own j) = Ok v' /\ sv_elements v' = Ok (bounded cap l (l ++ [x])))
    /\ (forall b e, b <= e -> e <= length l ->
       exists v', sv_append_own m v b e = Ok v' /\ sv_elements v' = Ok (firstn cap (l ++ part b e l)))
    /\ (forall it j x, it <= length l -> nth_error l j = Some x -> it = length l \/ j < it ->
       (exists v', sv_insert_arg m moved dflt v it (Own j) = Ok v'
          /\ sv_elements v' = Ok (bounded cap l (insert_at it [x] l)))
       /\ exists v', sv_emplace_own m moved dflt v it j = Ok v'
          /\ sv_elements v' = Ok (bounded cap l (insert_at it [x] l)))
    /\ (forall it b e, it <= length l -> b <= e -> e <= length l -> it = length l \/ e <= it ->
       exists v', sv_insert_own m moved dflt v it b e = Ok v'
         /\ sv_elements v' = Ok (bounded cap l (insert_at it (part b e l) l))).
Proof.
  intros A m moved dflt cap v l H. apply sv_reached_rep in H. destruct H as (rest & k & -> & Hc).
  split; [|split; [|split]].
  - intros j x Hx. rewrite (push_own_arg m l rest k j x Hx).
    destruct (pushBack_ok m cap l rest k x Hc) as (r & k' & E & L & _).
    rewrite E. eexists. split; [reflexivity|]. apply elements_ok.
  - intros b e Hb He. unfold sv_append_own. rewrite push_own_all by lia.
    replace (b + (e - b)) with e by lia.
    destruct (push_all_ok m cap (part b e l) l rest k Hc) as (r & k' & E & L & _).
    rewrite E. eexists. split; [reflexivity|]. apply elements_ok.
  - intros it j x Hi Hx Hij.
    assert (Hj : j < length l) by (apply nth_error_Some; congruence).
    assert (Ep : part j (S j) l = [x]).
    { unfold part. replace (S j - j) with 1 by lia. rewrite (skipn_nth _ _ _ Hx). reflexivity. }
    assert (Fo : found moved it j (S j) l [x]).
    { left. split; [destruct Hij; [left; auto|right; lia]|auto]. }
    split.
    + rewrite insert_arg_own.
      destruct (insert_own_ok m moved dflt cap l rest k it j (S j) [x]) as (r & k' & E & L); auto; try lia.
      rewrite E. eexists. split; [reflexivity|]. apply elements_ok.
    + destruct (emplace_own_ok m moved dflt cap l rest k it j x) as (r & k' & E & L); auto; try lia.
      rewrite E. eexists. split; [reflexivity|]. apply elements_ok.
  - intros it b e Hi Hb He Hib.
    destruct (insert_own_ok m moved dflt cap l rest k it b e (part b e l)) as (r & k' & E & L); auto.
    { left. auto. }
    rewrite E. eexists. split; [reflexivity|]. apply elements_ok.
Qed.

(** Before the end, what comes from behind the position is read after it has moved: insert gives the
    element before the one asked for, at the position itself a moved-from one; so for ranges, of which
    inserting the vector into itself at its beginning is one; emplace destroys the argument first. *)
Theorem C217_static_vector_refuted :
  forall (A : Type) (m : mode) (moved : A -> A) (dflt : A) cap (v : svec A) (l : list A) it,
    sv_reached m moved dflt cap v l -> it < length l ->
    (forall j x, it < j < length l -> nth_error l (j - 1) = Some x -> length l < cap ->
       (exists v', sv_insert_arg m moved dflt v it (Own j) = Ok v'
          /\ sv_elements v' = Ok (insert_at it [x] l))
       /\ exists v', sv_emplace_own m moved dflt v it j = Ok v'
          /\ sv_elements v' = Ok (insert_at it [x] l))
    /\ (forall x, nth_error l it = Some x -> length l < cap ->
       (exists v', sv_insert_arg m moved dflt v it (Own it) = Ok v'
          /\ sv_elements v' = Ok (insert_at it [moved x] l))
       /\ (m = Tracked -> sv_emplace_own m moved dflt v it it = UB))
    /\ (forall b e, it + (e - b) <= b -> b < e -> e <= length l -> length l + (e - b) <= cap ->
       exists v', sv_insert_own m moved dflt v it b e = Ok v'
         /\ sv_elements v' = Ok (insert_at it (part (b - (e - b)) b l) l))
    /\ (forall e, it < e -> e <= length l -> length l + (e - it) <= cap ->
       exists v', sv_insert_own m moved dflt v it it e = Ok v'
         /\ sv_elements v' = Ok (insert_at it (map moved (part it e l)) l)).
Proof.
  intros A m moved dflt cap v l it H Hi. apply sv_reached_rep in H. destruct H as (rest & k & -> & Hc).
  assert (Ro : forall b e xs, found moved it b e l xs -> b < e -> e <= length l ->
                 length xs = e - b -> length l + (e - b) <= cap ->
                 exists v', sv_insert_own m moved dflt
                    (SVec (St (map Some l ++ rest) k) (length l)) it b e = Ok v'
                   /\ sv_elements v' = Ok (insert_at it xs l)).
  { intros b e xs Fo Hb He Lx Hf.
    destruct (insert_own_ok m moved dflt cap l rest k it b e xs) as (r & k' & E & L); auto; try lia.
    rewrite E. eexists. split; [reflexivity|]. rewrite elements_ok. unfold bounded.
    rewrite insert_at_length by lia. destruct (Nat.leb_spec (length l + length xs) cap); [auto|lia]. }
  assert (One : forall i x, nth_error l i = Some x -> part i (S i) l = [x]).
  { intros i x Hx. unfold part. replace (S i - i) with 1 by lia. rewrite (skipn_nth _ _ _ Hx). reflexivity. }
  split; [|split; [|split]].
  - intros j x Hj Hx Hf.
    assert (Fo : found moved it j (S j) l [x]).
    { right. left. replace (S j - j) with 1 by lia. split; [lia|]. split; [lia|].
      rewrite <- (One (j - 1) x Hx). f_equal; lia. }
    split.
    + rewrite insert_arg_own. apply Ro; auto; cbn [length]; lia.
    + destruct (emplace_own_ok m moved dflt cap l rest k it j x) as (r & k' & E & L); auto; try lia.
      rewrite E. eexists. split; [reflexivity|]. rewrite elements_ok. unfold bounded.
      rewrite insert_at_length by lia. cbn [length].
      destruct (Nat.leb_spec (length l + 1) cap); [auto|lia].
  - intros x Hx Hf. split.
    + rewrite insert_arg_own. apply Ro; cbn [length]; try lia.
      right. right. split; [lia|]. split; [auto|]. rewrite (One it x Hx). reflexivity.
    + apply (emplace_own_bad m moved dflt cap); auto.
  - intros b e Hb Hlt He Hf. apply Ro; auto.
    + right. left. auto.
    + rewrite part_length by lia. lia.
  - intros e Hlt He Hf. apply Ro; auto.
    + right. right. auto.
    + rewrite map_length, part_length by lia. lia.
Qed.

(** [1; 2; 3; 4; 5] in a StaticVector of 20, elements that are left as 0: insert(begin(), v[2]), and
    the vector inserted at its own beginning. *)
Example C217_static_vector_case :
  exists v, sv_run Tracked (fun _ => 0) 0 (sv_new 20) [InsertRange 0 [1; 2; 3; 4; 5]] = Ok v
    /\ sv_reached Tracked (fun _ => 0) 0 20 v [1; 2; 3; 4; 5]
    /\ (let! w := sv_insert_arg Tracked (fun _ => 0) 0 v 0 (Own 2) in sv_elements w)
       = Ok [2; 1; 2; 3; 4; 5]
    /\ (let! w := sv_insert_own Tracked (fun _ => 0) 0 v 0 0 5 in sv_elements w)
       = Ok [0; 0; 0; 0; 0; 1; 2; 3; 4; 5]
    /\ (let! w := sv_append_own Tracked v 0 5 in sv_elements w) = Ok [1; 2; 3; 4; 5; 1; 2; 3; 4; 5].
Proof.
  eexists. split; [vm_compute; reflexivity|]. split.
  - exists [InsertRange 0 [1; 2; 3; 4; 5]]. split; [cbn; lia|]. split; [right; cbn; auto|].
    split; vm_compute; reflexivity.
  - computed.
Qed.

(** ** Vector *)

(** The same for a Vector that has room: no call reallocates. *)
Theorem C217_vector_partial :
  forall (A : Type) (m : mode) (moved : A -> A) (dflt : A) (mem : memory) (v : vec A) (l : list A) fuel,
    vec_reached m moved dflt mem v l -> 0 < fuel ->
    (forall j x, nth_error l j = Some x -> length l < vc_capacity v ->
       exists v', vec_pushBack_ref m mem fuel v (VOwn j) = Ok v' /\ vec_elements v' = Ok (l ++ [x]))
    /\ (forall it j x, it <= length l -> nth_error l j = Some x -> it = length l \/ j < it ->
       length l < vc_capacity v ->
       exists v', vec_insert_ref m moved dflt mem fuel v it (VOwn j) = Ok v'
         /\ vec_elements v' = Ok (insert_at it [x] l))
    /\ (forall it b e, it <= length l -> b <= e -> e <= length l -> it = length l \/ e <= it ->
       length l + (e - b) <= vc_capacity v ->
       exists v', vec_insert_own m moved dflt mem fuel v it b e = Ok v'
         /\ vec_elements v' = Ok (insert_at it (part b e l) l)).
Proof.
  intros A m moved dflt mem v l fuel H F. destruct fuel as [|f]; [lia|].
  apply vec_reached_rep in H. destruct H as (Hmem & rest & k & c & -> & Hc). cbn [vc_capacity].
  assert (Ins : forall it j x, it <= length l -> nth_error l j = Some x -> it = length l \/ j < it ->
       length l < c ->
       exists v', vec_insert_ref m moved dflt mem (S f)
           (Vec (SVec (St (map Some l ++ rest) k) (length l)) c) it (VOwn j) = Ok v'
         /\ vec_elements v' = Ok (insert_at it [x] l)).
  { intros it j x Hi Hx Hij Hf.
    assert (Hj : j < length l) by (apply nth_error_Some; congruence).
    rewrite vec_insert_ref_own by auto.
    destruct (vec_insert_own_ok m moved dflt mem f l rest k c it j (S j) [x]) as (r & k' & E & L);
      auto; try lia.
    { left. split; [destruct Hij; [left; auto|right; lia]|]. unfold part.
      replace (S j - j) with 1 by lia. rewrite (skipn_nth _ _ _ Hx). reflexivity. }
    rewrite E. eexists. split; [reflexivity|]. apply vec_elements_ok. }
  split; [|split; [exact Ins|]].
  - intros j x Hx Hf. destruct (Ins (length l) j x) as (v' & E & Ev); auto.
    exists v'. rewrite Ev. unfold insert_at. rewrite firstn_all, skipn_all, app_nil_r. split; [|reflexivity].
    rewrite <- E. cbn [vec_insert_ref]. unfold vec_size, vc_tail. cbn [vc_arr sv_tail vc_capacity].
    destruct (Nat.ltb_spec (length l) c); [|lia]. rewrite Nat.eqb_refl. reflexivity.
  - intros it b e Hi Hb He Hib Hf.
    destruct (vec_insert_own_ok m moved dflt mem f l rest k c it b e (part b e l))
      as (r & k' & E & L); auto; try lia.
    { left. auto. }
    rewrite E. eexists. split; [reflexivity|]. apply vec_elements_ok.
Qed.

(** A Vector that has to grow reads the argument in the memory that it has given back; with room it
    does what StaticVector does. (With a capacity of 1 no growth ends, C14_growth_refuted.) *)
Theorem C217_vector_refuted :
  forall (A : Type) (m : mode) (moved : A -> A) (dflt : A) (mem : memory) (v : vec A) (l : list A) it fuel,
    vec_reached m moved dflt mem v l -> it <= length l -> 2 <= fuel ->
    (forall j, length l = vc_capacity v -> length l <> 1 ->
       vec_pushBack_ref m mem fuel v (VOwn j) = UB
       /\ vec_insert_ref m moved dflt mem fuel v it (VOwn j) = UB)
    /\ (forall b e, b < e -> vc_capacity v < length l + (e - b) ->
       vec_insert_own m moved dflt mem fuel v it b e = UB)
    /\ (it < length l ->
        (forall j x, it < j < length l -> nth_error l (j - 1) = Some x -> length l < vc_capacity v ->
           exists v', vec_insert_ref m moved dflt mem fuel v it (VOwn j) = Ok v'
             /\ vec_elements v' = Ok (insert_at it [x] l))
        /\ (forall x, nth_error l it = Some x -> length l < vc_capacity v ->
           exists v', vec_insert_ref m moved dflt mem fuel v it (VOwn it) = Ok v'
             /\ vec_elements v' = Ok (insert_at it [moved x] l))
        /\ (forall b e, it + (e - b) <= b -> b < e -> e <= length l ->
           length l + (e - b) <= vc_capacity v ->
           exists v', vec_insert_own m moved dflt mem fuel v it b e = Ok v'
             /\ vec_elements v' = Ok (insert_at it (part (b - (e - b)) b l) l))
        /\ (forall e, it < e -> e <= length l -> length l + (e - it) <= vc_capacity v ->
           exists v', vec_insert_own m moved dflt mem fuel v it it e = Ok v'
             /\ vec_elements v' = Ok (insert_at it (map moved (part it e l)) l))).
Proof.
  intros A m moved dflt mem v l it fuel H Hi F. destruct fuel as [|[|f]]; try lia.
  apply vec_reached_rep in H. destruct H as (Hmem & rest & k & c & -> & Hc). cbn [vc_capacity].
  split; [|split].
  - intros j Hf H1. assert (rest = []) as -> by (destruct rest; auto; cbn in Hc; lia).
    pose proof (grow_gt _ H1) as Hg. clear Hc. subst c.
    destruct (reserve_ok m mem Hmem l [] k (grow (length l)) (length l)) as (r & k' & E & L & _).
    { cbn. lia. }
    rewrite Nat.max_r in E, L by lia.
    split.
    + cbn [vec_pushBack_ref]. unfold vc_tail at 1. cbn [vc_arr sv_tail vc_capacity].
      rewrite Nat.eqb_refl. cbn [negb].
      rewrite next_capacity_grow, E. cbn [bind]. unfold survive. cbn [vc_capacity vc_arr sv_tail].
      unfold vc_tail. cbn [vc_arr sv_tail].
      destruct (Nat.eqb_spec (length l) (grow (length l))); [lia|]. reflexivity.
    + cbn [vec_insert_ref]. unfold vec_size at 1, vc_tail at 1. cbn [vc_arr sv_tail vc_capacity].
      rewrite Nat.ltb_irrefl.
      rewrite next_capacity_grow, E. cbn [bind]. unfold survive. cbn [vc_capacity].
      destruct (Nat.eqb_spec (length l) (grow (length l))); [lia|].
      unfold vec_size, vc_tail. cbn [vc_arr sv_tail].
      destruct (Nat.ltb_spec (length l) (grow (length l))); [|lia].
      destruct (Nat.eqb_spec it (length l)) as [->|Hn].
      * cbn [vec_pushBack_ref vref_value bind]. unfold vc_tail. cbn [vc_arr sv_tail vc_capacity].
        destruct (Nat.eqb_spec (length l) (grow (length l))); [lia|]. reflexivity.
      * destruct (open_gap m moved dflt (grow (length l)) l r k' it 1 L) as (gap & r' & k2 & E2 & _); try lia.
        cbn [construct_dflt] in E2. unfold vc_store. cbn [vc_arr sv_store].
        destruct (st_construct m (St (map Some l ++ r) k') (length l) dflt) as [s1| |];
          cbn [bind] in E2 |- *; try discriminate.
        rewrite E2. reflexivity.
  - intros b e Hb Hf. apply vec_insert_own_grows; auto.
  - intros Hlt.
    assert (Ro : forall b e xs, found moved it b e l xs -> b < e -> e <= length l ->
                 length l + (e - b) <= c ->
                 exists v', vec_insert_own m moved dflt mem (S (S f))
                    (Vec (SVec (St (map Some l ++ rest) k) (length l)) c) it b e = Ok v'
                   /\ vec_elements v' = Ok (insert_at it xs l)).
    { intros b e xs Fo Hb He Hf.
      destruct (vec_insert_own_ok m moved dflt mem (S f) l rest k c it b e xs) as (r & k' & E & L);
        auto; try lia.
      rewrite E. eexists. split; [reflexivity|]. apply vec_elements_ok. }
    assert (One : forall i x, nth_error l i = Some x -> part i (S i) l = [x]).
    { intros i x Hx. unfold part. replace (S i - i) with 1 by lia. rewrite (skipn_nth _ _ _ Hx). reflexivity. }
    split; [|split; [|split]].
    + intros j x Hj Hx Hf. rewrite vec_insert_ref_own by auto. apply Ro; try lia.
      right. left. replace (S j - j) with 1 by lia. split; [lia|]. split; [lia|].
      rewrite <- (One (j - 1) x Hx). f_equal; lia.
    + intros x Hx Hf. rewrite vec_insert_ref_own by auto. apply Ro; try lia.
      right. right. split; [lia|]. split; [auto|]. rewrite (One it x Hx). reflexivity.
    + intros b e Hb Hbe He Hf. apply Ro; auto. right. left. auto.
    + intros e Hbe He Hf. apply Ro; auto. right. right. auto.
Qed.

(** C06: an element of a StaticVector may not be inserted into it by reference: from behind the
    position, its left neighbour is inserted. *)
Theorem C06_self_insert_refuted :
  forall (A : Type) (m : mode) (moved : A -> A) (dflt : A) cap (v : svec A) (l : list A) it j x y,
    sv_reached m moved dflt cap v l -> it < j -> length l < cap ->
    nth_error l (j - 1) = Some x -> nth_error l j = Some y ->
    exists v', sv_insert_arg m moved dflt v it (Own j) = Ok v'
      /\ sv_elements v' = Ok (insert_at it [x] l)
      /\ (x <> y -> sv_elements v' <> Ok (insert_at it [y] l)).
Proof.
  intros A m moved dflt cap v l it j x y R Hj Hf Hx Hy.
  assert (Lj : j < length l) by (apply nth_error_Some; congruence).
  destruct (C217_static_vector_refuted A m moved dflt cap v l it R ltac:(lia)) as (H & _).
  destruct (H j x ltac:(lia) Hx Hf) as ((v' & E & Ev) & _). exists v'. rewrite Ev.
  repeat split; auto. intros N [= E2]. apply app_inv_head in E2. cbn in E2. congruence.
Qed.
(** C13: so it is for a Vector with room for one more. *)
Theorem C13_self_insert_refuted :
  forall (A : Type) (m : mode) (moved : A -> A) (dflt : A) (mem : memory) (v : vec A) (l : list A) it j x y fuel,
    vec_reached m moved dflt mem v l -> it < j -> length l < vc_capacity v -> 2 <= fuel ->
    nth_error l (j - 1) = Some x -> nth_error l j = Some y ->
    exists v', vec_insert_ref m moved dflt mem fuel v it (VOwn j) = Ok v'
      /\ vec_elements v' = Ok (insert_at it [x] l)
      /\ (x <> y -> vec_elements v' <> Ok (insert_at it [y] l)).
Proof.
  intros A m moved dflt mem v l it j x y fuel R Hj Hf F Hx Hy.
  assert (Lj : j < length l) by (apply nth_error_Some; congruence).
  destruct (C217_vector_refuted A m moved dflt mem v l it fuel R ltac:(lia) F) as (_ & _ & H).
  destruct (H ltac:(lia)) as (H1 & _).
  destruct (H1 j x ltac:(lia) Hx Hf) as (v' & E & Ev). exists v'. rewrite Ev.
  repeat split; auto. intros N [= E2]. apply app_inv_head in E2. cbn in E2. congruence.
Qed.

(** A full Vector of two elements, and one with room. *)
Example C217_vector_case :
  exists v w, vec_run Tracked (fun _ => 0) 0 Realloc 3 vec_new [VReserve 2; VPush 7; VPush 8] = Ok v
    /\ vec_reached Tracked (fun _ => 0) 0 Realloc v [7; 8] /\ vc_capacity v = 2
    /\ vec_pushBack_ref Tracked Realloc 3 v (VOwn 0) = UB
    /\ vec_insert_own Tracked (fun _ => 0) 0 Realloc 3 v 2 0 2 = UB
    /\ vec_run Tracked (fun _ => 0) 0 Realloc 3 vec_new [VReserve 9; VPush 7; VPush 8] = Ok w
    /\ (let! u := vec_insert_own Tracked (fun _ => 0) 0 Realloc 3 w 2 0 2 in vec_elements u)
       = Ok [7; 8; 7; 8]
    /\ (let! u := vec_insert_own Tracked (fun _ => 0) 0 Realloc 3 w 0 0 2 in vec_elements u)
       = Ok [0; 0; 7; 8].
Proof.
  eexists. eexists. split; [vm_compute; reflexivity|]. split.
  - split; [discriminate|]. exists [VReserve 2; VPush 7; VPush 8], 3.
    split; [computed|]. split; [right; computed|]. split; [vm_compute; lia|]. split; vm_compute; reflexivity.
  - split; [reflexivity|]. split; [vm_compute; reflexivity|]. split; [vm_compute; reflexivity|].
    split; [vm_compute; reflexivity|]. split; vm_compute; reflexivity.
Qed.

(** ** String *)

Lemma str_reached_rep A (nul : A) is_nul s l c : str_reached nul is_nul s l c ->
  StringProofs.rep nul s l c.
Proof.
  intros (ctor & os & fuel & Dc & D & C & F & E & ->).
  destruct (StringProps.history_ok nul is_nul fuel ctor os c Dc D C F) as (s' & E' & R).
  rewrite E in E'. injection E' as <-. exact R.
Qed.

(** A character of the string can be appended whenever any character can, and inserted behind itself;
    a tail of the string can be appended while there is room, and assigned to the string unless it is
    the whole. *)
Theorem C217_string_partial :
  forall (A : Type) (nul : A) (is_nul : A -> bool) (s : str A) (l : list A) c fuel,
    is_nul nul = true -> str_reached nul is_nul s l c -> 2 <= fuel ->
    (forall j x, nth_error l j = Some x -> str_push_own nul fuel s j = str_push_back nul fuel s x)
    /\ (forall j x, nth_error l j = Some x -> length l + 1 < c ->
       exists s', str_push_own nul fuel s j = Ok s' /\ holds nul s' (l ++ [x]) c)
    /\ (forall i j x, i <= length l -> nth_error l j = Some x -> j <= i -> length l + 1 < c ->
       exists s', str_insert_own nul fuel s i j = Ok s' /\ holds nul s' (put_in l i [x]) c)
    /\ (forall k, k <= length l -> length l + length (tail_text is_nul k l) + 2 < c ->
       exists s', str_push_raw_own nul is_nul fuel s k = Ok s'
         /\ holds nul s' (l ++ tail_text is_nul k l) c)
    /\ (forall k, 0 < k -> k <= length l ->
       exists s', str_assign_raw_own nul is_nul fuel s k = Ok s'
         /\ holds nul s' (tail_text is_nul k l) c).
Proof.
  intros A nul is_nul s l c fuel Hn H F. destruct fuel as [|[|f]]; try lia.
  apply str_reached_rep in H. split; [|split; [|split; [|split]]].
  - intros j x Hx. apply (str_push_own_ok nul (S f) s l c j x H Hx).
  - intros j x Hx Hc. rewrite (str_push_own_ok nul (S f) s l c j x H Hx).
    destruct (StringProofs.push_ok nul (S (S f)) s l c x H Hc) as (s' & E & R); [lia|].
    exists s'. split; auto. apply StringProofs.rep_holds. exact R.
  - intros i j x Hi Hx Hji Hc.
    assert (Hj : j < length l) by (apply nth_error_Some; congruence).
    assert (Q : str_insert_own nul (S (S f)) s i j = str_insert nul (S (S f)) s i x).
    { destruct (Nat.eq_dec i (length l)) as [->|Hne].
      - apply (str_insert_own_end nul f s l c j x H Hc Hx).
      - apply (str_insert_own_ok nul (S f) s l c i j x H Hc); try lia.
        destruct (Nat.leb_spec j i); [exact Hx|lia]. }
    rewrite Q.
    destruct (StringProofs.insert_fits nul (S (S f)) s l c i x H Hc Hi) as (s' & E & R); [lia|].
    exists s'. split; auto. apply StringProofs.rep_holds. exact R.
  - intros k Hk Hc.
    destruct (str_push_raw_own_fits nul is_nul Hn (S f) s l c k H Hk Hc) as (s' & E & R).
    exists s'. split; auto. apply StringProofs.rep_holds. exact R.
  - intros k H0 Hk.
    destruct (str_assign_own_rest nul is_nul Hn (S f) s l c k H H0 Hk) as (s' & E & R).
    exists s'. split; auto. apply StringProofs.rep_holds. exact R.
Qed.

(** s = s.data() makes the string empty; a character from behind the position is not the one that is
    inserted; and when the string has to grow, insert and += read memory that was given back. *)
Theorem C217_string_refuted :
  forall (A : Type) (nul : A) (is_nul : A -> bool) (s : str A) (l : list A) c fuel,
    is_nul nul = true -> str_reached nul is_nul s l c -> 0 < c -> 2 <= fuel ->
    (exists s', str_assign_raw_own nul is_nul fuel s 0 = Ok s' /\ holds nul s' [] c)
    /\ (forall i j x, i < j -> j < length l -> nth_error l (j - 1) = Some x -> length l + 1 < c ->
       exists s', str_insert_own nul fuel s i j = Ok s' /\ holds nul s' (put_in l i [x]) c)
    /\ (forall i j, c <= length l + 1 -> str_insert_own nul fuel s i j = UB)
    /\ (forall k, k <= length l -> c <= length l + length (tail_text is_nul k l) + 2 ->
       str_push_raw_own nul is_nul fuel s k = UB).
Proof.
  intros A nul is_nul s l c fuel Hn H H0 F. destruct fuel as [|[|f]]; try lia.
  apply str_reached_rep in H. split; [|split; [|split]].
  - destruct (str_assign_own_empty nul is_nul Hn (S f) s l c H H0) as (s' & E & R).
    exists s'. split; auto. apply StringProofs.rep_holds. exact R.
  - intros i j x Hi Hj Hx Hc.
    rewrite (str_insert_own_ok nul (S f) s l c i j x H Hc) by
      (try lia; (destruct (Nat.leb_spec j i); [lia|exact Hx])).
    destruct (StringProofs.insert_fits nul (S (S f)) s l c i x H Hc) as (s' & E & R); [lia|lia|].
    exists s'. split; auto. apply StringProofs.rep_holds. exact R.
  - intros i j Hc. apply (str_insert_own_grows nul (S f) s l c i j H H0 Hc).
  - intros k Hk Hc. apply (str_push_raw_own_grows nul is_nul Hn (S f) s l c k H Hk H0 Hc).
Qed.

(** "abc" (97 98 99) in a String of capacity 20 and in one of capacity 4. *)
Example C217_string_case :
  let is_nul := Nat.eqb 0 in
  exists s t, str_history 0 is_nul 4 (CRaw (Some [97; 98; 99; 0])) [SReserve 16] = Ok s
    /\ str_reached 0 is_nul s [97; 98; 99] 20
    /\ (let! r := str_assign_raw_own 0 is_nul 4 s 0 in str_chars r) = Ok []
    /\ (let! r := str_assign_raw_own 0 is_nul 4 s 1 in str_chars r) = Ok [98; 99]
    /\ (let! r := str_push_raw_own 0 is_nul 4 s 0 in str_chars r) = Ok [97; 98; 99; 97; 98; 99]
    /\ (let! r := str_insert_own 0 4 s 0 2 in str_chars r) = Ok [98; 97; 98; 99]
    /\ str_history 0 is_nul 4 (CRaw (Some [97; 98; 99; 0])) [] = Ok t
    /\ str_push_raw_own 0 is_nul 4 t 0 = UB.
Proof.
  cbv zeta. eexists. eexists. split; [vm_compute; reflexivity|]. split.
  - exists (CRaw (Some [97; 98; 99; 0])), [SReserve 16], 4.
    split; [exists 0; cbn; tauto|]. split; [cbn; auto|].
    split; [vm_compute; reflexivity|]. split; [lia|]. split; vm_compute; reflexivity.
  - repeat (split; [vm_compute; reflexivity|]). vm_compute; reflexivity.
Qed.

(** ** List *)

(** A node is copied before a link is changed: an element of the list can be added to it anywhere, and
    so can a part of it; in all states and at all positions at which elements from outside can be. *)
Theorem C217_list_partial :
  forall (A : Type) (dflt : A) (os : list (list_op A)) (s : shape),
    let new := list_new dflt empty_heap 0 in
    let vals := list_seq_run [] os in
    covered_run [] Untouched os = Some s -> s <> Untouched ->
    exists N, forall fuel, N <= fuel ->
      exists h l, list_run fuel (fst new) (snd new) os = Ok (h, l)
      /\ (forall i b e s', b <= e -> e <= length vals ->
            covered vals s (LInsertRange i (part b e vals)) = Some s' ->
            exists it p q h' l',
              iterator_at h l i = Ok it /\ iterator_at h l (Some b) = Ok p
              /\ iterator_at h l (Some e) = Ok q
              /\ list_insert_own fuel h l it p q = Ok (h', l')
              /\ list_forward (fuel + fuel) h' l'
                 = Ok (list_seq_step vals (LInsertRange i (part b e vals))))
      /\ (forall j x, nth_error vals j = Some x ->
            exists p, iterator_at h l (Some j) = Ok p
              /\ (forall i s', covered vals s (LInsert i x) = Some s' ->
                    exists it h' l', iterator_at h l i = Ok it
                      /\ list_insert_element fuel h l it p = Ok (h', l')
                      /\ list_forward (fuel + fuel) h' l' = Ok (list_seq_step vals (LInsert i x)))
              /\ (s = Whole -> exists h' l', list_push_back_element h l p = Ok (h', l')
                    /\ list_forward (fuel + fuel) h' l' = Ok (vals ++ [x]))
              /\ exists h' l', list_push_front_element h l p = Ok (h', l')
                    /\ list_forward (fuel + fuel) h' l' = Ok (x :: vals)).
Proof.
  intros A dflt os s new vals Cv Hs.
  destruct (ListTwo.run_ok os (fst new) (snd new) Untouched [] [] [] s (ListTwo.new_inv dflt) Cv) as (N & HN).
  exists (N + S (length vals)). intros fuel F.
  destruct (HN fuel) as (h & l & ns & E & Id & I); [lia|].
  fold vals in I. exists h, l. split; [exact E|]. clear HN E.
  assert (End : forall h' l' o s', covered vals s o = Some s' ->
            list_step fuel h l o = Ok (h', l') -> s' <> Untouched ->
            length (list_seq_step vals o) < fuel + fuel ->
            list_forward (fuel + fuel) h' l' = Ok (list_seq_step vals o)).
  { intros h' l' o s' C Es Hs' Lt.
    destruct (ListRun.step_ok h l s ns vals [] fuel o s' I C) as (ns' & h1 & l1 & E1 & Id1 & I1 & _); [lia|].
    rewrite Es in E1. injection E1 as <- <-.
    apply (ListTwo.forward_ok _ _ _ _ _ _ _ I1 Hs' Lt). }
  assert (It : forall i, position vals i <= length vals ->
            iterator_at h l i = Ok (ListProofs.head_of (dl_id l) (skipn (position vals i) ns))).
  { intros i Hi. apply (ListRun.iterator_at_ok _ _ _ _ _ _ _ I Hs Hi). }
  pose proof (ListProofs.inv_len _ _ _ _ _ _ I) as L.
  split.
  - intros i b e s' Hb He C.
    assert (Hi : position vals i <= length vals).
    { cbn [covered] in C. destruct s; [congruence| |]; destruct vals as [|v0 vs] eqn:Ev; try discriminate;
        rewrite <- Ev in *.
      - destruct (Nat.leb_spec (position vals i) (length vals)); [auto|discriminate].
      - destruct (Nat.ltb_spec (position vals i) (length vals)); [lia|discriminate]. }
    assert (Hs' : s' <> Untouched).
    { cbn [covered] in C. destruct s; [congruence| |]; destruct vals; try discriminate;
        match type of C with (if ?b then _ else _) = _ => destruct b; try discriminate end;
        injection C as <-; discriminate. }
    pose proof (list_insert_own_inv h l s ns vals [] b e
                  (ListProofs.head_of (dl_id l) (skipn (position vals i) ns)) fuel I Hs Hb He) as Q.
    destruct (ListRun.step_ok h l s ns vals [] fuel _ s' I C) as (ns' & h1 & l1 & E1 & Id1 & I1 & _); [lia|].
    pose proof E1 as E2. cbn [list_step] in E1. rewrite (It i Hi) in E1. cbn [bind] in E1.
    eexists. eexists. eexists. exists h1, l1. split; [apply (It i Hi)|].
    split; [apply (It (Some b)); cbn [position]; lia|].
    split; [apply (It (Some e)); cbn [position]; lia|].
    cbn [position]. split; [rewrite Q by lia; exact E1|].
    apply (End _ _ _ s' C E2 Hs'). cbn [list_seq_step].
    rewrite !app_length, firstn_length, skipn_length, part_length by lia. lia.
  - intros j x Hx. assert (Hj : j < length vals) by (apply nth_error_Some; congruence).
    assert (Cell : exists n, skipn j ns = n :: skipn (S j) ns /\ ListProofs.obj h (Heap n) = Some x).
    { pose proof (ListProofs.i_vals _ _ _ _ _ _ I) as V.
      destruct (nth_error ns j) as [n|] eqn:En; [|apply nth_error_None in En; lia].
      exists n. split; [apply skipn_nth; exact En|].
      clear - V Hx En. revert j Hx En. induction V as [|a b ns vs Hab V IH]; intros [|j] Hx En; try discriminate.
      - cbn in *. congruence.
      - apply (IH j); auto. }
    destruct Cell as (n & Es & On).
    exists (Heap n). split.
    { rewrite (It (Some j)) by (cbn [position]; lia). cbn [position]. rewrite Es. reflexivity. }
    destruct (ListProofs.get_spec h (Heap n)) as (nd & En & _ & _ & Ob); [congruence|].
    assert (n_obj nd = x) as Ex by congruence.
    assert (Hvals : vals <> []) by (destruct vals; [cbn in Hj; lia|discriminate]).
    split; [|split].
    + intros i s' C.
      assert (Hi : position vals i <= length vals).
      { cbn [covered] in C. destruct s; [congruence| |]; destruct vals as [|v0 vs] eqn:Ev; try discriminate;
          rewrite <- Ev in *.
        - destruct (Nat.leb_spec (position vals i) (length vals)); [auto|discriminate].
        - destruct (Nat.ltb_spec (position vals i) (length vals)); [lia|discriminate]. }
      assert (Hs' : s' <> Untouched).
      { cbn [covered] in C. destruct s; [congruence| |]; destruct vals; try discriminate;
          match type of C with (if ?b then _ else _) = _ => destruct b; try discriminate end;
          injection C as <-; discriminate. }
      destruct (ListRun.step_ok h l s ns vals [] fuel _ s' I C) as (ns' & h1 & l1 & E1 & _); [lia|].
      pose proof E1 as E2. cbn [list_step] in E1. rewrite (It i Hi) in E1. cbn [bind] in E1.
      eexists. exists h1, l1. split; [apply (It i Hi)|]. unfold list_insert_element.
      rewrite En. cbn [bind]. rewrite Ex. split; [exact E1|].
      apply (End _ _ _ s' C E2 Hs'). cbn [list_seq_step]. rewrite !app_length, firstn_length. cbn [length].
      rewrite skipn_length. lia.
    + intros ->. unfold list_push_back_element. rewrite En. cbn [bind]. rewrite Ex.
      destruct (ListRun.step_ok h l Whole ns vals [] fuel (LPushBack x) Whole I eq_refl)
        as (ns' & h1 & l1 & E1 & _); [lia|].
      exists h1, l1. split; [exact E1|].
      apply (End _ _ (LPushBack x) Whole eq_refl E1); [discriminate|].
      cbn [list_seq_step]. rewrite app_length. cbn. lia.
    + unfold list_push_front_element. rewrite En. cbn [bind]. rewrite Ex.
      assert (C : exists s', covered vals s (LPushFront x) = Some s' /\ s' <> Untouched).
      { cbn. destruct s; [congruence| |]; eexists; split; try reflexivity; discriminate. }
      destruct C as (s' & C & Hs').
      destruct (ListRun.step_ok h l s ns vals [] fuel (LPushFront x) s' I C) as (ns' & h1 & l1 & E1 & _); [lia|].
      exists h1, l1. split; [exact E1|].
      apply (End _ _ (LPushFront x) s' C E1 Hs'). cbn. lia.
Qed.

(** [1; 2; 3], the last two inserted before the second. *)
Example C217_list_case :
  covered_run [] Untouched [LPushBack 1; LPushBack 2; LPushBack 3] = Some Whole
  /\ covered [1; 2; 3] Whole (LInsertRange (Some 1) (part 1 3 [1; 2; 3])) = Some Whole
  /\ (let! r := list_run 10 (fst (list_new 0 empty_heap 0)) (snd (list_new 0 empty_heap 0))
                  [LPushBack 1; LPushBack 2; LPushBack 3] in
      let (h, l) := r in
      let! p := iterator_at h l (Some 1) in
      let! r := list_insert_own 10 h l p p (list_end l) in
      list_forward 10 (fst r) (snd r)) = Ok [1; 2; 3; 2; 3].
Proof. repeat split; vm_compute; reflexivity. Qed.

(** ** CircularArray *)

(** An element of the array, or a part of it given as a range that has a name, can be appended. *)
Theorem C217_circular_partial :
  forall (A : Type) (m : mode) (moved : A -> A) cap (c : circ A) (q : list A),
    ca_reached m cap c q ->
    (forall j x, nth_error q j = Some x ->
       exists c', ca_push_own m c j = Ok c'
         /\ ca_elements c' = Ok (if length q <? cap then q ++ [x] else q))
    /\ (forall b e, b <= e -> e <= length q ->
       exists c', ca_push_range_own m moved false c b e = Ok c'
         /\ ca_elements c' = Ok (if length q + (e - b) <=? cap then q ++ part b e q else q)).
Proof.
  intros A m moved cap c q H. apply ca_reached_holds in H. split.
  - intros j x Hx. rewrite (push_own_ok m cap c q j x H Hx).
    destruct (CircularArrayProofs.push_ok m cap c q x H) as (c' & E & H' & _).
    exists c'. split; [exact E|]. apply (CircularArrayProofs.elements_ok _ _ _ H').
  - intros b e Hb He. unfold ca_push_range_own.
    rewrite (CircularArrayProofs.holds_size _ _ _ H), (CircularArrayProofs.holds_capacity _ _ _ H).
    pose proof (CircularArrayProofs.h_len _ _ _ H). pose proof (CircularArrayProofs.h_head _ _ _ H).
    destruct (Nat.leb_spec (e - b) (cap - length q)) as [Hf|Hf],
             (Nat.leb_spec (length q + (e - b)) cap); try lia.
    + rewrite (CircularArrayProofs.h_N _ _ _ H). unfold ca_begin.
      rewrite CircularArrayProofs.ci_plus_ix by lia.
      rewrite (place_own_copies m moved cap (e - b) c q b H) by lia.
      replace (b + (e - b)) with e by lia.
      destruct (CircularArrayProofs.place_all_ok m cap (part b e q) c q H) as (c' & E & H' & _).
      { rewrite part_length by lia. lia. }
      exists c'. split; [exact E|]. apply (CircularArrayProofs.elements_ok _ _ _ H').
    + exists c. split; [reflexivity|]. apply (CircularArrayProofs.elements_ok _ _ _ H).
Qed.

(** A part of the array given as a temporary range is moved from: the elements appended are right,
    those they were taken from are lost. *)
Theorem C217_circular_refuted :
  forall (A : Type) (m : mode) (moved : A -> A) cap (c : circ A) (q : list A) b e,
    ca_reached m cap c q -> b <= e -> e <= length q -> length q + (e - b) <= cap ->
    exists c', ca_push_range_own m moved true c b e = Ok c'
      /\ ca_elements c' = Ok (firstn b q ++ map moved (part b e q) ++ skipn e q ++ part b e q).
Proof.
  intros A m moved cap c q b e H Hb He Hf. apply ca_reached_holds in H. unfold ca_push_range_own.
  rewrite (CircularArrayProofs.holds_size _ _ _ H), (CircularArrayProofs.holds_capacity _ _ _ H).
  pose proof (CircularArrayProofs.h_len _ _ _ H). pose proof (CircularArrayProofs.h_head _ _ _ H).
  destruct (Nat.leb_spec (e - b) (cap - length q)); [|lia].
  rewrite (CircularArrayProofs.h_N _ _ _ H). unfold ca_begin.
  rewrite CircularArrayProofs.ci_plus_ix by lia.
  pose proof H as H'. rewrite (part_split b e q) in H' by lia.
  destruct (place_own_moves m moved cap (part b e q) c (firstn b q) (skipn e q) H') as (c' & E & Hc).
  { rewrite <- part_split by lia. rewrite part_length by lia. lia. }
  rewrite part_length in E by lia. rewrite firstn_length, Nat.min_l in E by lia.
  exists c'. split; [exact E|]. apply (CircularArrayProofs.elements_ok _ _ _ Hc).
Qed.

(** The elements 2, 3, wrapped around the end of a buffer; moved-from elements are 0. *)
Example C217_circular_case :
  exists c, ca_run Tracked (ca_new 4) [CPush 1; CPush 9; CPush 9; CPop; CPop; CPop; CPush 2; CPush 3] = Ok c
    /\ ca_reached Tracked 4 c [2; 3]
    /\ (let! d := ca_push_range_own Tracked (fun _ => 0) false c 0 2 in ca_elements d) = Ok [2; 3; 2; 3]
    /\ (let! d := ca_push_range_own Tracked (fun _ => 0) true c 0 2 in ca_elements d) = Ok [0; 0; 2; 3].
Proof.
  eexists. split; [vm_compute; reflexivity|]. split.
  - exists [CPush 1; CPush 9; CPush 9; CPop; CPop; CPop; CPush 2; CPush 3].
    split; [right; cbn; repeat split; discriminate|]. split; vm_compute; reflexivity.
  - split; vm_compute; reflexivity.
Qed.

(** ** C215: ranges of another container *)

(** A range that has a name leaves the container it is of as it was; a temporary one does if it does
    not fit. *)
Theorem C215_range_partial :
  forall (A : Type) (m : mode) (moved : A -> A) cap (c : circ A) (q xs : list A),
    ca_reached m cap c q ->
    (exists c', ca_push_range_from m moved false c xs = Ok (c', xs)
      /\ ca_elements c' = Ok (if length q + length xs <=? cap then q ++ xs else q))
    /\ (cap < length q + length xs -> ca_push_range_from m moved true c xs = Ok (c, xs)).
Proof.
  intros A m moved cap c q xs H. apply ca_reached_holds in H. unfold ca_push_range_from. split.
  - destruct (CircularArrayProofs.push_range_ok m cap c q xs H) as (c' & E & H' & _).
    rewrite E. exists c'. split; [reflexivity|]. apply (CircularArrayProofs.elements_ok _ _ _ H').
  - intros Hf. unfold ca_pushBack_range.
    rewrite (CircularArrayProofs.holds_size _ _ _ H), (CircularArrayProofs.holds_capacity _ _ _ H).
    pose proof (CircularArrayProofs.h_len _ _ _ H).
    destruct (Nat.leb_spec (length xs) (cap - length q)); [lia|reflexivity].
Qed.

(** A temporary range, as of pushBack(makeRange(other)), does not: the elements of [other], which has a
    name, are moved from. *)
Theorem C215_range_refuted :
  forall (A : Type) (m : mode) (moved : A -> A) cap (c : circ A) (q xs : list A),
    ca_reached m cap c q -> length q + length xs <= cap ->
    exists c', ca_push_range_from m moved true c xs = Ok (c', map moved xs)
      /\ ca_elements c' = Ok (q ++ xs).
Proof.
  intros A m moved cap c q xs H Hf. apply ca_reached_holds in H. unfold ca_push_range_from.
  destruct (CircularArrayProofs.push_range_ok m cap c q xs H) as (c' & E & H' & _).
  rewrite E. cbn [bind].
  rewrite (CircularArrayProofs.holds_size _ _ _ H), (CircularArrayProofs.holds_capacity _ _ _ H).
  pose proof (CircularArrayProofs.h_len _ _ _ H).
  destruct (Nat.leb_spec (length xs) (cap - length q)); [|lia]. cbn [andb].
  exists c'. split; [reflexivity|]. rewrite (CircularArrayProofs.elements_ok _ _ _ H').
  destruct (Nat.leb_spec (length q + length xs) cap); [reflexivity|lia].
Qed.

(** [5; 6] of another container appended to [1] with room for four. *)
Example C215_range_case :
  exists c, ca_reached Tracked 4 c [1]
    /\ (let! r := ca_push_range_from Tracked (fun _ => 0) true c [5; 6] in
        let! xs := ca_elements (fst r) in Ok (xs, snd r)) = Ok ([1; 5; 6], [0; 0]).
Proof.
  eexists. split.
  - exists [CPush 1]. split; [right; cbn; repeat split; discriminate|]. split; vm_compute; reflexivity.
  - vm_compute; reflexivity.
Qed.

Print Assumptions C217_static_vector_partial.
Print Assumptions C217_static_vector_refuted.
Print Assumptions C217_vector_partial.
Print Assumptions C217_vector_refuted.
Print Assumptions C06_self_insert_refuted.
Print Assumptions C13_self_insert_refuted.
Print Assumptions C217_string_partial.
Print Assumptions C217_string_refuted.
Print Assumptions C217_list_partial.
Print Assumptions C217_circular_partial.
Print Assumptions C217_circular_refuted.
Print Assumptions C215_range_partial.
Print Assumptions C215_range_refuted.
