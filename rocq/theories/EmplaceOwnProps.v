(** C217: Vector::emplace with an element of the vector itself. *)
From Coq Require Import List Arith Lia Bool.
From Verif Require Import Base BaseLemmas Store StoreLemmas StaticVectorModel StaticVectorSpec
  VectorModel VectorSpec VectorProofs AliasModel AliasSpec AliasProofs AliasProps EmplaceOwnModel.
Import ListNotations.

Section Emplace.
  Context {A : Type}.
  Variable m : mode.
  Variable moved : A -> A.
  Variable dflt : A.
  Variable mem : memory.

  Lemma load_range_cells : forall n lo (s s' : store A), st_cells s = st_cells s' ->
    load_range n lo s = load_range n lo s'.
  Proof.
    induction n as [|n IH]; intros lo s s' E; cbn [load_range]; [reflexivity|].
    unfold st_load. rewrite E. destruct (nth_error (st_cells s') lo) as [[x|]|]; cbn [bind]; try reflexivity.
    rewrite (IH (S lo) s s' E). reflexivity.
  Qed.

  Lemma construct_like_assign (s s' : store A) i x : st_assign m s i x = Ok s' ->
    exists s2, st_construct m s i x = Ok s2 /\ st_cells s2 = st_cells s'.
  Proof.
    unfold st_assign, st_construct. destruct (nth_error (st_cells s) i) as [c|]; [|discriminate].
    intros E. eexists. split; [reflexivity|]. cbn [st_cells].
    destruct m, c; try discriminate; injection E as <-; reflexivity.
  Qed.

  (** Where insert works and the argument is not at the position, emplace leaves the same. *)
  Lemma emplace_like_insert : forall fuel (v v' : vec A) it r xs,
    match r with VOwn j => j <> it \/ it = vc_tail v /\ vec_size v < vc_capacity v \/ m = Trivial | _ => True end ->
    vec_insert_ref m moved dflt mem fuel v it r = Ok v' -> vec_elements v' = Ok xs ->
    exists v2, vec_emplace_ref m moved dflt mem fuel v it r = Ok v2 /\ vec_elements v2 = Ok xs.
  Proof.
    induction fuel as [|f IH]; intros v v' it r xs D; cbn [vec_insert_ref vec_emplace_ref]; [discriminate|].
    destruct (Nat.ltb_spec (vec_size v) (vc_capacity v)) as [L|L].
    - destruct (Nat.eqb_spec it (vc_tail v)) as [EI|NI]; [eauto|].
      destruct (st_construct m (vc_store v) (vc_tail v) dflt) as [s| |]; cbn [bind]; try discriminate.
      destruct (shift_right m moved (vc_tail v - it) it 1 s) as [s1| |]; cbn [bind]; try discriminate.
      intros H EX.
      assert (X : read_while_at m (Vec (SVec s1 (vc_tail v)) (vc_capacity v)) it r
                  = vref_value (Vec (SVec s1 (vc_tail v)) (vc_capacity v)) r).
      { unfold read_while_at. destruct r as [x|j|]; [reflexivity| |reflexivity]. destruct m; [reflexivity|].
        destruct (Nat.eqb_spec j it) as [->|]; [|reflexivity]. destruct D as [D|[(D & _)|D]]; congruence. }
      rewrite X. destruct (vref_value (Vec (SVec s1 (vc_tail v)) (vc_capacity v)) r) as [x| |]; cbn [bind] in *; try discriminate.
      destruct (st_assign m s1 it x) as [s2| |] eqn:EA; cbn [bind] in H; try discriminate.
      destruct (construct_like_assign _ _ _ _ EA) as (s3 & -> & EC). cbn [bind]. eexists. split; [reflexivity|].
      injection H as <-. rewrite <- EX. unfold vec_elements, vc_tail, vc_store. cbn [vc_arr sv_tail sv_store].
      now apply load_range_cells.
    - destruct (vec_reserve m mem v (next_capacity (vc_capacity v))) as [v1| |]; cbn [bind]; try discriminate.
      apply IH. destruct r as [x|j|]; cbn [survive]; auto.
      destruct (vc_capacity v =? vc_capacity v1); auto. destruct D as [D|[(_ & D)|D]]; auto. lia.
  Qed.
End Emplace.

(** For all element types, all reachable vectors with room, all elements of them: emplaced at the end,
    or behind the position of the element, the element itself arrives. *)
Theorem C217_emplace_partial :
  forall (A : Type) (m : mode) (moved : A -> A) (dflt : A) (mem : memory) (v : vec A) (l : list A) fuel it j x,
    vec_reached m moved dflt mem v l -> 0 < fuel -> length l < vc_capacity v ->
    it <= length l -> nth_error l j = Some x -> it = length l \/ j < it ->
    exists v', vec_emplace_ref m moved dflt mem fuel v it (VOwn j) = Ok v'
      /\ vec_elements v' = Ok (insert_at it [x] l).
Proof.
  intros A m moved dflt mem v l fuel it j x H F R Hi Hx D.
  destruct (C217_vector_partial A m moved dflt mem v l fuel H F) as (_ & P & _).
  destruct (P it j x Hi Hx D R) as (v' & E & EX).
  apply (emplace_like_insert m moved dflt mem fuel v v' it (VOwn j) (insert_at it [x] l)); auto.
  left. assert (j < length l) by (apply nth_error_Some; congruence). lia.
Qed.

(** Before its own position, the element before it arrives instead; at its own position a trivial type
    finds what moving left there, and with any other type the new object is made from itself; a full
    vector reads memory it has given back. *)
Theorem C217_emplace_refuted :
  forall (A : Type) (m : mode) (moved : A -> A) (dflt : A) (mem : memory) (v : vec A) (l : list A) it fuel,
    vec_reached m moved dflt mem v l -> it <= length l -> 2 <= fuel ->
    (forall j x, it < j < length l -> nth_error l (j - 1) = Some x -> length l < vc_capacity v ->
       exists v', vec_emplace_ref m moved dflt mem fuel v it (VOwn j) = Ok v'
         /\ vec_elements v' = Ok (insert_at it [x] l))
    /\ (forall x, nth_error l it = Some x -> length l < vc_capacity v ->
       match m with
       | Trivial => exists v', vec_emplace_ref m moved dflt mem fuel v it (VOwn it) = Ok v'
                      /\ vec_elements v' = Ok (insert_at it [moved x] l)
       | Tracked => vec_emplace_ref m moved dflt mem fuel v it (VOwn it) = UB
       end)
    /\ (forall j, length l = vc_capacity v -> length l <> 1 ->
       vec_emplace_ref m moved dflt mem fuel v it (VOwn j) = UB).
Proof.
  intros A m moved dflt mem v l it fuel H Hi F.
  assert (RP := C217_vector_refuted A m moved dflt mem v l it fuel H Hi F).
  split; [|split].
  - intros j x Hj Hx R. destruct RP as (_ & _ & P). destruct (P ltac:(lia)) as (P1 & _).
    destruct (P1 j x Hj Hx R) as (v' & E & EX).
    apply (emplace_like_insert m moved dflt mem fuel v v' it (VOwn j) (insert_at it [x] l)); auto. left. lia.
  - intros x Hx R. assert (Hl : it < length l) by (apply nth_error_Some; congruence).
    destruct RP as (_ & _ & P). destruct (P Hl) as (_ & P2 & _).
    destruct (P2 x Hx R) as (v' & E & EX).
    destruct m eqn:EM.
    1:{ apply (emplace_like_insert Trivial moved dflt mem fuel v v' it (VOwn it) (insert_at it [moved x] l)); auto. }
    apply vec_reached_rep in H. destruct H as (Hmem & rest & k & c & -> & Hc). cbn [vc_capacity] in R.
    destruct fuel as [|f]; [lia|]. cbn [vec_insert_ref vec_emplace_ref] in *.
    unfold vec_size, vc_tail in *. cbn [vc_arr sv_tail vc_capacity] in *.
    destruct (Nat.ltb_spec (length l) c); [|lia]. destruct (Nat.eqb_spec it (length l)); [lia|].
    destruct (st_construct Tracked _ (length l) dflt) as [s| |]; cbn [bind] in *; try discriminate.
    destruct (shift_right Tracked moved (length l - it) it 1 s) as [s1| |]; cbn [bind] in *; try discriminate.
    cbn [read_while_at]. rewrite Nat.eqb_refl. reflexivity.
  - intros j Hf H1. destruct fuel as [|[|f]]; [lia|lia|].
    apply vec_reached_rep in H. destruct H as (Hmem & rest & k & c & -> & Hc). cbn [vc_capacity] in Hf.
    assert (rest = []) as -> by (destruct rest; auto; cbn in Hc; lia).
    pose proof (grow_gt _ H1) as Hg. clear Hc. subst c.
    destruct (reserve_ok m mem Hmem l [] k (grow (length l)) (length l)) as (r & k' & E & L & _).
    { cbn. lia. }
    rewrite Nat.max_r in E, L by lia.
    cbn [vec_emplace_ref]. unfold vec_size at 1, vc_tail at 1. cbn [vc_arr sv_tail vc_capacity].
    rewrite Nat.ltb_irrefl.
    rewrite next_capacity_grow, E. cbn [bind]. unfold survive. cbn [vc_capacity].
    destruct (Nat.eqb_spec (length l) (grow (length l))); [lia|].
    unfold vec_size, vc_tail. cbn [vc_arr sv_tail].
    destruct (Nat.ltb_spec (length l) (grow (length l))); [|lia].
    destruct (Nat.eqb_spec it (length l)) as [->|Hn].
    + cbn [vec_pushBack_ref vref_value bind]. unfold vc_tail. cbn [vc_arr sv_tail vc_capacity].
      destruct (Nat.eqb_spec (length l) (grow (length l))); [lia|]. reflexivity.
    + destruct (open_gap m moved dflt (grow (length l)) l r k' it 1 L) as (gap & r' & k2 & E2 & _); try lia.
      cbn [construct_dflt] in E2. unfold vc_store. cbn [vc_arr sv_store].
      destruct (st_construct m (St (map Some l ++ r) k') (length l) dflt) as [s1| |];
        cbn [bind] in E2 |- *; try discriminate.
      rewrite E2. destruct m; reflexivity.
Qed.

(** With an argument from outside it is the emplace of VectorModel. *)
Theorem C217_emplace_same : forall (A : Type) m moved (dflt : A) mem fuel v it x,
  vec_emplace_ref m moved dflt mem fuel v it (VExt x) = vec_emplace m moved dflt mem fuel v it x.
Proof.
  intros A m moved dflt mem. induction fuel as [|f IH]; intros v it x; cbn [vec_emplace_ref vec_emplace]; [reflexivity|].
  destruct (vec_size v <? vc_capacity v).
  - destruct (it =? vc_tail v); [reflexivity|].
    destruct (st_construct m (vc_store v) (vc_tail v) dflt) as [s| |]; cbn [bind]; reflexivity.
  - destruct (vec_reserve m mem v (next_capacity (vc_capacity v))) as [v1| |]; cbn [bind survive]; auto.
Qed.

(** [7; 8; 9] with room. *)
Example C217_emplace_case :
  exists w, vec_run Tracked (fun _ => 0) 0 Realloc 4 vec_new [VReserve 9; VPush 7; VPush 8; VPush 9] = Ok w
    /\ vec_reached Tracked (fun _ => 0) 0 Realloc w [7; 8; 9]
    /\ (let! u := vec_emplace_ref Tracked (fun _ => 0) 0 Realloc 3 w 2 (VOwn 0) in vec_elements u) = Ok [7; 8; 7; 9]
    /\ (let! u := vec_emplace_ref Tracked (fun _ => 0) 0 Realloc 3 w 0 (VOwn 2) in vec_elements u) = Ok [8; 7; 8; 9]
    /\ vec_emplace_ref Tracked (fun _ => 0) 0 Realloc 3 w 1 (VOwn 1) = UB.
Proof.
  eexists. split; [vm_compute; reflexivity|]. split.
  - split; [discriminate|]. exists [VReserve 9; VPush 7; VPush 8; VPush 9], 4.
    split; [computed|]. split; [right; computed|]. split; [vm_compute; lia|]. split; vm_compute; reflexivity.
  - split; [vm_compute; reflexivity|]. split; vm_compute; reflexivity.
Qed.

Print Assumptions C217_emplace_partial.
Print Assumptions C217_emplace_refuted.
Print Assumptions C217_emplace_same.
