(** Properties C13 (sequence), C14 (growth), C15 (moved-from), C16 (copies), C56 (sized
    construction) and C57 (lifetimes) of Vector. *)
From Coq Require Import List Arith Lia Bool.
From Verif Require Import Base BaseLemmas Store StoreLemmas StaticVectorModel StaticVectorSpec
  StaticVectorProofs VectorModel VectorSpec VectorProofs.
Import ListNotations.

Lemma new_rep A : vec_new (A := A)
  = Vec (SVec (St (map (@Some A) [] ++ []) 0) (length (@nil A))) 0.
Proof. reflexivity. Qed.

(** For closed histories. *)
Ltac history := vm_compute; repeat (first [split | intro]); try reflexivity; try lia; try discriminate.

(** For closed computations with one unknown result. *)
Ltac compute_it := vm_compute; repeat (split; [reflexivity|]); reflexivity.

(** ** C13 *)

(** Trivially copyable elements, every history with valid positions that needs no growth
    from capacity 1 and no resize to exactly the capacity it gets (both fail in the code,
    see below): contents, size and capacity bound are right. *)
Theorem C13_sequence_partial :
  forall (A : Type) (moved : A -> A) (dflt : A) (mem : memory) (ops : list (vec_op A)) fuel,
    mem <> NoMemory -> vec_along dflt vec_valid 0 [] ops -> depth ops <= fuel ->
    exists v, vec_run Trivial moved dflt mem fuel vec_new ops = Ok v
      /\ vec_elements v = Ok (seq_run dflt ops)
      /\ vec_size v = length (seq_run dflt ops)
      /\ vec_size v <= vc_capacity v.
Proof.
  intros A moved dflt mem ops fuel Hmem Hv Hf. rewrite new_rep.
  destruct (run_ok' Trivial moved dflt mem Hmem fuel ops [] [] 0 0)
    as (c & r & k & E & L & _); auto.
  fold (seq_run dflt ops) in *.
  eexists. split; [exact E|]. split. { apply vec_elements_ok. }
  split; auto. unfold vec_size, vc_tail. cbn [vc_arr sv_tail vc_capacity]. lia.
Qed.

(** The same for elements with destructors, when no inner range is erased. *)
Theorem C13_sequence_objects_partial :
  forall (A : Type) (moved : A -> A) (dflt : A) (mem : memory) (ops : list (vec_op A)) fuel,
    mem <> NoMemory -> vec_along dflt vec_valid 0 [] ops ->
    vec_along dflt (fun _ => vec_tail_range) 0 [] ops -> depth ops <= fuel ->
    exists v, vec_run Tracked moved dflt mem fuel vec_new ops = Ok v
      /\ vec_elements v = Ok (seq_run dflt ops)
      /\ vec_size v = length (seq_run dflt ops)
      /\ vec_size v <= vc_capacity v.
Proof.
  intros A moved dflt mem ops fuel Hmem Hv Ht Hf. rewrite new_rep.
  destruct (run_ok' Tracked moved dflt mem Hmem fuel ops [] [] 0 0)
    as (c & r & k & E & L & _); auto.
  fold (seq_run dflt ops) in *.
  eexists. split; [exact E|]. split. { apply vec_elements_ok. }
  split; auto. unfold vec_size, vc_tail. cbn [vc_arr sv_tail vc_capacity]. lia.
Qed.

(** A condition that speaks of no capacity: histories of pushes, pops, insertions,
    erasures, clean and reserve, with valid positions, where the capacity is never brought
    to 1 by reserving 1 or inserting a range of one element. *)
Definition ordinary {A} (op : vec_op A) : Prop :=
  match op with
  | VResize _ => False
  | VReserve n => n <> 1
  | VInsertRange _ xs => length xs <> 1
  | _ => True
  end.
Fixpoint positions_valid {A} (dflt : A) (l : list A) (ops : list (vec_op A)) : Prop :=
  match ops with
  | [] => True
  | op :: ops => vec_valid_op l op /\ positions_valid dflt (seq_step dflt l op) ops
  end.

Lemma ordinary_valid A (dflt : A) ops : forall c l, c <> 1 -> Forall ordinary ops ->
  positions_valid dflt l ops -> vec_along dflt vec_valid c l ops.
Proof.
  induction ops as [|op ops IH]; intros c l Hc Ho Hp; cbn [vec_along]; auto.
  inversion Ho as [|? ? Ho1 Ho2]; subst. destruct Hp as [Hp1 Hp2].
  pose proof (grow_ne1 c Hc) as Hg. split.
  - split; auto. destruct op; cbn in *; auto.
  - apply IH; auto. destruct op; cbn [cap_step ordinary] in *; auto.
    1,2,3,5: destruct (_ <? _); auto.
    + destruct (Nat.leb_spec (length xs + length l) c); auto.
      destruct (Nat.eqb_spec (length xs) 0); auto. lia.
    + lia.
Qed.

Theorem C13_ordinary_histories :
  forall (A : Type) (moved : A -> A) (dflt : A) (mem : memory) (ops : list (vec_op A)),
    mem <> NoMemory -> Forall ordinary ops -> positions_valid dflt [] ops ->
    exists v, vec_run Trivial moved dflt mem 2 vec_new ops = Ok v
      /\ vec_elements v = Ok (seq_run dflt ops)
      /\ vec_size v = length (seq_run dflt ops)
      /\ vec_size v <= vc_capacity v.
Proof.
  intros A moved dflt mem ops Hmem Ho Hp. apply C13_sequence_partial; auto.
  - apply ordinary_valid; auto.
  - clear - Ho. induction Ho as [|op ops Ho1 Ho IH]; cbn; auto.
    fold (depth ops). destruct op; auto. contradiction.
Qed.

Example C13_case :
  let ops := [VPush 1; VPush 2; VInsert 1 7; VInsertRange 0 [4; 5]; VEmplace 5 9;
              VErase 1; VEraseRange 1 3; VPop; VReserve 20; VInsertRange 2 (repeat 3 20)] in
  Forall ordinary ops /\ positions_valid 0 [] ops /\ seq_run 0 ops = 4 :: 2 :: repeat 3 20
  /\ vec_along 0 vec_valid 0 [] ops
  /\ seq_run 0 (firstn 6 ops) = [4; 1; 7; 2; 9].
Proof.
  cbn zeta. split. { repeat constructor; cbn; lia. }
  split. { cbn. lia. } split; [reflexivity|]. split; [|reflexivity].
  apply ordinary_valid; [lia| |]. { repeat constructor; cbn; lia. } cbn. lia.
Qed.

Example C13_objects_case :
  let ops := [VPush 1; VPush 2; VPush 3; VErase 0; VEraseRange 1 2; VResize 5; VPush 4] in
  vec_along 0 vec_valid 0 [] ops /\ vec_along 0 (fun _ => vec_tail_range) 0 [] ops
  /\ seq_run 0 ops = [2; 0; 0; 0; 0; 4].
Proof. history. Qed.

(** resize to exactly the current capacity does nothing: the vector keeps its old size. *)
Theorem C13_resize_refuted :
  forall (A : Type) (m : mode) (dflt : A) (mem : memory) (v : vec A) fuel,
    vec_resize m dflt mem (S fuel) v (vc_capacity v) = Ok v.
Proof.
  intros A m dflt mem v fuel. cbn [vec_resize].
  destruct (vec_size v <? vc_capacity v); auto. rewrite Nat.ltb_irrefl. reflexivity.
Qed.

(** In particular a new vector resized to 8 stays empty. *)
Theorem C13_resize_fresh_refuted :
  forall (A : Type) (m : mode) (moved : A -> A) (dflt : A) (mem : memory) fuel,
    mem <> NoMemory ->
    exists v, vec_run m moved dflt mem (S (S fuel)) vec_new [VResize 8] = Ok v
      /\ vec_size v = 0 /\ seq_run dflt [VResize 8] = repeat dflt 8.
Proof.
  intros A m moved dflt mem fuel Hmem.
  destruct mem; [| |congruence]; eexists; compute_it.
Qed.

(** Pushing an element of the vector itself when it is full reads freed memory. *)
Theorem C13_self_push_refuted :
  forall (A : Type) (m : mode) (mem : memory) (l : list A) k i fuel,
    mem <> NoMemory -> length l <> 1 ->
    vec_pushBack_ref m mem (S (S fuel))
      (Vec (SVec (St (map Some l ++ []) k) (length l)) (length l)) (VOwn i) = UB.
Proof.
  intros A m mem l k i fuel Hmem Hl. cbn [vec_pushBack_ref].
  unfold vc_tail at 1. cbn [vc_arr sv_tail vc_capacity]. rewrite Nat.eqb_refl. cbn [negb].
  pose proof (grow_gt _ Hl) as Hg.
  destruct (reserve_ok m mem Hmem l [] k (grow (length l)) (length l)) as (r & k' & E & L & _).
  { cbn. lia. }
  rewrite next_capacity_grow, E. cbn [bind]. rewrite Nat.max_r in * by lia.
  unfold survive. cbn [vc_capacity vc_arr sv_tail]. unfold vc_tail. cbn [vc_arr sv_tail].
  destruct (Nat.eqb_spec (length l) (grow (length l))); [lia|].
  cbn [negb]. reflexivity.
Qed.

Example C13_self_push_case :
  exists v, vec_run Trivial id 0 Realloc 2 vec_new (map VPush [1; 2; 3; 4; 5; 6; 7; 8]) = Ok v
    /\ v = Vec (SVec (St (map Some [1; 2; 3; 4; 5; 6; 7; 8] ++ []) 0) 8) 8
    /\ vec_pushBack_ref Trivial Realloc 9 v (VOwn 0) = UB.
Proof. eexists. compute_it. Qed.

(** Inserting an element of the vector itself inserts another value (C13_self_insert_refuted,
    AliasProps.v). *)
Example C13_self_insert_case :
  exists v, vec_run Trivial id 0 Realloc 2 vec_new [VPush 1; VPush 2] = Ok v
    /\ vec_index v 1 = Ok 2
    /\ (let! w := vec_insert_ref Trivial id 0 Realloc 2 v 0 (VOwn 1) in vec_elements w)
       = Ok [1; 1; 2].
Proof. eexists. compute_it. Qed.

(** ** C14 *)

(** A full vector of capacity 1 can never grow: pushBack, insert and emplace recurse for
    ever. *)
Theorem C14_growth_refuted :
  forall (A : Type) (m : mode) (moved : A -> A) (dflt : A) (mem : memory) (x y : A) it fuel v,
    vec_copy m [x] = Ok v ->
    vec_pushBack m mem fuel v y = Diverge
    /\ vec_insert m moved dflt mem fuel v it y = Diverge
    /\ vec_emplace m moved dflt mem fuel v it y = Diverge.
Proof.
  intros A m moved dflt mem x y it fuel v E.
  rewrite vec_copy_ok in E. injection E as <-. cbn [length map app].
  assert (R : forall n, n <= 1 -> vec_reserve m mem (Vec (SVec (St [Some x] 0) 1) 1) n
              = Ok (Vec (SVec (St [Some x] 0) 1) 1)).
  { intros n Hn. unfold vec_reserve. cbn [vc_capacity].
    destruct (Nat.ltb_spec 1 n); [lia|reflexivity]. }
  repeat split.
  - unfold vec_pushBack. induction fuel as [|f IH]; [reflexivity|]. cbn [vec_pushBack_ref].
    unfold vc_tail at 1. cbn [vc_arr sv_tail vc_capacity Nat.eqb negb].
    rewrite R by (cbn; lia). exact IH.
  - unfold vec_insert. induction fuel as [|f IH]; [reflexivity|]. cbn [vec_insert_ref].
    unfold vec_size, vc_tail at 1. cbn [vc_arr sv_tail vc_capacity].
    rewrite R by (cbn; lia). exact IH.
  - induction fuel as [|f IH]; [reflexivity|]. cbn [vec_emplace].
    unfold vec_size, vc_tail at 1. cbn [vc_arr sv_tail vc_capacity].
    rewrite R by (cbn; lia). exact IH.
Qed.

(** Capacity 1 is also reached from a new vector. *)
Theorem C14_growth_reserved_refuted :
  forall (A : Type) (m : mode) (moved : A -> A) (dflt : A) (mem : memory) (x y : A) fuel,
    mem <> NoMemory ->
    vec_run m moved dflt mem fuel vec_new [VReserve 1; VPush x; VPush y] = Diverge
    /\ vec_run m moved dflt mem fuel vec_new [VInsertRange 0 [x]; VPush y] = Diverge.
Proof.
  intros A m moved dflt mem x y fuel Hmem.
  pose proof (C14_growth_refuted A m moved dflt mem x y 0 fuel) as H.
  rewrite vec_copy_ok in H. specialize (H _ eq_refl) as (H & _ & _).
  cbn [length map app] in H.
  destruct fuel as [|[|fuel]]; destruct mem; try congruence; destruct m; cbn -[vec_pushBack];
    split; auto;
    match goal with
    | |- context [vec_pushBack ?m ?mem (S ?f) (Vec (SVec (St [None] 0) 0) 1) x] =>
        change (vec_pushBack m mem (S f) (Vec (SVec (St [None] 0) 0) 1) x)
          with (Ok (Vec (SVec (St [Some x] 0) 1) 1))
    end; cbn [bind]; rewrite H; reflexivity.
Qed.

(** Without memory a full vector recurses for ever too (instead of reporting it). *)
Theorem C14_out_of_memory_refuted :
  forall (A : Type) (m : mode) (v : vec A) (x : A) fuel,
    vc_tail v = vc_capacity v -> vec_pushBack m NoMemory fuel v x = Diverge.
Proof.
  intros A m v x fuel Hv. unfold vec_pushBack. induction fuel as [|f IH]; [reflexivity|].
  cbn [vec_pushBack_ref]. rewrite Hv, Nat.eqb_refl. cbn [negb].
  unfold vec_reserve. destruct (_ <? _); cbn [bind survive]; exact IH.
Qed.

(** Every other vector that can be reached, from a new one or from a copy, grows and
    appends; two levels of recursion suffice. *)
Theorem C14_growth_partial :
  forall (A : Type) (m : mode) (moved : A -> A) (dflt : A) (mem : memory) (start : list A)
         (ops : list (vec_op A)) (x : A) fuel v0 v,
    mem <> NoMemory -> vec_along dflt vec_valid (length start) start ops ->
    m = Trivial \/ vec_along dflt (fun _ => vec_tail_range) (length start) start ops ->
    depth ops <= fuel ->
    vec_copy m start = Ok v0 -> vec_run m moved dflt mem fuel v0 ops = Ok v ->
    vc_capacity v <> 1 \/ vec_size v < vc_capacity v ->
    exists v', vec_pushBack m mem 2 v x = Ok v'
      /\ vec_elements v' = Ok (fold_left (seq_step dflt) ops start ++ [x])
      /\ vc_capacity v' = (if vec_size v <? vc_capacity v then vc_capacity v
                           else grow (vc_capacity v)).
Proof.
  intros A m moved dflt mem start ops x fuel v0 v Hmem Hv Ht Hf E0 E Hc.
  rewrite vec_copy_ok in E0. injection E0 as <-.
  destruct (run_ok' m moved dflt mem Hmem fuel ops start [] 0 (length start))
    as (c & r & k & E1 & L & _); auto.
  rewrite E in E1. injection E1 as ->.
  unfold vec_size, vc_tail in *. cbn [vc_arr sv_tail vc_capacity] in *.
  destruct (push_ok m mem Hmem _ r k c x 0 L) as (r' & k' & E' & L' & _); [lia|].
  eexists. split; [exact E'|]. split. { apply vec_elements_ok. } reflexivity.
Qed.

Example C14_case :
  exists v v', vec_copy Tracked [1; 2] = Ok v /\ vc_capacity v = 2
    /\ vec_pushBack Tracked Realloc 2 v 3 = Ok v' /\ vec_elements v' = Ok [1; 2; 3].
Proof. do 2 eexists. compute_it. Qed.

(** ** C15 *)

(** The target of a move has the contents, the source reports size 0 - but it still
    claims its old capacity, so the next push writes through a null pointer. *)
Theorem C15_moved_from_refuted :
  forall (A : Type) (m : mode) (mem : memory) (v : vec A) (x : A) fuel,
    0 < vc_capacity v ->
    vec_elements (fst (vec_move v)) = vec_elements v
    /\ vec_size (snd (vec_move v)) = 0
    /\ vec_pushBack m mem (S fuel) (snd (vec_move v)) x = UB.
Proof.
  intros A m mem v x fuel Hc. split; [reflexivity|]. split; [reflexivity|].
  unfold vec_pushBack, vec_move. cbn [snd vec_pushBack_ref vc_tail vc_capacity vc_arr sv_tail].
  unfold vc_tail. cbn [vc_arr sv_tail].
  destruct (vc_capacity v); [lia|]. reflexivity.
Qed.

(** ... and so does every other call that stores something where the source still claims to have
    room; only calls that store nothing leave it as it is. *)
Theorem C15_calls_refuted :
  forall (A : Type) (m : mode) (moved : A -> A) (dflt : A) (mem : memory) (v : vec A) (op : vec_op A) fuel,
    0 < vc_capacity v ->
    ((exists x, op = VPush x \/ op = VEmplaceBack x \/ op = VInsert 0 x \/ op = VEmplace 0 x)
     \/ (exists n, op = VResize n /\ 0 < n < vc_capacity v)
     \/ (exists x xs, op = VInsertRange 0 (x :: xs) /\ length xs < vc_capacity v) ->
     vec_step m moved dflt mem (S fuel) (snd (vec_move v)) op = UB)
    /\ (op = VClean \/ op = VEraseRange 0 0 \/ op = VInsertRange 0 [] \/ op = VResize 0
        \/ op = VResize (vc_capacity v) \/ (exists n, op = VReserve n /\ n <= vc_capacity v) ->
        vec_step m moved dflt mem (S fuel) (snd (vec_move v)) op = Ok (snd (vec_move v))).
Proof.
  intros A m moved dflt mem v op fuel Hc.
  unfold vec_move. cbn [snd]. destruct (vc_capacity v) as [|c]; [lia|]. split.
  - intros [(x & [->|[->|[->| ->]]])|[(n & -> & H1 & H2)|(x & xs & -> & H)]]; try reflexivity.
    + destruct n as [|n]; [lia|]. cbn [vec_step vec_resize].
      unfold vec_size, vc_tail, sv_size. cbn [vc_arr sv_tail vc_capacity].
      destruct (Nat.ltb_spec 0 (S n)); [|lia]. destruct (Nat.ltb_spec (S n) (S c)); [|lia]. reflexivity.
    + cbn [vec_step vec_insert_range length].
      unfold vec_size, vc_tail, sv_size. cbn [vc_arr sv_tail vc_capacity].
      rewrite Nat.add_0_r. destruct (Nat.leb_spec (S (length xs)) (S c)); [|lia]. reflexivity.
  - intros [->|[->|[->|[->|[->|(n & -> & H)]]]]]; try reflexivity; try (destruct m; reflexivity).
    + cbn [vec_step vec_resize]. unfold vec_size, vc_tail, sv_size. cbn [vc_arr sv_tail vc_capacity].
      destruct (Nat.ltb_spec 0 (S c)); [|lia]. rewrite Nat.ltb_irrefl. reflexivity.
    + cbn [vec_step]. unfold vec_reserve. cbn [vc_capacity].
      destruct (Nat.ltb_spec (S c) n); [lia|]. reflexivity.
Qed.

(** What is true: the contents move, the source is empty and can be destroyed; it can be
    used again only after reserving more than it had, or when it had no capacity. *)
Theorem C15_moved_from_partial :
  forall (A : Type) (m : mode) (moved : A -> A) (dflt : A) (mem : memory) (v : vec A) n
         (ops : list (vec_op A)) fuel,
    mem <> NoMemory -> vc_capacity v < n \/ (vc_capacity v = 0 /\ n = 0) ->
    vec_along dflt vec_valid n [] ops ->
    m = Trivial \/ vec_along dflt (fun _ => vec_tail_range) n [] ops ->
    depth ops <= fuel ->
    vec_elements (fst (vec_move v)) = vec_elements v
    /\ vec_elements (snd (vec_move v)) = Ok []
    /\ vec_destructor m (snd (vec_move v)) = Ok 0
    /\ exists w, vec_run m moved dflt mem fuel (snd (vec_move v)) (VReserve n :: ops) = Ok w
                 /\ vec_elements w = Ok (seq_run dflt ops).
Proof.
  intros A m moved dflt mem v n ops fuel Hmem Hn Hv Ht Hf.
  split; [reflexivity|]. split; [reflexivity|]. split; [reflexivity|].
  assert (exists rest, vec_reserve m mem (snd (vec_move v)) n
            = Ok (Vec (SVec (St (map (@Some A) [] ++ rest) 0) (length (@nil A))) n)
            /\ length rest = n) as (rest & E & L).
  { unfold vec_move, vec_reserve. cbn [snd vc_capacity].
    destruct Hn as [Hn|[Hc ->]].
    - destruct (Nat.ltb_spec (vc_capacity v) n); [|lia]. exists (raw A n). split.
      + destruct mem; [| |congruence]; cbn.
        * rewrite Nat.sub_0_r. reflexivity.
        * rewrite Nat.sub_0_r. destruct m; reflexivity.
      + unfold raw. apply repeat_length.
    - rewrite Hc. cbn. exists []. auto. }
  cbn [vec_run vec_step]. rewrite E. cbn [bind].
  destruct (run_ok' m moved dflt mem Hmem fuel ops [] rest 0 n)
    as (c & r & k & E1 & L1 & _); auto.
  eexists. split; [exact E1|]. apply vec_elements_ok.
Qed.

Example C15_case :
  exists v, vec_run Tracked id 0 Realloc 2 vec_new [VPush 1; VPush 2] = Ok v
    /\ vc_capacity v = 8
    /\ (let! w := vec_run Tracked id 0 Realloc 2 (snd (vec_move v)) [VReserve 9; VPush 5] in
        vec_elements w) = Ok [5].
Proof. eexists. compute_it. Qed.

(** ** C16 *)

(** A copy has the contents, and behaves from then on as a sequence starting with them.
    (The copy has its own memory, so the source is not involved any more.) *)
Theorem C16_copy_partial :
  forall (A : Type) (m : mode) (moved : A -> A) (dflt : A) (mem : memory) (v : vec A) xs
         (ops : list (vec_op A)) fuel,
    mem <> NoMemory -> vec_elements v = Ok xs ->
    vec_along dflt vec_valid (length xs) xs ops ->
    m = Trivial \/ vec_along dflt (fun _ => vec_tail_range) (length xs) xs ops ->
    depth ops <= fuel ->
    exists w w', vec_copy m xs = Ok w /\ vec_elements w = Ok xs /\ vec_size w = length xs
      /\ vec_run m moved dflt mem fuel w ops = Ok w'
      /\ vec_elements w' = Ok (fold_left (seq_step dflt) ops xs).
Proof.
  intros A m moved dflt mem v xs ops fuel Hmem _ Hv Ht Hf.
  eexists. rewrite vec_copy_ok.
  destruct (run_ok' m moved dflt mem Hmem fuel ops xs [] 0 (length xs))
    as (c & r & k & E1 & L1 & _); auto.
  eexists. split; [reflexivity|]. split. { apply vec_elements_ok. }
  split; [reflexivity|]. split; [exact E1|]. apply vec_elements_ok.
Qed.

(** Assignment: when the target has room it ends up empty, whatever is assigned. *)
Theorem C16_assignment_refuted :
  forall (A : Type) (mem : memory) (l xs : list A) rest k fuel,
    length xs <= length l + length rest ->
    exists v, vec_assign Trivial mem (S fuel)
                (Vec (SVec (St (map Some l ++ rest) k) (length l)) (length l + length rest)) xs
              = Ok v
      /\ vec_elements v = Ok [].
Proof.
  intros A mem l xs rest k fuel H. cbn [vec_assign vc_capacity].
  destruct (Nat.ltb_spec (length l + length rest) (length xs)); [lia|].
  unfold vec_clean. cbn [vc_arr].
  destruct (clean_ok Trivial (length l + length rest) l rest k eq_refl) as (r' & k' & E & L & _).
  unfold vec_lift. rewrite E. cbn [bind]. unfold vc_store, vc_tail.
  cbn [vc_arr sv_store sv_tail vc_capacity map app length] in *.
  destruct (split_at r' (length xs)) as (g & r2 & -> & Lg); [lia|].
  pose proof (assign_list_ok Trivial xs g [] r2 k' 0) as HA. cbn [app length] in HA.
  rewrite HA; auto.
  - cbn [bind]. eexists. split; [reflexivity|]. reflexivity.
  - clear. induction g; constructor; auto. left; reflexivity.
Qed.

(** When it has some capacity, but too little, assignment never returns. *)
Theorem C16_assignment_diverges_refuted :
  forall (A : Type) (m : mode) (mem : memory) (xs : list A) fuel l rest k,
    mem <> NoMemory ->
    0 < length l + length rest < length xs ->
    vec_assign m mem fuel
      (Vec (SVec (St (map Some l ++ rest) k) (length l)) (length l + length rest)) xs = Diverge.
Proof.
  intros A m mem xs fuel. induction fuel as [|f IH]; intros l rest k Hmem Hc; auto.
  cbn [vec_assign vc_capacity].
  destruct (Nat.ltb_spec (length l + length rest) (length xs)); [|lia].
  destruct (reserve_ok m mem Hmem l rest k (length xs - (length l + length rest))
              (length l + length rest) eq_refl) as (r' & k' & E & L & _).
  rewrite E. cbn [bind]. rewrite <- L. apply IH; auto. lia.
Qed.

(** Elements with destructors are assigned into raw memory. *)
Theorem C16_assignment_objects_refuted :
  forall (A : Type) (mem : memory) (l : list A) x xs rest k fuel,
    all_raw rest -> length (x :: xs) <= length l + length rest ->
    vec_assign Tracked mem (S fuel)
      (Vec (SVec (St (map Some l ++ rest) k) (length l)) (length l + length rest)) (x :: xs)
    = UB.
Proof.
  intros A mem l x xs rest k fuel HR H. cbn [vec_assign vc_capacity].
  destruct (Nat.ltb_spec (length l + length rest) (length (x :: xs))); [lia|].
  unfold vec_clean. cbn [vc_arr].
  destruct (clean_ok Tracked (length l + length rest) l rest k eq_refl) as (r' & k' & E & L & C).
  destruct (C eq_refl I HR) as [HR' ->].
  unfold vec_lift. rewrite E. cbn [bind]. unfold vc_store, vc_tail.
  cbn [vc_arr sv_store sv_tail vc_capacity map app length] in *.
  destruct r' as [|c r']; [cbn in *; lia|]. inversion HR' as [|? ? Hr _]; subst.
  reflexivity.
Qed.

Example C16_case :
  vec_assign Trivial Realloc 9 vec_new [1; 2; 3]
  = Ok (Vec (SVec (St [Some 1; Some 2; Some 3] 0) 0) 3)
  /\ exists v w, vec_copy Trivial [7] = Ok v /\ vec_assign Trivial Realloc 50 v [1; 2; 3] = Diverge
       /\ vec_copy Trivial [1; 2] = Ok w /\ vec_elements w = Ok [1; 2].
Proof. split; [reflexivity|]. do 2 eexists. compute_it. Qed.

(** ** C56 *)

(** A vector constructed with a size has half as many elements again. *)
Theorem C56_sized_construction_refuted :
  forall (A : Type) (m : mode) (dflt : A) n, 2 <= n ->
    exists v, vec_of_size m dflt n = Ok v
      /\ vec_elements v = Ok (repeat dflt (n * 3 / 2)) /\ vec_size v <> n.
Proof.
  intros A m dflt n Hn. unfold vec_of_size.
  pose proof (construct_dflt_ok m dflt (raw A (n * 3 / 2)) [] [] 0 (n * 3 / 2) 0) as H.
  cbn [app] in H. rewrite app_nil_r in H. rewrite H; auto.
  2:{ unfold raw. rewrite repeat_length. reflexivity. }
  cbn [bind]. eexists. split; [reflexivity|]. split.
  - unfold vec_elements, vc_tail, vc_store. cbn [vc_arr sv_tail sv_store].
    pose proof (load_range_ok (repeat dflt (n * 3 / 2)) [] []
                  (leaks_of m (raw A (n * 3 / 2)) + 0) (n * 3 / 2) 0) as HL.
    cbn [app] in HL. rewrite app_nil_r in HL.
    assert (map Some (repeat dflt (n * 3 / 2)) = repeat (Some dflt) (n * 3 / 2)) as Em.
    { clear. induction (n * 3 / 2); cbn; congruence. }
    rewrite Em in HL. rewrite app_nil_r. apply HL; auto. rewrite repeat_length. reflexivity.
  - unfold vec_size, vc_tail. cbn [vc_arr sv_tail].
    assert (n + 1 <= n * 3 / 2); [|lia]. apply Nat.div_le_lower_bound; lia.
Qed.

Theorem C56_sized_construction_partial :
  forall (A : Type) (m : mode) (dflt : A) n, n <= 1 ->
    exists v, vec_of_size m dflt n = Ok v /\ vec_elements v = Ok (repeat dflt n).
Proof.
  intros A m dflt [|[|n]] H; [| |lia]; eexists; split; reflexivity.
Qed.

(** ** C57 *)

(** Histories that erase or emplace nothing inside destroy every element exactly once:
    nothing is overwritten while alive and nothing alive is freed. *)
Theorem C57_lifetimes_partial :
  forall (A : Type) (moved : A -> A) (dflt : A) (mem : memory) (ops : list (vec_op A)) fuel,
    mem <> NoMemory -> vec_along dflt vec_valid 0 [] ops ->
    vec_along dflt (fun _ => vec_no_leak) 0 [] ops -> depth ops <= fuel ->
    exists v, vec_run Tracked moved dflt mem fuel vec_new ops = Ok v
      /\ vec_destructor Tracked v = Ok 0.
Proof.
  intros A moved dflt mem ops fuel Hmem Hv Hn Hf. rewrite new_rep.
  assert (Ht : forall ops c (l : list A), vec_along dflt (fun _ => vec_no_leak) c l ops ->
            vec_along dflt (fun _ => vec_tail_range) c l ops).
  { clear. induction ops as [|op ops IH]; intros c l H; cbn in *; auto.
    destruct H as [H1 H2]. split; auto. destruct op; cbn in *; auto. }
  destruct (run_ok' Tracked moved dflt mem Hmem fuel ops [] [] 0 0)
    as (c & r & k & E & L & C); auto.
  destruct (C eq_refl Hn) as [HR ->]. { constructor. }
  eexists. split; [exact E|]. apply vec_destructor_ok; auto.
Qed.

Example C57_case :
  let ops := [VPush 1; VPush 2; VInsert 0 3; VInsertRange 1 [4; 5]; VPop; VErase 3;
              VEraseRange 1 3; VEmplace 1 7; VResize 20; VClean; VPush 6] in
  vec_along 0 vec_valid 0 [] ops /\ vec_along 0 (fun _ => vec_no_leak) 0 [] ops.
Proof. history. Qed.

(** Erasing an inner element, or emplacing one, leaves an object that is never destroyed. *)
Theorem C57_lifetimes_refuted :
  forall (A : Type) (moved : A -> A) (dflt a b : A) (mem : memory) fuel, mem <> NoMemory ->
    (exists v, vec_run Tracked moved dflt mem (S (S fuel)) vec_new [VPush a; VPush b; VErase 0]
               = Ok v /\ vec_elements v = Ok [b] /\ vec_destructor Tracked v = Ok 1)
    /\ (exists v, vec_run Tracked moved dflt mem (S (S fuel)) vec_new [VPush a; VEmplace 0 b]
                  = Ok v /\ vec_elements v = Ok [b; a] /\ vec_destructor Tracked v = Ok 1).
Proof.
  intros A moved dflt a b mem fuel Hmem.
  destruct mem; [| |congruence]; split; eexists; compute_it.
Qed.

(** Erasing an inner range assigns to destroyed objects, in every reachable state. *)
Theorem C57_range_erase_refuted :
  forall (A : Type) (moved : A -> A) (dflt : A) (mem : memory) (ops : list (vec_op A)) fuel b e v,
    mem <> NoMemory -> vec_along dflt vec_valid 0 [] ops ->
    vec_along dflt (fun _ => vec_tail_range) 0 [] ops -> depth ops <= fuel ->
    vec_run Tracked moved dflt mem fuel vec_new ops = Ok v ->
    b < e -> e < length (seq_run dflt ops) ->
    vec_erase_range Tracked moved v b e = UB.
Proof.
  intros A moved dflt mem ops fuel b e v Hmem Hv Ht Hf E Hb He. rewrite new_rep in E.
  destruct (run_ok' Tracked moved dflt mem Hmem fuel ops [] [] 0 0)
    as (c & r & k & E1 & L & _); auto.
  rewrite E in E1. injection E1 as ->. fold (seq_run dflt ops).
  unfold vec_erase_range, vec_lift. cbn [vc_arr].
  rewrite erase_range_UB; auto.
Qed.

Example C57_range_erase_case :
  let ops := [VPush 1; VPush 2; VPush 3] in
  vec_along 0 vec_valid 0 [] ops /\ vec_along 0 (fun _ => vec_tail_range) 0 [] ops
  /\ 2 < length (seq_run 0 ops).
Proof. history. Qed.

Print Assumptions C13_sequence_partial.
Print Assumptions C13_sequence_objects_partial.
Print Assumptions C13_ordinary_histories.
Print Assumptions C13_resize_refuted.
Print Assumptions C13_resize_fresh_refuted.
Print Assumptions C13_self_push_refuted.
Print Assumptions C14_growth_refuted.
Print Assumptions C14_growth_reserved_refuted.
Print Assumptions C14_out_of_memory_refuted.
Print Assumptions C14_growth_partial.
Print Assumptions C15_moved_from_refuted.
Print Assumptions C15_calls_refuted.
Print Assumptions C15_moved_from_partial.
Print Assumptions C16_copy_partial.
Print Assumptions C16_assignment_refuted.
Print Assumptions C16_assignment_diverges_refuted.
Print Assumptions C16_assignment_objects_refuted.
Print Assumptions C56_sized_construction_refuted.
Print Assumptions C56_sized_construction_partial.
Print Assumptions C57_lifetimes_partial.
Print Assumptions C57_lifetimes_refuted.
Print Assumptions C57_range_erase_refuted.
