(** Theorems about String: C20, C21, C59. *)
From Coq Require Import List Arith ZArith Bool Lia.
From Verif Require Import Base BaseLemmas Store StringModel StringSpec StringProofs.
Import ListNotations.

Section Helpers.
  Context {A : Type}.
  Variable nul : A.
  Variable is_nul : A -> bool.

  Lemma str_run_app : forall fuel os1 os2 s,
    str_run nul is_nul fuel s (os1 ++ os2)
    = let! s := str_run nul is_nul fuel s os1 in str_run nul is_nul fuel s os2.
  Proof.
    intros fuel os1 os2. induction os1 as [|o os1 IH]; intros s; [reflexivity|].
    cbn [app str_run]. destruct (str_step nul is_nul fuel s o); cbn; auto.
  Qed.

  Lemma history_ok : forall fuel c os k, ctor_documented is_nul c ->
    str_documented_run is_nul (str_seq_ctor is_nul c) os ->
    str_cap_run is_nul (str_seq_ctor is_nul c) (str_cap_ctor is_nul c) os = Some k -> 4 <= fuel ->
    exists s, str_history nul is_nul fuel c os = Ok s
      /\ rep nul s (str_seq_run is_nul (str_seq_ctor is_nul c) os) k.
  Proof.
    intros fuel c os k Dc D C F. destruct (build_ok nul is_nul c Dc) as (s & E & R).
    unfold str_history. rewrite E. cbn [bind]. apply (run_ok nul is_nul fuel os s _ _ k R D C F).
  Qed.
End Helpers.

(** C20 and C21, proved part. For every construction and every history of documented calls
    that never hits one of the capacities at which a call goes wrong ([str_cap_run] is the
    exact capacity), the string is the documented sequence of characters, terminated, inside
    its buffer. *)
Theorem C20_string_partial :
  forall (A : Type) (nul : A) (is_nul : A -> bool) (c : str_ctor A) (os : list (str_op A))
         (cap fuel : nat),
    ctor_documented is_nul c ->
    str_documented_run is_nul (str_seq_ctor is_nul c) os ->
    str_cap_run is_nul (str_seq_ctor is_nul c) (str_cap_ctor is_nul c) os = Some cap ->
    4 <= fuel ->
    exists s, str_history nul is_nul fuel c os = Ok s
      /\ holds nul s (str_seq_run is_nul (str_seq_ctor is_nul c) os) cap.
Proof.
  intros A nul is_nul c os cap fuel Dc D C F.
  destruct (history_ok nul is_nul fuel c os cap Dc D C F) as (s & E & R).
  exists s. split; [exact E|]. apply rep_holds. exact R.
Qed.

Example C20_string_case :
  let z := Nat.eqb 0 in
  let os := [SReserve 2; SPush 5; SInsert 1 6; SPushRaw (Some [7; 8; 0; 9]); SPushMove 4;
             SInsertRange 2 [1; 2]; SErase 0; SEraseRange 1 3; SPop; SInsertMove 0 3;
             SInsertRaw 1 (Some [5; 0]); SPushRaw None] in
  str_documented_run z [1; 2] os
  /\ str_cap_run z [1; 2] 3 os = Some 12
  /\ str_seq_run z [1; 2] os = [3; 5; 6; 2; 5; 7; 8].
Proof.
  cbn -[Z.pow]. repeat split; try (exists 0; cbn; tauto); try lia.
Qed.

(** C20, refutation; together with the previous theorem this says exactly which calls go
    wrong. After every such history every documented call that [str_cap_step] marks writes
    outside the buffer or through null, or - the two insertions of a range - never
    returns. *)
Theorem C20_string_refuted :
  forall (A : Type) (nul : A) (is_nul : A -> bool) (c : str_ctor A) (os : list (str_op A))
         (o : str_op A) (cap fuel : nat),
    let l := str_seq_run is_nul (str_seq_ctor is_nul c) os in
    ctor_documented is_nul c ->
    str_documented_run is_nul (str_seq_ctor is_nul c) os ->
    str_cap_run is_nul (str_seq_ctor is_nul c) (str_cap_ctor is_nul c) os = Some cap ->
    str_documented is_nul l o ->
    str_cap_step is_nul (length l) cap o = None ->
    4 <= fuel ->
    match o with
    | SInsertRange _ _ | SInsertRaw _ _ => str_history nul is_nul fuel c (os ++ [o]) = Diverge
    | _ => str_history nul is_nul fuel c (os ++ [o]) = UB
    end.
Proof.
  intros A nul is_nul c os o cap fuel l Dc D C Do Co F.
  destruct (history_ok nul is_nul fuel c os cap Dc D C F) as (s & E & R).
  pose proof (step_bad nul is_nul fuel s _ cap o R Do Co F) as B.
  assert (H : str_history nul is_nul fuel c (os ++ [o])
              = let! s := str_step nul is_nul fuel s o in Ok s).
  { unfold str_history in *. destruct (str_build nul is_nul c) as [s0| |]; try discriminate.
    cbn [bind] in *. rewrite str_run_app, E. reflexivity. }
  rewrite H. destruct o; rewrite B; reflexivity.
Qed.

(** Concrete calls that go wrong: the first character pushed to a new string; a character
    pushed to a string made from a literal; a text inserted into a new string; a range
    inserted into a string that has to grow for it; assigning null; reserve(0) on a new
    string. *)
Example C20_string_refuted_case :
  let z := Nat.eqb 0 in
  str_cap_step z 0 0 (SPush 1) = None
  /\ str_cap_step z 2 3 (SPush 1) = None
  /\ str_cap_step z 0 1 (SPushMove 1) = None
  /\ str_cap_step z 0 0 (SInsertRaw 0 (Some [5; 0])) = None
  /\ str_cap_step z 2 3 (SInsertRange 1 [4; 5]) = None
  /\ str_cap_step z 2 3 (SAssignRaw None) = None
  /\ str_cap_step (A := nat) z 0 0 (SReserve 0) = None
  /\ str_history 0 z 10 (CRaw (Some [7; 8; 0])) [SPush 1] = UB
  /\ str_history 0 z 10 CDefault [SPushMove 1] = UB
  /\ str_history 0 z 10 CDefault [SInsertRange 0 [1; 2]] = Diverge.
Proof. repeat split; vm_compute; reflexivity. Qed.

(** C21, proved part: copy construction, and going on with the copy. *)
Theorem C21_copy_partial :
  forall (A : Type) (nul : A) (is_nul : A -> bool) (c : str_ctor A) (os os2 : list (str_op A))
         (cap cap2 fuel : nat),
    let l := str_seq_run is_nul (str_seq_ctor is_nul c) os in
    ctor_documented is_nul c ->
    str_documented_run is_nul (str_seq_ctor is_nul c) os ->
    str_cap_run is_nul (str_seq_ctor is_nul c) (str_cap_ctor is_nul c) os = Some cap ->
    str_documented_run is_nul l os2 ->
    str_cap_run is_nul l (length l + 1) os2 = Some cap2 ->
    4 <= fuel ->
    exists s s1 s2, str_history nul is_nul fuel c os = Ok s
      /\ str_copy nul s = Ok s1
      /\ holds nul s1 l (length l + 1)
      /\ str_run nul is_nul fuel s1 os2 = Ok s2
      /\ holds nul s2 (str_seq_run is_nul l os2) cap2.
Proof.
  intros A nul is_nul c os os2 cap cap2 fuel l Dc D C D2 C2 F.
  destruct (history_ok nul is_nul fuel c os cap Dc D C F) as (s & E & R).
  destruct (copy_ok nul s _ _ R) as (s1 & E1 & R1).
  destruct (run_ok nul is_nul fuel os2 s1 _ _ cap2 R1 D2 C2 F) as (s2 & E2 & R2).
  exists s, s1, s2. split; [exact E|]. split; [exact E1|].
  split; [apply (rep_holds _ _ _ _ R1)|]. split; [exact E2|apply (rep_holds _ _ _ _ R2)].
Qed.

Example C21_copy_case :
  let z := Nat.eqb 0 in
  str_cap_run z [5; 6] 3 [SPop] = Some 3
  /\ str_cap_run z [5] 2 [SPushMove 1; SPushRaw (Some [1; 2; 0])] = Some 9.
Proof. split; reflexivity. Qed.

(** C21, proved part: moving (construction and assignment). The target has the characters,
    the source is like new. *)
Theorem C21_move_partial :
  forall (A : Type) (nul : A) (is_nul : A -> bool) (c c2 : str_ctor A)
         (os os2 : list (str_op A)) (cap cap2 fuel : nat),
    ctor_documented is_nul c ->
    str_documented_run is_nul (str_seq_ctor is_nul c) os ->
    str_cap_run is_nul (str_seq_ctor is_nul c) (str_cap_ctor is_nul c) os = Some cap ->
    ctor_documented is_nul c2 ->
    str_documented_run is_nul (str_seq_ctor is_nul c2) os2 ->
    str_cap_run is_nul (str_seq_ctor is_nul c2) (str_cap_ctor is_nul c2) os2 = Some cap2 ->
    4 <= fuel ->
    exists s t, str_history nul is_nul fuel c os = Ok s
      /\ str_history nul is_nul fuel c2 os2 = Ok t
      /\ holds nul (fst (str_move s)) (str_seq_run is_nul (str_seq_ctor is_nul c) os) cap
      /\ holds nul (snd (str_move s)) [] 0
      /\ exists t', str_move_assign nul t s = Ok (t', str_new)
           /\ holds nul t' (str_seq_run is_nul (str_seq_ctor is_nul c) os) cap.
Proof.
  intros A nul is_nul c c2 os os2 cap cap2 fuel Dc D C Dc2 D2 C2 F.
  destruct (history_ok nul is_nul fuel c os cap Dc D C F) as (s & E & R).
  destruct (history_ok nul is_nul fuel c2 os2 cap2 Dc2 D2 C2 F) as (t & E2 & R2).
  exists s, t. split; [exact E|]. split; [exact E2|].
  split; [apply (rep_holds _ _ _ _ R)|].
  split; [apply rep_holds; left; auto|].
  unfold str_move_assign. destruct (clean_ok nul t _ _ R2) as (t1 & E3 & _). rewrite E3.
  exists s. split; [reflexivity|apply (rep_holds _ _ _ _ R)].
Qed.

(** C21, refutation: assignment from another string. For all histories of the two strings
    the target is empty afterwards, or the terminator is written outside its buffer or
    through null; so it is never equal to a non-empty source. *)
Theorem C21_assignment_refuted :
  forall (A : Type) (nul : A) (is_nul : A -> bool) (c c2 : str_ctor A)
         (os os2 : list (str_op A)) (cap cap2 fuel : nat),
    let l2 := str_seq_run is_nul (str_seq_ctor is_nul c2) os2 in
    ctor_documented is_nul c ->
    str_documented_run is_nul (str_seq_ctor is_nul c) os ->
    str_cap_run is_nul (str_seq_ctor is_nul c) (str_cap_ctor is_nul c) os = Some cap ->
    ctor_documented is_nul c2 ->
    str_documented_run is_nul (str_seq_ctor is_nul c2) os2 ->
    str_cap_run is_nul (str_seq_ctor is_nul c2) (str_cap_ctor is_nul c2) os2 = Some cap2 ->
    4 <= fuel ->
    exists s t, str_history nul is_nul fuel c os = Ok s
      /\ str_history nul is_nul fuel c2 os2 = Ok t
      /\ if (cap =? 0) || (length l2 =? cap) then str_assign nul fuel false s t = UB
         else exists s', str_assign nul fuel false s t = Ok s' /\ str_length s' = 0.
Proof.
  intros A nul is_nul c c2 os os2 cap cap2 fuel l2 Dc D C Dc2 D2 C2 F.
  destruct (history_ok nul is_nul fuel c os cap Dc D C F) as (s & E & R).
  destruct (history_ok nul is_nul fuel c2 os2 cap2 Dc2 D2 C2 F) as (t & E2 & R2).
  exists s, t. split; [exact E|]. split; [exact E2|].
  apply (assign_exact nul fuel s _ cap t l2 cap2 R R2). lia.
Qed.

Example C21_assignment_refuted_case :
  let z := Nat.eqb 0 in
  (let! t := str_from_raw 0 z (Some [5; 6; 0]) in str_assign 0 10 false str_new t) = UB
  /\ (let! s := str_from_raw 0 z (Some [1; 2; 3; 0]) in
      let! t := str_from_raw 0 z (Some [5; 6; 0]) in
      let! s := str_assign 0 10 false s t in Ok (str_length s)) = Ok 0.
Proof. split; vm_compute; reflexivity. Qed.

(** C21, refutation: self-assignment loses the characters. *)
Theorem C21_self_assignment_refuted :
  forall (A : Type) (nul : A) (is_nul : A -> bool) (c : str_ctor A)
         (os : list (str_op A)) (cap fuel : nat),
    ctor_documented is_nul c ->
    str_documented_run is_nul (str_seq_ctor is_nul c) os ->
    str_cap_run is_nul (str_seq_ctor is_nul c) (str_cap_ctor is_nul c) os = Some cap ->
    4 <= fuel ->
    exists s, str_history nul is_nul fuel c os = Ok s
      /\ if cap =? 0 then str_assign nul fuel true s s = UB
         else exists s', str_assign nul fuel true s s = Ok s' /\ str_length s' = 0.
Proof.
  intros A nul is_nul c os cap fuel Dc D C F.
  destruct (history_ok nul is_nul fuel c os cap Dc D C F) as (s & E & R).
  exists s. split; [exact E|]. apply (self_assign nul fuel s _ cap R). lia.
Qed.

(** C59, proved part: string + C string. *)
Theorem C59_concatenation_partial :
  forall (A : Type) (nul : A) (is_nul : A -> bool) (c : str_ctor A)
         (os : list (str_op A)) (r : cstring A) (cap fuel : nat),
    let l := str_seq_run is_nul (str_seq_ctor is_nul c) os in
    ctor_documented is_nul c ->
    str_documented_run is_nul (str_seq_ctor is_nul c) os ->
    str_cap_run is_nul (str_seq_ctor is_nul c) (str_cap_ctor is_nul c) os = Some cap ->
    terminated is_nul r -> 4 <= fuel ->
    exists s s' k, str_history nul is_nul fuel c os = Ok s
      /\ str_plus_raw nul is_nul fuel s r = Ok s'
      /\ holds nul s' (l ++ text is_nul r) k.
Proof.
  intros A nul is_nul c os r cap fuel l Dc D C T F.
  destruct (history_ok nul is_nul fuel c os cap Dc D C F) as (s & E & R).
  unfold str_plus_raw. destruct (copy_ok nul s _ _ R) as (s1 & E1 & R1).
  destruct (push_raw_ok nul is_nul fuel s1 _ _ r R1 T) as (s2 & k & _ & E2 & R2); [lia|].
  exists s, s2, k. split; [exact E|]. rewrite E1. cbn [bind]. split; [exact E2|].
  apply rep_holds. exact R2.
Qed.

(** C59, refutation: adding two strings, or a string to a C string, drops the right one. *)
Theorem C59_concatenation_refuted :
  forall (A : Type) (nul : A) (is_nul : A -> bool) (c c2 : str_ctor A)
         (os os2 : list (str_op A)) (r : cstring A) (cap cap2 fuel : nat),
    let l := str_seq_run is_nul (str_seq_ctor is_nul c) os in
    let l2 := str_seq_run is_nul (str_seq_ctor is_nul c2) os2 in
    ctor_documented is_nul c ->
    str_documented_run is_nul (str_seq_ctor is_nul c) os ->
    str_cap_run is_nul (str_seq_ctor is_nul c) (str_cap_ctor is_nul c) os = Some cap ->
    ctor_documented is_nul c2 ->
    str_documented_run is_nul (str_seq_ctor is_nul c2) os2 ->
    str_cap_run is_nul (str_seq_ctor is_nul c2) (str_cap_ctor is_nul c2) os2 = Some cap2 ->
    terminated is_nul r -> l2 <> [] -> 4 <= fuel ->
    exists s t u v, str_history nul is_nul fuel c os = Ok s
      /\ str_history nul is_nul fuel c2 os2 = Ok t
      /\ str_plus nul s t = Ok u /\ str_chars u = Ok l /\ l <> l ++ l2
      /\ str_raw_plus nul is_nul r t = Ok v /\ str_chars v = Ok (text is_nul r)
      /\ text is_nul r <> text is_nul r ++ l2.
Proof.
  intros A nul is_nul c c2 os os2 r cap cap2 fuel l l2 Dc D C Dc2 D2 C2 T NE F.
  destruct (history_ok nul is_nul fuel c os cap Dc D C F) as (s & E & R).
  destruct (history_ok nul is_nul fuel c2 os2 cap2 Dc2 D2 C2 F) as (t & E2 & R2).
  destruct (copy_ok nul s _ _ R) as (s1 & E1 & R1).
  destruct (from_raw_ok nul is_nul r T) as (v & Ev & Rv).
  assert (K : forall l0 : list A, l0 <> l0 ++ l2).
  { intros l0 H. apply NE. apply (app_inv_head l0). rewrite app_nil_r. symmetry. exact H. }
  exists s, t, s1, v. split; [exact E|]. split; [exact E2|].
  split; [exact E1|]. split; [apply (chars_ok _ _ _ _ R1)|]. split; [apply K|].
  split; [exact Ev|]. split; [apply (chars_ok _ _ _ _ Rv)|apply K].
Qed.

Print Assumptions C20_string_partial.
Print Assumptions C20_string_refuted.
Print Assumptions C21_copy_partial.
Print Assumptions C21_move_partial.
Print Assumptions C21_assignment_refuted.
Print Assumptions C21_self_assignment_refuted.
Print Assumptions C59_concatenation_partial.
Print Assumptions C59_concatenation_refuted.
