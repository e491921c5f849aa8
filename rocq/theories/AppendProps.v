(** Theorems about += and -= of String: C233. *)
From Coq Require Import List Arith ZArith Bool Lia.
From Verif Require Import Base BaseLemmas StringModel StringSpec StringProofs StringProps AppendModel AppendSpec.
Import ListNotations.

Lemma app_self : forall (A : Type) (l m : list A), m <> [] -> l <> l ++ m.
Proof.
  intros A l m N E. apply N. apply (app_inv_head l). rewrite app_nil_r. symmetry. exact E.
Qed.

(** C233, proved part: after every history a character - const or not, named or temporary - is appended
    if the buffer has room for it and the terminator, and the text of a C string of const characters is
    appended always. *)
Theorem C233_append_partial :
  forall (A : Type) (nul : A) (is_nul : A -> bool) (digits : Z -> list A) (c : str_ctor A)
         (os : list (str_op A)) (x : argument A) (t : list A) (cap fuel : nat),
    let l := str_seq_run is_nul (str_seq_ctor is_nul c) os in
    ctor_documented is_nul c ->
    str_documented_run is_nul (str_seq_ctor is_nul c) os ->
    str_cap_run is_nul (str_seq_ctor is_nul c) (str_cap_ctor is_nul c) os = Some cap ->
    4 <= fuel ->
    appendable x -> has_text nul is_nul digits x t ->
    (match x with ArgChar _ _ _ => length l + 1 < cap | _ => True end) ->
    exists s s' k, str_history nul is_nul fuel c os = Ok s
      /\ append nul is_nul fuel s x = Ok s'
      /\ holds nul s' (l ++ t) k.
Proof.
  intros A nul is_nul digits c os x t cap fuel l Dc D C F Ap T Room.
  destruct (history_ok nul is_nul fuel c os cap Dc D C F) as (s & E & R). fold l in R.
  destruct T as [k rv y|k r Tr|k r Tr|k rv y m n H|xs|z]; cbn in Ap; try contradiction.
  - destruct (push_ok nul fuel s l cap y R Room) as (s' & E' & R'); [lia|].
    exists s, s', cap. split; [exact E|]. split; [|apply rep_holds; exact R'].
    destruct k, rv; exact E'.
  - subst k. destruct (push_raw_ok nul is_nul fuel s l cap r R Tr) as (s' & n & _ & E' & R'); [lia|].
    exists s, s', n. split; [exact E|]. split; [exact E'|apply rep_holds; exact R'].
  - subst k. destruct (push_raw_ok nul is_nul fuel s l cap (Some r) R Tr) as (s' & n & _ & E' & R'); [lia|].
    exists s, s', n. split; [exact E|]. split; [exact E'|apply rep_holds; exact R'].
Qed.

(** A literal, a const pointer, a character after room was made. *)
Example C233_append_case :
  let z := Nat.eqb 0 in
  appendable (ArgArray true [7; 8; 0]) /\ appendable (ArgPointer true (Some [7; 0]))
  /\ appendable (ArgChar false true 5)
  /\ has_text 0 z (fun _ => [1]) (ArgArray true [7; 8; 0; 9]) [7; 8]
  /\ (match str_history 0 z 9 (CRaw (Some [1; 2; 0])) [SReserve 2] with
      | Ok s => match append 0 z 9 s (ArgChar false true 5) with
                | Ok s => match append 0 z 9 s (ArgArray true [7; 8; 0]) with
                          | Ok s => str_chars s
                          | _ => UB
                          end
                | _ => UB
                end
      | _ => UB
      end) = Ok [1; 2; 5; 7; 8].
Proof.
  split; [reflexivity|]. split; [reflexivity|]. split; [exact I|]. split; [|vm_compute; reflexivity].
  apply (text_of_array 0 (Nat.eqb 0) (fun _ => [1]) true [7; 8; 0; 9]). exists 0. split; [cbn; tauto|reflexivity].
Qed.

(** C233, refutation: every other operand - a C string of characters that are not const, a string, a
    range, an integer - is dropped: the string is as before. *)
Theorem C233_dropped_refuted :
  forall (A : Type) (nul : A) (is_nul : A -> bool) (digits : Z -> list A) (c : str_ctor A)
         (os : list (str_op A)) (x : argument A) (t : list A) (cap fuel : nat),
    let l := str_seq_run is_nul (str_seq_ctor is_nul c) os in
    ctor_documented is_nul c ->
    str_documented_run is_nul (str_seq_ctor is_nul c) os ->
    str_cap_run is_nul (str_seq_ctor is_nul c) (str_cap_ctor is_nul c) os = Some cap ->
    4 <= fuel ->
    ~ appendable x -> has_text nul is_nul digits x t -> t <> [] ->
    exists s, str_history nul is_nul fuel c os = Ok s
      /\ append nul is_nul fuel s x = Ok s
      /\ holds nul s l cap /\ str_chars s <> Ok (l ++ t).
Proof.
  intros A nul is_nul digits c os x t cap fuel l Dc D C F Ap T N.
  destruct (history_ok nul is_nul fuel c os cap Dc D C F) as (s & E & R). fold l in R.
  exists s. split; [exact E|]. split; [|split; [apply rep_holds; exact R|]].
  - destruct T as [k rv y|k r Tr|k r Tr|k rv y m n H|xs|z]; cbn in Ap.
    + exfalso. apply Ap. exact I.
    + destruct k; [exfalso; apply Ap; reflexivity|reflexivity].
    + destruct k; [exfalso; apply Ap; reflexivity|reflexivity].
    + reflexivity.
    + reflexivity.
    + reflexivity.
  - intros H. destruct (rep_holds nul s l cap R) as (_ & _ & H1 & _). rewrite H in H1.
    injection H1 as H1. symmetry in H1. exact (app_self A l t N H1).
Qed.

(** A char buffer, an int, a range and the string itself: operands that are dropped. *)
Example C233_dropped_case :
  let z := Nat.eqb 0 in
  ~ appendable (ArgArray false [7; 8; 0]) /\ ~ appendable (ArgInteger (A := nat) 42)
  /\ ~ appendable (ArgRange [7; 8])
  /\ has_text 0 z (fun _ => [4; 2]) (ArgInteger 42) [4; 2]
  /\ (match str_history 0 z 9 (CRaw (Some [1; 2; 0])) [SReserve 9] with
      | Ok s => (str_chars s,
                 map (fun x => let! s := append 0 z 9 s x in str_chars s)
                   [ArgArray false [7; 8; 0]; ArgInteger 42; ArgRange [7; 8]; ArgString false false s;
                    ArgPointer false (Some [7; 0]); ArgPointer true (Some [7; 0])])
      | _ => (UB, [])
      end) = (Ok [1; 2], [Ok [1; 2]; Ok [1; 2]; Ok [1; 2]; Ok [1; 2]; Ok [1; 2]; Ok [1; 2; 7]]).
Proof.
  split; [discriminate|]. split; [exact (fun H => H)|]. split; [exact (fun H => H)|].
  split; [apply (text_of_integer 0 (Nat.eqb 0) (fun _ => [4; 2]))|vm_compute; reflexivity].
Qed.

(** C233, refutation: without room for the character and the terminator - such as after construction from
    a C string, or in a new string - s += 'c' writes outside the buffer or through null. *)
Theorem C233_full_refuted :
  forall (A : Type) (nul : A) (is_nul : A -> bool) (c : str_ctor A)
         (os : list (str_op A)) (const rvalue : bool) (y : A) (cap fuel : nat),
    let l := str_seq_run is_nul (str_seq_ctor is_nul c) os in
    ctor_documented is_nul c ->
    str_documented_run is_nul (str_seq_ctor is_nul c) os ->
    str_cap_run is_nul (str_seq_ctor is_nul c) (str_cap_ctor is_nul c) os = Some cap ->
    4 <= fuel -> cap <= length l + 1 ->
    exists s, str_history nul is_nul fuel c os = Ok s
      /\ append nul is_nul fuel s (ArgChar const rvalue y) = UB.
Proof.
  intros A nul is_nul c os const rvalue y cap fuel l Dc D C F Full.
  destruct (history_ok nul is_nul fuel c os cap Dc D C F) as (s & E & R). fold l in R.
  exists s. split; [exact E|].
  pose proof (push_bad nul fuel s l cap y R Full) as H. destruct const, rvalue; apply H; lia.
Qed.

Example C233_full_case :
  let z := Nat.eqb 0 in
  str_cap_run z (str_seq_ctor z (CRaw (Some [7; 8; 0]))) (str_cap_ctor z (CRaw (Some [7; 8; 0]))) [] = Some 3
  /\ (match str_history 0 z 9 (CRaw (Some [7; 8; 0])) [] with
      | Ok s => append 0 z 9 s (ArgChar false true 5)
      | _ => Ok (str_new)
      end) = UB.
Proof. split; vm_compute; reflexivity. Qed.

(** C233, proved part: the character at an iterator or at a reverse iterator is removed. *)
Theorem C233_remove_partial :
  forall (A : Type) (nul : A) (is_nul : A -> bool) (c : str_ctor A)
         (os : list (str_op A)) (i cap fuel : nat),
    let l := str_seq_run is_nul (str_seq_ctor is_nul c) os in
    ctor_documented is_nul c ->
    str_documented_run is_nul (str_seq_ctor is_nul c) os ->
    str_cap_run is_nul (str_seq_ctor is_nul c) (str_cap_ctor is_nul c) os = Some cap ->
    4 <= fuel -> i < length l ->
    exists s s' s'', str_history nul is_nul fuel c os = Ok s
      /\ remove nul s (AtIterator i) = Ok s' /\ holds nul s' (without l (AtIterator i)) cap
      /\ remove nul s (AtReverse i) = Ok s'' /\ holds nul s'' (without l (AtReverse i)) cap.
Proof.
  intros A nul is_nul c os i cap fuel l Dc D C F Hi.
  destruct (history_ok nul is_nul fuel c os cap Dc D C F) as (s & E & R). fold l in R.
  destruct (erase_ok nul s l cap i R) as (s' & E' & R'); [lia|].
  exists s, s', s'. split; [exact E|]. split; [exact E'|]. split; [apply rep_holds; exact R'|].
  split; [exact E'|apply rep_holds; exact R'].
Qed.

(** C233, refutation: removing a range removes nothing. *)
Theorem C233_remove_range_refuted :
  forall (A : Type) (nul : A) (is_nul : A -> bool) (c : str_ctor A)
         (os : list (str_op A)) (i j cap fuel : nat),
    let l := str_seq_run is_nul (str_seq_ctor is_nul c) os in
    ctor_documented is_nul c ->
    str_documented_run is_nul (str_seq_ctor is_nul c) os ->
    str_cap_run is_nul (str_seq_ctor is_nul c) (str_cap_ctor is_nul c) os = Some cap ->
    4 <= fuel -> i < j <= length l ->
    exists s, str_history nul is_nul fuel c os = Ok s
      /\ remove nul s (InRange i j) = Ok s /\ remove nul s (InReverseRange i j) = Ok s
      /\ holds nul s l cap
      /\ str_chars s <> Ok (without l (InRange i j)) /\ str_chars s <> Ok (without l (InReverseRange i j)).
Proof.
  intros A nul is_nul c os i j cap fuel l Dc D C F Hi.
  destruct (history_ok nul is_nul fuel c os cap Dc D C F) as (s & E & R). fold l in R.
  exists s. split; [exact E|]. split; [reflexivity|]. split; [reflexivity|].
  pose proof (rep_holds nul s l cap R) as H. split; [exact H|].
  destruct H as (_ & _ & H & _). rewrite H. cbn [without].
  assert (N : Ok l <> Ok (firstn i l ++ skipn j l)).
  { intros K. injection K as K. apply (f_equal (@length A)) in K.
    rewrite app_length, firstn_length, skipn_length in K. lia. }
  split; exact N.
Qed.

Example C233_remove_case :
  let z := Nat.eqb 0 in
  (match str_history 0 z 9 (CRaw (Some [1; 2; 3; 4; 0])) [] with
   | Ok s => map (fun x => let! s := remove 0 s x in str_chars s)
               [AtIterator 1; AtReverse 3; InRange 1 3; InReverseRange 1 3]
   | _ => []
   end) = [Ok [1; 3; 4]; Ok [1; 2; 3]; Ok [1; 2; 3; 4]; Ok [1; 2; 3; 4]]
  /\ without [1; 2; 3; 4] (InRange 1 3) = [1; 4].
Proof. split; vm_compute; reflexivity. Qed.

Print Assumptions C233_append_partial.
Print Assumptions C233_dropped_refuted.
Print Assumptions C233_full_refuted.
Print Assumptions C233_remove_partial.
Print Assumptions C233_remove_range_refuted.
