(** C123 - C126: ObjectViewer, AlignedObject, RaiiCaller, Substep. *)
From Coq Require Import List Arith Bool ZArith Lia.
From Verif Require Import Base BaseLemmas HolderModel HolderSpec.
Import ListNotations.

(** ** C123: ObjectViewer::clean *)

(** What clean does: it writes every second byte, twice as far as the object reaches. *)
Lemma clean_loop_spec rounds : forall mem it i, it + i + 2 * rounds <= length mem + 1 ->
  exists mem', clean_loop mem it i rounds = Ok mem'
    /\ length mem' = length mem
    /\ forall j, j < length mem -> nth_error mem' j =
         if existsb (fun r => Nat.eqb j (it + i + 2 * r)) (seq 0 rounds) then Some 0%Z else nth_error mem j.
Proof.
  induction rounds as [|rounds IH]; intros mem it i H; cbn [clean_loop].
  - exists mem. auto.
  - unfold write. replace (it + i <? length mem) with true by (symmetry; apply Nat.ltb_lt; lia).
    cbn [bind]. destruct (IH (upd mem (it + i) 0%Z) (S it) (S i)) as (m & E & L & C).
    { rewrite upd_length. lia. }
    exists m. rewrite upd_length in L. split; [exact E|]. split; [exact L|].
    intros j J. rewrite C by (rewrite upd_length; exact J).
    cbn [seq existsb]. rewrite <- seq_shift.
    replace (existsb (fun r => Nat.eqb j (it + i + 2 * r)) (map S (seq 0 rounds)))
      with (existsb (fun r => Nat.eqb j (S it + S i + 2 * r)) (seq 0 rounds)).
    2:{ clear. induction (seq 0 rounds) as [|r l IH]; [reflexivity|]. cbn [map existsb].
        rewrite IH. f_equal. f_equal. lia. }
    destruct (existsb _ _); [rewrite orb_true_r; reflexivity|]. rewrite orb_false_r.
    destruct (Nat.eqb_spec j (it + i + 2 * 0)) as [->|N].
    + rewrite Nat.add_0_r in *. apply nth_error_upd_eq. lia.
    + apply nth_error_upd_neq. lia.
Qed.

Lemma clean_loop_ub rounds : forall mem it i, length mem + 1 < it + i + 2 * rounds ->
  1 <= rounds -> clean_loop mem it i rounds = UB.
Proof.
  induction rounds as [|rounds IH]; intros mem it i H R; [lia|]. cbn [clean_loop]. unfold write.
  destruct (Nat.ltb_spec (it + i) (length mem)); [|reflexivity]. cbn [bind].
  apply IH; rewrite ?upd_length; lia.
Qed.

(** Right for objects of one byte. *)
Theorem C123_clean_partial : forall mem p SIZE, SIZE <= 1 -> p + SIZE <= length mem ->
  exists mem', viewer_clean mem p SIZE = Ok mem' /\ cleaned mem mem' p SIZE.
Proof.
  intros mem p SIZE S1 H. destruct (clean_loop_spec SIZE mem p 0) as (m & E & L & C); [lia|].
  exists m. split; [exact E|]. split; [exact L|]. intros j J. rewrite (C j J).
  destruct SIZE as [|[|n]]; [| |lia]; cbn [seq existsb].
  - replace ((p <=? j) && (j <? p + 0)) with false; [reflexivity|].
    symmetry. destruct (Nat.leb_spec p j), (Nat.ltb_spec j (p + 0)); simpl; auto; lia.
  - rewrite orb_false_r. replace ((p <=? j) && (j <? p + 1)) with (Nat.eqb j (p + 0 + 2 * 0));
      [reflexivity|].
    destruct (Nat.eqb_spec j (p + 0 + 2 * 0)), (Nat.leb_spec p j), (Nat.ltb_spec j (p + 1));
      simpl; auto; lia.
Qed.

(** Refuted for every larger object: at the end of the memory clean writes behind it ... *)
Theorem C123_overrun_refuted : forall mem p SIZE, 2 <= SIZE -> p + SIZE = length mem ->
  viewer_clean mem p SIZE = UB.
Proof. intros mem p SIZE S2 H. unfold viewer_clean. apply clean_loop_ub; lia. Qed.

(** ... and where the memory goes on, the second byte of the object keeps its value and a byte
    that does not belong to the object is overwritten. *)
Theorem C123_effect_refuted : forall mem p SIZE, 2 <= SIZE -> p + 2 * SIZE <= length mem + 1 ->
  exists mem' j, viewer_clean mem p SIZE = Ok mem'
    /\ nth_error mem' (p + 1) = nth_error mem (p + 1)
    /\ p + SIZE <= j < length mem /\ nth_error mem' j = Some 0%Z.
Proof.
  intros mem p SIZE S2 H. destruct (clean_loop_spec SIZE mem p 0) as (m & E & L & C); [lia|].
  exists m, (p + 2 * (SIZE - 1)). split; [exact E|]. split; [|split; [lia|]].
  - rewrite C by lia. replace (existsb _ _) with false; [reflexivity|]. symmetry.
    apply not_true_iff_false. intros X. apply existsb_exists in X as (r & _ & X).
    apply Nat.eqb_eq in X. lia.
  - rewrite C by lia. replace (existsb _ _) with true; [reflexivity|]. symmetry.
    apply existsb_exists. exists (SIZE - 1). split; [apply in_seq; lia|]. apply Nat.eqb_eq. lia.
Qed.

Example C123_case : viewer_clean [1; 2; 3; 4; 5; 6; 7; 8; 9]%Z 1 4 = Ok [1; 0; 3; 0; 5; 0; 7; 0; 9]%Z
  /\ viewer_clean [1; 2; 3; 4]%Z 0 4 = UB
  /\ viewer_clean [1; 2; 3; 4]%Z 2 1 = Ok [1; 2; 0; 4]%Z.
Proof. repeat split; reflexivity. Qed.

(** ** C124: AlignedObject *)

Lemma drun_app {T} (h1 : list (dcall T)) : forall h2 w,
  drun w (h1 ++ h2) = let! w := drun w h1 in drun w h2.
Proof.
  induction h1 as [|c h1 IH]; intros h2 w; [reflexivity|]. cbn [app drun].
  destruct (dstep w c); cbn [bind]; auto.
Qed.

(** What an object holds, read as a value. *)
Definition as_value {T} (o : option (content T)) : option (option T) :=
  match o with
  | None => None
  | Some Zeros => Some None
  | Some (Held x) | Some (Image x) => Some (Some x)
  end.
Lemma as_value_image {T} (c : content T) : as_value (Some (image c)) = as_value (Some c).
Proof. destruct c; reflexivity. Qed.

Lemma upd_split {X} (l : list X) : forall i v, i < length l ->
  upd l i v = firstn i l ++ [v] ++ skipn (S i) l.
Proof.
  induction l as [|y l IH]; intros [|i] v H; cbn in *; try lia; [reflexivity|].
  f_equal. apply IH. lia.
Qed.
Lemma map_upd {X Y} (f : X -> Y) (l : list X) : forall i v, map f (upd l i v) = upd (map f l) i (f v).
Proof. induction l as [|y l IH]; intros [|i] v; cbn; congruence. Qed.

Lemma set_values {T} (l : list (option (content T))) i v : i < length l ->
  firstn i (map as_value l) ++ [as_value v] ++ skipn (S i) (map as_value l) = map as_value (upd l i v).
Proof. intros H. rewrite map_upd, upd_split by (rewrite map_length; exact H). reflexivity. Qed.

Lemma value_step {T} (w w' : dworld T) c : dstep w c = Ok w' ->
  map as_value (d_objects w') = value_after (map as_value (d_objects w)) c.
Proof.
  intros E. destruct c as [|x|i|i j|i]; cbn [dstep value_after] in *.
  - injection E as <-. cbn. rewrite map_app. reflexivity.
  - injection E as <-. cbn. rewrite map_app. reflexivity.
  - destruct (nth_error (d_objects w) i) as [[y|]|] eqn:Y; try discriminate E. injection E as <-.
    cbn [d_objects]. rewrite map_app, nth_error_map, Y. cbn [map option_map].
    rewrite as_value_image. destruct y; reflexivity.
  - destruct (nth_error (d_objects w) i) as [[y|]|] eqn:Y; try discriminate E.
    destruct (nth_error (d_objects w) j) as [[z|]|] eqn:Z; try discriminate E. injection E as <-.
    assert (i < length (d_objects w)) as I by (apply nth_error_Some; congruence).
    cbn [d_objects]. rewrite !nth_error_map, Z. cbn [option_map].
    replace (Some match as_value (Some z) with Some v => v | None => None end)
      with (as_value (Some (image z))) by (destruct z; reflexivity).
    rewrite set_values by exact I.
    destruct (Nat.eqb_spec i j) as [->|N]; [|reflexivity].
    rewrite map_upd, as_value_image. replace (upd _ j _) with (map as_value (d_objects w)); [reflexivity|].
    assert (nth_error (map as_value (d_objects w)) j = Some (as_value (Some z))) as M
      by (rewrite nth_error_map, Z; reflexivity).
    revert M. generalize (map as_value (d_objects w)) as l. clear. intros l. revert j.
    induction l as [|a l IH]; intros [|j] M; try discriminate M; cbn in *; [congruence|].
    f_equal. auto.
  - destruct (nth_error (d_objects w) i) as [[y|]|] eqn:Y; try discriminate E. injection E as <-.
    assert (i < length (d_objects w)) as I by (apply nth_error_Some; congruence).
    cbn [d_objects]. exact (eq_sym (set_values _ _ None I)).
Qed.

Lemma drun_values {T} (h : list (dcall T)) : forall w w', drun w h = Ok w' ->
  map as_value (d_objects w') = fold_left value_after h (map as_value (d_objects w)).
Proof.
  induction h as [|c h IH]; intros w w' E; cbn [drun] in E.
  - injection E as <-. reflexivity.
  - destruct (dstep w c) as [w1| |] eqn:E1; cbn [bind] in E; try discriminate E.
    cbn [fold_left]. rewrite <- (value_step _ _ _ E1). apply IH. exact E.
Qed.

(** Trivially copyable types: in every history an AlignedObject that has not ended holds what it
    was made with, copied from or assigned last, and can be read exactly if that is a value. *)
Theorem C124_trivial_partial : forall {T} (h : list (dcall T)) w i,
  drun d_start h = Ok w ->
  held true w i = match nth_error (values h) i with Some (Some (Some x)) => Ok x | _ => UB end.
Proof.
  intros T h w i E. pose proof (drun_values _ _ _ E) as K. unfold values.
  change (map as_value (d_objects d_start)) with (@nil (option (option T))) in K.
  rewrite <- K, nth_error_map. unfold held.
  destruct (nth_error (d_objects w) i) as [[[|x|x]|]|]; reflexivity.
Qed.

(** No AlignedObject holds bytes of another if nothing is copied. *)
Lemma uncopied_held {T} (h : list (dcall T)) : forall w w', drun w h = Ok w' -> uncopied h ->
  (forall i x, nth_error (d_objects w) i <> Some (Some (Image x))) ->
  forall i x, nth_error (d_objects w') i <> Some (Some (Image x)).
Proof.
  induction h as [|c h IH]; intros w w' E U N; cbn [drun] in E.
  - injection E as <-. exact N.
  - destruct (dstep w c) as [w1| |] eqn:E1; cbn [bind] in E; try discriminate E.
    inversion U as [|? ? U1 U2]; subst. eapply IH; eauto. clear IH E.
    destruct c as [|x|i|i j|i]; cbn [dstep] in E1; try contradiction U1.
    + injection E1 as <-. cbn [d_objects]. intros j y Q.
      apply nth_error_In in Q. apply in_app_or in Q. destruct Q as [Q|[Q|[]]]; [|discriminate Q].
      apply In_nth_error in Q. destruct Q as (k & Q). apply (N _ _ Q).
    + injection E1 as <-. cbn [d_objects]. intros j y Q.
      apply nth_error_In in Q. apply in_app_or in Q. destruct Q as [Q|[Q|[]]]; [|discriminate Q].
      apply In_nth_error in Q. destruct Q as (k & Q). apply (N _ _ Q).
    + destruct (nth_error (d_objects w) i) as [[y|]|] eqn:Y; try discriminate E1. injection E1 as <-.
      cbn [d_objects]. intros j z Q.
      destruct (Nat.eq_dec i j) as [->|D].
      * rewrite nth_error_upd_eq in Q by (apply nth_error_Some; congruence). discriminate Q.
      * rewrite nth_error_upd_neq in Q by exact D. apply (N _ _ Q).
Qed.

(** Every type: the same as long as AlignedObjects are not copied. *)
Theorem C124_value_partial : forall {T} (h : list (dcall T)) w i trivial,
  drun d_start h = Ok w -> uncopied h ->
  held trivial w i = match nth_error (values h) i with Some (Some (Some x)) => Ok x | _ => UB end.
Proof.
  intros T h w i trivial E U. rewrite <- (C124_trivial_partial h w i E). unfold held.
  assert (forall i x, nth_error (d_objects w) i <> Some (Some (Image x))) as N.
  { eapply uncopied_held; eauto. intros j x Q. destruct j; discriminate Q. }
  destruct (nth_error (d_objects w) i) as [[[|x|x]|]|] eqn:Y; try reflexivity.
  exfalso. apply (N _ _ Y).
Qed.

(** Refuted: after every history, a copy of an AlignedObject that holds an object of a type that
    is not trivially copyable holds none; the copy compiles, constructs nothing, and using what it
    holds is undefined. The same for assignment: the object that was held is lost as well. *)
Theorem C124_copy_refuted : forall {T} (h : list (dcall T)) w i x,
  drun d_start h = Ok w -> held false w i = Ok x ->
  (exists w', drun d_start (h ++ [DCopy i]) = Ok w' /\ d_calls w' = d_calls w
     /\ nth_error (values (h ++ [DCopy i])) (length (d_objects w)) = Some (Some (Some x))
     /\ held false w' (length (d_objects w)) = UB)
  /\ (forall j y, j <> i -> held false w j = Ok y ->
      exists w', drun d_start (h ++ [DAssign j i]) = Ok w' /\ d_calls w' = d_calls w
        /\ nth_error (values (h ++ [DAssign j i])) j = Some (Some (Some x))
        /\ held false w' j = UB).
Proof.
  intros T h w i x E H. unfold held in H.
  destruct (nth_error (d_objects w) i) as [[[|x0|x0]|]|] eqn:Y; try discriminate H. injection H as <-.
  split.
  - assert (drun d_start (h ++ [DCopy i]) = Ok (DW (d_objects w ++ [Some (Image x0)]) (d_calls w))) as R.
    { rewrite drun_app, E. cbn [bind drun dstep]. rewrite Y. reflexivity. }
    eexists. split; [exact R|]. split; [reflexivity|].
    pose proof (drun_values _ _ _ R) as K.
    change (map as_value (d_objects d_start)) with (@nil (option (option T))) in K.
    unfold values. rewrite <- K. cbn [d_objects]. unfold held. cbn [d_objects].
    rewrite nth_error_map, nth_error_app2, Nat.sub_diag by lia. split; reflexivity.
  - intros j y N J. unfold held in J.
    destruct (nth_error (d_objects w) j) as [[[|y0|y0]|]|] eqn:Z; try discriminate J.
    assert (drun d_start (h ++ [DAssign j i]) = Ok (DW (upd (d_objects w) j (Some (Image x0))) (d_calls w))) as R.
    { rewrite drun_app, E. cbn [bind drun dstep]. rewrite Z, Y. cbn [image].
      destruct (Nat.eqb_spec j i); [contradiction|]. reflexivity. }
    eexists. split; [exact R|]. split; [reflexivity|].
    pose proof (drun_values _ _ _ R) as K.
    change (map as_value (d_objects d_start)) with (@nil (option (option T))) in K.
    unfold values. rewrite <- K. cbn [d_objects]. unfold held. cbn [d_objects].
    rewrite nth_error_map, nth_error_upd_eq by (apply nth_error_Some; congruence). split; reflexivity.
Qed.

Lemma drun_calls {T} (h : list (dcall T)) : forall w w', drun w h = Ok w' ->
  constructed (d_calls w') = constructed (d_calls w) + with_args h
  /\ destroyed (d_calls w') = destroyed (d_calls w).
Proof.
  induction h as [|c h IH]; intros w w' E; cbn [drun] in E.
  - injection E as <-. cbn. lia.
  - destruct (dstep w c) as [w1| |] eqn:E1; cbn [bind] in E; try discriminate E.
    destruct (IH _ _ E) as (C & D).
    unfold with_args, constructed, destroyed in *.
    destruct c as [|x|i|i j|i]; cbn [dstep filter] in *.
    + injection E1 as <-. cbn [d_calls] in *. lia.
    + injection E1 as <-. cbn [d_calls] in *. rewrite filter_app, app_length in C.
      rewrite filter_app, app_length in D. cbn in *. lia.
    + destruct (nth_error (d_objects w) i) as [[y|]|]; try discriminate E1.
      injection E1 as <-. cbn [d_calls] in *. lia.
    + destruct (nth_error (d_objects w) i) as [[y|]|]; try discriminate E1.
      destruct (nth_error (d_objects w) j) as [[z|]|]; try discriminate E1.
      injection E1 as <-. cbn [d_calls] in *. lia.
    + destruct (nth_error (d_objects w) i) as [[y|]|]; try discriminate E1.
      injection E1 as <-. cbn [d_calls] in *. lia.
Qed.

(** Refuted: no destructor of a held object is ever called, in any history; every object
    constructed in an AlignedObject leaks what it owns. *)
Theorem C124_never_destroyed_refuted : forall {T} (h : list (dcall T)) w,
  drun d_start h = Ok w ->
  constructed (d_calls w) = with_args h /\ destroyed (d_calls w) = 0.
Proof. intros T h w E. apply drun_calls in E. exact E. Qed.

(** The object is aligned wherever the compiler puts it exactly if its alignment divides
    ALIGN ... *)
Theorem C124_alignment_partial : forall ALIGN alignof_T, (0 < alignof_T)%Z ->
  (alignof_T | ALIGN)%Z ->
  forall address, (ALIGN | address)%Z -> emplace_at ALIGN alignof_T address = Ok tt.
Proof.
  intros ALIGN a P D address Q. unfold emplace_at.
  replace (address mod a =? 0)%Z with true; [reflexivity|]. symmetry. apply Z.eqb_eq.
  apply Z.mod_divide; [lia|]. eapply Z.divide_trans; eauto.
Qed.
(** ... and otherwise, also for the values of ALIGN that the static_assert admits, there are
    places where the construction is undefined. *)
Theorem C124_alignment_refuted : forall ALIGN alignof_T, align_admitted ALIGN = true ->
  (0 < alignof_T)%Z -> ~ (alignof_T | ALIGN)%Z ->
  exists address, (ALIGN | address)%Z /\ emplace_at ALIGN alignof_T address = UB.
Proof.
  intros ALIGN a _ P D. exists ALIGN. split; [apply Z.divide_refl|]. unfold emplace_at.
  destruct (Z.eqb_spec (ALIGN mod a) 0) as [E|]; [|reflexivity].
  exfalso. apply D. apply Z.mod_divide; [lia|exact E].
Qed.

(** The admitted alignments are the powers of two up to 1024. *)
Theorem C124_admitted_partial : forall ALIGN, align_admitted ALIGN = true <->
  exists n, (0 <= n <= 10 /\ ALIGN = 2 ^ n)%Z.
Proof.
  intros ALIGN. unfold align_admitted. rewrite existsb_exists. split.
  - intros (x & I & E). apply Z.eqb_eq in E. subst x. cbn in I.
    repeat (destruct I as [<-|I];
      [first [exists 0%Z; split; [lia|reflexivity]|exists 1%Z; split; [lia|reflexivity]
             |exists 2%Z; split; [lia|reflexivity]|exists 3%Z; split; [lia|reflexivity]
             |exists 4%Z; split; [lia|reflexivity]|exists 5%Z; split; [lia|reflexivity]
             |exists 6%Z; split; [lia|reflexivity]|exists 7%Z; split; [lia|reflexivity]
             |exists 8%Z; split; [lia|reflexivity]|exists 9%Z; split; [lia|reflexivity]
             |exists 10%Z; split; [lia|reflexivity]]|]). contradiction.
  - intros (n & R & ->). exists (2 ^ n)%Z. split; [|apply Z.eqb_refl].
    assert (n = 0 \/ n = 1 \/ n = 2 \/ n = 3 \/ n = 4 \/ n = 5 \/ n = 6 \/ n = 7 \/ n = 8 \/ n = 9 \/ n = 10)%Z as C by lia.
    repeat (destruct C as [->|C]; [cbn; auto 20|]). subst n. cbn. auto 20.
Qed.

Example C124_case :
  exists w, drun d_start [DWith 5; DDefault; DWith 6; DEnd 0; DCopy 2; DAssign 1 3] = Ok w
    /\ held false w 2 = Ok 6 /\ constructed (d_calls w) = 2 /\ destroyed (d_calls w) = 0
    /\ held true w 1 = Ok 6 /\ held true w 3 = Ok 6 /\ held false w 3 = UB.
Proof. eexists. split; [reflexivity|]. repeat split. Qed.
Example C124_alignment_case : align_admitted 4 = true /\ ~ (8 | 4)%Z /\ (8 | 64)%Z.
Proof.
  split; [reflexivity|]. split; [|exists 8%Z; reflexivity].
  intros D. apply Z.divide_pos_le in D; lia.
Qed.

(** ** C125: RaiiCaller *)

Lemma rrun_app h1 : forall h2 w, rrun w (h1 ++ h2) = let! w := rrun w h1 in rrun w h2.
Proof.
  induction h1 as [|c h1 IH]; intros h2 w; [reflexivity|]. cbn [app rrun].
  destruct (rstep w c); cbn [bind]; auto.
Qed.

Lemma left_app l1 l2 k : left (l1 ++ l2) k = left l1 k + left l2 k.
Proof. unfold left. rewrite filter_app, app_length. reflexivity. Qed.
Lemma entered_app l1 l2 k : entered (l1 ++ l2) k = entered l1 k + entered l2 k.
Proof. unfold entered. rewrite filter_app, app_length. reflexivity. Qed.

Definition is_pair (k : nat) (o : option nat) : bool :=
  match o with Some i => i =? k | None => false end.
Lemma filter_end l i j k : nth_error l i = Some (Some j) ->
  length (filter (is_pair k) (upd l i None)) + (if j =? k then 1 else 0)
  = length (filter (is_pair k) l).
Proof.
  revert i; induction l as [|o l IH]; intros [|i] H; try discriminate H; cbn [nth_error] in H.
  - injection H as ->. cbn. destruct (j =? k); cbn; lia.
  - specialize (IH _ H). cbn [upd filter]. destruct (is_pair k o); cbn [length]; lia.
Qed.

Record rinv (w : rworld) : Prop := {
  RI_known : forall i k, nth_error (r_objects w) i = Some (Some k) -> k < r_pairs w;
  RI_calls : forall k, In (Leave k) (r_calls w) -> k < r_pairs w;
  RI_enters : forall k, In (Enter k) (r_calls w) -> k < r_pairs w
}.
Lemma rinv_start : rinv r_start.
Proof. constructor; cbn; intros; try contradiction. destruct i; discriminate. Qed.
Lemma rinv_make w e : rinv w -> rinv (r_make w e).
Proof.
  intros [K C N]. constructor; cbn [r_make r_objects r_pairs r_calls].
  - intros i k E. rewrite nth_error_app in E. destruct (_ <? _).
    + apply K in E. lia.
    + destruct (i - _) as [|m]; cbn in E; [|destruct m; discriminate]. injection E as <-. lia.
  - intros k I. apply in_app_iff in I as [I|I]; [apply C in I; lia|].
    destruct e; [destruct I as [I|[]]; discriminate I|destruct I].
  - intros k I. apply in_app_iff in I as [I|I]; [apply N in I; lia|].
    destruct e; [destruct I as [I|[]]; injection I as <-; lia|destruct I].
Qed.
Lemma rinv_copy w i w' : rinv w -> r_copy w i = Ok w' -> rinv w'.
Proof.
  intros [K C N] E. unfold r_copy in E.
  destruct (nth_error (r_objects w) i) as [[k|]|] eqn:X; try discriminate E. injection E as <-.
  constructor; cbn [r_objects r_pairs r_calls]; auto.
  intros j k' E. rewrite nth_error_app in E. destruct (_ <? _); [eauto|].
  destruct (j - _) as [|m]; cbn in E; [|destruct m; discriminate]. injection E as <-. eauto.
Qed.
Lemma rinv_end w i w' : rinv w -> r_end w i = Ok w' -> rinv w'.
Proof.
  intros [K C N] E. unfold r_end in E.
  destruct (nth_error (r_objects w) i) as [[k|]|] eqn:X; try discriminate E. injection E as <-.
  constructor; cbn [r_objects r_pairs r_calls].
  - intros j k' E. destruct (Nat.eq_dec i j) as [->|D].
    + rewrite nth_error_upd_eq in E by (apply nth_error_Some; congruence). discriminate E.
    + rewrite nth_error_upd_neq in E by auto. eauto.
  - intros k' I. apply in_app_iff in I as [I|[I|[]]]; [auto|]. injection I as <-. eauto.
  - intros k' I. apply in_app_iff in I as [I|[I|[]]]; [auto|discriminate I].
Qed.
Lemma rinv_step w c w' : rinv w -> rstep w c = Ok w' -> rinv w'.
Proof.
  intros I E. destruct c as [e|e el|i|i]; cbn [rstep] in E.
  - injection E as <-. apply rinv_make, I.
  - destruct el; [injection E as <-; apply rinv_make, I|].
    destruct (r_copy _ _) as [w1| |] eqn:E1; cbn [bind] in E; try discriminate E.
    eapply rinv_end; [|exact E]. eapply rinv_copy; [|exact E1]. apply rinv_make, I.
  - eapply rinv_copy; eauto.
  - eapply rinv_end; eauto.
Qed.
Lemma rinv_run h : forall w w', rinv w -> rrun w h = Ok w' -> rinv w'.
Proof.
  induction h as [|c h IH]; intros w w' I E; cbn [rrun] in E; [congruence|].
  destruct (rstep w c) as [w1| |] eqn:E1; cbn [bind] in E; try discriminate E.
  eapply IH; [|exact E]. eapply rinv_step; eauto.
Qed.

Lemma not_left w k : rinv w -> r_pairs w <= k -> left (r_calls w) k = 0 /\ entered (r_calls w) k = 0 /\ alive w k = 0.
Proof.
  intros [K C N] H. split; [|split].
  - unfold left. replace (filter _ _) with (@nil paircall); [reflexivity|]. symmetry.
    destruct (filter _ _) as [|c l] eqn:F; [reflexivity|]. exfalso.
    assert (I : In c (c :: l)) by (left; reflexivity). rewrite <- F in I. apply filter_In in I as [I J].
    destruct c as [|j]; [discriminate J|]. apply Nat.eqb_eq in J. subst j. apply C in I. lia.
  - unfold entered. replace (filter _ _) with (@nil paircall); [reflexivity|]. symmetry.
    destruct (filter _ _) as [|c l] eqn:F; [reflexivity|]. exfalso.
    assert (I : In c (c :: l)) by (left; reflexivity). rewrite <- F in I. apply filter_In in I as [I J].
    destruct c as [j|]; [|discriminate J]. apply Nat.eqb_eq in J. subst j. apply N in I. lia.
  - unfold alive. replace (filter _ _) with (@nil (option nat)); [reflexivity|]. symmetry.
    destruct (filter _ _) as [|c l] eqn:F; [reflexivity|]. exfalso.
    assert (I : In c (c :: l)) by (left; reflexivity). rewrite <- F in I. apply filter_In in I as [I J].
    destruct c as [j|]; [|discriminate J]. apply Nat.eqb_eq in J. subst j.
    apply In_nth_error in I as (i & I). apply K in I. lia.
Qed.

(** The copies that a call makes of a caller of the pair k. *)
Definition copies_of (w : rworld) (c : rcall) (k : nat) : nat :=
  match c with
  | RCopy i => match nth_error (r_objects w) i with Some (Some j) => if j =? k then 1 else 0 | _ => 0 end
  | RMake _ false => if r_pairs w =? k then 1 else 0
  | _ => 0
  end.
Fixpoint copies (w : rworld) (h : list rcall) (k : nat) : nat :=
  match h with
  | [] => 0
  | c :: h => copies_of w c k + match rstep w c with Ok w' => copies w' h k | _ => 0 end
  end.

Definition is_made (c : rcall) : list bool :=
  match c with RNew e | RMake e _ => [e] | _ => [] end.

Lemma alive_upd w i j k : nth_error (r_objects w) i = Some (Some j) ->
  length (filter (is_pair k) (upd (r_objects w) i None)) + (if j =? k then 1 else 0) = alive w k.
Proof. intros H. apply (filter_end _ _ _ k H). Qed.

Lemma made_cons c h : made (c :: h) = is_made c ++ made h.
Proof. destruct c; reflexivity. Qed.

Lemma rmake_counts w e k : rinv w ->
  r_pairs (r_make w e) = S (r_pairs w)
  /\ left (r_calls (r_make w e)) k = left (r_calls w) k
  /\ alive (r_make w e) k = alive w k + (if r_pairs w =? k then 1 else 0)
  /\ entered (r_calls (r_make w e)) k
     = entered (r_calls w) k + (if (r_pairs w =? k) && e then 1 else 0).
Proof.
  intros I. cbn [r_make r_pairs r_calls]. split; [reflexivity|]. rewrite left_app, entered_app.
  unfold alive, r_make. cbn [r_objects]. rewrite filter_app, app_length. split; [|split].
  - destruct e; cbn; lia.
  - cbn. destruct (r_pairs w =? k); reflexivity.
  - destruct e; cbn; [|rewrite andb_false_r; lia]. destruct (r_pairs w =? k); cbn; lia.
Qed.
Lemma rcopy_counts w i w' k : r_copy w i = Ok w' ->
  r_pairs w' = r_pairs w /\ r_calls w' = r_calls w
  /\ exists j, nth_error (r_objects w) i = Some (Some j)
     /\ alive w' k = alive w k + (if j =? k then 1 else 0).
Proof.
  unfold r_copy. destruct (nth_error (r_objects w) i) as [[j|]|]; try discriminate.
  intros E. injection E as <-. split; [reflexivity|]. split; [reflexivity|]. exists j.
  split; [reflexivity|]. unfold alive. cbn [r_objects]. rewrite filter_app, app_length. cbn.
  destruct (j =? k); reflexivity.
Qed.
Lemma rend_counts w i w' k : r_end w i = Ok w' ->
  r_pairs w' = r_pairs w
  /\ left (r_calls w') k + alive w' k = left (r_calls w) k + alive w k
  /\ entered (r_calls w') k = entered (r_calls w) k.
Proof.
  unfold r_end. destruct (nth_error (r_objects w) i) as [[j|]|] eqn:X; try discriminate.
  intros E. injection E as <-. cbn [r_pairs r_calls]. split; [reflexivity|].
  rewrite left_app, entered_app. pose proof (alive_upd _ _ _ k X) as A.
  unfold alive at 1. cbn [r_objects]. fold (is_pair k). cbn.
  change (fun o => match o with Some i => i =? k | None => false end) with (is_pair k).
  destruct (j =? k); cbn in *; lia.
Qed.

Lemma rstep_counts w c w' k : rinv w -> rstep w c = Ok w' ->
  r_pairs w' = r_pairs w + length (is_made c)
  /\ left (r_calls w') k + alive w' k = left (r_calls w) k + alive w k + copies_of w c k
     + (match nth_error (is_made c) (k - r_pairs w) with
        | Some _ => if r_pairs w <=? k then 1 else 0 | None => 0 end)
  /\ entered (r_calls w') k = entered (r_calls w) k
     + (match nth_error (is_made c) (k - r_pairs w) with
        | Some true => if r_pairs w <=? k then 1 else 0 | _ => 0 end).
Proof.
  intros I E.
  assert (G : forall e : bool, (match nth_error [e] (k - r_pairs w) with
        | Some _ => if r_pairs w <=? k then 1 else 0 | None => 0 end)
        = if r_pairs w =? k then 1 else 0).
  { intros e. destruct (Nat.eqb_spec (r_pairs w) k) as [<-|N].
    - rewrite Nat.sub_diag, Nat.leb_refl. reflexivity.
    - destruct (Nat.leb_spec (r_pairs w) k).
      + destruct (k - r_pairs w) as [|[|m]] eqn:Q; [lia|reflexivity|reflexivity].
      + destruct (nth_error _ _); reflexivity. }
  assert (G' : forall e, (match nth_error [e] (k - r_pairs w) with
        | Some true => if r_pairs w <=? k then 1 else 0 | _ => 0 end)
        = if (r_pairs w =? k) && e then 1 else 0).
  { intros e. destruct (Nat.eqb_spec (r_pairs w) k) as [<-|N].
    - rewrite Nat.sub_diag, Nat.leb_refl. destruct e; reflexivity.
    - destruct (Nat.leb_spec (r_pairs w) k).
      + destruct (k - r_pairs w) as [|[|m]] eqn:Q; [lia|reflexivity|reflexivity].
      + destruct (nth_error _ _) as [[|]|]; reflexivity. }
  destruct c as [e|e el|i|i]; cbn [rstep is_made copies_of] in *.
  - injection E as <-. destruct (rmake_counts w e k I) as (P & L & A & N).
    rewrite G, G', P, L, A, N. cbn [length]. lia.
  - rewrite G, G'. destruct (rmake_counts w e k I) as (P & L & A & N). destruct el.
    + injection E as <-. rewrite P, L, A, N. cbn [length]. lia.
    + destruct (r_copy _ _) as [w1| |] eqn:E1; cbn [bind] in E; try discriminate E.
      destruct (rcopy_counts _ _ _ k E1) as (P1 & C1 & j & J & A1).
      destruct (rend_counts _ _ _ k E) as (P2 & L2 & N2).
      assert (j = r_pairs w) as ->.
      { cbn [r_make r_objects] in J. rewrite app_length in J. cbn [length] in J.
        rewrite Nat.add_sub, nth_error_app2, Nat.sub_diag in J by lia. cbn in J. congruence. }
      rewrite P2, L2, N2, P1, C1, A1, P, L, A, N. cbn [length]. lia.
  - destruct (rcopy_counts _ _ _ k E) as (P1 & C1 & j & J & A1). rewrite J.
    assert (Q : nth_error (@nil bool) (k - r_pairs w) = None) by (destruct (k - r_pairs w); reflexivity).
    rewrite Q, P1, C1, A1. cbn [length]. lia.
  - destruct (rend_counts _ _ _ k E) as (P2 & L2 & N2).
    assert (Q : nth_error (@nil bool) (k - r_pairs w) = None) by (destruct (k - r_pairs w); reflexivity).
    rewrite Q, P2, L2, N2. cbn [length]. lia.
Qed.

Lemma rrun_counts h : forall w w' k, rinv w -> rrun w h = Ok w' ->
  r_pairs w' = r_pairs w + length (made h)
  /\ left (r_calls w') k + alive w' k = left (r_calls w) k + alive w k + copies w h k
     + (match nth_error (made h) (k - r_pairs w) with
        | Some _ => if r_pairs w <=? k then 1 else 0 | None => 0 end)
  /\ entered (r_calls w') k = entered (r_calls w) k
     + (match nth_error (made h) (k - r_pairs w) with
        | Some true => if r_pairs w <=? k then 1 else 0 | _ => 0 end).
Proof.
  induction h as [|c h IH]; intros w w' k I E; cbn [rrun] in E.
  - injection E as <-. cbn [made length copies].
    replace (nth_error (@nil bool) (k - r_pairs w)) with (@None bool)
      by (destruct (k - r_pairs w); reflexivity). lia.
  - destruct (rstep w c) as [w1| |] eqn:E1; cbn [bind] in E; try discriminate E.
    destruct (rstep_counts w c w1 k I E1) as (P1 & L1 & N1).
    destruct (IH w1 w' k (rinv_step _ _ _ I E1) E) as (P2 & L2 & N2).
    rewrite made_cons, app_length. cbn [copies]. rewrite E1, P2, L2, N2, L1, N1, P1.
    assert (LE : length (is_made c) <= 1) by (destruct c; cbn; lia).
    assert (SP : nth_error (is_made c ++ made h) (k - r_pairs w)
      = match nth_error (is_made c) (k - r_pairs w) with
        | Some e => Some e
        | None => nth_error (made h) (k - r_pairs w - length (is_made c)) end).
    { rewrite nth_error_app. destruct (Nat.ltb_spec (k - r_pairs w) (length (is_made c))) as [Q|Q].
      - destruct (nth_error (is_made c) (k - r_pairs w)) eqn:X; [reflexivity|].
        apply nth_error_None in X. lia.
      - apply nth_error_None in Q. rewrite Q. reflexivity. }
    rewrite SP. split; [lia|]. clear L1 N1 L2 N2 IH SP.
    replace (k - (r_pairs w + length (is_made c))) with (k - r_pairs w - length (is_made c)) by lia.
    destruct (Nat.leb_spec (r_pairs w) k) as [B|B].
    + destruct (nth_error (is_made c) (k - r_pairs w)) as [e|] eqn:X.
      * assert (k - r_pairs w < length (is_made c)) by (apply nth_error_Some; congruence).
        destruct (Nat.leb_spec (r_pairs w + length (is_made c)) k); [lia|].
        split; [destruct (nth_error (made h) _); lia|].
        destruct e; destruct (nth_error (made h) _) as [[|]|]; lia.
      * apply nth_error_None in X.
        destruct (Nat.leb_spec (r_pairs w + length (is_made c)) k); [|lia].
        split; lia.
    + destruct (Nat.leb_spec (r_pairs w + length (is_made c)) k); [lia|].
      destruct (nth_error (is_made c) _) as [[|]|]; destruct (nth_error (made h) _) as [[|]|];
        split; lia.
Qed.

(** In every history: the first functor of every pair is called once (if there is one), the
    second once for every caller that has ended: as often as there are copies, and once more. *)
Theorem C125_exact : forall h w k e, rrun r_start h = Ok w -> nth_error (made h) k = Some e ->
  entered (r_calls w) k = (if e then 1 else 0)
  /\ left (r_calls w) k + alive w k = 1 + copies r_start h k.
Proof.
  intros h w k e E M. destruct (rrun_counts h r_start w k rinv_start E) as (_ & L & N).
  cbn [r_start r_pairs r_calls r_objects] in *. rewrite Nat.sub_0_r, M in *. cbn in L, N.
  split; [|lia]. destruct e; exact N.
Qed.

Lemma no_copies_zero h : forall w k, no_copies h -> copies w h k = 0.
Proof.
  induction h as [|c h IH]; intros w k N; [reflexivity|]. inversion_clear N.
  cbn [copies]. replace (copies_of w c k) with 0.
  2:{ destruct c as [e|e [|]|i|i]; cbn; auto; contradiction. }
  destruct (rstep w c) as [w1| |]; [|reflexivity|reflexivity]. apply IH. assumption.
Qed.

(** Without copies, when every caller has ended: each second functor was called exactly once,
    each first functor exactly once, and no other functor. *)
Theorem C125_once_partial : forall h w, rrun r_start h = Ok w -> no_copies h ->
  (forall i o, nth_error (r_objects w) i = Some o -> o = None) ->
  (forall k e, nth_error (made h) k = Some e ->
     entered (r_calls w) k = (if e then 1 else 0) /\ left (r_calls w) k = 1)
  /\ (forall k, nth_error (made h) k = None ->
     entered (r_calls w) k = 0 /\ left (r_calls w) k = 0).
Proof.
  intros h w E N F.
  assert (A : forall k, alive w k = 0).
  { intros k. unfold alive. replace (filter _ _) with (@nil (option nat)); [reflexivity|]. symmetry.
    destruct (filter _ _) as [|c l] eqn:Q; [reflexivity|]. exfalso.
    assert (I : In c (c :: l)) by (left; reflexivity). rewrite <- Q in I.
    apply filter_In in I as [I J]. apply In_nth_error in I as (i & I). rewrite (F _ _ I) in J.
    discriminate J. }
  split.
  - intros k e M. destruct (C125_exact h w k e E M) as (P & Q).
    rewrite A, (no_copies_zero _ _ _ N) in Q. split; [exact P|lia].
  - intros k M. destruct (rrun_counts h r_start w k rinv_start E) as (P & _).
    destruct (not_left w k (rinv_run _ _ _ rinv_start E)) as (L & X & _).
    + rewrite P. cbn. apply nth_error_None. exact M.
    + auto.
Qed.

(** The second functor of a pair is called after the first. *)
Theorem C125_order : forall h w k l1 l2, rrun r_start h = Ok w ->
  nth_error (made h) k = Some true -> r_calls w = l1 ++ Leave k :: l2 -> In (Enter k) l1.
Proof.
  intros h w k l1 l2 E M D.
  (* pairs with a first functor: in a reachable world Enter k is in the log before Leave k *)
  assert (J : forall h0 w0, rrun r_start h0 = Ok w0 ->
    forall k, nth_error (made h0) k = Some true ->
      In (Enter k) (r_calls w0)
      /\ forall m1 m2, r_calls w0 = m1 ++ Leave k :: m2 -> In (Enter k) m1).
  { clear h w k l1 l2 E M D. intros h. induction h as [|c h IH] using rev_ind; intros w E k M.
    - destruct k; discriminate M.
    - rewrite rrun_app in E. destruct (rrun r_start h) as [w1| |] eqn:E1; cbn [bind] in E; try discriminate E.
      cbn [rrun] in E. destruct (rstep w1 c) as [w2| |] eqn:E2; cbn [bind] in E; try discriminate E.
      injection E as <-.
      assert (MA : made (h ++ [c]) = made h ++ is_made c).
      { clear. induction h as [|d h IH]; cbn [app]; [destruct c; reflexivity|].
        rewrite !made_cons, IH, app_assoc. reflexivity. }
      assert (I1 : rinv w1) by (eapply rinv_run; [apply rinv_start|exact E1]).
      assert (PW : r_pairs w1 = length (made h)).
      { destruct (rrun_counts h r_start w1 0 rinv_start E1) as (P & _). exact P. }
      assert (GROW : exists new, r_calls w2 = r_calls w1 ++ new
                /\ (forall k, nth_error (is_made c) (k - r_pairs w1) = Some true -> r_pairs w1 <= k ->
                      exists r, new = Enter k :: r)).
      { assert (EN : forall w i w', r_end w i = Ok w' -> exists j, r_calls w' = r_calls w ++ [Leave j]).
        { clear. intros w i w' E. unfold r_end in E.
          destruct (nth_error (r_objects w) i) as [[j|]|]; try discriminate E. injection E as <-. exists j. reflexivity. }
        assert (CO : forall w i w', r_copy w i = Ok w' -> r_calls w' = r_calls w).
        { clear. intros w i w' E. unfold r_copy in E.
          destruct (nth_error (r_objects w) i) as [[j|]|]; try discriminate E. injection E as <-. reflexivity. }
        assert (MK : forall e k, nth_error [e] (k - r_pairs w1) = Some true -> r_pairs w1 <= k ->
                  e = true /\ k = r_pairs w1).
        { clear. intros e k. destruct (k - r_pairs w1) as [|[|m]] eqn:Q; cbn; try discriminate.
          intros X B. injection X as ->. split; [reflexivity|lia]. }
        destruct c as [e|e el|i|i]; cbn [rstep is_made] in *.
        - injection E2 as <-. cbn [r_make r_calls]. eexists. split; [reflexivity|].
          intros k' X B. destruct (MK _ _ X B) as (-> & ->). eauto.
        - destruct el.
          + injection E2 as <-. cbn [r_make r_calls]. eexists. split; [reflexivity|].
            intros k' X B. destruct (MK _ _ X B) as (-> & ->). eauto.
          + destruct (r_copy _ _) as [w3| |] eqn:E3; cbn [bind] in E2; try discriminate E2.
            apply CO in E3. destruct (EN _ _ _ E2) as (j & Q). rewrite Q, E3.
            cbn [r_make r_calls]. rewrite <- app_assoc. eexists. split; [reflexivity|].
            intros k' X B. destruct (MK _ _ X B) as (-> & ->). cbn. eauto.
        - rewrite (CO _ _ _ E2). exists []. rewrite app_nil_r. split; [reflexivity|].
          intros k' X. destruct (k' - r_pairs w1); discriminate X.
        - destruct (EN _ _ _ E2) as (j & Q). rewrite Q. eexists. split; [reflexivity|].
          intros k' X. destruct (k' - r_pairs w1); discriminate X. }
      destruct GROW as (new & CW & EW). rewrite CW. rewrite MA, nth_error_app in M.
      destruct (Nat.ltb_spec k (length (made h))) as [B|B].
      + destruct (IH _ eq_refl k M) as (I2 & O2). split; [apply in_app_iff; auto|].
        intros m1 m2 Q. 
        destruct (Nat.lt_ge_cases (length m1) (length (r_calls w1))) as [X|X].
        * assert (Q' : exists m3, r_calls w1 = m1 ++ Leave k :: m3).
          { clear -Q X. revert m1 Q X. induction (r_calls w1) as [|c l IH]; intros [|d m1] Q X; cbn in *; try lia.
            - injection Q as -> _. eauto.
            - injection Q as -> Q. destruct (IH m1 Q ltac:(lia)) as (m3 & ->). eauto. }
          destruct Q' as (m3 & Q'). eauto.
        * assert (Q' : exists m3, m1 = r_calls w1 ++ m3).
          { clear -Q X. revert m1 Q X. induction (r_calls w1) as [|c l IH]; intros m1 Q X; cbn in *; [eauto|].
            destruct m1 as [|d m1]; cbn in *; [lia|]. injection Q as -> Q.
            destruct (IH m1 Q ltac:(lia)) as (m3 & ->). eauto. }
          destruct Q' as (m3 & ->). apply in_app_iff. auto.
      + rewrite <- PW in M. destruct (EW k M ltac:(lia)) as (r & ->). split.
        * apply in_app_iff. right. left. reflexivity.
        * intros m1 m2 Q.
          destruct (Nat.le_gt_cases (length m1) (length (r_calls w1))) as [X|X].
          -- exfalso. assert (NI : ~ In (Leave k) (r_calls w1)).
             { intros I. apply (RI_calls _ I1) in I. lia. }
             destruct (Nat.eq_dec (length m1) (length (r_calls w1))) as [Y|Y].
             ++ clear -Q Y. revert m1 Q Y. induction (r_calls w1) as [|c l IH]; intros [|d m1] Q Y; cbn in *; try discriminate.
                injection Q as -> Q. eauto.
             ++ apply NI. assert (H : nth_error (r_calls w1 ++ Enter k :: r) (length m1) = Some (Leave k)).
                { rewrite Q, nth_error_app2, Nat.sub_diag by lia. reflexivity. }
                rewrite nth_error_app1 in H by lia. eapply nth_error_In. exact H.
          -- assert (H : nth_error m1 (length (r_calls w1)) = Some (Enter k)).
             { assert (H : nth_error (m1 ++ Leave k :: m2) (length (r_calls w1)) = Some (Enter k)).
               { rewrite <- Q, nth_error_app2, Nat.sub_diag by lia. reflexivity. }
               rewrite nth_error_app1 in H by lia. exact H. }
             eapply nth_error_In. exact H. }
  eapply J; eauto.
Qed.

(** Refuted in general: a caller returned by makeRaiiCaller without elision, which C++14
    admits, calls the second functor when it is made, and again when it ends. *)
Theorem C125_not_elided_refuted : forall h w enter, rrun r_start h = Ok w ->
  exists w1 w2,
    rrun r_start (h ++ [RMake enter false]) = Ok w1 /\ left (r_calls w1) (r_pairs w) = 1
    /\ rrun r_start (h ++ [RMake enter false; REnd (length (r_objects w1) - 1)]) = Ok w2
    /\ left (r_calls w2) (r_pairs w) = 2.
Proof.
  intros h w enter E. pose proof (rinv_run _ _ _ rinv_start E) as I.
  destruct (not_left w (r_pairs w) I (le_n _)) as (L & _).
  pose (w1 := RW (upd (r_objects w ++ [Some (r_pairs w)] ++ [Some (r_pairs w)]) (length (r_objects w)) None)
                 (S (r_pairs w)) ((r_calls w ++ (if enter then [Enter (r_pairs w)] else [])) ++ [Leave (r_pairs w)])).
  assert (E1 : rstep w (RMake enter false) = Ok w1).
  { cbn [rstep]. unfold r_make, r_copy, r_end. cbn [r_objects r_pairs r_calls].
    rewrite app_length. cbn [length]. rewrite Nat.add_sub.
    rewrite nth_error_app2, Nat.sub_diag by lia. cbn [nth_error bind r_objects r_pairs r_calls].
    rewrite <- app_assoc, nth_error_app2, Nat.sub_diag by lia. reflexivity. }
  assert (LN : length (r_objects w1) - 1 = length (r_objects w) + 1).
  { unfold w1. cbn [r_objects]. rewrite upd_length, !app_length. cbn. lia. }
  assert (NT : nth_error (r_objects w1) (length (r_objects w) + 1) = Some (Some (r_pairs w))).
  { unfold w1. cbn [r_objects]. rewrite nth_error_upd_neq by lia.
    rewrite nth_error_app2 by lia. replace (length (r_objects w) + 1 - length (r_objects w)) with 1 by lia.
    reflexivity. }
  assert (L1 : left (r_calls w1) (r_pairs w) = 1).
  { unfold w1. cbn [r_calls]. rewrite !left_app, L. destruct enter; cbn; rewrite Nat.eqb_refl; reflexivity. }
  exists w1. eexists. split; [|split; [exact L1|split]].
  - rewrite rrun_app, E. cbn [bind rrun]. rewrite E1. reflexivity.
  - rewrite rrun_app, E. cbn [bind rrun]. rewrite E1. cbn [bind rstep]. rewrite LN.
    unfold r_end. rewrite NT. cbn [bind]. reflexivity.
  - cbn [r_calls]. rewrite left_app, L1. cbn. rewrite Nat.eqb_refl. reflexivity.
Qed.

Example C125_case :
  exists w, rrun r_start [RMake true true; RNew false; REnd 0; RMake true true; REnd 2; REnd 1] = Ok w
    /\ r_calls w = [Enter 0; Leave 0; Enter 2; Leave 2; Leave 1]
    /\ no_copies [RMake true true; RNew false; REnd 0; RMake true true; REnd 2; REnd 1].
Proof. eexists. split; [reflexivity|]. split; [reflexivity|]. repeat constructor. Qed.
Example C125_copy_case :
  exists w, rrun r_start [RMake true true; RCopy 0; REnd 1; REnd 0] = Ok w
    /\ r_calls w = [Enter 0; Leave 0; Leave 0]
    /\ copies r_start [RMake true true; RCopy 0; REnd 1; REnd 0] 0 = 1.
Proof. eexists. split; [reflexivity|]. split; reflexivity. Qed.

(** ** C126: Substep *)

(** After initImpl and a call whose doImpl sets the error, getResult() is the result of
    doImpl. *)
Theorem C126_result_partial : forall {P R} (action : P -> R * Z) d p sets,
  exists s, substep_call action (substep_init (substep_default d) p) sets = Ok s
    /\ substep_result s = fst (action p).
Proof.
  intros. unfold substep_call. cbn. destruct (action p) as [r e]. eexists. split; reflexivity.
Qed.

(** Refuted: the conversion to bool is false exactly after success. *)
Theorem C126_bool_refuted : forall {P R} (action : P -> R * Z) d SUCCESS p,
  exists s, substep_call action (substep_init (substep_default d) p) true = Ok s
    /\ substep_bool SUCCESS s = Ok (negb (Z.eqb (snd (action p)) SUCCESS)).
Proof.
  intros. unfold substep_call. cbn. destruct (action p) as [r e]. eexists. split; reflexivity.
Qed.
(** Before a call, or after one that does not set the error, the conversion reads an
    uninitialised value. *)
Theorem C126_uninitialised_refuted : forall {P R} (action : P -> R * Z) d SUCCESS p,
  substep_bool SUCCESS (@substep_default P R d) = UB
  /\ exists s, substep_call action (substep_init (substep_default d) p) false = Ok s
       /\ substep_bool SUCCESS s = UB.
Proof.
  intros. split; [reflexivity|]. unfold substep_call. cbn. destruct (action p) as [r e].
  eexists. split; reflexivity.
Qed.
(** The constructor with arguments is undefined (if the member has a constructor of its own), or the
    call after it is: initImpl runs before the member it assigns to exists. *)
Theorem C126_constructor_refuted : forall {P R} (action : P -> R * Z) d trivial p sets,
  (let! s := substep_with d trivial p in substep_call action s sets) = UB
  /\ (substep_with d trivial p = UB <-> trivial = false).
Proof. intros. destruct trivial; split; try reflexivity; split; auto; discriminate. Qed.

Example C126_case :
  exists s, substep_call (fun p : nat => (p * 2, 0%Z)) (substep_init (substep_default 0) 4) true = Ok s
    /\ substep_result s = 8 /\ substep_bool 0 s = Ok false.
Proof. eexists. split; [reflexivity|]. split; reflexivity. Qed.

Print Assumptions C123_clean_partial.
Print Assumptions C123_overrun_refuted.
Print Assumptions C123_effect_refuted.
Print Assumptions C124_trivial_partial.
Print Assumptions C124_value_partial.
Print Assumptions C124_copy_refuted.
Print Assumptions C124_never_destroyed_refuted.
Print Assumptions C124_alignment_partial.
Print Assumptions C124_admitted_partial.
Print Assumptions C124_alignment_refuted.
Print Assumptions C125_exact.
Print Assumptions C125_once_partial.
Print Assumptions C125_order.
Print Assumptions C125_not_elided_refuted.
Print Assumptions C126_result_partial.
Print Assumptions C126_bool_refuted.
Print Assumptions C126_uninitialised_refuted.
Print Assumptions C126_constructor_refuted.
