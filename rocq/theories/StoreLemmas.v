(** Lemmas about the storage machine. *)
From Coq Require Import List Arith Lia Bool.
From Verif Require Import Base BaseLemmas Store.
Import ListNotations.

(** A cell that can be assigned to or destroyed. *)
Definition usable {A} (m : mode) (c : option A) : Prop := m = Trivial \/ live c = true.

Lemma nth_error_mid {A} (l1 l2 : list A) c : nth_error (l1 ++ c :: l2) (length l1) = Some c.
Proof. rewrite nth_error_app2 by lia. rewrite Nat.sub_diag. reflexivity. Qed.

Section Lemmas.
  Context {A : Type}.
  Variable m : mode.
  Variable moved : A -> A.
  Variable dflt : A.

  Definition leak_of (c : option A) : nat :=
    match m with Tracked => if live c then 1 else 0 | Trivial => 0 end.

  Lemma st_construct_mid (l1 : list (option A)) c l2 k x i :
    i = length l1 ->
    st_construct m (St (l1 ++ c :: l2) k) i x = Ok (St (l1 ++ Some x :: l2) (leak_of c + k)).
  Proof.
    intros ->. unfold st_construct. cbn [st_cells st_leaks]. rewrite nth_error_mid.
    rewrite upd_app_mid. unfold leak_of. destruct m; reflexivity.
  Qed.

  Lemma st_assign_mid (l1 : list (option A)) c l2 k x i :
    i = length l1 -> usable m c ->
    st_assign m (St (l1 ++ c :: l2) k) i x = Ok (St (l1 ++ Some x :: l2) k).
  Proof.
    intros -> Hu. unfold usable in Hu. unfold st_assign. cbn [st_cells st_leaks]. rewrite nth_error_mid.
    rewrite upd_app_mid. destruct m, c; try reflexivity.
    destruct Hu as [E|E]; discriminate E.
  Qed.

  Lemma st_load_mid (l1 : list (option A)) x l2 k i :
    i = length l1 -> st_load (St (l1 ++ Some x :: l2) k) i = Ok x.
  Proof. intros ->. unfold st_load. cbn [st_cells]. rewrite nth_error_mid. reflexivity. Qed.

  Definition dead (c : option A) : option A := match m with Trivial => c | Tracked => None end.

  Lemma st_destroy_mid (l1 : list (option A)) c l2 k i :
    i = length l1 -> usable m c ->
    st_destroy m (St (l1 ++ c :: l2) k) i = Ok (St (l1 ++ dead c :: l2) k).
  Proof.
    intros -> Hu. unfold usable in Hu. unfold st_destroy, dead. cbn [st_cells st_leaks]. rewrite nth_error_mid.
    rewrite upd_app_mid. destruct m, c; try reflexivity.
    destruct Hu as [E|E]; discriminate E.
  Qed.

  (** move up, over a gap *)
  Lemma st_move_up l1 x gap c l2 k dst src :
    src = length l1 -> dst = length l1 + S (length gap) -> usable m c ->
    st_move m moved (St (l1 ++ Some x :: gap ++ c :: l2) k) dst src
    = Ok (St (l1 ++ Some (moved x) :: gap ++ Some x :: l2) k).
  Proof.
    intros -> -> Hu. unfold st_move. rewrite st_load_mid by auto. cbn [bind].
    change (l1 ++ Some x :: gap ++ c :: l2) with (l1 ++ (Some x :: gap) ++ c :: l2).
    rewrite app_assoc. rewrite st_assign_mid; auto.
    2:{ rewrite app_length. reflexivity. }
    cbn [bind]. rewrite <- app_assoc. cbn [app].
    rewrite st_assign_mid; auto. right; reflexivity.
  Qed.

  (** move down, over a gap *)
  Lemma st_move_down l1 x gap c l2 k dst src :
    dst = length l1 -> src = length l1 + S (length gap) -> usable m c ->
    st_move m moved (St (l1 ++ c :: gap ++ Some x :: l2) k) dst src
    = Ok (St (l1 ++ Some x :: gap ++ Some (moved x) :: l2) k).
  Proof.
    intros -> -> Hu. unfold st_move.
    change (l1 ++ c :: gap ++ Some x :: l2) with (l1 ++ (c :: gap) ++ Some x :: l2).
    rewrite app_assoc. rewrite st_load_mid.
    2:{ rewrite app_length. reflexivity. }
    cbn [bind]. rewrite <- app_assoc. cbn [app].
    rewrite st_assign_mid; auto. cbn [bind].
    change (l1 ++ Some x :: gap ++ Some x :: l2) with (l1 ++ (Some x :: gap) ++ Some x :: l2).
    rewrite app_assoc. rewrite st_assign_mid; auto.
    - rewrite <- app_assoc. reflexivity.
    - rewrite app_length. reflexivity.
    - right; reflexivity.
  Qed.

  Lemma shift_right_ok pre (mid : list A) gap post k n lo :
    n = length mid -> lo = length pre -> gap <> [] -> Forall (usable m) gap ->
    exists gap', length gap' = length gap /\ Forall (usable m) gap'
      /\ (Forall (fun c => live c = true) gap -> Forall (fun c => live c = true) gap')
      /\ shift_right m moved n lo (length gap) (St (pre ++ map Some mid ++ gap ++ post) k)
         = Ok (St (pre ++ gap' ++ map Some mid ++ post) k).
  Proof.
    intros -> ->. revert gap post. induction mid as [|x mid IH] using rev_ind;
      intros gap post Hne HF.
    - exists gap. cbn. auto.
    - destruct (exists_last Hne) as [gap0 [g Eg]]. subst gap.
      rewrite (app_length mid [x]), Nat.add_1_r. cbn [shift_right].
      assert (E : pre ++ map Some (mid ++ [x]) ++ (gap0 ++ [g]) ++ post
                  = (pre ++ map Some mid) ++ Some x :: gap0 ++ g :: post).
      { rewrite map_app. cbn. rewrite <- !app_assoc. cbn. reflexivity. }
      rewrite E. apply Forall_app in HF as [HF0 HFg]. inversion HFg; subst.
      rewrite st_move_up; auto.
      2:{ rewrite app_length, map_length. auto. }
      2:{ rewrite !app_length, map_length. cbn. lia. }
      cbn [bind].
      destruct (IH (Some (moved x) :: gap0) (Some x :: post)) as (gap' & L & F & HL & R).
      { discriminate. }
      { constructor; auto. right; reflexivity. }
      exists gap'. split; [|split; [|split]]; auto.
      + rewrite L, app_length. cbn. lia.
      + intros HF1. apply HL. apply Forall_app in HF1 as [? ?]. constructor; auto.
      + replace (length (gap0 ++ [g])) with (length (Some (moved x) :: gap0))
          by (rewrite app_length; cbn; lia).
        rewrite <- !app_assoc in *. cbn [app] in *.
        rewrite R. rewrite map_app, <- app_assoc. reflexivity.
  Qed.

  Lemma shift_left_ok (mid : list A) : forall pre gap post k n lo,
    n = length mid -> lo = length pre -> gap <> [] -> Forall (usable m) gap ->
    exists gap', length gap' = length gap /\ Forall (usable m) gap'
      /\ (Forall (fun c => live c = true) gap -> Forall (fun c => live c = true) gap')
      /\ shift_left m moved n lo (length gap) (St (pre ++ gap ++ map Some mid ++ post) k)
         = Ok (St (pre ++ map Some mid ++ gap' ++ post) k).
  Proof.
    induction mid as [|x mid IH]; intros pre gap post k n lo -> -> Hne HF.
    - exists gap. cbn. auto.
    - destruct gap as [|g gap0]; [congruence|]. cbn [length shift_left].
      inversion HF as [|? ? Hg HF0]; subst. cbn [map app].
      rewrite st_move_down; auto; try (cbn; lia).
      cbn [bind].
      destruct (IH (pre ++ [Some x]) (gap0 ++ [Some (moved x)]) post k (length mid)
                  (length (pre ++ [Some x]))) as (gap' & L & F & HL & R); auto.
      { destruct gap0; discriminate. }
      { apply Forall_app; split; auto. constructor; auto. right; reflexivity. }
      exists gap'. rewrite app_length in L. cbn in L. split; [|split; [|split]]; auto.
      + cbn. lia.
      + intros HF1. inversion HF1; subst. apply HL. apply Forall_app; split; auto.
      + replace (S (length pre)) with (length (pre ++ [Some x]))
          by (rewrite app_length; cbn; lia).
        replace (S (length gap0)) with (length (gap0 ++ [Some (moved x)]))
          by (rewrite app_length; cbn; lia).
        rewrite <- !app_assoc in *. cbn [app] in *. exact R.
  Qed.

  Lemma destroy_range_ok (mid : list (option A)) : forall pre post k n lo,
    n = length mid -> lo = length pre -> Forall (usable m) mid ->
    destroy_range m n lo (St (pre ++ mid ++ post) k)
    = Ok (St (pre ++ map dead mid ++ post) k).
  Proof.
    induction mid as [|c mid IH]; intros pre post k n lo -> -> HF; cbn [length destroy_range].
    - reflexivity.
    - inversion HF; subst. cbn [app map]. rewrite st_destroy_mid; auto. cbn [bind].
      change (pre ++ dead c :: mid ++ post) with (pre ++ [dead c] ++ mid ++ post).
      rewrite app_assoc.
      rewrite IH; auto.
      + rewrite <- app_assoc. reflexivity.
      + rewrite app_length; cbn; lia.
  Qed.

  Definition leaks_of (g : list (option A)) : nat := list_sum (map leak_of g).

  Lemma leaks_of_cons c g : leaks_of (c :: g) = leak_of c + leaks_of g.
  Proof. reflexivity. Qed.

  Lemma construct_dflt_ok gap : forall pre post k n lo,
    n = length gap -> lo = length pre ->
    construct_dflt m dflt n lo (St (pre ++ gap ++ post) k)
    = Ok (St (pre ++ repeat (Some dflt) n ++ post) (leaks_of gap + k)).
  Proof.
    induction gap as [|c gap IH]; intros pre post k n lo -> ->; cbn [length construct_dflt].
    - reflexivity.
    - cbn [app]. rewrite st_construct_mid; auto. cbn [bind].
      change (pre ++ Some dflt :: gap ++ post) with (pre ++ [Some dflt] ++ gap ++ post).
      rewrite app_assoc. rewrite IH; auto.
      + rewrite <- app_assoc, leaks_of_cons. cbn [app repeat map]. f_equal. f_equal. lia.
      + rewrite app_length; cbn; lia.
  Qed.

  Lemma construct_list_ok xs : forall gap pre post k lo,
    length gap = length xs -> lo = length pre ->
    construct_list m xs lo (St (pre ++ gap ++ post) k)
    = Ok (St (pre ++ map Some xs ++ post) (leaks_of gap + k)).
  Proof.
    induction xs as [|x xs IH]; intros [|c gap] pre post k lo L ->; try discriminate;
      cbn [construct_list].
    - reflexivity.
    - cbn [app]. rewrite st_construct_mid; auto. cbn [bind].
      change (pre ++ Some x :: gap ++ post) with (pre ++ [Some x] ++ gap ++ post).
      rewrite app_assoc. rewrite IH; auto.
      + rewrite <- app_assoc, leaks_of_cons. cbn [app repeat map]. f_equal. f_equal. lia.
      + rewrite app_length; cbn; lia.
  Qed.

  Lemma assign_list_ok (xs : list A) : forall gap pre post k lo,
    length gap = length xs -> lo = length pre -> Forall (usable m) gap ->
    assign_list m xs lo (St (pre ++ gap ++ post) k)
    = Ok (St (pre ++ map Some xs ++ post) k).
  Proof.
    induction xs as [|x xs IH]; intros [|c gap] pre post k lo L -> HF; try discriminate;
      cbn [assign_list].
    - reflexivity.
    - inversion HF; subst. cbn [app]. rewrite st_assign_mid; auto. cbn [bind].
      change (pre ++ Some x :: gap ++ post) with (pre ++ [Some x] ++ gap ++ post).
      rewrite app_assoc. rewrite IH; auto.
      + rewrite <- app_assoc. reflexivity.
      + rewrite app_length; cbn; lia.
  Qed.

  Lemma load_range_ok xs : forall pre post k n lo,
    n = length xs -> lo = length pre ->
    load_range n lo (St (pre ++ map (@Some A) xs ++ post) k) = Ok xs.
  Proof.
    induction xs as [|x xs IH]; intros pre post k n lo -> ->; cbn [length load_range].
    - reflexivity.
    - cbn [map app]. rewrite st_load_mid; auto. cbn [bind].
      change (pre ++ Some x :: map Some xs ++ post) with (pre ++ [Some x] ++ map Some xs ++ post).
      rewrite app_assoc. rewrite IH; auto. rewrite app_length; cbn; lia.
  Qed.

  Lemma usable_some l : Forall (usable m) (map (@Some A) l).
  Proof. induction l; constructor; auto. right; reflexivity. Qed.

  Lemma usable_repeat n : Forall (usable m) (repeat (Some dflt) n).
  Proof. induction n; constructor; auto. right; reflexivity. Qed.

  Lemma leaks_of_raw g : Forall (fun c => c = None) g -> leaks_of g = 0.
  Proof.
    induction 1; cbn; auto. subst. unfold leaks_of, leak_of in *. cbn. destruct m; auto.
  Qed.

  Lemma dead_tracked g : m = Tracked -> map dead g = repeat None (length g).
  Proof. intros E. induction g; cbn; auto. rewrite IHg. unfold dead. rewrite E. reflexivity. Qed.

  Lemma dead_trivial g : m = Trivial -> map dead g = g.
  Proof. intros E. unfold dead. rewrite E. apply map_id. Qed.
End Lemmas.

Lemma split_at {A} (l : list A) i : i <= length l ->
  exists l1 l2, l = l1 ++ l2 /\ length l1 = i.
Proof.
  intros H. exists (firstn i l), (skipn i l). split.
  - symmetry. apply firstn_skipn.
  - apply firstn_length_le; auto.
Qed.
