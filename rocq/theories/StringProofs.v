(** Proofs about BasicString. *)
From Coq Require Import List Arith ZArith Bool Lia.
From Verif Require Import Base BaseLemmas Store StoreLemmas StringModel StringSpec.
Import ListNotations.

Section Proofs.
  Context {A : Type}.
  Variable nul : A.
  Variable is_nul : A -> bool.

  Definition full (l : list A) (rest : list (option A)) (c : nat) : str A :=
    Str (Some (map Some l ++ Some nul :: rest)) c (length l).
  Definition rep (s : str A) (l : list A) (c : nat) : Prop :=
    (c = 0 /\ s = Str None 0 0 /\ l = [])
    \/ (exists rest, s = full l rest c /\ length l + 1 + length rest = c).

  Lemma any_usable : forall g : list (option A), Forall (usable Trivial) g.
  Proof. induction g; constructor; auto. left; reflexivity. Qed.

  Lemma put_at : forall (l1 : list (option A)) x c l2 cap t i, i = length l1 ->
    put_char (Str (Some (l1 ++ c :: l2)) cap t) i x = Ok (Str (Some (l1 ++ Some x :: l2)) cap t).
  Proof.
    intros. unfold put_char, with_buf. cbn [s_buf s_cap s_tail].
    rewrite st_assign_mid; auto. left; reflexivity.
  Qed.
  Lemma put_first : forall x (c : option A) l2 cap t,
    put_char (Str (Some (c :: l2)) cap t) 0 x = Ok (Str (Some (Some x :: l2)) cap t).
  Proof. intros. apply (put_at [] x c l2); reflexivity. Qed.
  Lemma put_end : forall (b : list (option A)) x cap t i, length b <= i ->
    put_char (Str (Some b) cap t) i x = UB.
  Proof.
    intros. unfold put_char, with_buf, st_assign. cbn [s_buf s_cap s_tail st_cells].
    rewrite (proj2 (nth_error_None b i)); auto.
  Qed.
  Lemma assign_at : forall (xs : list A) l1 g l2 cap t i, i = length l1 -> length g = length xs ->
    with_buf (Str (Some (l1 ++ g ++ l2)) cap t) (assign_list Trivial xs i)
    = Ok (Str (Some (l1 ++ map Some xs ++ l2)) cap t).
  Proof.
    intros. unfold with_buf. cbn [s_buf s_cap s_tail].
    rewrite assign_list_ok; auto using any_usable.
  Qed.

  Lemma rep_len : forall s l c, rep s l c -> c = 0 \/ length l < c.
  Proof. intros s l c [(-> & _)|(rest & _ & E)]; [left; auto|right; lia]. Qed.

  Lemma rep_holds : forall s l c, rep s l c -> holds nul s l c.
  Proof.
    intros s l c [(-> & -> & ->)|(rest & -> & E)]; unfold holds.
    - cbn. repeat split; auto; lia.
    - unfold str_length, str_capacity, str_chars, str_at, full. cbn [s_buf s_cap s_tail].
      split; [reflexivity|]. split; [reflexivity|]. split; [|split].
      + apply (load_range_ok l [] (Some nul :: rest)); auto.
      + intros. lia.
      + intros _. eexists. split; [reflexivity|].
        rewrite app_length, map_length. cbn [length]. split; [lia|]. split; [lia|].
        apply st_load_mid. rewrite map_length. reflexivity.
  Qed.

  Lemma rep_full : forall l rest c, length l + 1 + length rest = c -> rep (full l rest c) l c.
  Proof. intros. right. exists rest. auto. Qed.

  Lemma scan_ok : forall l, terminated is_nul (Some l) ->
    scan is_nul l = Ok (length (before_nul is_nul l))
    /\ exists c rest, l = before_nul is_nul l ++ c :: rest.
  Proof.
    induction l as [|a l IH]; cbn.
    - intros (c & [] & _).
    - intros (c & I & E). destruct (is_nul a) eqn:Ea; [cbn; eauto|].
      destruct IH as (IH & c' & rest & IH').
      { cbn. exists c. split; auto. destruct I as [->|I]; auto. congruence. }
      rewrite IH. cbn. split; [reflexivity|]. exists c', rest. f_equal. exact IH'.
  Qed.

  Lemma raw_length_ok : forall r, terminated is_nul r ->
    raw_length is_nul r = Ok (length (text is_nul r)).
  Proof. intros [l|] T; [apply scan_ok; exact T|reflexivity]. Qed.

  Lemma raw_read_ok : forall r, terminated is_nul r ->
    raw_read r (length (text is_nul r)) = Ok (text is_nul r).
  Proof.
    intros [l|] T; [|reflexivity]. destruct (scan_ok l T) as (_ & c & rest & E).
    cbn [text]. set (t := before_nul is_nul l) in *. unfold raw_read.
    destruct (length t) as [|n] eqn:L; [destruct t; [reflexivity|discriminate]|].
    rewrite E, app_length. cbn [length]. destruct (Nat.leb_spec (S n) (length t + S (length rest))); [|lia].
    rewrite <- L, firstn_app, firstn_all, Nat.sub_diag. cbn. rewrite app_nil_r. reflexivity.
  Qed.
  Lemma raw_read_next : forall l, terminated is_nul (Some l) ->
    exists c, raw_read (Some l) (length (before_nul is_nul l) + 1)
              = Ok (before_nul is_nul l ++ [c]).
  Proof.
    intros l T. destruct (scan_ok l T) as (_ & c & rest & E). exists c.
    set (t := before_nul is_nul l) in *. rewrite Nat.add_1_r. cbn [raw_read].
    rewrite E, app_length. cbn [length].
    destruct (Nat.leb_spec (S (length t)) (length t + S (length rest))); [|lia].
    rewrite <- Nat.add_1_r. rewrite firstn_app_2. reflexivity.
  Qed.

  Lemma split_gap : forall (g : list (option A)) n, n <= length g ->
    exists g1 g2, g = g1 ++ g2 /\ length g1 = n /\ length g2 = length g - n.
  Proof.
    intros g n L. destruct (split_at g n L) as (g1 & g2 & -> & E). exists g1, g2.
    rewrite app_length. repeat split; auto; lia.
  Qed.

  (** buffer of raw cells *)
  Lemma fill_ok : forall (xs : list A) (b : list (option A)), length b = length xs + 1 ->
    (let! s := with_buf (Str (Some b) (length xs + 1) (length xs)) (assign_list Trivial xs 0) in
     put_char s (length xs) nul) = Ok (full xs [] (length xs + 1)).
  Proof.
    intros xs b L. destruct (split_gap b (length xs)) as (g1 & g2 & -> & L1 & L2); [lia|].
    rewrite app_length in *. destruct g2 as [|x [|? ?]]; cbn in L, L2; try lia.
    rewrite (assign_at xs [] g1 [x]); auto. cbn [bind app].
    rewrite put_at; [reflexivity|]. rewrite map_length. reflexivity.
  Qed.

  Lemma from_raw_ok : forall r, terminated is_nul r ->
    exists s, str_from_raw nul is_nul r = Ok s /\ rep s (text is_nul r) (length (text is_nul r) + 1).
  Proof.
    intros r T. unfold str_from_raw. rewrite raw_length_ok by auto. cbn [bind].
    rewrite raw_read_ok by auto. cbn [bind]. set (t := text is_nul r).
    rewrite fill_ok by apply repeat_length. eexists. split; [reflexivity|].
    apply rep_full. cbn. lia.
  Qed.

  Lemma chars_ok : forall s l c, rep s l c -> str_chars s = Ok l.
  Proof. intros s l c R. apply rep_holds in R. apply R. Qed.
  Lemma tail_ok : forall s l c, rep s l c -> s_tail s = length l.
  Proof. intros s l c R. apply rep_holds in R. apply R. Qed.
  Lemma cap_ok : forall s l c, rep s l c -> s_cap s = c.
  Proof. intros s l c R. apply rep_holds in R. apply R. Qed.

  Lemma copy_ok : forall s l c, rep s l c ->
    exists s', str_copy nul s = Ok s' /\ rep s' l (length l + 1).
  Proof.
    intros s l c R. unfold str_copy. rewrite (chars_ok _ _ _ R), (tail_ok _ _ _ R). cbn [bind].
    rewrite fill_ok by apply repeat_length. eexists. split; [reflexivity|].
    apply rep_full. cbn. lia.
  Qed.

  Lemma clean_ok : forall s l c, rep s l c -> exists s', str_clean nul s = Ok s' /\ rep s' [] c.
  Proof.
    intros s l c [(-> & -> & ->)|(rest & -> & E)].
    - eexists. split; [reflexivity|]. left. auto.
    - unfold str_clean, full. cbn [s_cap]. destruct (Nat.eqb_spec c 0); [lia|].
      unfold set_tail. cbn [s_buf s_cap].
      destruct l as [|x l]; cbn [map app].
      + rewrite put_first. eexists. split; [reflexivity|].
        change (rep (full [] rest c) [] c). apply rep_full. cbn in *. lia.
      + rewrite put_first. eexists. split; [reflexivity|].
        change (rep (full [] (map Some l ++ Some nul :: rest) c) [] c).
        apply rep_full. rewrite app_length, map_length. cbn in *. lia.
  Qed.

  Lemma resize_ok : forall s l c n, rep s l c -> c <> 0 \/ n <> 0 ->
    exists s', str_resize nul s n = Ok s' /\ rep s' l (max c n).
  Proof.
    intros s l c n [(-> & -> & ->)|(rest & -> & E)] H.
    - unfold str_resize. cbn [s_buf s_cap]. destruct n as [|n]; [lia|].
      unfold create. cbn [repeat]. rewrite put_first. cbn [bind s_buf].
      eexists. split; [reflexivity|]. cbn [app max].
      change (rep (full [] (repeat None n) (S n)) [] (S n)). apply rep_full.
      rewrite repeat_length. cbn. lia.
    - unfold str_resize, full. cbn [s_buf s_cap s_tail]. destruct (Nat.ltb_spec c n).
      + eexists. split; [reflexivity|]. unfold realloc. rewrite firstn_all2.
        2:{ rewrite app_length, map_length. cbn. lia. }
        rewrite <- app_assoc. cbn [app].
        replace (max c n) with n by lia.
        match goal with |- rep (Str (Some (_ ++ Some nul :: ?r)) _ _) _ _ =>
          change (rep (full l r n) l n) end.
        apply rep_full. rewrite app_length, repeat_length, app_length, map_length. cbn. lia.
      + eexists. split; [reflexivity|]. replace (max c n) with c by lia. apply rep_full. auto.
  Qed.

  Lemma resize_zero : forall s l, rep s l 0 -> str_resize nul s 0 = UB.
  Proof.
    intros s l [(_ & -> & ->)|(rest & -> & E)]; [|lia]. reflexivity.
  Qed.

  Lemma reserve_ok : forall s l c n, rep s l c -> c <> 0 \/ n <> 0 ->
    exists s', str_reserve nul s n = Ok s' /\ rep s' l (c + n).
  Proof.
    intros s l c n R H. unfold str_reserve. rewrite (cap_ok _ _ _ R).
    destruct (resize_ok s l c (c + n) R) as (s' & E & R'); [lia|].
    exists s'. replace (max c (c + n)) with (c + n) in R' by lia. auto.
  Qed.

  (** room for one more *)
  Lemma append_ok : forall l rest c x, length l + 1 + length rest = c -> 1 <= length rest ->
    exists s', (let! s := put_char (full l rest c) (length l) x in
                let s := set_tail s (s_tail s + 1) in
                put_char s (s_tail s) nul) = Ok s' /\ rep s' (l ++ [x]) c.
  Proof.
    intros l rest c x E H. unfold full. rewrite put_at by (rewrite map_length; reflexivity).
    cbn [bind]. unfold set_tail. cbn [s_buf s_cap s_tail]. destruct rest as [|y rest]; [cbn in H; lia|].
    change (map Some l ++ Some x :: y :: rest) with (map Some l ++ [Some x] ++ y :: rest).
    rewrite app_assoc. rewrite put_at.
    2:{ rewrite app_length, map_length. reflexivity. }
    eexists. split; [reflexivity|]. right. exists rest. split.
    - unfold full. rewrite map_app, app_length. cbn. reflexivity.
    - rewrite app_length. cbn in *. lia.
  Qed.

  Lemma push_ok : forall fuel s l c x, rep s l c -> length l + 1 < c -> 1 <= fuel ->
    exists s', str_push_back nul fuel s x = Ok s' /\ rep s' (l ++ [x]) c.
  Proof.
    intros [|f] s l c x R H F; [lia|]. destruct R as [(-> & _)|(rest & -> & E)]; [lia|].
    cbn [str_push_back]. unfold full at 1 2. cbn [s_tail s_cap].
    destruct (Nat.ltb_spec (length l) c); [|lia].
    change (s_tail (full l rest c)) with (length l).
    apply append_ok; auto. lia.
  Qed.

  Lemma push_bad : forall fuel s l c x, rep s l c -> c <= length l + 1 -> 1 <= fuel ->
    str_push_back nul fuel s x = UB.
  Proof.
    intros [|f] s l c x R H F; [lia|]. destruct R as [(-> & -> & ->)|(rest & -> & E)].
    - cbn. reflexivity.
    - cbn [str_push_back]. unfold full at 1 2. cbn [s_tail s_cap].
      destruct (Nat.ltb_spec (length l) c); [|lia].
      unfold full. cbn [s_tail]. rewrite put_at by (rewrite map_length; reflexivity).
      cbn [bind]. unfold set_tail. cbn [s_buf s_cap s_tail]. apply put_end.
      rewrite app_length, map_length. cbn. destruct rest; cbn in *; lia.
  Qed.

  Lemma grown_gt : forall c, 2 <= c -> c < c * 3 / 2.
  Proof. intros c H. apply Nat.div_le_lower_bound; lia. Qed.

  Lemma push_move_ok : forall fuel s l c x, rep s l c -> 1 <= fuel ->
    if length l + 1 <? c then
      exists s', str_push_back_move nul fuel s x = Ok s' /\ rep s' (l ++ [x]) c
    else if 2 <=? c then
      exists s', str_push_back_move nul fuel s x = Ok s' /\ rep s' (l ++ [x]) (c * 3 / 2)
    else str_push_back_move nul fuel s x = UB.
  Proof.
    intros fuel s l c x R F. unfold str_push_back_move.
    rewrite (tail_ok _ _ _ R), (cap_ok _ _ _ R).
    destruct (Nat.ltb_spec (length l + 1) c).
    - destruct R as [(-> & _)|(rest & -> & E)]; [lia|]. apply append_ok; auto. lia.
    - unfold next_capacity. rewrite (cap_ok _ _ _ R). destruct (Nat.leb_spec 2 c).
      + pose proof (grown_gt c H0) as G.
        destruct (resize_ok _ _ _ (c * 3 / 2) R) as (s' & E & R'); [lia|]. rewrite E. cbn [bind].
        replace (max c (c * 3 / 2)) with (c * 3 / 2) in R' by lia.
        destruct (rep_len _ _ _ R); [lia|]. apply push_ok; auto. lia.
      + destruct c as [|[|c]]; [|  |lia].
        * change (0 * 3 / 2) with 0. rewrite (resize_zero _ _ R). reflexivity.
        * change (1 * 3 / 2) with 1. destruct (resize_ok _ _ _ 1 R) as (s' & E & R'); [lia|].
          rewrite E. cbn [bind]. apply (push_bad fuel s' l (max 1 1)); auto.
  Qed.

  (** room for the text *)
  Lemma append_list_ok : forall l rest c xs, length l + 1 + length rest = c ->
    length xs <= length rest ->
    exists s', (let! s := with_buf (full l rest c) (assign_list Trivial xs (length l)) in
                let s := set_tail s (s_tail s + length xs) in
                put_char s (s_tail s) nul) = Ok s' /\ rep s' (l ++ xs) c.
  Proof.
    intros l rest c xs E H. unfold full.
    destruct (split_gap (Some nul :: rest) (length xs)) as (g1 & g2 & Eg & L1 & L2); [cbn; lia|].
    rewrite Eg. rewrite (assign_at xs (map Some l) g1 g2); auto.
    2:{ rewrite map_length; auto. }
    cbn [bind]. unfold set_tail. cbn [s_buf s_cap s_tail]. cbn [length] in L2.
    destruct g2 as [|y g2]; [cbn [length] in L2; lia|].
    rewrite app_assoc, put_at.
    2:{ rewrite app_length, !map_length. reflexivity. }
    eexists. split; [reflexivity|]. right. exists g2. split.
    - unfold full. rewrite map_app, app_length. reflexivity.
    - rewrite app_length. cbn [length] in L2. lia.
  Qed.

  Lemma push_raw_fits : forall fuel s l c r, rep s l c -> terminated is_nul r ->
    length l + length (text is_nul r) + 2 < c -> 1 <= fuel ->
    exists s', str_push_raw nul is_nul fuel s r = Ok s' /\ rep s' (l ++ text is_nul r) c.
  Proof.
    intros [|f] s l c r R T H F; [lia|]. cbn [str_push_raw].
    rewrite raw_length_ok by auto. cbn [bind].
    rewrite (tail_ok _ _ _ R), (cap_ok _ _ _ R).
    set (t := text is_nul r) in *.
    destruct (Nat.ltb_spec (length l + length t + 2) c); [|lia].
    unfold t. rewrite raw_read_ok by auto. cbn [bind]. fold t.
    destruct R as [(-> & _)|(rest & -> & E)]; [lia|]. apply append_list_ok; auto. lia.
  Qed.

  Lemma push_raw_ok : forall fuel s l c r, rep s l c -> terminated is_nul r -> 3 <= fuel ->
    exists s' c', str_cap_step is_nul (length l) c (SPushRaw r) = Some c'
      /\ str_push_raw nul is_nul fuel s r = Ok s' /\ rep s' (l ++ text is_nul r) c'.
  Proof.
    intros fuel s l c r R T F. cbn [str_cap_step]. set (need := length l + length (text is_nul r) + 2).
    destruct (Nat.ltb_spec need c) as [H|H].
    { destruct (push_raw_fits fuel s l c r R T) as (s' & E & R'); [assumption|lia|].
      exists s', c. auto. }
    destruct fuel as [|f]; [lia|]. cbn [str_push_raw]. rewrite raw_length_ok by auto. cbn [bind].
    unfold next_capacity. rewrite (tail_ok _ _ _ R), (cap_ok _ _ _ R). fold need.
    destruct (Nat.ltb_spec need c); [lia|].
    destruct (Nat.ltb_spec need (c * 3 / 2)) as [G|G].
    - destruct (resize_ok _ _ _ (c * 3 / 2) R) as (s' & E & R'); [lia|]. rewrite E. cbn [bind].
      replace (max c (c * 3 / 2)) with (c * 3 / 2) in R' by lia.
      destruct (push_raw_fits f s' l _ r R' T) as (s2 & E2 & R2); [assumption|lia|].
      exists s2, (c * 3 / 2). auto.
    - destruct (resize_ok _ _ _ need R) as (s' & E & R'); [unfold need; lia|]. rewrite E. cbn [bind].
      replace (max c need) with need in R' by lia.
      destruct f as [|f]; [lia|]. cbn [str_push_raw]. rewrite raw_length_ok by auto. cbn [bind].
      unfold next_capacity. rewrite (tail_ok _ _ _ R'), (cap_ok _ _ _ R'). fold need.
      destruct (Nat.ltb_spec need need); [lia|].
      assert (G2 : need < need * 3 / 2) by (apply grown_gt; unfold need; lia).
      destruct (Nat.ltb_spec need (need * 3 / 2)); [|lia].
      destruct (resize_ok _ _ _ (need * 3 / 2) R') as (s2 & E2 & R2); [lia|]. rewrite E2. cbn [bind].
      replace (max need (need * 3 / 2)) with (need * 3 / 2) in R2 by lia.
      destruct (push_raw_fits f s2 l _ r R2 T) as (s3 & E3 & R3); [assumption|lia|].
      exists s3, (need * 3 / 2). auto.
  Qed.

  Lemma pop_ok : forall s l c, rep s l c ->
    exists s', str_pop_back nul s = Ok s' /\ rep s' (removelast l) c.
  Proof.
    intros s l c R. unfold str_pop_back. rewrite (tail_ok _ _ _ R).
    destruct l as [|x0 l0] using rev_ind.
    - cbn. exists s. auto.
    - clear IHl0. rewrite app_length, Nat.add_1_r. cbn [length Nat.eqb].
      destruct R as [(_ & _ & E)|(rest & -> & E)]; [destruct l0; discriminate|].
      unfold full, set_tail. cbn [s_buf s_cap]. rewrite map_app, <- app_assoc. cbn [map app].
      rewrite put_at by (rewrite map_length; cbn; lia).
      eexists. split; [reflexivity|]. rewrite removelast_last.
      right. exists (Some nul :: rest). rewrite app_length in E. cbn [length] in *. split; [|lia].
      unfold full. f_equal. lia.
  Qed.

  (** opening a gap of [length xs] cells at [i], filling it *)
  Lemma open_ok : forall l1 l2 xs gap rest c, xs <> [] -> length gap = length xs ->
    length l1 + length l2 + length xs + 1 + length rest = c ->
    forall y, exists s',
    (let! s := with_buf (Str (Some (map Some l1 ++ map Some l2 ++ gap ++ y :: rest)) c
                          (length (l1 ++ l2)))
                 (shift_right Trivial (fun a => a) (length l2) (length l1) (length xs)) in
     let! s := with_buf s (assign_list Trivial xs (length l1)) in
     let s := set_tail s (s_tail s + length xs) in
     put_char s (s_tail s) nul) = Ok s' /\ rep s' (l1 ++ xs ++ l2) c.
  Proof.
    intros l1 l2 xs gap rest c NE Lg E y.
    destruct (shift_right_ok Trivial (fun a : A => a) (map Some l1) l2 gap (y :: rest) 0
                (length l2) (length l1)) as (gap' & Lg' & _ & _ & ES); auto using any_usable.
    { rewrite map_length; auto. }
    { intros ->. cbn in Lg. destruct xs; [congruence|discriminate]. }
    unfold with_buf at 1. cbn [s_buf s_cap s_tail]. rewrite Lg in ES. rewrite ES.
    cbn [bind st_cells].
    rewrite (assign_at xs (map Some l1) gap').
    2:{ rewrite map_length; auto. }
    2:{ lia. }
    cbn [bind]. unfold set_tail. cbn [s_buf s_cap s_tail].
    rewrite !app_assoc, put_at.
    2:{ rewrite !app_length, !map_length. lia. }
    eexists. split; [reflexivity|]. right. exists rest. split.
    - unfold full. f_equal.
      + rewrite !map_app. rewrite ?app_assoc. reflexivity.
      + rewrite !app_length. lia.
    - rewrite !app_length. lia.
  Qed.

  Lemma put_in_mid : forall (l1 l2 xs : list A) i, i = length l1 ->
    put_in (l1 ++ l2) i xs = l1 ++ xs ++ l2.
  Proof.
    intros l1 l2 xs i ->. unfold put_in. rewrite firstn_app, skipn_app, firstn_all, skipn_all,
      Nat.sub_diag. cbn. rewrite app_nil_r. reflexivity.
  Qed.

  (** the body shared by both insert of one character *)
  Lemma insert_mid_ok : forall s l c i x, rep s l c -> length l + 1 < c -> i < length l ->
    exists s',
    (let! s := put_char s (length l) nul in
     let! s := with_buf s (shift_right Trivial (fun c => c) (s_tail s - i) i 1) in
     let! s := put_char s i x in
     let s := set_tail s (s_tail s + 1) in
     put_char s (s_tail s) nul) = Ok s' /\ rep s' (put_in l i [x]) c.
  Proof.
    intros s l c i x R H Hi. destruct R as [(-> & _)|(rest & -> & E)]; [lia|].
    destruct (split_at l i) as (l1 & l2 & -> & L1); [lia|].
    unfold full. cbn [s_tail]. rewrite put_at by (rewrite map_length; reflexivity). cbn [bind s_tail].
    destruct rest as [|y rest]; [cbn in E; lia|].
    rewrite app_length in *. cbn [length] in *.
    destruct (open_ok l1 l2 [x] [Some nul] rest c) with (y := y) as (s' & E' & R');
      try (cbn; lia); try discriminate.
    exists s'. rewrite put_in_mid by auto. split; [|exact R'].
    rewrite <- E'. subst i. replace (length l1 + length l2 - length l1) with (length l2) by lia.
    rewrite map_app, <- app_assoc, app_length. cbn [app length].
    match goal with |- bind ?m _ = bind ?m _ => destruct m as [st| |]; cbn [bind]; try reflexivity end.
    unfold put_char, with_buf, assign_list. destruct (s_buf st); cbn [bind]; [|reflexivity].
    destruct (st_assign Trivial (St l 0) (length l1) x); reflexivity.
  Qed.

  Lemma insert_fits : forall fuel s l c i x, rep s l c -> length l + 1 < c -> i <= length l ->
    2 <= fuel -> exists s', str_insert nul fuel s i x = Ok s' /\ rep s' (put_in l i [x]) c.
  Proof.
    intros [|f] s l c i x R H Hi F; [lia|]. cbn [str_insert].
    rewrite (tail_ok _ _ _ R), (cap_ok _ _ _ R).
    destruct (Nat.ltb_spec (length l + 1) c); [|lia].
    destruct (Nat.eqb_spec i (length l)) as [->|Hn].
    - replace (put_in l (length l) [x]) with (l ++ [x]); [apply push_ok; auto; lia|].
      unfold put_in. rewrite firstn_all, skipn_all. cbn. reflexivity.
    - apply insert_mid_ok; auto. lia.
  Qed.

  Lemma insert_ok : forall fuel s l c i x, rep s l c -> i <= length l -> 3 <= fuel ->
    if length l + 1 <? c then
      exists s', str_insert nul fuel s i x = Ok s' /\ rep s' (put_in l i [x]) c
    else if 1 <=? c then
      exists s', str_insert nul fuel s i x = Ok s' /\ rep s' (put_in l i [x]) (c + c * 3 / 2)
    else str_insert nul fuel s i x = UB.
  Proof.
    intros fuel s l c i x R Hi F. destruct (Nat.ltb_spec (length l + 1) c).
    { apply insert_fits; auto. lia. }
    destruct fuel as [|f]; [lia|]. cbn [str_insert]. unfold next_capacity.
    rewrite (tail_ok _ _ _ R), (cap_ok _ _ _ R).
    destruct (Nat.ltb_spec (length l + 1) c); [lia|].
    destruct (Nat.leb_spec 1 c).
    - destruct (reserve_ok _ _ _ (c * 3 / 2) R) as (s' & E & R'); [lia|]. rewrite E. cbn [bind].
      assert (1 <= c * 3 / 2) by (apply Nat.div_le_lower_bound; lia).
      destruct (rep_len _ _ _ R); [lia|]. apply insert_fits; auto; lia.
    - assert (c = 0) as -> by lia. change (0 * 3 / 2) with 0. unfold str_reserve.
      rewrite (cap_ok _ _ _ R). cbn [Nat.add]. rewrite (resize_zero _ _ R). reflexivity.
  Qed.

  Lemma insert_move_ok : forall fuel s l c i x, rep s l c -> i <= length l -> 3 <= fuel ->
    if length l + 1 <? c then
      exists s', str_insert_move nul fuel s i x = Ok s' /\ rep s' (put_in l i [x]) c
    else if 1 <=? c then
      exists s', str_insert_move nul fuel s i x = Ok s' /\ rep s' (put_in l i [x]) (c + c * 3 / 2)
    else str_insert_move nul fuel s i x = UB.
  Proof.
    intros fuel s l c i x R Hi F. unfold str_insert_move, next_capacity.
    rewrite (tail_ok _ _ _ R), (cap_ok _ _ _ R).
    destruct (Nat.ltb_spec (length l + 1) c).
    - destruct (Nat.eqb_spec i (length l)) as [->|Hn].
      + pose proof (push_move_ok fuel s l c x R) as P.
        destruct (Nat.ltb_spec (length l + 1) c); [|lia].
        replace (put_in l (length l) [x]) with (l ++ [x]); [apply P; lia|].
        unfold put_in. rewrite firstn_all, skipn_all. cbn. reflexivity.
      + apply insert_mid_ok; auto. lia.
    - destruct (Nat.leb_spec 1 c).
      + destruct (reserve_ok _ _ _ (c * 3 / 2) R) as (s' & E & R'); [lia|]. rewrite E. cbn [bind].
        assert (1 <= c * 3 / 2) by (apply Nat.div_le_lower_bound; lia).
        destruct (rep_len _ _ _ R); [lia|]. apply insert_fits; auto; lia.
      + assert (c = 0) as -> by lia. change (0 * 3 / 2) with 0. unfold str_reserve.
        rewrite (cap_ok _ _ _ R). cbn [Nat.add]. rewrite (resize_zero _ _ R). reflexivity.
  Qed.

  Lemma push_each_ok : forall fuel xs s l c, rep s l c -> length l + length xs < c -> 1 <= fuel ->
    exists s', push_each nul fuel s xs = Ok s' /\ rep s' (l ++ xs) c.
  Proof.
    intros fuel xs. induction xs as [|x xs IH]; intros s l c R H F; cbn [push_each].
    - exists s. rewrite app_nil_r. auto.
    - cbn [length] in H. destruct (push_ok fuel s l c x R) as (s1 & E1 & R1); [lia|auto|].
      rewrite E1. cbn [bind]. destruct (IH s1 (l ++ [x]) c R1) as (s2 & E2 & R2); auto.
      { rewrite app_length. cbn. lia. }
      exists s2. split; [exact E2|]. rewrite <- app_assoc in R2. exact R2.
  Qed.

  Lemma insert_range_ok : forall fuel s l c i xs, rep s l c -> i <= length l -> 2 <= fuel ->
    xs = [] \/ length xs + length l < c ->
    exists s', str_insert_range nul fuel s i xs = Ok s' /\ rep s' (put_in l i xs) c.
  Proof.
    intros [|f] s l c i xs R Hi F H; [lia|]. cbn [str_insert_range].
    destruct (Nat.eqb_spec (length xs) 0) as [E0|E0].
    { destruct xs; [|discriminate]. exists s. split; auto. unfold put_in. cbn.
      rewrite firstn_skipn. exact R. }
    destruct H as [->|H]; [cbn in E0; congruence|].
    rewrite (tail_ok _ _ _ R), (cap_ok _ _ _ R).
    destruct (Nat.ltb_spec (length xs + length l) c); [|lia].
    destruct (Nat.eqb_spec i (length l)) as [->|Hn].
    - replace (put_in l (length l) xs) with (l ++ xs); [apply push_each_ok; auto; lia|].
      unfold put_in. rewrite firstn_all, skipn_all. rewrite app_nil_r. reflexivity.
    - destruct R as [(-> & _)|(rest & -> & E)]; [lia|].
      destruct (split_at l i) as (l1 & l2 & -> & L1); [lia|].
      rewrite app_length in *. unfold full. cbn [s_tail].
      destruct (split_gap (Some nul :: rest) (length xs)) as (g1 & g2 & Eg & Lg1 & Lg2);
        [cbn; lia|]. cbn [length] in Lg2.
      destruct g2 as [|y g2]; [cbn [length] in Lg2; lia|]. rewrite Eg.
      unfold with_buf at 1. cbn [s_buf s_cap s_tail].
      rewrite (construct_dflt_ok Trivial nul g1); auto.
      2:{ rewrite map_length, app_length; reflexivity. }
      cbn [bind st_cells s_tail].
      destruct (open_ok l1 l2 xs (repeat (Some nul) (length xs)) g2 c) with (y := y)
        as (s' & E' & R'); auto.
      { intros ->. cbn in E0. congruence. }
      { apply repeat_length. }
      { cbn [length] in Lg2. lia. }
      exists s'. rewrite put_in_mid by auto. split; [|exact R'].
      rewrite <- E', app_length. subst i.
      replace (length l1 + length l2 - length l1) with (length l2) by lia.
      rewrite map_app, <- app_assoc. reflexivity.
  Qed.

  Lemma size_back : forall a b, (Z.of_nat a < 2 ^ 64)%Z -> size_add b (size_sub a b) = a.
  Proof.
    intros a b H. unfold size_add, size_sub.
    rewrite Z2Nat.id by (apply Z.mod_pos_bound; reflexivity).
    rewrite Zplus_mod_idemp_r. replace (Z.of_nat b + (Z.of_nat a - Z.of_nat b))%Z with (Z.of_nat a) by lia.
    rewrite Z.mod_small by lia. apply Nat2Z.id.
  Qed.

  Lemma insert_range_bad : forall fuel s l c i xs, rep s l c -> xs <> [] ->
    (Z.of_nat (length xs) < 2 ^ 64)%Z -> c <= length xs + length l ->
    str_insert_range nul fuel s i xs = Diverge.
  Proof.
    induction fuel as [|f IH]; intros s l c i xs R NE Hb Hc; [reflexivity|].
    assert (E0 : length xs <> 0) by (destruct xs; [congruence|discriminate]).
    cbn [str_insert_range]. rewrite (proj2 (Nat.eqb_neq _ _) E0).
    rewrite (tail_ok _ _ _ R), (cap_ok _ _ _ R).
    destruct (Nat.ltb_spec (length xs + length l) c); [lia|].
    rewrite size_back by exact Hb.
    destruct (resize_ok _ _ _ (length xs) R) as (s' & E & R'); [lia|]. rewrite E. cbn [bind].
    apply (IH s' l _ i xs R'); auto. lia.
  Qed.

  (** closing a gap *)
  Lemma close_ok : forall l1 mid l2 rest c y, mid <> [] ->
    length l1 + length mid + length l2 + 1 + length rest = c ->
    exists s',
    (let! s := with_buf (Str (Some (map Some l1 ++ map Some mid ++ map Some l2 ++ y :: rest)) c
                          (length (l1 ++ mid ++ l2)))
                 (shift_left Trivial (fun a => a) (length l2) (length l1) (length mid)) in
     let s := set_tail s (s_tail s - length mid) in
     put_char s (s_tail s) nul) = Ok s' /\ rep s' (l1 ++ l2) c.
  Proof.
    intros l1 mid l2 rest c y NE E.
    destruct (shift_left_ok Trivial (fun a : A => a) l2 (map Some l1) (map Some mid) (y :: rest) 0
                (length l2) (length l1)) as (gap' & Lg & _ & _ & ES); auto using any_usable.
    { rewrite map_length; auto. }
    { destruct mid; [congruence|discriminate]. }
    rewrite map_length in *.
    unfold with_buf at 1. cbn [s_buf s_cap s_tail]. rewrite ES.
    cbn [bind st_cells]. unfold set_tail. cbn [s_buf s_cap s_tail].
    destruct gap' as [|g gap']; [destruct mid; [congruence|discriminate]|].
    cbn [app]. rewrite app_assoc, put_at.
    2:{ rewrite !app_length, !map_length. lia. }
    eexists. split; [reflexivity|]. right. exists (gap' ++ y :: rest). split.
    - unfold full. f_equal.
      + rewrite !map_app. reflexivity.
      + rewrite !app_length. lia.
    - rewrite !app_length. cbn in *. lia.
  Qed.

  Lemma erase_ok : forall s l c i, rep s l c -> i <= length l ->
    exists s', str_erase nul s i = Ok s' /\ rep s' (firstn i l ++ skipn (S i) l) c.
  Proof.
    intros s l c i R Hi. unfold str_erase. rewrite (tail_ok _ _ _ R).
    destruct (Nat.eqb_spec i (length l)) as [->|Hn].
    { exists s. split; auto. rewrite firstn_all, skipn_all2 by lia. rewrite app_nil_r. exact R. }
    destruct (Nat.eqb_spec (i + 1) (length l)) as [El|Hn2].
    { destruct (pop_ok s l c R) as (s' & E' & R'). exists s'. split; auto.
      replace (firstn i l ++ skipn (S i) l) with (removelast l); [exact R'|].
      destruct l as [|x0 l0] using rev_ind; [cbn in El; lia|]. rewrite removelast_last.
      rewrite app_length in El. cbn in El. assert (i = length l0) as -> by lia.
      rewrite firstn_app, firstn_all, Nat.sub_diag, skipn_all2 by (rewrite app_length; cbn; lia).
      cbn. rewrite !app_nil_r. reflexivity. }
    destruct R as [(_ & _ & ->)|(rest & -> & E)]; [cbn in *; lia|].
    destruct (split_at l i) as (l1 & l2 & -> & L1); [lia|].
    rewrite app_length in *. destruct l2 as [|x l2]; [cbn in Hn; lia|]. cbn [length] in *.
    destruct (close_ok l1 [x] l2 rest c (Some nul)) as (s' & E' & R'); [discriminate|cbn; lia|].
    exists s'. split.
    - rewrite <- E'. subst i. unfold full.
      replace (length l1 + S (length l2) - (length l1 + 1)) with (length l2) by lia.
      rewrite map_app, <- app_assoc. reflexivity.
    - subst i. rewrite firstn_app, firstn_all, Nat.sub_diag, skipn_app, skipn_all2 by lia.
      replace (S (length l1) - length l1) with 1 by lia. cbn. rewrite app_nil_r. exact R'.
  Qed.

  Lemma erase_range_ok : forall s l c i j, rep s l c -> i <= j <= length l ->
    exists s', str_erase_range nul s i j = Ok s' /\ rep s' (firstn i l ++ skipn j l) c.
  Proof.
    intros s l c i j R (Hi & Hj). unfold str_erase_range. rewrite (tail_ok _ _ _ R).
    destruct (Nat.eqb_spec (j - i) (length l)) as [En|Hn].
    { assert (i = 0) as -> by lia. assert (j = length l) as -> by lia.
      rewrite skipn_all. cbn. apply (clean_ok _ _ _ R). }
    destruct (Nat.ltb_spec (j - i) (length l)); [|lia].
    destruct (Nat.ltb_spec 0 (j - i)); cbn [andb].
    2:{ exists s. split; auto. assert (i = j) as -> by lia. rewrite firstn_skipn. exact R. }
    destruct R as [(_ & _ & ->)|(rest & -> & E)]; [cbn in *; lia|].
    destruct (split_at l i) as (l1 & l0 & -> & L1); [lia|].
    rewrite app_length in *.
    destruct (split_at l0 (j - i)) as (mid & l2 & -> & L2); [lia|].
    rewrite app_length in *.
    destruct (close_ok l1 mid l2 rest c (Some nul)) as (s' & E' & R').
    { intros ->. cbn [length] in L2. lia. }
    { lia. }
    exists s'. split.
    - rewrite <- E'. unfold full. subst i.
      replace (length l1 + (length mid + length l2) - j) with (length l2) by lia.
      rewrite <- L2. rewrite !map_app, <- !app_assoc. reflexivity.
    - subst i. rewrite firstn_app, firstn_all, Nat.sub_diag. cbn. rewrite app_nil_r.
      rewrite skipn_app, skipn_all2 by lia. rewrite skipn_app, skipn_all2 by lia.
      replace (j - length l1 - length mid) with 0 by lia. cbn. exact R'.
  Qed.

  Lemma assign_raw_fits : forall fuel s l c t, rep s l c -> terminated is_nul (Some t) ->
    length (before_nul is_nul t) + 1 <= c -> 1 <= fuel ->
    exists s', str_assign_raw nul is_nul fuel s (Some t) = Ok s' /\ rep s' (before_nul is_nul t) c.
  Proof.
    intros [|f] s l c t R T H F; [lia|]. cbn [str_assign_raw].
    destruct (clean_ok _ _ _ R) as (s1 & E1 & R1). rewrite E1. cbn [bind].
    rewrite raw_length_ok by auto. cbn [bind text]. rewrite (cap_ok _ _ _ R1).
    destruct (Nat.leb_spec (length (before_nul is_nul t) + 1) c); [|lia].
    destruct (raw_read_next t T) as (z & Ez). rewrite Ez. cbn [bind].
    set (xs := before_nul is_nul t) in *.
    destruct R1 as [(-> & _)|(rest & -> & E)]; [lia|]. unfold full. cbn [map app length] in *.
    destruct (split_gap (Some nul :: rest) (length (xs ++ [z]))) as (g1 & g2 & Eg & L1 & L2).
    { rewrite app_length. cbn [length]. lia. }
    rewrite Eg. rewrite app_length in L1, L2. cbn [length] in *.
    rewrite (assign_at (xs ++ [z]) [] g1 g2); auto.
    2:{ rewrite app_length. exact L1. }
    cbn [bind app]. unfold set_tail. cbn [s_buf s_cap]. rewrite map_app, <- app_assoc. cbn [map app].
    rewrite put_at by (rewrite map_length; reflexivity).
    eexists. split; [reflexivity|]. right. exists g2. split; [reflexivity|]. lia.
  Qed.

  Lemma assign_raw_ok : forall fuel s l c t, rep s l c -> terminated is_nul (Some t) -> 2 <= fuel ->
    exists s' c', str_cap_step is_nul (length l) c (SAssignRaw (Some t)) = Some c'
      /\ str_assign_raw nul is_nul fuel s (Some t) = Ok s' /\ rep s' (before_nul is_nul t) c'.
  Proof.
    intros fuel s l c t R T F. cbn [str_cap_step].
    destruct (Nat.leb_spec (length (before_nul is_nul t) + 1) c).
    { destruct (assign_raw_fits fuel s l c t R T) as (s' & E & R'); [assumption|lia|].
      exists s', c. auto. }
    destruct fuel as [|f]; [lia|]. cbn [str_assign_raw].
    destruct (clean_ok _ _ _ R) as (s1 & E1 & R1). rewrite E1. cbn [bind].
    rewrite raw_length_ok by auto. cbn [bind text]. rewrite (cap_ok _ _ _ R1), (tail_ok _ _ _ R1).
    destruct (Nat.leb_spec (length (before_nul is_nul t) + 1) c); [lia|]. cbn [length].
    rewrite Nat.sub_0_r.
    destruct (reserve_ok _ _ _ (length (before_nul is_nul t) + 1) R1) as (s2 & E2 & R2); [lia|].
    rewrite E2. cbn [bind].
    destruct (assign_raw_fits f s2 _ _ t R2 T) as (s3 & E3 & R3); [lia|lia|].
    exists s3. eexists. eauto.
  Qed.

  Lemma assign_null : forall fuel s l c, rep s l c -> 2 <= fuel ->
    str_assign_raw nul is_nul fuel s None = UB.
  Proof.
    intros [|f] s l c R F; [lia|]. cbn [str_assign_raw].
    destruct (clean_ok _ _ _ R) as (s1 & E1 & R1). rewrite E1. cbn [bind raw_length].
    rewrite (cap_ok _ _ _ R1), (tail_ok _ _ _ R1). cbn [length].
    destruct (Nat.leb_spec (0 + 1) c).
    - cbn. reflexivity.
    - destruct (reserve_ok _ _ _ (0 + 1 - 0) R1) as (s2 & E2 & R2); [lia|]. rewrite E2. cbn [bind].
      destruct f as [|f]; [lia|]. cbn [str_assign_raw].
      destruct (clean_ok _ _ _ R2) as (s3 & E3 & R3). rewrite E3. cbn [bind raw_length].
      rewrite (cap_ok _ _ _ R3). destruct (Nat.leb_spec (0 + 1) (c + (0 + 1 - 0))); [|lia].
      cbn. reflexivity.
  Qed.

  (** operator= from another string, exactly *)
  Lemma assign_fits : forall fuel s l c src l2 c2, rep s l c -> rep src l2 c2 ->
    length l2 <= c -> 1 <= fuel ->
    if length l2 <? c then
      exists s', str_assign nul fuel false s src = Ok s' /\ str_length s' = 0
    else str_assign nul fuel false s src = UB.
  Proof.
    intros [|f] s l c src l2 c2 R R2 H F; [lia|]. cbn [str_assign].
    rewrite (tail_ok _ _ _ R2), (cap_ok _ _ _ R).
    destruct (Nat.leb_spec (length l2) c); [|lia].
    destruct (clean_ok _ _ _ R) as (s1 & E1 & R1). rewrite E1. cbn [bind].
    rewrite (chars_ok _ _ _ R2). cbn [bind].
    destruct (Nat.ltb_spec (length l2) c).
    - destruct R1 as [(-> & _)|(rest & -> & E)]; [lia|]. unfold full. cbn [map app length] in *.
      destruct (split_gap (Some nul :: rest) (length l2)) as (g1 & g2 & Eg & L1 & L2).
      { cbn [length]. lia. }
      rewrite Eg, (assign_at l2 [] g1 g2); auto. cbn [bind app]. cbn [length] in L2.
      destruct g2 as [|y g2]; [cbn [length] in L2; lia|].
      rewrite put_at by (rewrite map_length; reflexivity). eexists. split; reflexivity.
    - destruct R1 as [(-> & -> & _)|(rest & -> & E)].
      + destruct l2; [reflexivity|cbn in *; lia].
      + unfold full. cbn [map app length] in *.
        rewrite <- (app_nil_r (Some nul :: rest)).
        rewrite (assign_at l2 [] (Some nul :: rest) []); auto; [|cbn; lia]. cbn [bind app].
        apply put_end. rewrite app_nil_r, map_length. auto.
  Qed.

  Lemma assign_exact : forall fuel s l c src l2 c2, rep s l c -> rep src l2 c2 -> 2 <= fuel ->
    if (c =? 0) || (length l2 =? c) then str_assign nul fuel false s src = UB
    else exists s', str_assign nul fuel false s src = Ok s' /\ str_length s' = 0.
  Proof.
    intros fuel s l c src l2 c2 R R2 F.
    destruct (le_lt_dec (length l2) c) as [H|H].
    - pose proof (assign_fits fuel s l c src l2 c2 R R2 H) as P.
      destruct (Nat.eqb_spec (length l2) c) as [E|E].
      + rewrite orb_true_r. destruct (Nat.ltb_spec (length l2) c); [lia|]. apply P. lia.
      + destruct (Nat.ltb_spec (length l2) c); [|lia]. destruct (Nat.eqb_spec c 0); [lia|]. apply P. lia.
    - destruct (Nat.eqb_spec (length l2) c); [lia|]. rewrite orb_false_r.
      destruct fuel as [|f]; [lia|]. cbn [str_assign].
      rewrite (tail_ok _ _ _ R2), (cap_ok _ _ _ R), (tail_ok _ _ _ R).
      destruct (Nat.leb_spec (length l2) c); [lia|].
      assert (Hl : c = 0 /\ l = [] \/ length l < c).
      { destruct R as [(-> & _ & ->)|(rest & _ & E)]; [left; auto|right; lia]. }
      assert (length l < length l2) by (destruct Hl as [(-> & ->)|]; cbn; lia).
      destruct (reserve_ok _ _ _ (length l2 - length l) R) as (s1 & E1 & R1); [lia|].
      rewrite E1. cbn [bind].
      assert (Hge : length l2 <= c + (length l2 - length l)) by (destruct Hl as [(-> & ->)|]; cbn; lia).
      pose proof (assign_fits f s1 l _ src l2 c2 R1 R2 Hge) as P.
      destruct (Nat.eqb_spec c 0) as [->|Hc].
      + destruct Hl as [(_ & ->)|]; [|lia]. cbn [length] in P. rewrite Nat.sub_0_r in P.
        destruct (Nat.ltb_spec (length l2) (0 + length l2)); [lia|]. apply P. lia.
      + destruct (Nat.ltb_spec (length l2) (c + (length l2 - length l))); [|lia]. apply P. lia.
  Qed.

  Lemma self_assign : forall fuel s l c, rep s l c -> 1 <= fuel ->
    if c =? 0 then str_assign nul fuel true s s = UB
    else exists s', str_assign nul fuel true s s = Ok s' /\ str_length s' = 0.
  Proof.
    intros [|f] s l c R F; [lia|]. cbn [str_assign]. rewrite (tail_ok _ _ _ R), (cap_ok _ _ _ R).
    destruct (rep_len _ _ _ R) as [->|Hl].
    - destruct R as [(_ & -> & ->)|(rest & _ & E)]; [|lia]. reflexivity.
    - destruct (Nat.leb_spec (length l) c); [|lia]. destruct (Nat.eqb_spec c 0); [lia|].
      destruct (clean_ok _ _ _ R) as (s1 & E1 & R1). rewrite E1. cbn [bind].
      rewrite (chars_ok _ _ _ R1). cbn [bind].
      destruct R1 as [(-> & _)|(rest & -> & E)]; [lia|].
      unfold full. cbn [map app length]. unfold with_buf. cbn [assign_list bind s_buf s_cap s_tail st_cells].
      rewrite put_first. eexists. split; reflexivity.
  Qed.

  (** one call *)
  Lemma step_ok : forall fuel s l c o c', rep s l c -> str_documented is_nul l o ->
    str_cap_step is_nul (length l) c o = Some c' -> 4 <= fuel ->
    exists s', str_step nul is_nul fuel s o = Ok s' /\ rep s' (str_seq_step is_nul l o) c'.
  Proof.
    intros fuel s l c o c' R D C F.
    destruct o as [x|x|r| |i x|i x|i xs|i r|i|i j| |n|n|r]; cbn [str_step str_seq_step];
      cbn [str_documented] in D.
    - cbn [str_cap_step] in C. destruct (Nat.ltb_spec (length l + 1) c); [|discriminate].
      injection C as <-. apply push_ok; auto. lia.
    - pose proof (push_move_ok fuel s l c x R) as P. cbn [str_cap_step] in C.
      destruct (length l + 1 <? c); [injection C as <-; apply P; lia|].
      destruct (2 <=? c); [injection C as <-; apply P; lia|discriminate].
    - destruct (push_raw_ok fuel s l c r R D) as (s' & c1 & C1 & E & R'); [lia|].
      rewrite C in C1. injection C1 as <-. eauto.
    - injection C as <-. apply (pop_ok _ _ _ R).
    - pose proof (insert_ok fuel s l c i x R D) as P. cbn [str_cap_step] in C.
      destruct (length l + 1 <? c); [injection C as <-; apply P; lia|].
      destruct (1 <=? c); [injection C as <-; apply P; lia|discriminate].
    - pose proof (insert_move_ok fuel s l c i x R D) as P. cbn [str_cap_step] in C.
      destruct (length l + 1 <? c); [injection C as <-; apply P; lia|].
      destruct (1 <=? c); [injection C as <-; apply P; lia|discriminate].
    - cbn [str_cap_step] in C. destruct D as (Di & Dl).
      destruct (Nat.eqb_spec (length xs) 0) as [E0|E0]; cbn [orb] in C.
      + injection C as <-. destruct xs; [|discriminate]. apply insert_range_ok; auto. lia.
      + destruct (Nat.ltb_spec (length xs + length l) c); [|discriminate]. injection C as <-.
        apply insert_range_ok; auto. lia.
    - cbn [str_cap_step] in C. destruct D as (Di & T & Dl). unfold str_insert_raw.
      rewrite raw_length_ok by auto. cbn [bind]. rewrite raw_read_ok by auto. cbn [bind].
      set (xs := text is_nul r) in *.
      destruct (Nat.eqb_spec (length xs) 0) as [E0|E0]; cbn [orb] in C.
      + injection C as <-. destruct xs; [|discriminate]. apply insert_range_ok; auto. lia.
      + destruct (Nat.ltb_spec (length xs + length l) c); [|discriminate]. injection C as <-.
        apply insert_range_ok; auto. lia.
    - injection C as <-. apply erase_ok; auto.
    - injection C as <-. apply erase_range_ok; auto.
    - injection C as <-. apply (clean_ok _ _ _ R).
    - cbn [str_cap_step] in C. destruct (Nat.eqb_spec c 0); destruct (Nat.eqb_spec n 0);
        cbn [andb] in C; try discriminate; injection C as <-; apply resize_ok; auto.
    - cbn [str_cap_step] in C. destruct (Nat.eqb_spec c 0); destruct (Nat.eqb_spec n 0);
        cbn [andb] in C; try discriminate; injection C as <-; apply reserve_ok; auto.
    - destruct r as [t|]; [|discriminate].
      destruct (assign_raw_ok fuel s l c t R D) as (s' & c1 & C1 & E & R'); [lia|].
      rewrite C in C1. injection C1 as <-. eauto.
  Qed.

  Definition never_returns (o : str_op A) : Prop :=
    match o with SInsertRange _ _ | SInsertRaw _ _ => True | _ => False end.

  Lemma step_bad : forall fuel s l c o, rep s l c -> str_documented is_nul l o ->
    str_cap_step is_nul (length l) c o = None -> 4 <= fuel ->
    match o with
    | SInsertRange _ _ | SInsertRaw _ _ => str_step nul is_nul fuel s o = Diverge
    | _ => str_step nul is_nul fuel s o = UB
    end.
  Proof.
    intros fuel s l c o R D C F.
    destruct o as [x|x|r| |i x|i x|i xs|i r|i|i j| |n|n|r]; cbn [str_step];
      cbn [str_documented] in D; try discriminate.
    - cbn [str_cap_step] in C. destruct (Nat.ltb_spec (length l + 1) c); [discriminate|].
      apply (push_bad _ _ _ _ _ R); lia.
    - pose proof (push_move_ok fuel s l c x R) as P. cbn [str_cap_step] in C.
      destruct (length l + 1 <? c); [discriminate|].
      destruct (2 <=? c); [discriminate|]. apply P; lia.
    - cbn [str_cap_step] in C.
      repeat match type of C with context [if ?b then _ else _] => destruct b end; discriminate.
    - pose proof (insert_ok fuel s l c i x R D) as P. cbn [str_cap_step] in C.
      destruct (length l + 1 <? c); [discriminate|].
      destruct (1 <=? c); [discriminate|]. apply P; lia.
    - pose proof (insert_move_ok fuel s l c i x R D) as P. cbn [str_cap_step] in C.
      destruct (length l + 1 <? c); [discriminate|].
      destruct (1 <=? c); [discriminate|]. apply P; lia.
    - cbn [str_cap_step] in C. destruct D as (Di & Dl).
      destruct (Nat.eqb_spec (length xs) 0) as [E0|E0]; cbn [orb] in C; [discriminate|].
      destruct (Nat.ltb_spec (length xs + length l) c); [discriminate|].
      apply (insert_range_bad _ _ _ _ _ _ R); auto. intros ->. cbn in E0. congruence.
    - cbn [str_cap_step] in C. destruct D as (Di & T & Dl). unfold str_insert_raw.
      rewrite raw_length_ok by auto. cbn [bind]. rewrite raw_read_ok by auto. cbn [bind].
      set (xs := text is_nul r) in *.
      destruct (Nat.eqb_spec (length xs) 0) as [E0|E0]; cbn [orb] in C; [discriminate|].
      destruct (Nat.ltb_spec (length xs + length l) c); [discriminate|].
      apply (insert_range_bad _ _ _ _ _ _ R); auto. intros E. rewrite E in E0. cbn in E0. congruence.
    - cbn [str_cap_step] in C. destruct (Nat.eqb_spec c 0) as [->|]; destruct (Nat.eqb_spec n 0) as [->|];
        cbn [andb] in C; try discriminate. apply (resize_zero _ _ R).
    - cbn [str_cap_step] in C. destruct (Nat.eqb_spec c 0) as [->|]; destruct (Nat.eqb_spec n 0) as [->|];
        cbn [andb] in C; try discriminate. unfold str_reserve. rewrite (cap_ok _ _ _ R).
      apply (resize_zero _ _ R).
    - destruct r as [t|].
      + cbn [str_cap_step] in C. destruct (_ <=? _); discriminate.
      + apply (assign_null _ _ _ _ R). lia.
  Qed.

  Lemma run_ok : forall fuel os s l c c', rep s l c -> str_documented_run is_nul l os ->
    str_cap_run is_nul l c os = Some c' -> 4 <= fuel ->
    exists s', str_run nul is_nul fuel s os = Ok s' /\ rep s' (str_seq_run is_nul l os) c'.
  Proof.
    intros fuel os. induction os as [|o os IH]; intros s l c c' R D C F; cbn [str_run].
    - injection C as <-. exists s. auto.
    - cbn in C, D. destruct D as (D1 & D2).
      destruct (str_cap_step is_nul (length l) c o) as [c1|] eqn:E; [|discriminate].
      destruct (step_ok fuel s l c o c1 R D1 E F) as (s1 & E1 & R1). rewrite E1. cbn [bind].
      apply (IH s1 _ c1 c'); auto.
  Qed.

  Lemma build_ok : forall c, ctor_documented is_nul c ->
    exists s, str_build nul is_nul c = Ok s /\ rep s (str_seq_ctor is_nul c) (str_cap_ctor is_nul c).
  Proof.
    intros [|r] D.
    - exists str_new. split; [reflexivity|]. left. auto.
    - apply from_raw_ok. exact D.
  Qed.
End Proofs.
