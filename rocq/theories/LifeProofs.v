(** Objects are neither made nor unmade by anything but constructors and destructors: the balance of the
    functions on storage. *)
From Coq Require Import List Arith Lia Bool.
From Verif Require Import Base BaseLemmas Store StoreLemmas StaticVectorModel StaticVectorSpec
  StaticVectorProofs VectorModel VectorSpec VectorProofs LifeSpec.
Import ListNotations.

Section Balance.
  Context {A : Type}.
  Variable moved : A -> A.
  Variable dflt : A.
  Variable mem : memory.

  (** Objects constructed in the storage and not destroyed. *)
  Definition phi (s : store A) : nat := count_live (st_cells s) + st_leaks s.

  Lemma count_live_upd (l : list (option A)) i c d : nth_error l i = Some c ->
    count_live (upd l i d) + (if live c then 1 else 0) = count_live l + (if live d then 1 else 0).
  Proof.
    unfold count_live. revert i. induction l as [|y l IH]; intros [|i] E; cbn in E; try discriminate.
    - injection E as ->. cbn [upd filter]. destruct (live c), (live d); cbn [length]; lia.
    - specialize (IH i E). cbn [upd filter]. destruct (live y); cbn [length]; lia.
  Qed.

  Lemma phi_construct s i x s' : st_construct Tracked s i x = Ok s' -> phi s' = S (phi s).
  Proof.
    unfold st_construct. destruct (nth_error (st_cells s) i) as [c|] eqn:E; [|discriminate].
    intros H. injection H as <-. unfold phi. cbn [st_cells st_leaks].
    pose proof (count_live_upd _ i c (Some x) E) as G. cbn [live] in G. destruct (live c); lia.
  Qed.
  Lemma phi_assign s i x s' : st_assign Tracked s i x = Ok s' -> phi s' = phi s.
  Proof.
    unfold st_assign. destruct (nth_error (st_cells s) i) as [[c|]|] eqn:E; try discriminate.
    intros H. injection H as <-. unfold phi. cbn [st_cells st_leaks].
    pose proof (count_live_upd _ i _ (Some x) E) as G. cbn [live] in G. lia.
  Qed.
  Lemma phi_destroy s i s' : st_destroy Tracked s i = Ok s' -> S (phi s') = phi s.
  Proof.
    unfold st_destroy. destruct (nth_error (st_cells s) i) as [[c|]|] eqn:E; try discriminate.
    intros H. injection H as <-. unfold phi. cbn [st_cells st_leaks].
    pose proof (count_live_upd _ i _ None E) as G. cbn [live] in G. lia.
  Qed.
  Ltac step H E := match type of H with bind ?m _ = _ => destruct m eqn:E; cbn [bind] in H; try discriminate end.

  Lemma phi_move s d i s' : st_move Tracked moved s d i = Ok s' -> phi s' = phi s.
  Proof.
    unfold st_move. intros H. step H E. step H E1. apply phi_assign in H. apply phi_assign in E1. lia.
  Qed.
  Lemma phi_shift_right n : forall lo d s s', shift_right Tracked moved n lo d s = Ok s' -> phi s' = phi s.
  Proof.
    induction n as [|n IH]; intros lo d s s' H; cbn in H; [congruence|].
    step H E. apply phi_move in E. apply IH in H. lia.
  Qed.
  Lemma phi_shift_left n : forall lo d s s', shift_left Tracked moved n lo d s = Ok s' -> phi s' = phi s.
  Proof.
    induction n as [|n IH]; intros lo d s s' H; cbn in H; [congruence|].
    step H E. apply phi_move in E. apply IH in H. lia.
  Qed.
  Lemma phi_destroy_range n : forall lo s s', destroy_range Tracked n lo s = Ok s' -> phi s' + n = phi s.
  Proof.
    induction n as [|n IH]; intros lo s s' H; cbn in H; [injection H as ->; lia|].
    step H E. apply phi_destroy in E. apply IH in H. lia.
  Qed.
  Lemma phi_construct_dflt n : forall lo s s', construct_dflt Tracked dflt n lo s = Ok s' ->
    phi s' = n + phi s.
  Proof.
    induction n as [|n IH]; intros lo s s' H; cbn in H; [injection H as ->; lia|].
    step H E. apply phi_construct in E. apply IH in H. lia.
  Qed.
  Lemma phi_assign_list xs : forall lo s s', assign_list Tracked xs lo s = Ok s' -> phi s' = phi s.
  Proof.
    induction xs as [|x xs IH]; intros lo s s' H; cbn in H; [congruence|].
    step H E. apply phi_assign in E. apply IH in H. lia.
  Qed.

  (** The container loses [n] objects on the way from [v] to [v']. *)
  Definition loses (n : nat) (v v' : svec A) : Prop :=
    phi (sv_store v') + sv_size v = phi (sv_store v) + sv_size v' + n.
  Definition vloses (n : nat) (v v' : vec A) : Prop := loses n (vc_arr v) (vc_arr v').

  Ltac done := unfold vloses, loses, sv_size, vec_size, vc_store, vc_tail in *;
    cbn [sv_store sv_tail vc_arr] in *; try lia.
  Ltac ok H := injection H as <-; done.

  Lemma bal_push_arg v a v' : sv_pushBack_arg Tracked v a = Ok v' -> loses 0 v v'.
  Proof.
    unfold sv_pushBack_arg. destruct (sv_size v <? sv_capacity v); intros H; [|ok H].
    step H E. step H E1. apply phi_construct in E1. ok H.
  Qed.
  Lemma bal_push_move v x v' : sv_pushBack_move Tracked v x = Ok v' -> loses 0 v v'.
  Proof.
    unfold sv_pushBack_move. destruct (sv_size v <? sv_capacity v); intros H; [|ok H].
    step H E1. apply phi_construct in E1. ok H.
  Qed.
  Lemma bal_push_all xs : forall v v', sv_push_all Tracked v xs = Ok v' -> loses 0 v v'.
  Proof.
    induction xs as [|x xs IH]; intros v v' H; cbn in H; [ok H|].
    step H E. apply bal_push_arg in E. apply IH in H. done.
  Qed.
  Lemma bal_pop v v' : sv_popBack Tracked v = Ok v' -> loses 0 v v'.
  Proof.
    unfold sv_popBack. destruct (Nat.eqb_spec (sv_size v) 0); intros H; [ok H|].
    step H E1. apply phi_destroy in E1. ok H.
  Qed.
  Lemma bal_insert_arg v it a v' : sv_insert_arg Tracked moved dflt v it a = Ok v' -> loses 0 v v'.
  Proof.
    unfold sv_insert_arg. destruct (sv_size v <? sv_capacity v); intros H; [|ok H].
    destruct (it =? sv_tail v); [apply bal_push_arg in H; exact H|].
    step H E. step H E1. step H E2. step H E3.
    apply phi_construct in E. apply phi_shift_right in E1. apply phi_assign in E3. ok H.
  Qed.
  Lemma bal_insert_move v it x v' : sv_insert_move Tracked moved dflt v it x = Ok v' -> loses 0 v v'.
  Proof.
    unfold sv_insert_move. destruct (sv_size v <? sv_capacity v); intros H; [|ok H].
    destruct (it =? sv_tail v); [apply bal_push_move in H; exact H|].
    step H E. step H E1. step H E3.
    apply phi_construct in E. apply phi_shift_right in E1. apply phi_assign in E3. ok H.
  Qed.
  Lemma bal_insert_range v it xs v' : sv_insert_range Tracked moved dflt v it xs = Ok v' -> loses 0 v v'.
  Proof.
    unfold sv_insert_range. destruct (length xs =? 0); intros H; [ok H|].
    destruct (length xs + sv_size v <=? sv_capacity v); [|ok H].
    destruct (it =? sv_tail v); [apply bal_push_all in H; exact H|].
    step H E. step H E1. step H E3.
    apply phi_construct_dflt in E. apply phi_shift_right in E1. apply phi_assign_list in E3. ok H.
  Qed.
  Lemma bal_emplace v it x v' : sv_emplace Tracked moved dflt v it x = Ok v' -> loses 0 v v'.
  Proof.
    unfold sv_emplace. destruct (sv_size v <? sv_capacity v); intros H; [|ok H].
    destruct (it =? sv_tail v); [apply bal_push_move in H; exact H|].
    step H E. step H E1. step H E2. step H E3.
    apply phi_construct in E. apply phi_shift_right in E1. apply phi_destroy in E2.
    apply phi_construct in E3. ok H.
  Qed.
  Lemma bal_erase v it v' : sv_erase Tracked moved v it = Ok v' -> it <= sv_size v ->
    loses (if S it <? sv_size v then 1 else 0) v v'.
  Proof.
    unfold sv_erase. intros H L. destruct (Nat.ltb_spec (S it) (sv_size v)).
    - destruct (Nat.eqb_spec it (sv_tail v)); [done|]. destruct (Nat.eqb_spec (S it) (sv_tail v)); [done|].
      step H E. apply phi_shift_left in E. ok H.
    - destruct (Nat.eqb_spec it (sv_tail v)); [ok H|]. destruct (Nat.eqb_spec (S it) (sv_tail v)).
      + apply bal_pop in H. exact H.
      + done.
  Qed.
  Lemma bal_clean v v' : sv_clean Tracked v = Ok v' -> loses 0 v v'.
  Proof. unfold sv_clean. intros H. step H E. apply phi_destroy_range in E. ok H. Qed.
  Lemma bal_erase_range v b e v' : sv_erase_range Tracked moved v b e = Ok v' -> loses 0 v v'.
  Proof.
    unfold sv_erase_range. destruct (e =? b + sv_size v); intros H; [apply bal_clean in H; exact H|].
    destruct (Nat.ltb_spec (e - b) (sv_size v)); cbn [andb] in H; [|ok H].
    destruct (b <? e); [|ok H].
    step H E. step H E1. apply phi_destroy_range in E. apply phi_shift_left in E1. ok H.
  Qed.
  Lemma count_live_repeat n : count_live (raw A n) = 0.
  Proof. unfold raw, count_live. induction n; cbn; auto. Qed.
  Lemma bal_reset v v' : sv_reset Tracked v = Ok v' -> loses 0 v v'.
  Proof.
    unfold sv_reset. intros H. step H E. apply bal_clean in E. injection H as <-.
    unfold loses, phi, sv_size in *. cbn [sv_store sv_tail st_cells st_leaks].
    rewrite count_live_repeat. lia.
  Qed.
  Lemma bal_assign v xs v' : sv_assign Tracked v xs = Ok v' -> loses 0 v v'.
  Proof.
    unfold sv_assign. destruct (sv_capacity v <? length xs); intros H; [ok H|].
    step H E. apply bal_clean in E. apply bal_push_all in H. done.
  Qed.

  Lemma bal_step v op v' : sv_step Tracked moved dflt v op = Ok v' ->
    (forall p, op = Erase p -> p <= sv_size v) ->
    loses (match op with Erase p => if S p <? sv_size v then 1 else 0 | _ => 0 end) v v'.
  Proof.
    destruct op; cbn [sv_step]; intros H V.
    - apply (bal_push_arg v (Ext x)), H.
    - apply (bal_push_move v x), H.
    - apply (bal_push_move v x), H.
    - apply bal_pop, H.
    - apply (bal_insert_arg v it (Ext x)), H.
    - apply (bal_insert_move v it x), H.
    - eapply bal_insert_range, H.
    - eapply bal_emplace, H.
    - apply bal_erase; [exact H|]. apply V. reflexivity.
    - eapply bal_erase_range, H.
    - apply bal_clean, H.
    - apply bal_reset, H.
    - eapply bal_assign, H.
    - eapply bal_push_all, H.
  Qed.

  (** Vectors. *)
  Lemma count_live_app (l1 l2 : list (option A)) : count_live (l1 ++ l2) = count_live l1 + count_live l2.
  Proof. unfold count_live. rewrite filter_app, app_length. reflexivity. Qed.
  Lemma count_live_some (xs : list A) : count_live (map Some xs) = length xs.
  Proof. unfold count_live. induction xs; cbn; auto. Qed.
  Lemma load_range_length n : forall lo (s : store A) xs, load_range n lo s = Ok xs -> length xs = n.
  Proof.
    induction n as [|n IH]; intros lo s xs H; cbn in H; [injection H as <-; reflexivity|].
    step H E. step H E1. injection H as <-. cbn. f_equal. eapply IH, E1.
  Qed.

  Lemma bal_reserve v n v' : vec_reserve Tracked mem v n = Ok v' -> vloses 0 v v' /\ vc_tail v' = vc_tail v.
  Proof.
    unfold vec_reserve. destruct (vc_capacity v <? n); intros H; [|injection H as <-; split; done].
    destruct mem.
    - injection H as <-. split; [|reflexivity]. done. unfold phi. cbn [st_cells st_leaks].
      rewrite count_live_app, count_live_repeat. lia.
    - step H E. step H E1. apply phi_destroy_range in E1. apply load_range_length in E.
      injection H as <-. split; [|reflexivity]. done. unfold phi in *. cbn [st_cells st_leaks].
      rewrite count_live_app, count_live_repeat, count_live_some. lia.
    - injection H as <-. split; done.
  Qed.
  Lemma bal_vpush f : forall v r v', vec_pushBack_ref Tracked mem f v r = Ok v' -> vloses 0 v v'.
  Proof.
    induction f as [|f IH]; intros v r v' H; cbn [vec_pushBack_ref] in H; [discriminate|].
    destruct (vc_tail v =? vc_capacity v); cbn [negb] in H.
    - step H E. apply bal_reserve in E as (E & _). apply IH in H. done.
    - step H E. step H E1. apply phi_construct in E1. ok H.
  Qed.
  Lemma bal_vpush_all f xs : forall v v', vec_push_all Tracked mem f v xs = Ok v' -> vloses 0 v v'.
  Proof.
    induction xs as [|x xs IH]; intros v v' H; cbn [vec_push_all] in H; [ok H|].
    step H E. apply bal_vpush in E. apply IH in H. done.
  Qed.
  Lemma bal_vinsert f : forall v it r v', vec_insert_ref Tracked moved dflt mem f v it r = Ok v' ->
    vloses 0 v v'.
  Proof.
    induction f as [|f IH]; intros v it r v' H; cbn [vec_insert_ref] in H; [discriminate|].
    destruct (vec_size v <? vc_capacity v).
    - destruct (it =? vc_tail v); [apply bal_vpush in H; exact H|].
      step H E. step H E1. step H E2. step H E3.
      apply phi_construct in E. apply phi_shift_right in E1. apply phi_assign in E3. ok H.
    - step H E. apply bal_reserve in E as (E & _). apply IH in H. done.
  Qed.
  Lemma bal_vinsert_range f : forall v it xs v',
    vec_insert_range Tracked moved dflt mem f v it xs = Ok v' -> vloses 0 v v'.
  Proof.
    induction f as [|f IH]; intros v it xs v' H; cbn [vec_insert_range] in H; [discriminate|].
    destruct (length xs =? 0); [ok H|]. destruct (length xs + vec_size v <=? vc_capacity v).
    - destruct (it =? vc_tail v); [apply bal_vpush_all in H; exact H|].
      step H E. step H E1. step H E3.
      apply phi_construct_dflt in E. apply phi_shift_right in E1. apply phi_assign_list in E3. ok H.
    - step H E. apply bal_reserve in E as (E & _). apply IH in H. done.
  Qed.
  Lemma bal_vemplace f : forall v it x v', vec_emplace Tracked moved dflt mem f v it x = Ok v' ->
    it <= vec_size v -> vloses (if it <? vec_size v then 1 else 0) v v'.
  Proof.
    induction f as [|f IH]; intros v it x v' H L; cbn [vec_emplace] in H; [discriminate|].
    destruct (vec_size v <? vc_capacity v).
    - destruct (Nat.eqb_spec it (vc_tail v)).
      + apply bal_vpush in H. destruct (Nat.ltb_spec it (vec_size v)); [done|exact H].
      + step H E. step H E1. step H E3.
        apply phi_construct in E. apply phi_shift_right in E1. apply phi_construct in E3.
        destruct (Nat.ltb_spec it (vec_size v)); [ok H|done].
    - destruct (vec_reserve Tracked mem v (next_capacity (vc_capacity v))) as [w| |] eqn:E;
        cbn [bind] in H; try discriminate. apply bal_reserve in E as (E & T).
      assert (S : vec_size w = vec_size v) by exact T.
      apply IH in H; [|lia]. rewrite S in H. done.
  Qed.
  Lemma bal_vresize f : forall v n v', vec_resize Tracked dflt mem f v n = Ok v' -> vloses 0 v v'.
  Proof.
    induction f as [|f IH]; intros v n v' H; cbn [vec_resize] in H; [discriminate|].
    destruct (Nat.ltb_spec (vec_size v) n); [|ok H]. destruct (n <? vc_capacity v).
    - step H E. apply phi_construct_dflt in E. ok H.
    - destruct (vc_capacity v <? n); [|ok H].
      step H E. apply bal_reserve in E as (E & _). apply IH in H. done.
  Qed.
  Lemma bal_lift n v r v' : vec_lift v r = Ok v' -> (forall a, r = Ok a -> loses n (vc_arr v) a) -> vloses n v v'.
  Proof. unfold vec_lift. intros H G. step H E. injection H as <-. apply G. reflexivity. Qed.

  Lemma bal_vstep f v op v' : vec_step Tracked moved dflt mem f v op = Ok v' ->
    (forall p, op = VErase p -> p <= vec_size v) -> (forall p x, op = VEmplace p x -> p <= vec_size v) ->
    vloses (match op with
            | VErase p => if S p <? vec_size v then 1 else 0
            | VEmplace p _ => if p <? vec_size v then 1 else 0
            | _ => 0
            end) v v'.
  Proof.
    destruct op; cbn [vec_step]; intros H V V'.
    - eapply bal_vpush, H.
    - eapply bal_vpush, H.
    - apply (bal_lift _ _ _ _ H). apply bal_pop.
    - eapply bal_vinsert, H.
    - eapply bal_vinsert_range, H.
    - eapply bal_vemplace; [exact H|]. eapply V'. reflexivity.
    - apply (bal_lift _ _ _ _ H). intros a E. apply (bal_erase _ _ _ E). apply V. reflexivity.
    - apply (bal_lift _ _ _ _ H). intros a. apply bal_erase_range.
    - apply (bal_lift _ _ _ _ H). apply bal_clean.
    - eapply bal_reserve, H.
    - eapply bal_vresize, H.
  Qed.

  Lemma bal_destructor v s : sv_destructor Tracked v = Ok s -> phi s + sv_size v = phi (sv_store v).
  Proof. unfold sv_destructor. apply phi_destroy_range. Qed.
  Lemma bal_vdestructor v n : vec_destructor Tracked v = Ok n -> n + vec_size v = phi (vc_store v).
  Proof.
    unfold vec_destructor, vec_clean, vec_lift, sv_clean. intros H. step H E. step E E1. step E1 E2.
    injection E1 as <-. injection E as <-. apply phi_destroy_range in E2. injection H as <-.
    unfold phi, vec_size, vc_tail, vc_store in *. cbn [vc_arr sv_store] in *. lia.
  Qed.
End Balance.
