(** C26, C27: what any program does with Variants, and which programs have undefined behaviour. *)
From Coq Require Import List Arith ZArith Lia Bool.
From Verif Require Import Base BaseLemmas VariantModel VariantSpec VariantProofs PointersProofs VariantExactSpec.
Import ListNotations.

Section Exact.
  Context {V : Type}.
  Variable mv : V -> V.
  Variable ts : list nat.
  Hypothesis small : (Z.of_nat (length ts) < 2 ^ 63)%Z.
  Hypothesis some : ts <> [].
  Implicit Types (w : world V) (s : list (option (content_of V))).

  Definition rep (c : content_of V) : variant V :=
    match c with
    | Unset => VR (-1) None
    | Odd => VR ssize_min None
    | Has t x => VR (index_of ts t) (Some (t, x))
    end.
  Definition fine (c : content_of V) : Prop := match c with Has t _ => In t ts | _ => True end.
  Definition full (c : option (content_of V)) : bool := match c with Some (Has _ _) => true | _ => false end.

  Definition einv w s : Prop :=
    w_vars w = map (option_map rep) s /\
    (forall p c, nth_error s p = Some (Some c) -> fine c) /\
    w_made w = w_gone w + length (filter full s).

  Lemma evar w s p : einv w s -> var w p = match nth_error s p with Some (Some c) => Ok (rep c) | _ => UB end.
  Proof. intros (H & _). unfold var. rewrite H, nth_error_map. destruct (nth_error s p) as [[c|]|]; reflexivity. Qed.
  Lemma efresh w s p : einv w s -> fresh w p = match nth_error s p with Some None => Ok tt | _ => UB end.
  Proof. intros (H & _). unfold fresh. rewrite H, nth_error_map. destruct (nth_error s p) as [[c|]|]; reflexivity. Qed.

  Lemma einv_upd w s p c c' m g :
    einv w s -> nth_error s p = Some c -> (forall d, c' = Some d -> fine d) ->
    m + (if full c then 1 else 0) + w_gone w = w_made w + g + (if full c' then 1 else 0) ->
    einv (World (upd (w_vars w) p (option_map rep c')) m g) (upd s p c').
  Proof.
    intros (Hv & Hw & Hc) Hp Hc' Hm. split; [|split]; cbn [w_vars w_made w_gone].
    - rewrite Hv. symmetry. apply map_upd.
    - intros q d. rewrite nth_error_updx. destruct (p =? q).
      + destruct (_ <? _); [|discriminate]. intros [= ->]. auto.
      + apply Hw.
    - assert (C := countb_upd full s p c c' Hp). lia.
  Qed.

  Lemma eset c : fine c -> v_is_set (rep c) = match c with Has _ _ => true | _ => false end.
  Proof.
    destruct c as [| |t x]; auto. intros I. unfold v_is_set. cbn. apply index_of_in in I. apply Z.leb_le. auto.
  Qed.
  Lemma eassign t x m : In t ts ->
    vs_assign mv ts (index_of ts t) (Some (t, x)) m = Ok (Some (t, x), Some (t, if m then mv x else x)).
  Proof. intros I. apply vs_assign_at. apply index_of_in. exact I. Qed.
  Lemma eassign_unset m : vs_assign mv ts (-1)%Z None m = Ok (None, None).
  Proof. apply vs_assign_neg; [lia|]. unfold ssize_min. lia. Qed.
  Lemma eassign_odd m : vs_assign mv ts ssize_min None m = UB.
  Proof. destruct ts as [|a r]; [contradiction|]. reflexivity. Qed.
  Lemma ekept t (x : V) : exists i c, vs_set ts t x = (i, c) /\ fine (kept ts t x) /\
    rep (kept ts t x) = VR i c.
  Proof.
    rewrite (vs_set_eq mv). do 2 eexists. split; [reflexivity|]. unfold kept.
    destruct (in_dec Nat.eq_dec t ts) as [I|I].
    - assert (existsb (Nat.eqb t) ts = true) as ->.
      { apply existsb_exists. exists t. split; auto. apply Nat.eqb_refl. }
      split; [exact I|reflexivity].
    - assert (existsb (Nat.eqb t) ts = false) as ->.
      { apply not_true_iff_false. rewrite existsb_exists. intros (u & Iu & E). apply Nat.eqb_eq in E. subst. auto. }
      split; [exact Logic.I|]. cbn. f_equal. destruct (index_of_range ts t) as [->|B]; auto.
      exfalso. apply I, index_of_in. lia.
  Qed.

  Definition does (r : outcome (world V)) (o : option (list (option (content_of V)))) : Prop :=
    match o with Some s => exists w, r = Ok w /\ einv w s | None => r = UB end.

  (** reset() *)
  Definition e_reset s p : option (list (option (content_of V))) :=
    match nth_error s p with
    | Some (Some (Has _ _)) => Some (upd s p (Some Unset))
    | Some (Some _) => Some s
    | _ => None
    end.
  Lemma ereset w s p : einv w s -> does (v_reset ts w p) (e_reset s p).
  Proof.
    intros H. unfold v_reset, e_reset. rewrite (evar _ _ _ H).
    destruct (nth_error s p) as [[c|]|] eqn:P; cbn [bind does]; try reflexivity.
    pose proof (proj1 (proj2 H) _ _ P) as F. rewrite (eset _ F).
    destruct c as [| |t x]; cbn [does]; eauto.
    cbn [rep v_index v_cell]. rewrite vs_reset_at by (apply index_of_in; exact F). cbn [bind].
    eexists. split; [reflexivity|]. apply (einv_upd w s p _ (Some Unset) _ _ H P).
    - intros d [= <-]. exact I.
    - cbn. lia.
  Qed.

  (** A new object in a place without one. *)
  Lemma estore w s p d c i : einv w s -> nth_error s p = Some d -> full d = false -> fine c ->
    forall cell, rep c = VR i cell -> einv (store w p i None cell) (upd s p (Some c)).
  Proof.
    intros H P Fd F cell E. destruct cell as [o|]; cbn [store]; unfold put; rewrite <- E.
    - apply (einv_upd w s p d (Some c)); auto; [intros e [= <-]; auto|]. rewrite Fd. cbn.
      destruct c as [| |t x]; cbn in *; try discriminate. lia.
    - apply (einv_upd w s p d (Some c)); auto; [intros e [= <-]; auto|]. rewrite Fd. cbn.
      destruct c as [| |t x]; cbn in *; try discriminate; lia.
  Qed.
  Lemma esource w s q t x : einv w s -> nth_error s q = Some (Some (Has t x)) ->
    einv (put_source w q (rep (Has t x)) (Some (t, mv x))) (upd s q (Some (Has t (mv x)))).
  Proof.
    intros H Q. pose proof (proj1 (proj2 H) _ _ Q) as F. unfold put_source, put.
    apply (einv_upd w s q (Some (Has t x)) (Some (Has t (mv x)))); auto.
    - intros d [= <-]. exact F.
    - cbn. lia.
  Qed.
  Lemma swap {B} (l : list B) p q a b : p <> q -> upd (upd l p a) q b = upd (upd l q b) p a.
  Proof.
    revert p q; induction l as [|h l IH]; intros [|p] [|q] N; cbn; auto; try lia. f_equal. apply IH. lia.
  Qed.

  (** The cell is raw, or reset has made it so. *)
  Lemma ereset_cell w s p : einv w s ->
    match nth_error s p with
    | Some (Some _) => exists w1 u, v_reset ts w p = Ok w1 /\ var w1 p = Ok u /\ v_cell u = None /\
        (forall q, q <> p -> var w1 q = var w q) /\
        exists s1 d, einv w1 s1 /\ nth_error s1 p = Some (Some d) /\ full (Some d) = false /\
          (forall c, upd s1 p c = upd s p c) /\ (forall q, q <> p -> nth_error s1 q = nth_error s q)
    | _ => v_reset ts w p = UB
    end.
  Proof.
    intros H. pose proof (ereset w s p H) as R. unfold e_reset in R.
    destruct (nth_error s p) as [[c|]|] eqn:P; auto.
    assert (L : p < length s) by (apply nth_error_Some; congruence).
    assert (K : forall w1 s1 d, v_reset ts w p = Ok w1 -> einv w1 s1 -> nth_error s1 p = Some (Some d) ->
      full (Some d) = false -> (forall c, upd s1 p c = upd s p c) -> (forall q, q <> p -> nth_error s1 q = nth_error s q) ->
      exists w1 u, v_reset ts w p = Ok w1 /\ var w1 p = Ok u /\ v_cell u = None /\
        (forall q, q <> p -> var w1 q = var w q) /\
        exists s1 d, einv w1 s1 /\ nth_error s1 p = Some (Some d) /\ full (Some d) = false /\
          (forall c, upd s1 p c = upd s p c) /\ (forall q, q <> p -> nth_error s1 q = nth_error s q)).
    { intros w1 s1 d E H1 P1 F1 U1 N1. exists w1, (rep d). split; [exact E|].
      rewrite (evar _ _ _ H1), P1. split; [reflexivity|]. split; [destruct d; [reflexivity..|discriminate]|].
      split; [|eauto 10]. intros q Nq. rewrite (evar _ _ _ H1), (evar _ _ _ H), N1 by auto. reflexivity. }
    destruct c as [| |t x]; destruct R as (w1 & E & H1).
    - apply (K w1 s Unset); auto.
    - apply (K w1 s Odd); auto.
    - apply (K w1 (upd s p (Some Unset)) Unset); auto.
      + apply nth_error_upd_eq; auto.
      + intros c. apply upd_upd_eq.
      + intros q Nq. apply nth_error_upd_neq; auto.
  Qed.

  Lemma estep w s o : einv w s -> does (v_step mv ts w o) (e_step mv ts s o).
  Proof.
    intros H. destruct o as [p|p t x|p q|p q|p q|p q|p q|p t x|p|p]; cbn [v_step e_step].
    - unfold v_default, e_new. rewrite (efresh _ _ _ H).
      destruct (nth_error s p) as [[c|]|] eqn:P; try reflexivity. cbn [bind does]. eexists. split; [reflexivity|].
      apply (estore w s p None Unset (-1) H P eq_refl I None eq_refl).
    - unfold v_from, e_new. rewrite (efresh _ _ _ H).
      destruct (nth_error s p) as [[c|]|] eqn:P; try reflexivity. cbn [bind].
      destruct (ekept t x) as (i & cl & -> & F & R). eexists. split; [reflexivity|].
      eapply estore; eauto.
    - unfold v_copy, e_new. rewrite (efresh _ _ _ H), (evar _ _ _ H).
      destruct (nth_error s p) as [[c|]|] eqn:P; cbn [bind];
        try (destruct (nth_error s q) as [[[| |t x]|]|]; reflexivity).
      destruct (nth_error s q) as [[[| |t x]|]|] eqn:Q; cbn [bind rep v_index v_cell]; try reflexivity.
      + rewrite eassign_unset. cbn [bind fst]. eexists. split; [reflexivity|].
        apply (estore w s p None Unset (-1) H P eq_refl I None eq_refl).
      + rewrite eassign_odd. reflexivity.
      + pose proof (proj1 (proj2 H) _ _ Q) as F. rewrite eassign by exact F. cbn [bind fst].
        eexists. split; [reflexivity|]. eapply (estore w s p None (Has t x)); eauto.
    - unfold v_move, e_new. rewrite (efresh _ _ _ H), (evar _ _ _ H).
      destruct (Nat.eq_dec p q) as [<-|D].
      { destruct (nth_error s p) as [[[| |t x]|]|] eqn:P; cbn [bind]; try reflexivity.
        rewrite nth_error_upd_eq by (apply nth_error_Some; congruence). reflexivity. }
      destruct (nth_error s p) as [[c|]|] eqn:P; cbn [bind];
        try (destruct (nth_error s q) as [[[| |t x]|]|]; rewrite ?nth_error_upd_neq, ?P by auto; reflexivity).
      destruct (nth_error s q) as [[[| |t x]|]|] eqn:Q; cbn [bind rep v_index v_cell]; try reflexivity.
      + rewrite eassign_unset. cbn [bind fst snd]. eexists. split; [reflexivity|].
        pose proof (estore w s p None Unset (-1) H P eq_refl I None eq_refl) as S1.
        assert (Q1 : nth_error (upd s p (Some Unset)) q = Some (Some Unset)) by (rewrite nth_error_upd_neq; auto).
        rewrite <- (upd_self _ _ _ Q1).
        apply (einv_upd _ _ q (Some Unset) (Some Unset) _ _ S1 Q1); [intros d [= <-]; exact I|]. cbn. lia.
      + rewrite eassign_odd. reflexivity.
      + rewrite nth_error_upd_neq, P by auto.
        pose proof (proj1 (proj2 H) _ _ Q) as F. rewrite eassign by exact F. cbn [bind fst snd].
        eexists. split; [reflexivity|]. rewrite swap by auto. apply (esource _ (upd s p (Some (Has t x)))).
        * eapply (estore w s p None (Has t x)); eauto.
        * rewrite nth_error_upd_neq; auto.
    - unfold v_copy_named, e_new. rewrite (efresh _ _ _ H), (evar _ _ _ H).
      destruct (Nat.eq_dec p q) as [<-|D].
      { destruct (nth_error s p) as [[[| |t x]|]|] eqn:P; cbn [bind]; try reflexivity.
        rewrite nth_error_upd_eq by (apply nth_error_Some; congruence). reflexivity. }
      destruct (nth_error s p) as [[c|]|] eqn:P; cbn [bind];
        try (destruct (nth_error s q) as [[[| |t x]|]|]; rewrite ?nth_error_upd_neq, ?P by auto; reflexivity).
      destruct (nth_error s q) as [[c|]|] eqn:Q; cbn [bind]; try reflexivity.
      pose proof (proj1 (proj2 H) _ _ Q) as F.
      change (0 <=? v_index (rep c))%Z with (v_is_set (rep c)). rewrite (eset _ F).
      destruct c as [| |t x].
      + eexists. split; [reflexivity|]. apply (estore w s p None Odd ssize_min H P eq_refl I None eq_refl).
      + eexists. split; [reflexivity|]. apply (estore w s p None Odd ssize_min H P eq_refl I None eq_refl).
      + rewrite nth_error_upd_neq, P by auto. cbn [rep v_index v_cell].
        rewrite eassign by exact F. cbn [bind fst snd].
        eexists. split; [reflexivity|]. rewrite swap by auto. apply (esource _ (upd s p (Some (Has t x)))).
        * eapply (estore w s p None (Has t x)); eauto.
        * rewrite nth_error_upd_neq; auto.
    - unfold v_assign, e_put. rewrite !(evar _ _ _ H).
      destruct (nth_error s p) as [[b|]|] eqn:P; cbn [bind];
        try (destruct (nth_error s q) as [[[| |t x]|]|]; reflexivity).
      destruct (nth_error s q) as [[c|]|] eqn:Q; cbn [bind]; try reflexivity.
      pose proof (proj1 (proj2 H) _ _ Q) as F. rewrite (eset _ F).
      destruct c as [| |t x]; rewrite ?andb_false_r, ?andb_true_r; cbn [does]; eauto.
      destruct (Nat.eqb_spec p q) as [<-|D]; cbn [negb].
      + eexists. split; [reflexivity|]. rewrite upd_self by congruence. exact H.
      + pose proof (ereset_cell w s p H) as R. rewrite P in R.
        destruct R as (w1 & u & -> & Hu & Cu & _ & s1 & d & H1 & P1 & F1 & U1 & N1).
        cbn [bind]. rewrite Hu. cbn [bind rep v_index v_cell]. rewrite eassign by exact F. cbn [bind fst].
        rewrite Cu. eexists. split; [reflexivity|]. rewrite <- U1.
        eapply (estore w1 s1 p (Some d) (Has t x)); eauto.
    - unfold v_move_assign, e_put. rewrite !(evar _ _ _ H).
      destruct (Nat.eqb_spec p q) as [<-|D]; cbn [negb andb].
      { destruct (nth_error s p) as [[[| |t x]|]|] eqn:P; cbn [bind does]; eauto. }
      destruct (nth_error s p) as [[b|]|] eqn:P; cbn [bind];
        try (destruct (nth_error s q) as [[[| |t x]|]|]; rewrite ?nth_error_upd_neq, ?P by auto; reflexivity).
      destruct (nth_error s q) as [[c|]|] eqn:Q; cbn [bind]; try reflexivity.
      pose proof (proj1 (proj2 H) _ _ Q) as F. rewrite (eset _ F).
      destruct c as [| |t x]; cbn [does]; eauto.
      pose proof (ereset_cell w s p H) as R. rewrite P in R.
      destruct R as (w1 & u & -> & Hu & Cu & _ & s1 & d & H1 & P1 & F1 & U1 & N1).
      cbn [bind]. rewrite Hu. cbn [bind rep v_index v_cell]. rewrite eassign by exact F. cbn [bind fst snd].
      rewrite nth_error_upd_neq, P by auto.
      rewrite Cu. eexists. split; [reflexivity|]. rewrite swap, <- U1 by auto.
      apply (esource _ (upd s1 p (Some (Has t x)))).
      + eapply (estore w1 s1 p (Some d) (Has t x)); eauto.
      + rewrite nth_error_upd_neq, N1; auto.
    - unfold v_set, e_put. pose proof (ereset_cell w s p H) as R.
      destruct (nth_error s p) as [[b|]|] eqn:P; try (rewrite R; reflexivity).
      destruct R as (w1 & u & -> & Hu & Cu & _ & s1 & d & H1 & P1 & F1 & U1 & N1).
      cbn [bind]. rewrite Hu. cbn [bind]. destruct (ekept t x) as (i & cl & -> & F & E).
      rewrite Cu. eexists. split; [reflexivity|]. rewrite <- U1. eapply estore; eauto.
    - apply ereset. exact H.
    - unfold v_destroy, e_put. pose proof (ereset_cell w s p H) as R.
      destruct (nth_error s p) as [[b|]|] eqn:P; try (rewrite R; reflexivity).
      destruct R as (w1 & u & -> & Hu & Cu & _ & s1 & d & H1 & P1 & F1 & U1 & N1).
      cbn [bind]. eexists. split; [reflexivity|]. rewrite <- U1.
      apply (einv_upd w1 s1 p (Some d) None); auto; [discriminate|]. rewrite F1. cbn. lia.
  Qed.

  Lemma esteps os : forall w s, einv w s -> does (v_run mv ts w os) (e_steps mv ts s os).
  Proof.
    induction os as [|o os IH]; intros w s H; cbn; [eauto|]. pose proof (estep w s o H) as S.
    destruct (e_step mv ts s o) as [s1|]; cbn [does] in S.
    - destruct S as (w1 & -> & H1). apply IH; auto.
    - rewrite S. reflexivity.
  Qed.
  Lemma estart n : einv (v_start n) (repeat None n).
  Proof.
    split; [|split]; cbn.
    - induction n as [|n IH]; cbn; congruence.
    - intros p c E. apply nth_error_In, repeat_spec in E. discriminate.
    - induction n as [|n IH]; cbn; auto.
  Qed.
End Exact.

(** Any program, without any condition: undefined exactly if the specification (VariantExactSpec.v) says so;
    otherwise every object made is destroyed or held by exactly one variant, and every variant answers isSet() and
    get<T>() as the specification says. *)
Theorem C27_exact_partial :
  forall (V : Type) (mv : V -> V) (ts : list nat) (n : nat) (os : list (v_op V)),
  ts <> [] -> (Z.of_nat (length ts) < 2 ^ 63)%Z ->
  match e_steps mv ts (repeat None n) os with
  | None => v_run mv ts (v_start n) os = UB
  | Some s =>
      exists w, v_run mv ts (v_start n) os = Ok w /\ w_made w = w_gone w + e_held s /\
        forall p, match nth_error s p with
                  | Some (Some (Has t x)) =>
                      exists v, var w p = Ok v /\ v_is_set v = true /\ nth_error ts (Z.to_nat (v_index v)) = Some t /\
                        forall u, v_get ts v u = Ok (if u =? t then Some x else None)
                  | Some (Some _) => exists v, var w p = Ok v /\ v_is_set v = false /\ forall u, v_get ts v u = Ok None
                  | Some None => fresh w p = Ok tt
                  | None => var w p = UB /\ fresh w p = UB
                  end
  end.
Proof.
  intros V mv ts n os E S. pose proof (esteps mv ts S E os _ _ (estart ts n)) as R.
  destruct (e_steps mv ts (repeat None n) os) as [s|]; [|exact R]. destruct R as (w & Ew & H).
  exists w. split; [exact Ew|]. split; [apply H|]. intros p. rewrite (evar _ _ _ _ H), (efresh _ _ _ _ H).
  destruct (nth_error s p) as [[c|]|] eqn:P; auto. pose proof (proj1 (proj2 H) _ _ P) as F.
  destruct c as [| |t x].
  - eexists. split; [reflexivity|]. split; [reflexivity|]. intros u. unfold v_get. cbn. rewrite andb_false_r. reflexivity.
  - eexists. split; [reflexivity|]. split; [reflexivity|]. intros u. unfold v_get. cbn. rewrite andb_false_r. reflexivity.
  - eexists. split; [reflexivity|]. split; [apply (eset ts (Has t x)); exact F|]. cbn in F. split.
    + cbn [rep v_index]. clear - F. induction ts as [|a r IH]; [contradiction|]. cbn [index_of].
      destruct (Nat.eqb_spec a t) as [->|N]; [reflexivity|]. destruct F as [->|F]; [contradiction|].
      pose proof (proj2 (index_of_in r t) F) as B. destruct (Z.ltb_spec (index_of r t) 0); [lia|].
      replace (Z.to_nat (1 + index_of r t)) with (Datatypes.S (Z.to_nat (index_of r t))) by lia. cbn. apply IH. exact F.
    + intros u. unfold v_get. rewrite (eset ts (Has t x)) by exact F. cbn [rep v_index v_cell]. rewrite andb_true_r.
      destruct (Nat.eqb_spec u t) as [->|N].
      * rewrite Z.eqb_refl. assert (vs_get ts t = true) as -> by (apply vs_get_in; exact F).
        cbn. rewrite Nat.eqb_refl. reflexivity.
      * destruct (Z.eqb_spec (index_of ts u) (index_of ts t)) as [I|I]; [|reflexivity].
        exfalso. apply N. symmetry. apply (index_of_inj ts t u); auto. apply index_of_in. exact F.
Qed.

(** A named copy that moves, an odd copy, an assignment that does nothing; and the copy of the odd one. *)
Example C27_exact_case :
  let os := [VDefault 0; VSet 0 7 100; VCopyNamed 1 0; VDefault 2; VCopyNamed 3 2; VAssign 0 3; VSet 1 9 5; VMove 4 0] in
  e_steps (fun _ => 0) [7; 8] (repeat None 6) os =
    Some [Some (Has 7 0); Some Unset; Some Unset; Some Odd; Some (Has 7 0); None] /\
  e_steps (fun _ => 0) [7; 8] (repeat None 6) (os ++ [VCopyNamed 5 3; VSet 5 8 1]) <> None /\
  e_steps (fun _ => 0) [7; 8] (repeat None 6) (os ++ [VCopy 5 3]) = None.
Proof. repeat split. discriminate. Qed.

Print Assumptions C27_exact_partial.
