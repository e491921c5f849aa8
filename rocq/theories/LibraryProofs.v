(** Proofs about LibraryModel. *)
From Coq Require Import List Arith Bool Lia ZArith.
From Verif Require Import Base BaseLemmas Store StaticVectorModel StaticVectorSpec StaticVectorProps
  StringModel StringSpec StringProps LibraryModel LibrarySpec.
Import ListNotations.

(** * The path *)
Section Path.
  Context {A : Type}.
  Variable nul : A.
  Variable is_nul : A -> bool.

  Lemma scan_text l : (exists c, In c l /\ is_nul c = true) ->
    scan is_nul l = Ok (length (before_nul is_nul l))
    /\ length (before_nul is_nul l) < length l
    /\ firstn (length (before_nul is_nul l)) l = before_nul is_nul l.
  Proof.
    induction l as [|x l IH]; intros (c & I & N); [destruct I|].
    cbn. destruct (is_nul x) eqn:E; cbn; [repeat split; lia|].
    destruct I as [->|I]; [congruence|].
    destruct IH as (S1 & S2 & S3); [exists c; auto|]. rewrite S1, S3. cbn.
    repeat split. lia.
  Qed.

  Lemma raw_length_text r : terminated is_nul r -> raw_length is_nul r = Ok (length (text is_nul r)).
  Proof.
    destruct r as [l|]; intros T; [|reflexivity]. cbn. apply scan_text. exact T.
  Qed.

  Lemma raw_read_text r : terminated is_nul r ->
    raw_read r (length (text is_nul r)) = Ok (text is_nul r).
  Proof.
    destruct r as [l|]; intros T; [|reflexivity]. cbn [text].
    destruct (scan_text l T) as (_ & L & F). unfold raw_read.
    destruct (length (before_nul is_nul l)) eqn:E.
    - destruct (before_nul is_nul l); [reflexivity|discriminate].
    - rewrite <- E, F in *. destruct (Nat.leb_spec (length (before_nul is_nul l)) (length l)); [reflexivity|lia].
  Qed.

  Lemma insert_end xs (l : list A) n : n = length l -> insert_at n xs l = l ++ xs.
  Proof.
    intros ->. unfold insert_at. rewrite firstn_all, skipn_all, app_nil_r. reflexivity.
  Qed.
  Lemma put_end xs (l : list A) n : n = length l -> put_in l n xs = l ++ xs.
  Proof.
    intros ->. unfold put_in. rewrite firstn_all, skipn_all, app_nil_r. reflexivity.
  Qed.
  Lemma bounded_fits cap (l l' : list A) : length l' <= cap -> bounded cap l l' = l'.
  Proof.
    intros H. unfold bounded. destruct (Nat.leb_spec (length l') cap); [reflexivity|lia].
  Qed.

  Lemma static_ok cap slash d p n s dir :
    length d + 1 + (length p + length n + length s + 1) < cap ->
    valid cap [] (path_static_ops nul slash d p n s dir)
    /\ spec_run cap (path_static_ops nul slash d p n s dir)
       = (if dir then d ++ [slash] else []) ++ p ++ n ++ s ++ [nul].
  Proof.
    intros H. unfold spec_run, path_static_ops.
    assert (G : forall l start, start = length l -> length l <= length d + 1 ->
      valid cap l [InsertRange start p; InsertRange (start + length p) n;
        InsertRange (start + length p + length n) s;
        InsertMove (start + length p + length n + length s) nul]
      /\ fold_left (spec_step cap) [InsertRange start p; InsertRange (start + length p) n;
        InsertRange (start + length p + length n) s;
        InsertMove (start + length p + length n + length s) nul] l = l ++ p ++ n ++ s ++ [nul]).
    { intros l start -> L. cbn [valid fold_left valid_op spec_step].
      rewrite (insert_end p l) by reflexivity.
      rewrite (bounded_fits cap l) by (rewrite app_length; lia).
      rewrite (insert_end n (l ++ p)) by (rewrite app_length; reflexivity).
      rewrite (bounded_fits cap (l ++ p)) by (rewrite !app_length; lia).
      rewrite (insert_end s ((l ++ p) ++ n)) by (rewrite !app_length; reflexivity).
      rewrite (bounded_fits cap ((l ++ p) ++ n)) by (rewrite !app_length; lia).
      rewrite (insert_end [nul] (((l ++ p) ++ n) ++ s)) by (rewrite !app_length; reflexivity).
      rewrite (bounded_fits cap (((l ++ p) ++ n) ++ s)) by (rewrite !app_length; cbn; lia).
      rewrite !app_length. repeat split; try lia. rewrite <- !app_assoc. reflexivity. }
    destruct dir.
    - cbn [app]. cbn [valid fold_left valid_op spec_step].
      rewrite (insert_end d []) by reflexivity. cbn [app].
      rewrite (bounded_fits cap [] d) by lia.
      rewrite (bounded_fits cap d) by (rewrite app_length; cbn; lia).
      destruct (G (d ++ [slash]) (length d + 1)) as [V E].
      { rewrite app_length. reflexivity. }
      { rewrite app_length. cbn. lia. }
      split; [|exact E]. split; [cbn; lia|]. split; [exact I|exact V].
    - cbn [app]. apply (G [] 0); cbn; lia.
  Qed.

  (** The memory the loader gets. *)
  Lemma path_ok max prefix suffix slash fuel name directory :
    terminated is_nul name -> terminated is_nul directory ->
    terminated is_nul prefix -> terminated is_nul suffix ->
    (Z.of_nat (length (text is_nul name)) < 2 ^ 64)%Z ->
    (Z.of_nat (length (text is_nul prefix)) < 2 ^ 64)%Z ->
    (Z.of_nat (length (text is_nul suffix)) < 2 ^ 64)%Z ->
    4 <= fuel ->
    getHandle_path nul is_nul max prefix suffix slash fuel name directory
    = Ok (library_path is_nul slash prefix suffix name directory ++ [nul]).
  Proof.
    intros TN TD TP TS BN BP BS F. unfold getHandle_path, chars_of.
    rewrite !raw_length_text by assumption. cbn [bind].
    destruct (Nat.ltb_spec (length (text is_nul directory) + 1 +
      (length (text is_nul prefix) + length (text is_nul name) + length (text is_nul suffix) + 1)) max)
      as [H|H].
    - rewrite !raw_read_text by assumption. cbn [bind].
      destruct (static_ok max slash _ _ _ _ match directory with Some _ => true | None => false end H)
        as [V E].
      destruct (C06_bounded_sequence A (fun c => c) nul max _ V) as (v & R & EL & _).
      rewrite R. cbn [bind]. rewrite EL, E. unfold library_path.
      destruct directory; rewrite <- !app_assoc; reflexivity.
    - set (dl := length (text is_nul directory)) in *.
      set (pl := length (text is_nul prefix)) in *.
      set (nl := length (text is_nul name)) in *.
      set (sl := length (text is_nul suffix)) in *.
      set (full := dl + 1 + (pl + nl + sl + 1)) in *.
      set (ops := path_string_ops prefix suffix slash directory name dl pl nl full).
      assert (X : str_documented_run is_nul [] ops
        /\ (exists c, str_cap_run is_nul [] 0 ops = Some c /\ 0 < c)
        /\ str_seq_run is_nul [] ops = library_path is_nul slash prefix suffix name directory).
      { assert (G : forall l start, start = length l -> length l <= dl + 1 ->
          str_documented_run is_nul l [SInsertRaw start prefix; SInsertRaw (start + pl) name;
             SInsertRaw (start + pl + nl) suffix]
          /\ str_cap_run is_nul l (0 + (full + 1)) [SInsertRaw start prefix; SInsertRaw (start + pl) name;
             SInsertRaw (start + pl + nl) suffix] = Some (0 + (full + 1))
          /\ str_seq_run is_nul l [SInsertRaw start prefix; SInsertRaw (start + pl) name;
             SInsertRaw (start + pl + nl) suffix]
             = l ++ text is_nul prefix ++ text is_nul name ++ text is_nul suffix).
        { intros l start -> L. unfold str_seq_run.
          cbn [str_documented_run str_documented str_seq_step str_cap_run str_cap_step fold_left].
          rewrite (put_end (text is_nul prefix) l) by reflexivity.
          rewrite (put_end (text is_nul name) (l ++ text is_nul prefix))
            by (rewrite app_length; reflexivity).
          rewrite (put_end (text is_nul suffix) ((l ++ text is_nul prefix) ++ text is_nul name))
            by (rewrite !app_length; reflexivity).
          rewrite !app_length. fold pl nl sl. split; [|split].
          - repeat split; auto; lia.
          - assert (T1 : (pl + length l <? 0 + (full + 1)) = true) by (apply Nat.ltb_lt; lia).
            assert (T2 : (nl + (length l + pl) <? 0 + (full + 1)) = true) by (apply Nat.ltb_lt; lia).
            assert (T3 : (sl + (length l + pl + nl) <? 0 + (full + 1)) = true) by (apply Nat.ltb_lt; lia).
            rewrite T1, orb_true_r. cbv iota beta. rewrite T2, orb_true_r. cbv iota beta.
            rewrite T3, orb_true_r. reflexivity.
          - rewrite <- !app_assoc. reflexivity. }
        unfold ops, path_string_ops, library_path, str_seq_run.
        destruct directory as [d|].
        - cbn [app].
          cbn [str_documented_run str_documented str_seq_step str_cap_run str_cap_step fold_left length
               Nat.eqb andb].
          assert (Z0 : (full + 1 =? 0) = false) by (apply Nat.eqb_neq; lia). rewrite Z0.
          cbn [app length]. fold dl.
          assert (T1 : (0 + dl + 2 <? 0 + (full + 1)) = true) by (apply Nat.ltb_lt; lia).
          assert (T2 : (dl + 1 <? 0 + (full + 1)) = true) by (apply Nat.ltb_lt; lia).
          rewrite T1. cbv iota beta. rewrite T2. cbv iota beta.
          destruct (G (text is_nul (Some d) ++ [slash]) (dl + 1)) as (G1 & G2 & G3).
          { rewrite app_length. reflexivity. }
          { rewrite app_length. cbn [length]. fold dl. lia. }
          split; [|split].
          + split; [exact I|]. split; [exact TD|]. split; [exact I|exact G1].
          + exists (0 + (full + 1)). split; [exact G2|lia].
          + exact G3.
        - cbn [app].
          cbn [str_documented_run str_documented str_seq_step str_cap_run str_cap_step fold_left length
               Nat.eqb andb].
          assert (Z0 : (full + 1 =? 0) = false) by (apply Nat.eqb_neq; lia). rewrite Z0.
          destruct (G [] 0) as (G1 & G2 & G3); [reflexivity|cbn; lia|].
          split; [|split].
          + split; [exact I|exact G1].
          + exists (0 + (full + 1)). split; [exact G2|lia].
          + exact G3. }
      destruct X as (D & (c & CR & C0) & SR).
      destruct (C20_string_partial A nul is_nul CDefault ops c fuel) as (s & RUN & HL & HC & HCH & _ & HB);
        auto; [exact I|].
      rewrite RUN. cbn [bind]. rewrite HCH. cbn [bind]. rewrite HL.
      destruct (HB C0) as (b & _ & _ & _ & AT). rewrite AT. cbn [bind].
      cbn [str_seq_ctor]. rewrite SR. reflexivity.
  Qed.
End Path.

(** * Objects *)

Lemma lookup_replace u v h o :
  lookup u (replace v h o)
  = if u =? v then match lookup v o with Some _ => Some h | None => None end else lookup u o.
Proof.
  induction o as [|[x g] o IH]; cbn; [destruct (u =? v); reflexivity|].
  destruct (x =? v) eqn:XV; cbn; destruct (x =? u) eqn:XU.
  - apply Nat.eqb_eq in XV, XU. subst. rewrite Nat.eqb_refl. reflexivity.
  - destruct (u =? v) eqn:UV; [|reflexivity]. apply Nat.eqb_eq in XV, UV.
    apply Nat.eqb_neq in XU. congruence.
  - destruct (u =? v) eqn:UV; [|reflexivity]. apply Nat.eqb_eq in XU, UV.
    apply Nat.eqb_neq in XV. congruence.
  - exact IH.
Qed.

Lemma keys_replace v h o : map fst (replace v h o) = map fst o.
Proof.
  induction o as [|[x g] o IH]; cbn; [reflexivity|]. destruct (x =? v); cbn; congruence.
Qed.

Lemma lookup_none v o : lookup v o = None <-> ~ In v (map fst o).
Proof.
  induction o as [|[x g] o IH]; cbn; [tauto|]. destruct (x =? v) eqn:E.
  - apply Nat.eqb_eq in E. split; [discriminate|tauto].
  - apply Nat.eqb_neq in E. rewrite IH. tauto.
Qed.

Lemma keys_remove v o x : In x (map fst (remove_object v o)) -> In x (map fst o).
Proof.
  induction o as [|[y g] o IH]; cbn; [tauto|]. destruct (y =? v); cbn; tauto.
Qed.

Lemma nodup_remove v o : NoDup (map fst o) -> NoDup (map fst (remove_object v o)).
Proof.
  induction o as [|[y g] o IH]; cbn; intros N; [constructor|].
  inversion N; subst. destruct (y =? v); [assumption|]. cbn. constructor; auto.
  intros I. apply keys_remove in I. contradiction.
Qed.

Lemma lookup_remove u v o : NoDup (map fst o) ->
  lookup u (remove_object v o) = if u =? v then None else lookup u o.
Proof.
  induction o as [|[x g] o IH]; cbn; intros N; [destruct (u =? v); reflexivity|].
  inversion N; subst. destruct (x =? v) eqn:XV; cbn.
  - apply Nat.eqb_eq in XV. subst. destruct (u =? v) eqn:UV.
    + apply Nat.eqb_eq in UV. subst. apply lookup_none. assumption.
    + rewrite Nat.eqb_sym, UV. reflexivity.
  - destruct (x =? u) eqn:XU.
    + destruct (u =? v) eqn:UV; [|reflexivity]. apply Nat.eqb_eq in XU, UV.
      apply Nat.eqb_neq in XV. congruence.
    + apply IH. assumption.
Qed.

Definition b2n (b : bool) : nat := if b then 1 else 0.
Definition cnt {X} (p : X -> bool) (l : list X) : nat := length (filter p l).

Lemma cnt_cons {X} (p : X -> bool) x l : cnt p (x :: l) = b2n (p x) + cnt p l.
Proof. unfold cnt. cbn. destruct (p x); reflexivity. Qed.
Lemma cnt_app {X} (p : X -> bool) l k : cnt p (l ++ k) = cnt p l + cnt p k.
Proof. induction l as [|x l IH]; [reflexivity|]. cbn [app]. rewrite !cnt_cons, IH. lia. Qed.

Lemma cnt_replace p v g h o : lookup v o = Some g ->
  cnt p (replace v h o) + b2n (p (v, g)) = cnt p o + b2n (p (v, h)).
Proof.
  induction o as [|[x k] o IH]; cbn [lookup replace remove_object]; [discriminate|].
  destruct (x =? v) eqn:E; intros L.
  - injection L as ->. apply Nat.eqb_eq in E. subst. rewrite !cnt_cons. lia.
  - rewrite !cnt_cons. specialize (IH L). lia.
Qed.

Lemma cnt_remove p v g o : lookup v o = Some g ->
  cnt p (remove_object v o) + b2n (p (v, g)) = cnt p o.
Proof.
  induction o as [|[x k] o IH]; cbn [lookup replace remove_object]; [discriminate|].
  destruct (x =? v) eqn:E; intros L.
  - injection L as ->. apply Nat.eqb_eq in E. subst. rewrite cnt_cons. lia.
  - rewrite !cnt_cons. specialize (IH L). lia.
Qed.

Lemma cnt_upd {X} (p : X -> bool) l i x y : nth_error l i = Some y ->
  cnt p (upd l i x) + b2n (p y) = cnt p l + b2n (p x).
Proof.
  revert i. induction l as [|z l IH]; intros [|i] H; try discriminate H; cbn [upd] in *.
  - injection H as ->. rewrite !cnt_cons. lia.
  - rewrite !cnt_cons. specialize (IH i H). lia.
Qed.

(** What the object has in the world. *)
Definition shows (w : lworld) (v : nat) (h : option held) : Prop :=
  match h with
  | None => l_vars w v = None
  | Some MovedFrom => l_vars w v = Some None
  | Some Nothing => exists c, l_vars w v = Some (Some c) /\ nth_error (l_cells w) c = Some (Cell None)
  | Some (Lib l) =>
      exists c, l_vars w v = Some (Some c) /\ nth_error (l_cells w) c = Some (Cell (Some l))
  end.

Record linv (a : libs) (w : lworld) : Prop := LInv {
  li_keys : NoDup (map fst (a_objects a));
  li_shows : forall v, shows w v (lookup v (a_objects a));
  li_one : forall u v c, l_vars w u = Some (Some c) -> l_vars w v = Some (Some c) -> u = v;
  li_refs : forall l, l_refs w l = cnt (holds_lib l) (a_objects a) + cnt (Nat.eqb l) (a_lost a);
  li_blocks : cnt in_use_block (l_cells w) = cnt holds_block (a_objects a) + a_blocks a }.

Lemma linv_start : linv libs_start l_start.
Proof. constructor; cbn; auto; try discriminate. constructor. Qed.

Lemma set_var_eq f v x : set_var f v x v = x.
Proof. unfold set_var. rewrite Nat.eqb_refl. reflexivity. Qed.
Lemma set_var_neq f v x u : u <> v -> set_var f v x u = f u.
Proof. intros H. unfold set_var. apply Nat.eqb_neq in H. rewrite H. reflexivity. Qed.

Lemma shows_mono w w' v h :
  l_vars w' v = l_vars w v ->
  (forall c, l_vars w v = Some (Some c) -> forall x, nth_error (l_cells w) c = Some x ->
     nth_error (l_cells w') c = Some x) ->
  shows w v h -> shows w' v h.
Proof.
  intros E M. destruct h as [[|l|]|]; cbn; rewrite E; auto.
  - intros (c & V & C). exists c. split; [exact V|]. apply (M c V). exact C.
  - intros (c & V & C). exists c. split; [exact V|]. apply (M c V). exact C.
Qed.

Lemma lookup_some_var a w v h : linv a w -> lookup v (a_objects a) = Some h -> l_vars w v <> None.
Proof.
  intros I L. pose proof (li_shows _ _ I v) as S. rewrite L in S. destruct h as [|l|]; cbn in S.
  - destruct S as (c & V & _). congruence.
  - destruct S as (c & V & _). congruence.
  - congruence.
Qed.

Lemma var_valid a w v c : linv a w -> l_vars w v = Some (Some c) -> c < length (l_cells w).
Proof.
  intros I V. pose proof (li_shows _ _ I v) as S.
  destruct (lookup v (a_objects a)) as [[|l|]|]; cbn in S.
  - destruct S as (c' & V' & N). rewrite V in V'. injection V' as <-. apply nth_error_Some. congruence.
  - destruct S as (c' & V' & N). rewrite V in V'. injection V' as <-. apply nth_error_Some. congruence.
  - congruence.
  - congruence.
Qed.

(** A new object with a new block. *)
Lemma linv_add a w v found refs :
  linv a w -> lookup v (a_objects a) = None ->
  refs = match found with
         | Some l => set_refs (l_refs w) l (l_refs w l + 1)
         | None => l_refs w
         end ->
  linv (Libs ((v, match found with Some l => Lib l | None => Nothing end) :: a_objects a)
          (a_lost a) (a_blocks a))
       (LWorld (set_var (l_vars w) v (Some (Some (length (l_cells w)))))
          (l_cells w ++ [Cell found]) refs).
Proof.
  intros I L ->. constructor; cbn [a_objects a_lost a_blocks l_vars l_cells l_refs].
  - cbn [map fst]. constructor; [apply lookup_none; exact L|apply (li_keys _ _ I)].
  - intros u. cbn [lookup]. destruct (v =? u) eqn:E.
    + apply Nat.eqb_eq in E. subst u. destruct found; cbn [shows l_vars l_cells]; rewrite set_var_eq;
        (eexists; split; [reflexivity|]); rewrite nth_error_app2, Nat.sub_diag by lia; reflexivity.
    + apply Nat.eqb_neq in E. apply (shows_mono w); [cbn; apply set_var_neq; congruence| |apply (li_shows _ _ I)].
      intros c _ x N. cbn [l_cells]. rewrite nth_error_app1; [exact N|]. apply nth_error_Some. congruence.
  - intros u1 u2 c. unfold set_var.
    destruct (u1 =? v) eqn:E1; destruct (u2 =? v) eqn:E2; intros V1 V2.
    + apply Nat.eqb_eq in E1, E2. congruence.
    + injection V1 as <-. apply (var_valid a w u2) in V2; [lia|exact I].
    + injection V2 as <-. apply (var_valid a w u1) in V1; [lia|exact I].
    + exact (li_one _ _ I _ _ _ V1 V2).
  - intros l. rewrite cnt_cons. unfold holds_lib at 1. cbn [snd]. destruct found as [k|].
    + unfold set_refs. destruct (l =? k) eqn:E.
      * apply Nat.eqb_eq in E. subst. rewrite Nat.eqb_refl, (li_refs _ _ I). cbn [b2n]. lia.
      * rewrite (Nat.eqb_sym k), E, (li_refs _ _ I). cbn [b2n]. lia.
    + rewrite (li_refs _ _ I). cbn [b2n]. lia.
  - rewrite cnt_app, !cnt_cons, (li_blocks _ _ I). destruct found; cbn; lia.
Qed.

Lemma linv_move a w v p h :
  linv a w -> lookup v (a_objects a) = None -> lookup p (a_objects a) = Some h ->
  exists x, l_vars w p = Some x /\
  linv (Libs ((v, h) :: replace p MovedFrom (a_objects a)) (a_lost a) (a_blocks a))
       (with_var (with_var w v (Some x)) p (Some None)).
Proof.
  intros I LV LP. pose proof (lookup_some_var _ _ _ _ I LP) as NV.
  destruct (l_vars w p) as [x|] eqn:VP; [|congruence]. exists x. split; [reflexivity|].
  assert (VP' : v <> p) by congruence.
  constructor; cbn [with_var a_objects a_lost a_blocks l_vars l_cells l_refs].
  - cbn [map fst]. rewrite keys_replace. constructor; [apply lookup_none; exact LV|apply (li_keys _ _ I)].
  - intros u. cbn [lookup]. rewrite lookup_replace, LP. destruct (v =? u) eqn:E.
    + apply Nat.eqb_eq in E. subst u. pose proof (li_shows _ _ I p) as S. rewrite LP in S.
      destruct h as [|l|]; cbn in S |- *; rewrite set_var_neq, set_var_eq by exact VP'; rewrite VP in S.
      * destruct S as (c & [= ->] & N). exists c. auto.
      * destruct S as (c & [= ->] & N). exists c. auto.
      * exact S.
    + apply Nat.eqb_neq in E. destruct (u =? p) eqn:UP.
      * apply Nat.eqb_eq in UP. subst u. cbn. rewrite set_var_eq. reflexivity.
      * apply Nat.eqb_neq in UP.
        apply (shows_mono w); [cbn; rewrite !set_var_neq by congruence; reflexivity| |apply (li_shows _ _ I)].
        intros c _ y N. exact N.
  - intros u1 u2 c. unfold set_var.
    destruct (u1 =? p) eqn:E1; [discriminate|]. destruct (u2 =? p) eqn:E2; [discriminate|].
    apply Nat.eqb_neq in E1, E2.
    destruct (u1 =? v) eqn:F1; destruct (u2 =? v) eqn:F2; intros V1 V2.
    + apply Nat.eqb_eq in F1, F2. congruence.
    + exfalso. apply E2. apply (li_one _ _ I _ _ c V2). congruence.
    + exfalso. apply E1. apply (li_one _ _ I _ _ c V1). congruence.
    + exact (li_one _ _ I _ _ _ V1 V2).
  - intros l. rewrite cnt_cons, (li_refs _ _ I).
    pose proof (cnt_replace (holds_lib l) p h MovedFrom _ LP) as R. unfold holds_lib in R at 2 4.
    unfold holds_lib at 2. cbn [snd b2n] in *. lia.
  - rewrite cnt_cons, (li_blocks _ _ I).
    pose proof (cnt_replace holds_block p h MovedFrom _ LP) as R. unfold holds_block in R at 2 4.
    unfold holds_block at 2. cbn [snd b2n] in *. lia.
Qed.

Lemma linv_assign a w v p g h :
  linv a w -> lookup v (a_objects a) = Some g -> lookup p (a_objects a) = Some h ->
  exists x, l_vars w p = Some x /\
  linv (Libs (replace p MovedFrom (replace v h (a_objects a)))
          (a_lost (drop a (Some g))) (a_blocks (drop a (Some g))))
       (with_var (with_var w v (Some x)) p (Some None)).
Proof.
  intros I LV LP. pose proof (lookup_some_var _ _ _ _ I LP) as NV.
  destruct (l_vars w p) as [x|] eqn:VP; [|congruence]. exists x. split; [reflexivity|].
  assert (LP' : lookup p (replace v h (a_objects a)) = Some h).
  { rewrite lookup_replace, LV. destruct (p =? v); [reflexivity|exact LP]. }
  constructor; cbn [with_var a_objects a_lost a_blocks l_vars l_cells l_refs].
  - rewrite !keys_replace. apply (li_keys _ _ I).
  - intros u. rewrite lookup_replace, LP', lookup_replace, LV.
    destruct (u =? p) eqn:UP.
    + apply Nat.eqb_eq in UP. subst u. cbn. rewrite set_var_eq. reflexivity.
    + apply Nat.eqb_neq in UP. destruct (u =? v) eqn:UV.
      * apply Nat.eqb_eq in UV. subst u. pose proof (li_shows _ _ I p) as S. rewrite LP in S.
        destruct h as [|l|]; cbn in S |- *; rewrite set_var_neq, set_var_eq by exact UP; rewrite VP in S.
        -- destruct S as (c & [= ->] & N). exists c. auto.
        -- destruct S as (c & [= ->] & N). exists c. auto.
        -- exact S.
      * apply Nat.eqb_neq in UV.
        apply (shows_mono w); [cbn; rewrite !set_var_neq by congruence; reflexivity| |apply (li_shows _ _ I)].
        intros c _ y N. exact N.
  - intros u1 u2 c. unfold set_var.
    destruct (u1 =? p) eqn:E1; [discriminate|]. destruct (u2 =? p) eqn:E2; [discriminate|].
    apply Nat.eqb_neq in E1, E2.
    destruct (u1 =? v) eqn:F1; destruct (u2 =? v) eqn:F2; intros V1 V2.
    + apply Nat.eqb_eq in F1, F2. congruence.
    + exfalso. apply E2. apply (li_one _ _ I _ _ c V2). congruence.
    + exfalso. apply E1. apply (li_one _ _ I _ _ c V1). congruence.
    + exact (li_one _ _ I _ _ _ V1 V2).
  - intros l. rewrite (li_refs _ _ I).
    pose proof (cnt_replace (holds_lib l) p h MovedFrom _ LP') as R1.
    pose proof (cnt_replace (holds_lib l) v g h _ LV) as R2.
    unfold holds_lib in R1 at 2 4. unfold holds_lib in R2 at 2 4. cbn [snd b2n] in *.
    assert (D : cnt (Nat.eqb l) (a_lost (drop a (Some g)))
              = b2n (match g with Lib k => k =? l | _ => false end) + cnt (Nat.eqb l) (a_lost a)).
    { destruct g as [|k|]; cbn [drop a_lost b2n]; [reflexivity| |reflexivity].
      rewrite cnt_cons, Nat.eqb_sym. reflexivity. }
    lia.
  - rewrite (li_blocks _ _ I).
    pose proof (cnt_replace holds_block p h MovedFrom _ LP') as R1.
    pose proof (cnt_replace holds_block v g h _ LV) as R2.
    unfold holds_block in R1 at 2 4. unfold holds_block in R2 at 2 4. cbn [snd b2n] in *.
    assert (D : a_blocks (drop a (Some g))
              = b2n (match g with MovedFrom => false | _ => true end) + a_blocks a)
      by (destruct g; reflexivity).
    lia.
Qed.

Section Run.
  Variable symbols : nat -> nat -> option nat.
  Variable global : nat -> option nat.

  Lemma linv_step a w c : linv a w -> libs_proper a c ->
    exists w', lstep symbols global w c = Ok (w', libs_answer symbols global a c)
      /\ linv (libs_step a c) w'.
  Proof.
    intros I P. destruct c as [v m|v m found|v p|v p|v|v name|v]; cbn [libs_proper] in P.
    - destruct P as [L ->]. pose proof (li_shows _ _ I v) as S. rewrite L in S. cbn in S.
      cbn [lstep]. unfold no_lib. rewrite S. cbn [bind lib_new fst snd].
      eexists. split; [reflexivity|]. cbn [libs_step]. unfold with_var. cbn [l_vars l_cells l_refs].
      exact (linv_add a w v None _ I L eq_refl).
    - destruct P as [L ->]. pose proof (li_shows _ _ I v) as S. rewrite L in S. cbn in S.
      cbn [lstep]. unfold no_lib. rewrite S. cbn [bind lib_new fst snd l_cells handle_ref].
      rewrite nth_error_app2, Nat.sub_diag by lia. cbn [nth_error bind].
      eexists. split; [reflexivity|]. cbn [libs_step]. unfold with_var. cbn [l_vars l_cells l_refs].
      replace (upd (l_cells w ++ [Cell None]) (length (l_cells w)) (Cell found))
        with (l_cells w ++ [Cell found]).
      2: { symmetry. apply upd_app_mid. }
      apply (linv_add a w v found _ I L). reflexivity.
    - destruct P as [LV LP]. destruct (lookup p (a_objects a)) as [h|] eqn:EP; [|congruence].
      destruct (linv_move a w v p h I LV EP) as (x & V & I').
      pose proof (li_shows _ _ I v) as S. rewrite LV in S. cbn in S.
      cbn [lstep]. unfold no_lib, get_lib. rewrite S, V. cbn [bind].
      eexists. split; [reflexivity|]. cbn [libs_step]. rewrite EP. exact I'.
    - destruct P as [LV LP]. destruct (lookup p (a_objects a)) as [h|] eqn:EP; [|congruence].
      destruct (lookup v (a_objects a)) as [g|] eqn:EV; [|congruence].
      destruct (linv_assign a w v p g h I EV EP) as (x & V & I').
      pose proof (lookup_some_var _ _ _ _ I EV) as NV.
      cbn [lstep]. unfold get_lib. destruct (l_vars w v) as [y|]; [|congruence]. rewrite V. cbn [bind].
      eexists. split; [reflexivity|]. cbn [libs_step]. rewrite EP, EV. exact I'.
    - pose proof (li_shows _ _ I v) as S. cbn [lstep libs_step libs_answer]. exists w.
      split; [|exact I]. unfold get_lib, handle_ref.
      destruct P as [P|(l & P)]; rewrite P in S |- *; destruct S as (c & V & N); rewrite V; cbn [bind];
        rewrite N; reflexivity.
    - pose proof (li_shows _ _ I v) as S. cbn [lstep libs_step libs_answer]. exists w.
      split; [|exact I]. unfold get_lib, handle_ref.
      destruct P as [P|(l & P)]; rewrite P in S |- *; destruct S as (c & V & N); rewrite V; cbn [bind];
        rewrite N; cbn [bind]; [reflexivity|].
      pose proof (li_refs _ _ I l) as R.
      pose proof (cnt_replace (holds_lib l) v (Lib l) MovedFrom _ P) as R2.
      unfold holds_lib in R2 at 2 4. cbn [snd] in R2. rewrite Nat.eqb_refl in R2. cbn [b2n] in R2.
      destruct (Nat.eqb_spec (l_refs w l) 0); [lia|reflexivity].
    - pose proof (li_shows _ _ I v) as S. cbn [lstep libs_step libs_answer]. unfold get_lib, handle_ref.
      destruct P as [P|(l & P)]; rewrite P in S |- *; destruct S as (c & V & N); rewrite V; cbn [bind];
        rewrite N; cbn [bind].
      + eexists. split; [reflexivity|].
        constructor; cbn [with_var a_objects a_lost a_blocks l_vars l_cells l_refs].
        * apply nodup_remove. apply (li_keys _ _ I).
        * intros u. rewrite lookup_remove by apply (li_keys _ _ I). destruct (u =? v) eqn:E.
          -- apply Nat.eqb_eq in E. subst u. cbn. apply set_var_eq.
          -- apply Nat.eqb_neq in E.
             apply (shows_mono w); [cbn; apply set_var_neq; exact E| |apply (li_shows _ _ I)]. auto.
        * intros u1 u2 d. unfold set_var.
          destruct (u1 =? v); [discriminate|]. destruct (u2 =? v); [discriminate|]. apply (li_one _ _ I).
        * intros l. rewrite (li_refs _ _ I). pose proof (cnt_remove (holds_lib l) v _ _ P) as R.
          unfold holds_lib in R at 2. cbn [snd b2n] in R. lia.
        * rewrite (li_blocks _ _ I). pose proof (cnt_remove holds_block v _ _ P) as R.
          unfold holds_block in R at 2. cbn [snd b2n] in R. lia.
      + pose proof (li_refs _ _ I l) as RL. pose proof (cnt_remove (holds_lib l) v _ _ P) as R.
        unfold holds_lib in R at 2. cbn [snd] in R. rewrite Nat.eqb_refl in R. cbn [b2n] in R.
        cbn [lib_close]. destruct (l_refs w l) as [|n] eqn:RN; [lia|]. cbn [bind l_vars l_cells l_refs].
        assert (UU : upd (upd (l_cells w) c (Cell None)) c Freed = upd (l_cells w) c Freed).
        { clear. revert c. induction (l_cells w) as [|x k IH]; intros [|c]; cbn; try reflexivity.
          f_equal. apply IH. }
        rewrite UU.
        eexists. split; [reflexivity|].
        constructor; cbn [with_var a_objects a_lost a_blocks l_vars l_cells l_refs].
        * apply nodup_remove. apply (li_keys _ _ I).
        * intros u. rewrite lookup_remove by apply (li_keys _ _ I). destruct (u =? v) eqn:E.
          -- apply Nat.eqb_eq in E. subst u. cbn. apply set_var_eq.
          -- apply Nat.eqb_neq in E.
             apply (shows_mono w); [cbn; apply set_var_neq; exact E| |apply (li_shows _ _ I)].
             intros d VU x ND. cbn [l_cells with_var]. rewrite nth_error_upd_neq; [exact ND|].
             intros ->. apply E. exact (li_one _ _ I _ _ _ VU V).
        * intros u1 u2 d. unfold set_var.
          destruct (u1 =? v); [discriminate|]. destruct (u2 =? v); [discriminate|]. apply (li_one _ _ I).
        * intros k. unfold set_refs. destruct (k =? l) eqn:E.
          -- apply Nat.eqb_eq in E. subst k. lia.
          -- rewrite (li_refs _ _ I). pose proof (cnt_remove (holds_lib k) v _ _ P) as R'.
             unfold holds_lib in R' at 2. cbn [snd] in R'. rewrite Nat.eqb_sym, E in R'. cbn [b2n] in R'. lia.
        * pose proof (cnt_upd in_use_block _ _ Freed _ N) as C. cbn [in_use_block b2n] in C.
          pose proof (li_blocks _ _ I) as B. pose proof (cnt_remove holds_block v _ _ P) as R'.
          unfold holds_block in R' at 2. cbn [snd b2n] in R'. lia.
  Qed.

  Lemma linv_run h : forall a w, linv a w -> libs_all_proper a h ->
    exists w', lruns symbols global w h = Ok (w', libs_answers symbols global a h)
      /\ linv (libs_run a h) w'.
  Proof.
    induction h as [|c h IH]; intros a w I P.
    - exists w. split; [reflexivity|exact I].
    - destruct P as [P1 P2]. destruct (linv_step a w c I P1) as (w1 & E1 & I1).
      destruct (IH _ _ I1 P2) as (w2 & E2 & I2). exists w2. split; [|exact I2].
      cbn [lruns]. rewrite E1. cbn [bind fst snd]. rewrite E2. reflexivity.
  Qed.
End Run.
