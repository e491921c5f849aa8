(** C109-C116: the PKCS#11 wrapper. *)
From Coq Require Import List Arith Bool Lia.
From Verif Require Import Base BaseLemmas Store StaticVectorModel VectorModel
  Pkcs11Model Pkcs11Spec Pkcs11Proofs.
Import ListNotations.

Lemma usable_status : forall w, usable w <-> is_ok (p_status (w_lib w)) = true.
Proof.
  intros w. unfold usable, get_functions, create_expected, assign_result, assign_error.
  destruct (is_ok _); split; congruence.
Qed.

Lemma history_linked : forall mem f cs w vs, history mem f cs w vs -> linked (w_lib w).
Proof.
  intros mem f cs w vs (M & F & K & E).
  destruct (run_ok mem M f cs pw_start start_linked F K) as (w' & vs' & E' & L & _).
  rewrite E' in E. injection E as <- <-. exact L.
Qed.

(** A history and one more call. *)
Lemma prun_app : forall mem f cs w w1 vs c,
  prun mem f w cs = Ok (w1, vs) ->
  prun mem f w (cs ++ [c]) = (let! (w2, v) := pstep mem f w1 c in Ok (w2, vs ++ [v])).
Proof.
  intros mem f. induction cs as [|d cs IH]; intros w w1 vs c E; cbn [prun app] in *.
  - injection E as <- <-. destruct (pstep mem f w c) as [[w2 v]| |]; reflexivity.
  - destruct (pstep mem f w d) as [[w2 v]| |]; cbn [bind] in *; try discriminate.
    destruct (prun mem f w2 cs) as [[w3 vs3]| |] eqn:E2; cbn [bind] in E; try discriminate.
    injection E as <- <-. rewrite (IH _ _ _ _ E2).
    destruct (pstep mem f w3 c) as [[w4 v4]| |]; reflexivity.
Qed.

(** * C109: any calls in any order are safe *)

(** Whatever the module answers, no history of calls, and no destruction after it, calls through
    a null function pointer or writes outside a buffer. *)
Theorem C109_safe :
  forall mem fuel cs, mem <> NoMemory -> Forall answers_fit cs -> slots_exist 0 cs ->
  exists w vs, prun mem (S fuel) pw_start cs = Ok (w, vs)
    /\ forall r, exists l, plib_delete (w_lib w) r = Ok l.
Proof.
  intros mem f cs M F K.
  destruct (run_ok mem M f cs pw_start start_linked F K) as (w & vs & E & L & _).
  exists w, vs. split; [exact E|]. intros r. unfold plib_delete. rewrite (finalize_eq _ _ L).
  destruct (is_ok _); eexists; reflexivity.
Qed.

(** A module with two slots and one interface. *)
Definition good_answers : init_answers := IA (Some ROk) (Some (ROk, 1, (ROk, [40]))) ROk (ROk, 7).
Example C109_case :
  let cs := [PSlotCount ROk [3; 5]; PInit [1; 2] good_answers; PSlot 3; PSlotInfo 0 ROk 9;
             PSlotList ROk [3; 5] ROk [3; 5]; PIfaces; PWait 0 (ROther 8) 4; PFinalize ROk] in
  Forall answers_fit cs /\ slots_exist 0 cs
  /\ exists w, prun Realloc 1 pw_start cs
       = Ok (w, [VCount (EResult 0); VRv ROk; VNothing; VSlotInfo (EResult 9); VSlots (EResult []);
                 VIfaces (EResult 0); VRv (ROther 8); VRv ROk]).
Proof.
  cbv zeta. split; [repeat (constructor; [cbn; auto|]); constructor|].
  split; [vm_compute; auto 20|]. eexists. vm_compute. reflexivity.
Qed.

(** * C110: errors reach the caller *)

(** After a successful initialize the wrapper gives what the module gave. *)
Theorem C110_results_partial :
  forall mem fuel cs w vs args a w1 f' r slots w2 v,
  history mem fuel cs w vs ->
  answers_fit (PInit args a) ->
  pstep mem (S f') w (PInit args a) = Ok (w1, VRv ROk) ->
  pstep mem (S f') w1 (PSlotCount r slots) = Ok (w2, v) ->
  ia_init a = ROk /\ fst (ia_info a) = ROk
  /\ pstep mem (S f') w1 PInfo = Ok (w1, VInfo (EResult (snd (ia_info a))))
  /\ usable w1
  /\ (forall k info, k < length (w_slots w1) ->
        exists w3, pstep mem (S f') w1 (PSlotInfo k ROk info) = Ok (w3, VSlotInfo (EResult info)))
  /\ (r = ROk -> v = VCount (EResult (length slots))).
Proof.
  intros mem f cs w vs args a w1 f' r slots w2 v H F E1 E2.
  pose proof (history_linked _ _ _ _ _ H) as L. destruct H as (M & _).
  cbn [pstep] in E1.
  destruct (init_cases mem M (w_lib w) args a L F) as (l' & r' & E & L' & S' & C).
  rewrite E in E1. cbn in E1. injection E1 as <- ->.
  destruct C as [(R & _)|[(_ & R & _)|(R1 & R2 & I & _)]]; try congruence.
  split; [exact R1|]. split; [congruence|]. cbn [w_lib is_ok] in *.
  split; [cbn [pstep w_lib w_slots]; unfold get_info, create_expected; rewrite S', I; reflexivity|].
  split; [apply usable_status; cbn; rewrite S'; reflexivity|].
  split.
  { intros k info K. cbn [pstep w_lib w_slots] in *. unfold read.
    destruct (nth_error (w_slots w) k) as [id|] eqn:N; [|apply nth_error_None in N; lia]. cbn [bind].
    rewrite (info_eq _ _ _ _ L'), S'. eexists. reflexivity. }
  intros ->. cbn [pstep w_lib] in E2. rewrite (count_eq _ _ _ L'), S' in E2. cbn in E2.
  injection E2 as _ <-. reflexivity.
Qed.
Example C110_results_case :
  exists w1 w2, pstep Realloc 1 pw_start (PInit [1] good_answers) = Ok (w1, VRv ROk)
    /\ pstep Realloc 1 w1 (PSlotCount ROk [3; 5]) = Ok (w2, VCount (EResult 2)).
Proof. eexists _, _. split; reflexivity. Qed.

(** But no value the wrapper returns ever holds an error, whatever the module answers. *)
Theorem C110_never_error_refuted :
  forall mem fuel cs w vs v, history mem fuel cs w vs -> In v vs -> ~ holds_error v.
Proof.
  intros mem f cs w vs v (M & F & K & E) I.
  destruct (run_ok mem M f cs pw_start start_linked F K) as (w' & vs' & E' & _ & H).
  rewrite E' in E. injection E as <- <-. apply H. exact I.
Qed.
(** A module that fails every call. *)
Example C110_never_error_case :
  exists w, history Realloc 0 [PInit [] good_answers; PSlotCount (ROther 5) []; PSlot 1;
                               PSlotInfo 0 (ROther 6) 0; PSlotList (ROther 5) [] ROk []] w
    [VRv ROk; VCount ENone; VNothing; VSlotInfo ENone; VSlots (EResult [])].
Proof.
  eexists. split; [discriminate|]. split; [repeat (constructor; [cbn; auto|]); constructor|]. split; [vm_compute; auto 20|].
  reflexivity.
Qed.

(** A library that is not initialised answers with success: no slots, an event at once, a
    successful finalize, and the module is not called. *)
Theorem C110_uninitialised_refuted :
  forall mem fuel cs w vs r1 r2 s1 s2 f', history mem fuel cs w vs -> ~ usable w ->
  pstep mem (S f') w (PFinalize r1) = Ok (w, VRv ROk)
  /\ pstep mem (S f') w (PSlotCount r1 s1) = Ok (w, VCount (EResult 0))
  /\ pstep mem (S f') w (PSlotList r1 s1 r2 s2) = Ok (w, VSlots (EResult []))
  /\ forall k i, k < length (w_slots w) -> pstep mem (S f') w (PWait k r1 i) = Ok (w, VRv ROk).
Proof.
  intros mem f cs w vs r1 r2 s1 s2 f' H U. pose proof (history_linked _ _ _ _ _ H) as L.
  destruct H as (M & _). rewrite usable_status in U.
  apply not_true_is_false in U. destruct w as [l sl]. cbn [w_lib w_slots] in *.
  split; [cbn [pstep w_lib w_slots]; rewrite (finalize_eq _ _ L), U; reflexivity|].
  split; [cbn [pstep w_lib w_slots]; rewrite (count_eq _ _ _ L), U; reflexivity|].
  split; [cbn [pstep w_lib w_slots]; rewrite (list_eq mem M _ _ _ _ _ _ L), U; reflexivity|].
  intros k i K. cbn [pstep w_lib w_slots]. unfold read.
  destruct (nth_error sl k) as [id|] eqn:N; [|apply nth_error_None in N; lia]. cbn [bind].
  rewrite (wait_eq _ _ _ _ L), U. cbn [bind]. rewrite (upd_same _ _ _ N). reflexivity.
Qed.
Example C110_uninitialised_case :
  exists w, history Realloc 0 [PSlot 4; PInit [] (IA None None ROk (ROk, 0))] w
              [VNothing; VRv RNotInitialized] /\ ~ usable w.
Proof.
  eexists. split.
  - split; [discriminate|]. split; [repeat (constructor; [cbn; auto|]); constructor|]. split; [vm_compute; auto 20|]. reflexivity.
  - discriminate.
Qed.

(** A module that fails to tell the number of slots gives an empty list, as a success. *)
Theorem C110_count_failure_refuted :
  forall mem fuel cs w vs r1 r2 s1 s2 f' w' v, history mem fuel cs w vs -> r1 <> ROk ->
  pstep mem (S f') w (PSlotList r1 s1 r2 s2) = Ok (w', v) -> v = VSlots (EResult []).
Proof.
  intros mem f cs w vs r1 r2 s1 s2 f' w' v H R E. pose proof (history_linked _ _ _ _ _ H) as L.
  destruct H as (M & _). cbn [pstep] in E. rewrite (list_eq mem M _ _ _ _ _ _ L) in E.
  assert (N : is_ok r1 = false) by (destruct r1; auto; congruence). rewrite N in E.
  destruct (is_ok (p_status (w_lib w))); cbn in E; injection E as _ <-; reflexivity.
Qed.

(** * C111: C_Finalize balances C_Initialize *)

(** The library is initialised once, with success, and not finalised by the caller: the module
    sees one C_Initialize first, and one C_Finalize last. *)
Theorem C111_balance_partial :
  forall mem fuel args a cs w vs r l,
  history mem fuel (PInit args a :: cs) w (VRv ROk :: vs) ->
  (forall b c, ~ In (PInit b c) cs) -> (forall q, ~ In (PFinalize q) cs) ->
  plib_delete (w_lib w) r = Ok l ->
  exists middle, p_log l = CInitialize args ROk :: CGetInfo ROk :: middle ++ [CFinalize r]
    /\ forall e, In e middle -> is_initialize e = false /\ is_finalize e = false.
Proof.
  intros mem f args a cs w vs r l H NI NF D.
  pose proof (history_linked _ _ _ _ _ H) as Lw.
  destruct H as (M & F & [_ K] & E). inversion F as [|? ? F1 F2]; subst.
  cbn [prun] in E. cbn [pstep] in E.
  destruct (init_cases mem M (w_lib pw_start) args a start_linked F1) as (l1 & r1 & E1 & L1 & S1 & C).
  rewrite E1 in E. cbn [bind] in E.
  destruct (prun mem (S f) _ cs) as [[w2 vs2]| |] eqn:E2; cbn [bind] in E; try discriminate.
  injection E as -> -> _.
  destruct C as [(R & _)|[(_ & R & _)|(R1 & R2 & I & G)]]; try congruence.
  destruct (run_quiet mem M f cs (PW l1 (w_slots pw_start)) w vs2) as (T1 & T2 & added & G2 & Q); auto.
  { apply Forall_forall. intros c Hc. destruct c; auto. exfalso. eapply NI. exact Hc. }
  cbn [w_lib] in *. unfold plib_delete in D. rewrite (finalize_eq _ _ Lw), T1, S1 in D. cbn in D.
  injection D as <-. exists added. cbn [set_log p_log]. rewrite G2, G. split; [|exact Q].
  reflexivity.
Qed.
Example C111_balance_case :
  exists w l, history Realloc 0 [PInit [9] good_answers; PSlotCount ROk [1]] w [VRv ROk; VCount (EResult 1)]
    /\ plib_delete (w_lib w) ROk = Ok l
    /\ p_log l = [CInitialize [9] ROk; CGetInfo ROk; CGetSlotList ROk; CFinalize ROk].
Proof.
  eexists _, _. split.
  - split; [discriminate|]. split; [repeat (constructor; [cbn; auto|]); constructor|].
    split; [vm_compute; auto 20|]. vm_compute. reflexivity.
  - split; reflexivity.
Qed.

(** A caller that finalises the library makes the module see a second C_Finalize when the library
    is destroyed, while the module is not initialised. *)
Theorem C111_finalize_twice_refuted :
  forall mem fuel cs w vs r, history mem fuel cs w vs -> usable w ->
  exists w' l, pstep mem (S fuel) w (PFinalize ROk) = Ok (w', VRv ROk)
    /\ initialized (p_log (w_lib w')) = false
    /\ plib_delete (w_lib w') r = Ok l
    /\ p_log l = p_log (w_lib w) ++ [CFinalize ROk; CFinalize r].
Proof.
  intros mem f cs w vs r H U. pose proof (history_linked _ _ _ _ _ H) as L.
  apply usable_status in U. cbn [pstep]. rewrite (finalize_eq _ _ L), U. cbn [bind].
  eexists _, _. split; [reflexivity|]. split; [cbn [w_lib set_log p_log]; rewrite initialized_app; reflexivity|].
  unfold plib_delete. cbn [w_lib].
  assert (L' : linked (set_log (w_lib w) (CFinalize ROk))) by exact L.
  rewrite (finalize_eq _ _ L'). cbn [set_log p_status]. rewrite U. cbn [bind].
  split; [reflexivity|]. cbn. rewrite <- app_assoc. reflexivity.
Qed.

(** A module that is initialised but fails C_GetInfo is never finalised. *)
Theorem C111_never_finalized_refuted :
  forall mem fuel args info e cs w vs r l, e <> ROk ->
  history mem fuel (PInit args (IA (Some ROk) None ROk (e, info)) :: cs) w vs ->
  (forall b c, ~ In (PInit b c) cs) ->
  plib_delete (w_lib w) r = Ok l ->
  p_log l = [CInitialize args ROk; CGetInfo e] /\ initialized (p_log l) = true.
Proof.
  intros mem f args info e cs w vs r l Ne H NI D.
  pose proof (history_linked _ _ _ _ _ H) as Lw.
  destruct H as (M & F & [_ K] & E). inversion F as [|? ? F1 F2]; subst. clear F.
  cbn [prun pstep] in E.
  assert (EI : initialize mem (w_lib pw_start) args (IA (Some ROk) None ROk (e, info))
    = Ok (PLib RNotInitialized true ENone info 0 [CInitialize args ROk; CGetInfo e], e)).
  { unfold initialize. cbn. destruct (is_ok e) eqn:R; [apply is_ok_true in R; congruence|]. reflexivity. }
  rewrite EI in E. cbn [bind] in E. cbn [w_slots pw_start] in E.
  set (w1 := PW (PLib RNotInitialized true ENone info 0 [CInitialize args ROk; CGetInfo e]) []) in *.
  destruct (prun mem (S f) w1 cs) as [[w2 vs2]| |] eqn:E2; cbn [bind] in E; try discriminate.
  injection E as -> _.
  assert (Q : p_status (w_lib w) = p_status (w_lib w1) /\ p_log (w_lib w) = p_log (w_lib w1)).
  { assert (L1 : linked (w_lib w1)) by (intros X; discriminate).
    assert (S1 : is_ok (p_status (w_lib w1)) = false) by reflexivity.
    change (slots_exist (length (w_slots w1)) cs) in K.
    clearbody w1. clear EI D Lw. revert w1 vs2 E2 L1 S1 K.
    induction cs as [|c cs IH]; intros w1 vs2 E2 L1 S1 K; cbn [prun] in E2.
    - injection E2 as <- _. auto.
    - destruct K as [K1 K2]. inversion F2 as [|? ? F3 F4]; subst.
      assert (C : is_init c = false) by (destruct c; auto; exfalso; eapply NI; left; reflexivity).
      destruct (step_other mem M f w1 c L1 (conj F3 K1) C)
        as (w3 & v & added & E3 & T1 & T2 & _ & G & Z & _).
      rewrite E3 in E2. cbn [bind] in E2.
      destruct (prun mem (S f) w3 cs) as [[w4 vs4]| |] eqn:E4; cbn [bind] in E2; try discriminate.
      injection E2 as -> _. rewrite (Z S1), app_nil_r in G.
      rewrite <- (step_slots _ _ _ _ _ _ E3) in K2.
      destruct (IH (fun b c0 H => NI b c0 (or_intror H)) F4 w3 vs4 E4) as [A B].
      + unfold linked. rewrite T1, T2. exact L1.
      + congruence.
      + exact K2.
      + split; congruence. }
  destruct Q as [Q1 Q2]. unfold plib_delete in D. rewrite (finalize_eq _ _ Lw), Q1 in D. cbn in D.
  injection D as <-. rewrite Q2. split; reflexivity.
Qed.
Example C111_never_finalized_case :
  exists w, history Fresh 0 [PInit [] (IA (Some ROk) None ROk (ROther 5, 0)); PFinalize ROk] w
              [VRv (ROther 5); VRv ROk].
Proof.
  eexists. split; [discriminate|]. split; [repeat (constructor; [cbn; auto|]); constructor|]. split; [vm_compute; auto 20|]. reflexivity.
Qed.

Lemma filter_none_events : forall (P : event -> bool) l, (forall e, In e l -> P e = false) -> filter P l = [].
Proof.
  intros P. induction l as [|e l IH]; intros H; [reflexivity|]. cbn. rewrite (H e (or_introl eq_refl)).
  apply IH. intros x Hx. apply H. right. exact Hx.
Qed.

(** How often the module is finalised, whatever happened: once for every finalize after the first
    initialize that succeeded, and once more at the end if there was one. *)
Definition finalized (log : list event) : nat := length (filter is_finalize log).
Lemma finalized_app : forall a b, finalized (a ++ b) = finalized a + finalized b.
Proof. intros. unfold finalized. rewrite filter_app, app_length. reflexivity. Qed.

Lemma finalizes_run : forall mem (M : mem <> VectorModel.NoMemory) f cs w w' vs,
  linked (w_lib w) -> Forall answers_fit cs -> slots_exist (length (w_slots w)) cs ->
  prun mem (S f) w cs = Ok (w', vs) ->
  linked (w_lib w')
  /\ finalizes (is_ok (p_status (w_lib w))) cs vs
    = (finalized (p_log (w_lib w')) - finalized (p_log (w_lib w)), is_ok (p_status (w_lib w')))
  /\ finalized (p_log (w_lib w)) <= finalized (p_log (w_lib w')).
Proof.
  intros mem M f. induction cs as [|c cs IH]; intros w w' vs L F K E; cbn [prun] in E.
  - injection E as <- <-. split; [exact L|]. cbn [finalizes]. rewrite Nat.sub_diag. auto.
  - destruct K as [K1 K2]. inversion F as [|? ? F1 F2]; subst.
    destruct (step_any mem M f w c L (conj F1 K1)) as (w1 & v & E1 & L1 & _). rewrite E1 in E.
    cbn [bind] in E. destruct (prun mem (S f) w1 cs) as [[w2 vs2]| |] eqn:E2; try discriminate.
    injection E as <- <-. rewrite <- (step_slots _ _ _ _ _ _ E1) in K2.
    destruct (IH w1 w2 vs2 L1 F2 K2 E2) as (L2 & I1 & I2). split; [exact L2|].
    destruct (is_init c) eqn:C.
    + destruct c; try discriminate. cbn [pstep] in E1.
      destruct (init_cases mem M (w_lib w) args a L F1) as (l' & r & E' & _ & S' & G).
      rewrite E' in E1. cbn in E1. injection E1 as <- <-. cbn [w_lib] in *. rewrite S' in I1.
      assert (Q : finalized (p_log l') = finalized (p_log (w_lib w))).
      { destruct G as [[_ G]|[(_ & _ & G)|(_ & _ & _ & G)]]; rewrite G; [reflexivity| |];
          rewrite finalized_app; cbn; lia. }
      rewrite Q in *. split; [|exact I2]. cbn [finalizes]. rewrite <- I1.
      destruct r; reflexivity.
    + destruct (step_other mem M f w c L (conj F1 K1) C)
        as (w3 & v3 & added & E3 & S1 & _ & _ & G & Z & _ & Q2 & _).
      rewrite E3 in E1. injection E1 as <- <-. rewrite S1 in I1.
      destruct c as [| r | | | | | | | |]; try discriminate.
      1:{ cbn [pstep] in E3. rewrite (finalize_eq _ _ L) in E3. cbn [finalizes]. rewrite I1.
          destruct (is_ok (p_status (w_lib w))) eqn:St; cbn [bind] in E3; injection E3 as <- <-;
            cbn [w_lib set_log p_log] in *.
          - rewrite finalized_app in *. change (finalized [CFinalize r]) with 1 in *.
            split; [f_equal; lia|lia].
          - split; [f_equal; lia|lia]. }
      all: assert (Q : finalized added = 0)
             by (unfold finalized; replace (filter is_finalize added) with (@nil event);
                 [reflexivity|symmetry; apply filter_none_events; intros e He;
                  destruct (is_finalize e) eqn:X; [|reflexivity];
                  destruct (Q2 e He X) as (? & ? & _); discriminate]).
      all: assert (QQ : finalized (p_log (w_lib w3)) = finalized (p_log (w_lib w)))
             by (rewrite G, finalized_app; lia).
      all: rewrite QQ in *; split; [cbn [finalizes]; exact I1|exact I2].
Qed.

Theorem C111_count_partial :
  forall mem fuel cs w vs r l, history mem fuel cs w vs -> plib_delete (w_lib w) r = Ok l ->
  let '(n, works) := finalizes false cs vs in
  length (filter is_finalize (p_log l)) = n + (if works then 1 else 0)
  /\ (works = true <-> usable w).
Proof.
  intros mem f cs w vs r l (M & F & K & E) D.
  destruct (finalizes_run mem M f cs pw_start w vs start_linked F K E) as (L & I1 & _).
  cbn [pw_start w_lib] in I1. change (is_ok (p_status plib_new)) with false in I1.
  rewrite I1. rewrite usable_status. split; [|tauto].
  unfold plib_delete in D. rewrite (finalize_eq _ _ L) in D. fold (finalized (p_log l)).
  change (finalized (p_log plib_new)) with 0.
  destruct (is_ok (p_status (w_lib w))) eqn:St; cbn [bind fst] in D; injection D as <-.
  - cbn [set_log p_log]. rewrite finalized_app. change (finalized [CFinalize r]) with 1. lia.
  - lia.
Qed.
(** Two finalizes that are asked for, one that is not, and the one at the end. *)
Example C111_count_case :
  exists w l vs, history Realloc 0
     [PFinalize ROk; PInit [] good_answers; PFinalize ROk; PInfo; PFinalize (ROther 3)] w vs
   /\ plib_delete (w_lib w) ROk = Ok l
   /\ finalizes false
        [PFinalize ROk; PInit [] good_answers; PFinalize ROk; PInfo; PFinalize (ROther 3)] vs = (2, true)
   /\ length (filter is_finalize (p_log l)) = 3.
Proof.
  eexists _, _, _. split.
  - split; [discriminate|]. split; [repeat (apply Forall_cons || apply Forall_nil); cbn; auto|].
    split; [vm_compute; auto 20|]. vm_compute. reflexivity.
  - split; [vm_compute; reflexivity|]. split; reflexivity.
Qed.

(** * C112: the module is called only while it is initialised *)

Theorem C112_order_partial :
  forall mem fuel cs w vs, history mem fuel cs w vs -> ~ In (PFinalize ROk) cs ->
  disciplined false (p_log (w_lib w))
  /\ (usable w -> initialized (p_log (w_lib w)) = true)
  /\ forall r l, plib_delete (w_lib w) r = Ok l -> disciplined false (p_log l).
Proof.
  intros mem f cs w vs H N. pose proof (history_linked _ _ _ _ _ H) as L. destruct H as (M & F & K & E).
  assert (O : orderly (w_lib w)).
  { eapply (orderly_run mem M f cs pw_start); eauto.
    - split; [apply start_linked|]. split; [exact I|]. discriminate.
    - apply Forall_forall. intros c Hc. destruct c; cbn; auto. destruct r; auto. }
  destruct O as (_ & D & In). split; [exact D|]. split; [rewrite usable_status; exact In|].
  intros r l X. unfold plib_delete in X. rewrite (finalize_eq _ _ L) in X.
  destruct (is_ok (p_status (w_lib w))) eqn:St; cbn in X; injection X as <-; [|exact D].
  cbn. rewrite disciplined_app. split; [exact D|]. cbn. fold (initialized (p_log (w_lib w))). auto.
Qed.

(** After finalize the library still calls the module. *)
Theorem C112_after_finalize_refuted :
  forall mem fuel cs w vs r slots, history mem fuel cs w vs -> usable w ->
  exists w1 w2 v, pstep mem (S fuel) w (PFinalize ROk) = Ok (w1, VRv ROk)
    /\ usable w1
    /\ pstep mem (S fuel) w1 (PSlotCount r slots) = Ok (w2, v)
    /\ ~ disciplined false (p_log (w_lib w2)).
Proof.
  intros mem f cs w vs r slots H U. pose proof (history_linked _ _ _ _ _ H) as L.
  pose proof (proj1 (usable_status w) U) as S1. cbn [pstep]. rewrite (finalize_eq _ _ L), S1. cbn [bind].
  eexists _, _, _. split; [reflexivity|]. split; [exact U|]. cbn [w_lib w_slots].
  assert (L' : linked (set_log (w_lib w) (CFinalize ROk))) by exact L.
  rewrite (count_eq _ _ _ L'). cbn [set_log p_status]. rewrite S1. cbn [bind].
  split; [reflexivity|]. cbn [w_lib set_log p_log]. rewrite disciplined_app.
  intros [_ D]. rewrite fold_left_app in D. cbn in D. destruct D as [D _]. discriminate.
Qed.
Example C112_case :
  exists w, history Realloc 0 [PInit [] good_answers] w [VRv ROk] /\ usable w.
Proof.
  eexists. split.
  - split; [discriminate|]. split; [repeat (constructor; [cbn; auto|]); constructor|]. split; [vm_compute; auto 20|]. reflexivity.
  - reflexivity.
Qed.

(** Which histories call the module only while it is initialised: exactly those in which, whenever
    the library is usable, finalize and the calls about slots are made while it is. *)
Lemma step_discipline : forall mem (M : mem <> VectorModel.NoMemory) f w c w' v,
  linked (w_lib w) -> step_ok (length (w_slots w)) c -> pstep mem (S f) w c = Ok (w', v) ->
  exists added, p_log (w_lib w') = p_log (w_lib w) ++ added
    /\ forall b, disciplined b added
              <-> (is_ok (p_status (w_lib w)) = true -> asks_module c = true -> b = true).
Proof.
  intros mem M f [l sl] c w' v L [F K] E. cbn [w_lib w_slots] in *.
  destruct c; cbn [pstep w_lib w_slots] in E.
  - destruct (init_cases mem M l args a L F) as (l' & r & E' & _ & _ & H). rewrite E' in E.
    cbn in E. injection E as <- <-. cbn [w_lib asks_module].
    destruct H as [[_ G]|[(_ & _ & G)|(_ & _ & _ & G)]]; rewrite G.
    + exists []. rewrite app_nil_r. split; [reflexivity|]. cbn. intuition discriminate.
    + eexists. split; [reflexivity|]. cbn. intuition discriminate.
    + eexists. split; [reflexivity|]. cbn. intuition discriminate.
  - rewrite (finalize_eq _ _ L) in E. destruct (is_ok (p_status l)) eqn:St; cbn in E;
      injection E as <- <-; cbn.
    + eexists. split; [reflexivity|]. cbn. intuition.
    + exists []. rewrite app_nil_r. split; [reflexivity|]. cbn. intuition discriminate.
  - injection E as <- <-. exists []. rewrite app_nil_r. split; [reflexivity|]. cbn. intuition discriminate.
  - injection E as <- <-. exists []. rewrite app_nil_r. split; [reflexivity|]. cbn. intuition discriminate.
  - unfold get_ifaces in E. destruct (handle (p_ifaces l) _ _ _); injection E as <- <-;
      exists []; rewrite app_nil_r; (split; [reflexivity|]); cbn; intuition discriminate.
  - rewrite (count_eq _ _ _ L) in E. destruct (is_ok (p_status l)) eqn:St; cbn in E;
      injection E as <- <-; cbn.
    + eexists. split; [reflexivity|]. cbn. intuition.
    + exists []. rewrite app_nil_r. split; [reflexivity|]. cbn. intuition discriminate.
  - rewrite (list_eq mem M _ _ _ _ _ _ L) in E. destruct (is_ok (p_status l)) eqn:St; cbn [bind] in E.
    + destruct (is_ok r1); cbn [bind] in E; injection E as <- <-;
        cbn [w_lib set_log p_log asks_module].
      * rewrite <- app_assoc. eexists. split; [reflexivity|]. cbn. intuition.
      * eexists. split; [reflexivity|]. cbn. intuition.
    + injection E as <- <-. exists []. rewrite app_nil_r. split; [reflexivity|]. cbn.
      intuition discriminate.
  - injection E as <- <-. exists []. rewrite app_nil_r. split; [reflexivity|]. cbn. intuition discriminate.
  - unfold read in E. destruct (nth_error sl k) as [id|] eqn:N; [|discriminate].
    cbn [bind] in E. rewrite (info_eq _ _ _ _ L) in E. destruct (is_ok (p_status l)) eqn:St; cbn in E;
      injection E as <- <-; cbn.
    + eexists. split; [reflexivity|]. cbn. intuition.
    + exists []. rewrite app_nil_r. split; [reflexivity|]. cbn. intuition discriminate.
  - unfold read in E. destruct (nth_error sl k) as [id|] eqn:N; [|discriminate].
    cbn [bind] in E. rewrite (wait_eq _ _ _ _ L) in E. destruct (is_ok (p_status l)) eqn:St; cbn in E;
      injection E as <- <-; cbn.
    + eexists. split; [reflexivity|]. cbn. intuition.
    + exists []. rewrite app_nil_r. split; [reflexivity|]. cbn. intuition discriminate.
Qed.

Lemma run_discipline : forall mem (M : mem <> VectorModel.NoMemory) f cs w w' vs,
  linked (w_lib w) -> Forall answers_fit cs -> slots_exist (length (w_slots w)) cs ->
  prun mem (S f) w cs = Ok (w', vs) ->
  disciplined false (p_log (w_lib w')) <->
  disciplined false (p_log (w_lib w))
  /\ forall cs1 c cs2 w1 vs1, cs = cs1 ++ c :: cs2 -> prun mem (S f) w cs1 = Ok (w1, vs1) ->
       usable w1 -> asks_module c = true -> initialized (p_log (w_lib w1)) = true.
Proof.
  intros mem M f. induction cs as [|c cs IH]; intros w w' vs L F K E; cbn [prun] in E.
  - injection E as <- _. split; [|intros [D _]; exact D]. intros D. split; [exact D|].
    intros cs1 c cs2 w1 vs1 X. destruct cs1; discriminate.
  - destruct K as [K1 K2]. inversion F as [|? ? F1 F2]; subst.
    destruct (step_any mem M f w c L (conj F1 K1)) as (w1 & v & E1 & L1 & _). rewrite E1 in E.
    cbn [bind] in E. destruct (prun mem (S f) w1 cs) as [[w2 vs2]| |] eqn:E2; try discriminate.
    injection E as <- _. rewrite <- (step_slots _ _ _ _ _ _ E1) in K2.
    rewrite (IH w1 w2 vs2 L1 F2 K2 E2).
    destruct (step_discipline mem M f w c w1 v L (conj F1 K1) E1) as (added & G & B).
    rewrite G, disciplined_app, B. fold (initialized (p_log (w_lib w))). split.
    + intros [[D S1] A]. split; [exact D|]. intros cs1 c' cs2 w3 vs3 X R U Q.
      destruct cs1 as [|c1 cs1]; cbn in X; injection X as X1 X2; subst.
      * cbn in R. injection R as <- _. apply S1; [apply usable_status; exact U|exact Q].
      * cbn [prun] in R. rewrite E1 in R. cbn [bind] in R.
        destruct (prun mem (S f) w1 cs1) as [[w4 vs4]| |] eqn:E4; try discriminate.
        injection R as <- _. exact (A cs1 _ cs2 w4 vs4 eq_refl E4 U Q).
    + intros [D A]. split.
      * split; [exact D|]. intros S1 Q.
        apply (A [] c cs w [] eq_refl eq_refl); [apply usable_status; exact S1|exact Q].
      * intros cs1 c' cs2 w3 vs3 X R U Q.
        apply (A (c :: cs1) c' cs2 w3 (v :: vs3)); [cbn; congruence| |exact U|exact Q].
        cbn [prun]. rewrite E1. cbn [bind]. rewrite R. reflexivity.
Qed.

Theorem C112_exact_partial :
  forall mem fuel cs w vs, history mem fuel cs w vs ->
  (disciplined false (p_log (w_lib w)) <->
   forall cs1 c cs2 w1 vs1, cs = cs1 ++ c :: cs2 -> history mem fuel cs1 w1 vs1 ->
     usable w1 -> asks_module c = true -> initialized (p_log (w_lib w1)) = true).
Proof.
  intros mem f cs w vs H. destruct H as (M & F & K & E).
  rewrite (run_discipline mem M f cs pw_start w vs start_linked F K E). split.
  - intros [_ A] cs1 c cs2 w1 vs1 X (_ & _ & _ & R). exact (A cs1 c cs2 w1 vs1 X R).
  - intros A. split; [exact I|]. intros cs1 c cs2 w1 vs1 X R. apply (A cs1 c cs2 w1 vs1 X).
    split; [exact M|]. subst cs. apply Forall_app in F. split; [exact (proj1 F)|].
    split; [|exact R]. clear - K. revert K. cbn [pw_start w_slots length]. generalize 0.
    induction cs1 as [|a cs1 IH]; intros n K; [exact I|]. destruct K as [K1 K2].
    split; [exact K1|]. exact (IH _ K2).
Qed.

(** A history that keeps to it although it finalizes the module and initialises it again, and one
    that does not. *)
Example C112_exact_case :
  (exists w vs, history Realloc 0
     [PInit [] good_answers; PSlotCount ROk [7]; PFinalize ROk; PInfo; PInit [] good_answers;
      PSlotCount ROk [7]] w vs /\ disciplined false (p_log (w_lib w)))
  /\ exists w vs, history Realloc 0
     [PInit [] good_answers; PFinalize ROk; PInfo; PSlotCount ROk [7]] w vs
     /\ ~ disciplined false (p_log (w_lib w)).
Proof.
  split.
  - eexists _, _. split.
    + split; [discriminate|]. split; [repeat (apply Forall_cons || apply Forall_nil); cbn; auto|].
      split; [vm_compute; auto 20|]. vm_compute. reflexivity.
    + vm_compute. auto 20.
  - eexists _, _. split.
    + split; [discriminate|]. split; [repeat (apply Forall_cons || apply Forall_nil); cbn; auto|].
      split; [vm_compute; auto 20|]. vm_compute. reflexivity.
    + vm_compute. intuition discriminate.
Qed.

(** * C113: the slot list is the module's slot list *)

(** The list is right if the module has no slots. *)
Theorem C113_no_slots_partial :
  forall mem fuel cs w vs f' w' v, history mem fuel cs w vs ->
  pstep mem (S f') w (PSlotList ROk [] ROk []) = Ok (w', v) -> v = VSlots (EResult []).
Proof.
  intros mem f cs w vs f' w' v H E. pose proof (history_linked _ _ _ _ _ H) as L.
  destruct H as (M & _). cbn [pstep] in E. rewrite (list_eq mem M _ _ _ _ _ _ L) in E.
  destruct (is_ok (p_status (w_lib w))); cbn in E; injection E as _ <-; reflexivity.
Qed.

(** A list that is returned is always empty, whatever slots there are. *)
Theorem C113_always_empty_refuted :
  forall mem fuel cs w vs r1 r2 s1 s2 f' w' xs, history mem fuel cs w vs ->
  pstep mem (S f') w (PSlotList r1 s1 r2 s2) = Ok (w', VSlots (EResult xs)) -> xs = [].
Proof.
  intros mem f cs w vs r1 r2 s1 s2 f' w' xs H E. pose proof (history_linked _ _ _ _ _ H) as L.
  destruct H as (M & _). cbn [pstep] in E. rewrite (list_eq mem M _ _ _ _ _ _ L) in E.
  destruct (is_ok (p_status (w_lib w))); cbn in E; [|congruence].
  destruct (is_ok r1); cbn in E; [|congruence].
  destruct (is_ok (fst _)); cbn in E; congruence.
Qed.
(** With a working module and any slots, the count is right and the list is empty. *)
Theorem C113_working_module_refuted :
  forall mem fuel cs w vs slots f', history mem fuel cs w vs -> usable w ->
  exists w1 w2, pstep mem (S f') w (PSlotCount ROk slots) = Ok (w1, VCount (EResult (length slots)))
    /\ pstep mem (S f') w1 (PSlotList ROk slots ROk slots) = Ok (w2, VSlots (EResult [])).
Proof.
  intros mem f cs w vs slots f' H U. pose proof (history_linked _ _ _ _ _ H) as L.
  destruct H as (M & _). apply usable_status in U. cbn [pstep].
  rewrite (count_eq _ _ _ L), U. cbn [bind is_ok].
  eexists _, _. split; [reflexivity|]. cbn [w_lib w_slots].
  assert (L' : linked (set_log (w_lib w) (CGetSlotList ROk))) by exact L.
  rewrite (list_eq mem M _ _ _ _ _ _ L'). cbn [set_log p_status]. rewrite U.
  assert (R : fst (c_slot_list ROk slots (room (length slots))) = ROk).
  { unfold c_slot_list, room. cbn [is_ok]. destruct (length slots =? 0); [reflexivity|].
    rewrite Nat.ltb_irrefl. reflexivity. }
  cbn [is_ok]. rewrite R. cbn [is_ok]. reflexivity.
Qed.

(** A slot that appears between the two calls of the wrapper: the module says that the buffer is
    too small, and the caller gets neither a list nor an error. *)
Theorem C113_changed_refuted :
  forall mem fuel cs w vs s1 s2 f', history mem fuel cs w vs -> usable w ->
  s1 <> [] -> length s1 < length s2 ->
  exists w', pstep mem (S f') w (PSlotList ROk s1 ROk s2) = Ok (w', VSlots ENone)
    /\ p_log (w_lib w') = p_log (w_lib w) ++ [CGetSlotList ROk; CGetSlotList RTooSmall].
Proof.
  intros mem f cs w vs s1 s2 f' H U N G. pose proof (history_linked _ _ _ _ _ H) as L.
  destruct H as (M & _). apply usable_status in U. cbn [pstep].
  rewrite (list_eq mem M _ _ _ _ _ _ L), U. cbn [is_ok].
  assert (R : fst (c_slot_list ROk s2 (room (length s1))) = RTooSmall).
  { unfold c_slot_list, room. cbn [is_ok]. destruct s1 as [|x s1]; [contradiction|]. cbn [length Nat.eqb].
    replace (S (length s1) <? length s2) with true by (symmetry; apply Nat.ltb_lt; exact G). reflexivity. }
  rewrite R. cbn [is_ok bind]. eexists. split; [reflexivity|]. cbn [w_lib set_log p_log].
  rewrite <- app_assoc. reflexivity.
Qed.
Example C113_changed_case :
  exists w1 w2, pstep Realloc 1 pw_start (PInit [1] good_answers) = Ok (w1, VRv ROk)
    /\ pstep Realloc 1 w1 (PSlotList ROk [3] ROk [3; 5]) = Ok (w2, VSlots ENone).
Proof. do 2 eexists. split; vm_compute; reflexivity. Qed.

(** * C114: the interface list can be read *)

(** A pointer is returned only if an initialisation stored a list, and once. *)
Theorem C114_pointer_partial :
  forall mem f w w' i, pstep mem f w PIfaces = Ok (w', VIfaces (EResult i)) ->
  alive (w_lib w) i = true.
Proof.
  intros mem f w w' i E. cbn [pstep] in E. unfold get_ifaces in E. unfold alive.
  destruct (p_ifaces (w_lib w)) as [|[j v]|]; cbn in E; try discriminate.
  injection E as _ <-. cbn. apply Nat.eqb_refl.
Qed.

(** The list the pointer refers to has been destroyed when the caller gets the pointer; the next
    call returns nothing. *)
Theorem C114_dangling_refuted :
  forall mem f w w' e, pstep mem f w PIfaces = Ok (w', VIfaces e) ->
  (forall i, alive (w_lib w') i = false)
  /\ exists w2, pstep mem f w' PIfaces = Ok (w2, VIfaces ENone).
Proof.
  intros mem f w w' e E. cbn [pstep] in E. unfold get_ifaces in E.
  destruct (handle (p_ifaces (w_lib w)) _ _ _); injection E as <- _;
    (split; [reflexivity|]; eexists; reflexivity).
Qed.

(** And the list that was destroyed had no elements, whatever the module had stored. *)
Theorem C114_no_elements_refuted :
  forall mem fuel cs w vs args n stored info w' f',
  history mem fuel cs w vs -> 0 < n -> length stored <= n ->
  pstep mem (S f') w (PInit args (IA (Some ROk) (Some (ROk, n, (ROk, stored))) ROk (ROk, info)))
    = Ok (w', VRv ROk) ->
  exists i v, p_ifaces (w_lib w') = EResult (i, v) /\ vec_elements v = Ok []
    /\ vec_size v = 0.
Proof.
  intros mem f cs w vs args n stored info w' f' H Hn Hs E. pose proof (history_linked _ _ _ _ _ H) as L.
  destruct H as (M & _). cbn [pstep] in E. unfold initialize in E.
  cbn [ia_functions ia_ifaces ia_init ia_info initialize_functions initialize_ifaces is_ok negb] in E.
  destruct (Nat.eqb_spec n 0); [lia|].
  destruct (reserve_new mem M n) as (v & Ev & C & T & N). rewrite Ev in E. cbn [bind] in E.
  destruct (fill_ok v stored ltac:(lia)) as (v' & Ef & T' & _). rewrite Ef in E. cbn in E.
  injection E as <-. cbn. eexists _, _. split; [reflexivity|].
  assert (Z : vc_tail v' = 0) by congruence. split; [apply elements_empty; exact Z|exact Z].
Qed.
Example C114_case :
  exists w w', pstep Realloc 1 pw_start (PInit [] good_answers) = Ok (w, VRv ROk)
    /\ pstep Realloc 1 w PIfaces = Ok (w', VIfaces (EResult 0)).
Proof. eexists _, _. split; reflexivity. Qed.

(** * C115: a Slot stands for one slot *)

Theorem C115_id_partial :
  forall mem fuel cs w vs, history mem fuel cs w vs -> own_events [] cs ->
  w_slots w = made_ids cs.
Proof.
  intros mem f cs w vs (M & F & K & E) O.
  exact (ids_run mem M f cs pw_start w vs start_linked F K O E).
Qed.
Example C115_id_case :
  exists w vs, history Realloc 0 [PInit [] good_answers; PSlot 5; PSlot 6; PWait 1 ROk 6; PWait 0 (ROther 3) 8] w vs
    /\ own_events [] [PInit [] good_answers; PSlot 5; PSlot 6; PWait 1 ROk 6; PWait 0 (ROther 3) 8]
    /\ w_slots w = [5; 6].
Proof.
  eexists _, _. split; [|split; [vm_compute; auto 20|]].
  - split; [discriminate|]. split; [repeat (constructor; [cbn; auto|]); constructor|]. split; [vm_compute; auto 20|]. reflexivity.
  - reflexivity.
Qed.

(** Waiting for an event makes the object stand for the slot in which it occurred: the next
    query is about that slot. *)
Theorem C115_wait_refuted :
  forall mem fuel cs w vs k id i r info, history mem fuel cs w vs -> usable w ->
  nth_error (w_slots w) k = Some id ->
  exists w1 w2 v, pstep mem (S fuel) w (PWait k ROk i) = Ok (w1, VRv ROk)
    /\ nth_error (w_slots w1) k = Some i
    /\ pstep mem (S fuel) w1 (PSlotInfo k r info) = Ok (w2, v)
    /\ p_log (w_lib w2) = p_log (w_lib w) ++ [CWaitForSlotEvent ROk; CGetSlotInfo i r].
Proof.
  intros mem f cs w vs k id i r info H U N. pose proof (history_linked _ _ _ _ _ H) as L.
  apply usable_status in U. cbn [pstep]. unfold read at 1. rewrite N. cbn [bind].
  rewrite (wait_eq _ _ _ _ L), U. cbn [bind is_ok].
  assert (K : nth_error (upd (w_slots w) k i) k = Some i).
  { apply nth_error_upd_eq. apply nth_error_Some. congruence. }
  eexists _, _, _. split; [reflexivity|]. cbn [w_slots w_lib]. split; [exact K|].
  unfold read. rewrite K. cbn [bind].
  assert (L' : linked (set_log (w_lib w) (CWaitForSlotEvent ROk))) by exact L.
  rewrite (info_eq _ _ _ _ L'). cbn [set_log p_status]. rewrite U. cbn [bind].
  split; [reflexivity|]. cbn. rewrite <- app_assoc. reflexivity.
Qed.

(** For every history: which slot every object stands for, and which slot a query asks the module
    about. *)
Lemma upd_parts : forall (l : list nat) k i, k < length l ->
  upd l k i = firstn k l ++ i :: skipn (S k) l.
Proof.
  induction l as [|a l IH]; intros [|k] i H; cbn in *; try lia; [reflexivity|]. f_equal. apply IH. lia.
Qed.
Lemma upd_same : forall (l : list nat) k i, nth_error l k = Some i -> upd l k i = l.
Proof.
  induction l as [|a l IH]; intros [|k] i H; cbn in *; try discriminate; [congruence|].
  f_equal. apply IH. exact H.
Qed.

Lemma stand_for_run : forall mem (M : mem <> VectorModel.NoMemory) f cs w w' vs,
  linked (w_lib w) -> Forall answers_fit cs -> slots_exist (length (w_slots w)) cs ->
  prun mem (S f) w cs = Ok (w', vs) ->
  w_slots w' = stand_for (is_ok (p_status (w_lib w))) (w_slots w) cs vs.
Proof.
  intros mem M f. induction cs as [|c cs IH]; intros w w' vs L F K E; cbn [prun] in E.
  - injection E as <- <-. reflexivity.
  - destruct K as [K1 K2]. inversion F as [|? ? F1 F2]; subst.
    destruct (step_any mem M f w c L (conj F1 K1)) as (w1 & v & E1 & L1 & _). rewrite E1 in E.
    cbn [bind] in E. destruct (prun mem (S f) w1 cs) as [[w2 vs2]| |] eqn:E2; try discriminate.
    injection E as <- <-. rewrite <- (step_slots _ _ _ _ _ _ E1) in K2.
    rewrite (IH w1 w2 vs2 L1 F2 K2 E2). destruct (is_init c) eqn:C.
    + destruct c; try discriminate. cbn [pstep] in E1.
      destruct (init_cases mem M (w_lib w) args a L F1) as (l' & r & E' & _ & S' & _).
      rewrite E' in E1. cbn in E1. injection E1 as <- <-. cbn [w_lib w_slots stand_for]. rewrite S'.
      destruct r; reflexivity.
    + destruct (step_other mem M f w c L (conj F1 K1) C) as (w3 & v3 & added & E3 & S1 & _).
      rewrite E3 in E1. injection E1 as <- <-. rewrite S1. clear - E3 L K1 C.
      destruct w as [l sl]. cbn [w_lib w_slots] in *.
      destruct c; try discriminate; cbn [pstep w_lib w_slots] in E3; cbn [stand_for].
      all: try (injection E3 as <- <-; reflexivity).
      * destruct (finalize l r) as [[? ?]| |]; cbn in E3; try discriminate. injection E3 as <- <-. reflexivity.
      * destruct (get_ifaces l). injection E3 as <- <-. reflexivity.
      * destruct (slot_count l r slots) as [[? ?]| |]; cbn in E3; try discriminate. injection E3 as <- <-. reflexivity.
      * destruct (slot_list _ _ _ _ _ _ _) as [[? ?]| |]; cbn in E3; try discriminate. injection E3 as <- <-. reflexivity.
      * destruct (read sl k) as [id| |]; cbn in E3; try discriminate.
        destruct (slot_info l id r info) as [[? ?]| |]; cbn in E3; try discriminate. injection E3 as <- <-. reflexivity.
      * unfold read in E3. destruct (nth_error sl k) as [id|] eqn:N; [|discriminate]. cbn [bind] in E3.
        rewrite (wait_eq _ _ _ _ L) in E3. destruct (is_ok (p_status l)) eqn:St; cbn [bind] in E3;
          injection E3 as <- <-; cbn [w_slots].
        -- destruct r; cbn [is_ok]; try (rewrite (upd_same _ _ _ N); reflexivity).
           rewrite upd_parts by exact K1. reflexivity.
        -- rewrite (upd_same _ _ _ N). destruct r; reflexivity.
Qed.

Theorem C115_exact_partial :
  forall mem fuel cs w vs, history mem fuel cs w vs ->
  w_slots w = stand_for false [] cs vs
  /\ forall k id r info, nth_error (stand_for false [] cs vs) k = Some id -> usable w ->
       exists w' v, pstep mem (S fuel) w (PSlotInfo k r info) = Ok (w', v)
         /\ p_log (w_lib w') = p_log (w_lib w) ++ [CGetSlotInfo id r].
Proof.
  intros mem f cs w vs H. pose proof (history_linked _ _ _ _ _ H) as L. destruct H as (M & F & K & E).
  pose proof (stand_for_run mem M f cs pw_start w vs start_linked F K E) as Q.
  change (is_ok (p_status (w_lib pw_start))) with false in Q. cbn [pw_start w_slots] in Q.
  split; [exact Q|]. intros k id r info N U. rewrite <- Q in N. apply usable_status in U.
  cbn [pstep]. unfold read. rewrite N. cbn [bind]. rewrite (info_eq _ _ _ _ L), U. cbn [bind].
  eexists _, _. split; reflexivity.
Qed.
(** An event in slot 9 before the library works, one in slot 8 and one that failed. *)
Example C115_exact_case :
  exists w vs, history Realloc 0 [PSlot 5; PSlot 6; PWait 0 ROk 9; PInit [] good_answers; PWait 1 ROk 8; PWait 0 (ROther 3) 7] w vs
    /\ w_slots w = [5; 8].
Proof.
  eexists _, _. split.
  - split; [discriminate|]. split; [repeat (apply Forall_cons || apply Forall_nil); cbn; auto|].
    split; [vm_compute; auto 20|]. vm_compute. reflexivity.
  - reflexivity.
Qed.

(** * C116: initialisation arguments keep their value *)

Definition shows (a : iargs) (s : option iargs) : Prop :=
  match s with Some b => a = b | None => True end.

Lemma Forall2_nth : forall w s k a, Forall2 shows w s -> nth_error w k = Some a ->
  exists b, nth_error s k = Some b /\ shows a b.
Proof.
  intros w s k a H. revert k. induction H; intros [|k] E; cbn in *; try discriminate; eauto.
  injection E as <-. eauto.
Qed.
Lemma Forall2_put : forall w s k a b, Forall2 shows w s -> k < length w -> shows a b ->
  Forall2 shows (upd w k a) (firstn k s ++ b :: skipn (S k) s).
Proof.
  intros w s k a b H. revert k. induction H; intros [|k] L S; cbn in *; try lia.
  - constructor; auto.
  - constructor; auto. apply IHForall2; auto. lia.
Qed.
Lemma Forall2_end : forall w s a b, Forall2 shows w s -> shows a b -> Forall2 shows (w ++ [a]) (s ++ [b]).
Proof. intros. apply Forall2_app; auto. Qed.

Lemma gstep_ok : forall w s c, Forall2 shows w s -> g_valid (length w) c ->
  exists w', gstep w c = Ok w' /\ Forall2 shows w' (gspec_step s c)
    /\ length w' = match c with GNew _ | GCopy _ | GMove _ => S (length w) | _ => length w end.
Proof.
  intros w s c H V.
  assert (R : forall k, k < length w -> exists a b, nth_error w k = Some a /\ nth_error s k = Some b /\ shows a b).
  { intros k K. destruct (nth_error w k) as [a|] eqn:N; [|apply nth_error_None in N; lia].
    destruct (Forall2_nth _ _ _ _ H N) as (b & Nb & S). eauto. }
  assert (W : forall k a, k < length w -> write w k a = Ok (upd w k a)).
  { intros k a K. unfold write. destruct (Nat.ltb_spec k (length w)); auto; lia. }
  destruct c; cbn [g_valid gstep gspec_step] in *; unfold read.
  - eexists. split; [reflexivity|]. split; [apply Forall2_end; cbn; auto|]. rewrite app_length. cbn. lia.
  - destruct (R p V) as (x & y & Nx & Ny & S). rewrite Nx, Ny. cbn [bind].
    eexists. split; [reflexivity|]. split; [apply Forall2_end; auto|rewrite app_length; cbn; lia].
    destruct x, y as [y|]; cbn in *; auto.
  - destruct (R p V) as (x & y & Nx & Ny & S). rewrite Nx, Ny. cbn [bind iargs_move].
    rewrite (W _ _ V). cbn [bind]. eexists. split; [reflexivity|].
    split; [apply Forall2_end; [apply Forall2_put; cbn; auto|]|rewrite app_length, upd_length; cbn; lia].
    destruct x, y as [y|]; cbn in *; auto.
  - destruct V as [Vv Vp]. destruct (R p Vp) as (x & y & Nx & Ny & S).
    destruct (R v Vv) as (x2 & y2 & Nx2 & Ny2 & S2). rewrite Nx, Ny, Nx2. cbn [bind].
    rewrite (W _ _ Vv). eexists. split; [reflexivity|].
    split; [apply Forall2_put; auto|rewrite upd_length; reflexivity].
    destruct x, y as [y|]; cbn in *; auto.
  - destruct V as (Vv & Vp & Nvp). destruct (R p Vp) as (x & y & Nx & Ny & S).
    destruct (R v Vv) as (x2 & y2 & Nx2 & Ny2 & S2). rewrite Nx, Ny, Nx2. cbn [bind].
    rewrite (W _ _ Vv). cbn [bind]. rewrite nth_error_upd_neq by congruence. rewrite Nx. cbn [bind].
    unfold write. rewrite upd_length. destruct (Nat.ltb_spec p (length w)); [|lia].
    destruct (Nat.eqb_spec v p); [congruence|].
    eexists. split; [reflexivity|].
    split; [|rewrite !upd_length; reflexivity].
    apply Forall2_put; [|rewrite upd_length; lia|exact I]. apply Forall2_put; auto.
    destruct x, y as [y|]; cbn in *; auto.
  - destruct (R v V) as (x & y & Nx & Ny & S). rewrite Nx, Ny. cbn [bind].
    rewrite (W _ _ V). eexists. split; [reflexivity|].
    split; [apply Forall2_put; auto|rewrite upd_length; reflexivity].
    destruct y as [y|]; cbn in *; auto. subst. reflexivity.
Qed.

Lemma grun_ok : forall cs w s, Forall2 shows w s -> g_ok (length w) cs ->
  exists w', grun w cs = Ok w' /\ Forall2 shows w' (fold_left gspec_step cs s).
Proof.
  induction cs as [|c cs IH]; intros w s H V; cbn [grun fold_left].
  - eauto.
  - destruct V as [V1 V2]. destruct (gstep_ok w s c H V1) as (w1 & E & H1 & L1). rewrite E. cbn [bind].
    apply IH; auto. rewrite L1. exact V2.
Qed.

Lemma shows_nth : forall w s, Forall2 shows w s ->
  forall k b, nth_error s k = Some (Some b) -> nth_error w k = Some b.
Proof.
  induction 1 as [|x y w s S H IH]; intros [|k] b N; cbn in *; try discriminate.
  - injection N as ->. cbn in S. congruence.
  - apply IH. exact N.
Qed.

(** Every object that was not moved from has the callbacks, flags and reserved pointer it was
    given, unless an object is moved into itself. *)
Theorem C116_value_partial :
  forall cs, g_ok 0 cs -> exists w, grun [] cs = Ok w /\
    forall k b, nth_error (gspec cs) k = Some (Some b) -> nth_error w k = Some b.
Proof.
  intros cs V. destruct (grun_ok cs [] [] (Forall2_nil _) V) as (w & E & H). exists w.
  split; [exact E|]. intros k b N. exact (shows_nth _ _ H k b N).
Qed.
Example C116_value_case :
  let a := IArgs [Some 1; Some 2; Some 3; Some 4] 2 None in
  let cs := [GNew a; GCopy 0; GSetCallbacks 1 no_callbacks; GMove 0; GMoveAssign 1 2] in
  g_ok 0 cs /\ gspec cs = [None; Some a; None].
Proof. cbn. repeat split; auto; lia. Qed.

Lemma grun_app : forall cs ds w, grun w (cs ++ ds) = let! w := grun w cs in grun w ds.
Proof.
  induction cs as [|c cs IH]; intros ds w; cbn [grun app]; [reflexivity|].
  destruct (gstep w c); cbn [bind]; auto.
Qed.

(** Moving an object into itself clears its callbacks, whatever has happened before; its flags stay. *)
Theorem C116_self_move_refuted :
  forall cs k b, g_ok 0 cs -> nth_error (gspec cs) k = Some (Some b) ->
    exists w, grun [] (cs ++ [GMoveAssign k k]) = Ok w
    /\ nth_error w k = Some (IArgs [None; None; None; None] (g_flags b) None).
Proof.
  intros cs k b V N. destruct (C116_value_partial cs V) as (w & E & H). specialize (H k b N).
  assert (L : k < length w) by (apply nth_error_Some; congruence).
  rewrite grun_app, E. cbn [bind grun gstep]. unfold read. rewrite H. cbn [bind].
  unfold write. rewrite (proj2 (Nat.ltb_lt _ _) L). cbn [bind].
  rewrite nth_error_upd_eq by exact L. cbn [bind]. rewrite upd_length, (proj2 (Nat.ltb_lt _ _) L). cbn [bind].
  eexists. split; [reflexivity|]. rewrite nth_error_upd_eq by (rewrite upd_length; exact L). reflexivity.
Qed.
Example C116_self_move_case :
  forall a, g_ok 0 [GNew a] /\ nth_error (gspec [GNew a]) 0 = Some (Some a).
Proof. intros a. repeat split. Qed.

Print Assumptions C109_safe.
Print Assumptions C110_results_partial.
Print Assumptions C110_never_error_refuted.
Print Assumptions C110_uninitialised_refuted.
Print Assumptions C110_count_failure_refuted.
Print Assumptions C111_balance_partial.
Print Assumptions C111_finalize_twice_refuted.
Print Assumptions C111_never_finalized_refuted.
Print Assumptions C111_count_partial.
Print Assumptions C112_order_partial.
Print Assumptions C112_after_finalize_refuted.
Print Assumptions C112_exact_partial.
Print Assumptions C113_no_slots_partial.
Print Assumptions C113_always_empty_refuted.
Print Assumptions C113_working_module_refuted.
Print Assumptions C113_changed_refuted.
Print Assumptions C114_pointer_partial.
Print Assumptions C114_dangling_refuted.
Print Assumptions C114_no_elements_refuted.
Print Assumptions C115_id_partial.
Print Assumptions C115_wait_refuted.
Print Assumptions C115_exact_partial.
Print Assumptions C116_value_partial.
Print Assumptions C116_self_move_refuted.
