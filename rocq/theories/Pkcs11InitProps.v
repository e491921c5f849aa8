(** C139: which modules the PKCS#11 wrapper can be initialised with. *)
From Coq Require Import List Arith Bool Lia.
From Verif Require Import Base BaseLemmas Store StaticVectorModel VectorModel
  Pkcs11Model Pkcs11Spec Pkcs11Proofs Pkcs11Props.
Import ListNotations.

(** A module that works: it exports a function list, gives its interfaces if it has any (only
    modules of version 3 do), and can be initialised and asked for its description. *)
Definition works (a : init_answers) : Prop :=
  ia_functions a = Some ROk
  /\ match ia_ifaces a with
     | None => True
     | Some (RNotSupported, _, _) => True
     | Some (ROk, O, _) => True
     | Some (ROk, _, (ROk, _)) => True
     | Some (ROk, _, (RNotSupported, _)) => True
     | _ => False
     end
  /\ ia_init a = ROk
  /\ fst (ia_info a) = ROk.

Lemma ok_cases r : (r = ROk /\ is_ok r = true) \/ (r <> ROk /\ is_ok r = false).
Proof. destruct r; cbn; [left|right..]; split; congruence. Qed.

(** C139. initialize() of a library that is not initialised, after any history, succeeds exactly
    if the module works; then the library is usable and gives the description of the module;
    otherwise it remains unusable. *)
Theorem C139_initialize :
  forall mem fuel cs w vs args a, history mem fuel cs w vs -> ~ usable w ->
  answers_fit (PInit args a) ->
  exists w' r, pstep mem (S fuel) w (PInit args a) = Ok (w', VRv r)
    /\ (r = ROk <-> works a)
    /\ (r = ROk -> usable w' /\ get_info (w_lib w') = EResult (snd (ia_info a))
          /\ p_log (w_lib w') = p_log (w_lib w) ++ [CInitialize args ROk; CGetInfo ROk])
    /\ (r <> ROk -> ~ usable w').
Proof.
  intros mem f cs w vs args a H NU AF.
  pose proof (history_linked _ _ _ _ _ H) as L. destruct H as (M & _).
  rewrite usable_status in NU.
  assert (NS : p_status (w_lib w) <> ROk) by (intros X; apply NU; now rewrite X).
  cbn [pstep]. unfold initialize, works. destruct w as [l ids]. cbn [w_lib w_slots] in *.
  setoid_rewrite usable_status. cbn [w_lib].
  destruct (ia_functions a) as [r0|]; cbn [initialize_functions].
  2:{ destruct (ok_cases (p_status l)) as [[X _]|[_ X]]; [congruence|]. rewrite X. cbn [negb bind].
      eexists _, _. split; [reflexivity|]. split; [|split].
      - split; [congruence|]. intros [A _]. discriminate.
      - congruence.
      - cbn [w_lib]. congruence. }
  destruct (ok_cases r0) as [[-> X0]|[X0 Y0]].
  2:{ rewrite Y0. cbn [negb]. rewrite Y0. cbn [negb bind].
      eexists _, _. split; [reflexivity|]. split; [|split].
      - split; [congruence|]. intros [A _]. congruence.
      - congruence.
      - cbn [w_lib]. congruence. }
  cbn [is_ok negb].
  set (l1 := PLib (p_status l) true (p_ifaces l) (p_info l) (p_next l) (p_log l)).
  assert (G : exists l2 r2, initialize_ifaces mem l1 (ia_ifaces a) = Ok (l2, r2)
      /\ p_functions l2 = true /\ p_status l2 = p_status l /\ p_log l2 = p_log l
      /\ (negb (is_ok r2) && negb (is_not_supported r2) = false
          <-> match ia_ifaces a with
              | None => True
              | Some (RNotSupported, _, _) => True
              | Some (ROk, O, _) => True
              | Some (ROk, _, (ROk, _)) => True
              | Some (ROk, _, (RNotSupported, _)) => True
              | _ => False
              end)
      /\ (negb (is_ok r2) && negb (is_not_supported r2) = true -> r2 <> ROk)).
  { cbn [answers_fit] in AF. destruct (ia_ifaces a) as [[[r1 n] [r2 xs]]|]; cbn [initialize_ifaces].
    2:{ eexists _, _. split; [reflexivity|]. cbn. repeat split; auto; discriminate. }
    destruct (ok_cases r1) as [[-> _]|[X1 Y1]].
    2:{ rewrite Y1. eexists _, _. split; [reflexivity|]. cbn. repeat split; auto.
        - destruct r1; cbn; auto; try congruence; discriminate.
        - destruct r1; cbn; auto; try congruence; tauto.
        }
    cbn [is_ok]. destruct n as [|n].
    { eexists _, _. split; [reflexivity|]. cbn. repeat split; auto; discriminate. }
    cbn [Nat.eqb]. destruct (reserve_new mem M (S n)) as (v & E1 & _ & _ & HLn).
    rewrite E1. cbn [bind].
    destruct (fill_ok v xs) as (v' & E2 & _); [lia|]. rewrite E2. cbn [bind].
    destruct (ok_cases r2) as [[-> _]|[X2 Y2]]; [cbn [is_ok]|rewrite Y2];
      (eexists _, _; split; [reflexivity|]); cbn; repeat split; auto; try discriminate.
    - destruct r2; cbn; auto; try congruence; discriminate.
    - destruct r2; cbn; auto; try congruence; tauto. }
  destruct G as (l2 & r2 & E & F1 & F2 & F3 & F4 & F5). rewrite E. cbn [bind]. clear E.
  destruct (negb (is_ok r2) && negb (is_not_supported r2)) eqn:T; cbn [bind].
  { eexists _, _. split; [reflexivity|]. cbn [w_lib]. split; [|split].
    - split; [intros X; now elim F5|]. intros (_ & X & _). apply F4 in X. discriminate.
    - intros X. now elim F5.
    - intros _ X. rewrite F2 in X. apply is_ok_true in X. contradiction. }
  unfold call. rewrite F1. cbn [bind].
  destruct (ok_cases (ia_init a)) as [[X3 Y3]|[X3 Y3]].
  2:{ rewrite Y3. cbn [negb bind]. eexists _, _. split; [reflexivity|]. cbn [w_lib set_log p_status].
      split; [|split].
      - split; [congruence|]. intros (_ & _ & X & _). congruence.
      - congruence.
      - intros _ X. rewrite F2 in X. apply is_ok_true in X. contradiction. }
  rewrite Y3. cbn [negb]. destruct (ia_info a) as [r4 info] eqn:EI. cbn [fst snd].
  cbn [set_log p_functions p_status p_ifaces p_info p_next p_log]. rewrite F1. cbn [bind].
  destruct (ok_cases r4) as [[X4 Y4]|[X4 Y4]]; rewrite Y4; cbn [negb bind].
  - eexists _, _. split; [reflexivity|]. cbn [w_lib p_status p_log].
    split; [|split].
    + split; [|reflexivity]. intros _. repeat split; auto. now apply F4.
    + intros _. split; [reflexivity|]. split; [reflexivity|].
      cbn. rewrite F3, X3, X4, <- app_assoc. reflexivity.
    + congruence.
  - eexists _, _. split; [reflexivity|]. cbn [w_lib p_status].
    split; [|split].
    + split; [congruence|]. intros (_ & _ & _ & X). congruence.
    + congruence.
    + intros _ X. cbn in X. rewrite F2 in X. apply is_ok_true in X. contradiction.
Qed.

(** A module of version 2 works; after a failed attempt the library can still be initialised. *)
Example C139_case :
  works (IA (Some ROk) None ROk (ROk, 7))
  /\ ~ works (IA (Some ROk) (Some (ROther 5, 0, (ROk, []))) ROk (ROk, 7))
  /\ exists w vs, history Realloc 0 [PInit [1] (IA (Some ROk) None (ROther 5) (ROk, 7))] w vs
       /\ ~ usable w.
Proof.
  split; [unfold works; cbn; auto|]. split; [unfold works; cbn; tauto|].
  do 2 eexists. split.
  - unfold history. split; [discriminate|]. split; [constructor; [cbn; auto|constructor]|].
    split; [cbn; auto|]. vm_compute. reflexivity.
  - vm_compute. discriminate.
Qed.

Print Assumptions C139_initialize.
