(** Properties C117 - C120, C194, C195 (the software PKCS#11 module). *)
From Coq Require Import List Arith Bool Lia.
From Verif Require Import Base BaseLemmas SoftPkcs11Model SoftPkcs11Spec SoftPkcs11Proofs.
Import ListNotations.

(** * C117: unlock releases the mutex *)

(** For every mutex that has a context and is free, in every state: a thread that locks and
    unlocks it does not come back from unlock. *)
Theorem C117_unlock_refuted : forall history w v k a b,
  srun s_start history = Ok w -> has_context w v k -> s_held w k = false ->
  srun w [SLock v a; SUnlock v b] = Diverge.
Proof.
  intros history w v k a b R0 (m & E & C) F. pose proof (sinv_run history _ _ sinv_start R0) as I. destruct (si_app w I v m k E C) as (_ & L & _).
  cbn. rewrite E. unfold mutex_lock, call_lock. rewrite L, C. cbn. rewrite F. cbn.
  rewrite sset_same. unfold mutex_unlock, call_lock. cbn. rewrite sset_same. reflexivity.
Qed.

(** In every history of calls the application's unlock is never called: a locked mutex stays
    locked. *)
Theorem C117_never_unlocked_refuted : forall h w,
  srun s_start h = Ok w -> forall c, ~ In (EUnlock c) (s_log w).
Proof. intros h w R. apply (si_unlock w). exact (sinv_run h _ _ sinv_start R). Qed.

(** What lock does is right: from every state, for every mutex that has a context and is free,
    it locks exactly that context and keeps the answer. *)
Theorem C117_lock_partial : forall history w v k a,
  srun s_start history = Ok w -> has_context w v k -> s_held w k = false ->
  exists w', srun w [SLock v a] = Ok w' /\ last_status w' v = Some a /\ has_context w' v k /\
    s_log w' = ELock (Some k) :: s_log w /\
    (forall j, s_held w' j = if j =? k then true else s_held w j).
Proof.
  intros history w v k a R0 (m & E & C) F. pose proof (sinv_run history _ _ sinv_start R0) as I. destruct (si_app w I v m k E C) as (_ & L & _).
  cbn. rewrite E. unfold mutex_lock, call_lock. rewrite L, C. cbn. rewrite F. cbn.
  eexists. split; [reflexivity|]. unfold last_status. cbn. rewrite sset_same. repeat split.
  exists (SM (m_destroy m) CbApp (m_unlock m) (Some k) a). cbn. rewrite sset_same. auto.
Qed.

(** A mutex of the default constructor: every number of locks and unlocks, in any order, returns,
    answers OK and calls nothing of the application. *)
Definition lock_or_unlock (v : nat) (c : scall) : Prop :=
  match c with SLock u _ | SUnlock u _ => u = v | _ => False end.

Theorem C117_default_partial : forall h w v,
  s_vars w v = None -> Forall (lock_or_unlock v) h ->
  exists w', srun w (SNewDefault v :: h) = Ok w' /\ last_status w' v = Some CKR_OK /\ s_log w' = s_log w.
Proof.
  intros h w v E FA. cbn [srun sstep]. rewrite E. cbn [bind].
  assert (G : forall w1, s_vars w1 v = Some (SM CbStub CbStub CbStub None CKR_OK) -> s_log w1 = s_log w ->
    exists w', srun w1 h = Ok w' /\ last_status w' v = Some CKR_OK /\ s_log w' = s_log w).
  { clear E. induction FA as [|c h P FA IH]; intros w1 E L.
    - exists w1. split; [reflexivity|]. unfold last_status. rewrite E. auto.
    - destruct c as [|a1 a2 a3 a4 a5 a6 a7|a1 a2|a1 a2|u a|u a|u a|u a]; cbn in P; try contradiction;
        subst u; cbn [srun sstep]; rewrite E; cbn; apply IH; cbn; auto; apply sset_same. }
  apply G; [|reflexivity]. unfold mutex_default, set_var. cbn. apply sset_same.
Qed.

Example C117_case :
  let w := match srun s_start [SNew 0 true true true true true CKR_OK] with Ok w => w | _ => s_start end in
  srun s_start [SNew 0 true true true true true CKR_OK] = Ok w /\ has_context w 0 0 /\ s_held w 0 = false
  /\ Forall (lock_or_unlock 1) [SLock 1 0; SUnlock 1 0; SUnlock 1 3; SLock 1 0].
Proof.
  cbn zeta. split; [|split; [|split]].
  - reflexivity.
  - eexists. split; reflexivity.
  - reflexivity.
  - repeat constructor.
Qed.

(** * C118: every context is destroyed exactly once, and not used afterwards *)

(** For all histories of any number of Mutex objects: the application's functions get only
    contexts that were created and not yet destroyed, and each is destroyed at most once. *)
Theorem C118_used_while_alive_partial : forall h w,
  srun s_start h = Ok w ->
  used_while_alive (s_log w) /\ forall k, destroyed k (s_log w) <= 1.
Proof.
  intros h w R. pose proof (sinv_run h _ _ sinv_start R) as I.
  split; [exact (si_used w I)|]. apply used_once. exact (si_used w I).
Qed.

(** … and without move assignments, a context is alive exactly as long as an object has it, and
    one object only. *)
Theorem C118_exactly_once_partial : forall h w,
  no_assign h -> srun s_start h = Ok w ->
  forall k, created k (s_log w) ->
    (destroyed k (s_log w) = 0 <-> exists v, has_context w v k) /\
    (destroyed k (s_log w) = 1 <-> forall v, ~ has_context w v k) /\
    (forall u v, has_context w u k -> has_context w v k -> u = v).
Proof.
  intros h w NA R k C. pose proof (sinv_run h _ _ sinv_start R) as I.
  assert (K : kept w).
  { apply (kept_run h s_start w sinv_start); auto. intros j J. destruct J. }
  pose proof (used_once _ (si_used w I) k) as U.
  assert (A : destroyed k (s_log w) = 0 <-> exists v, has_context w v k).
  { split; [exact (K k C)|]. intros (v & H). exact (proj2 (si_alive w I v k H)). }
  split; [exact A|]. split; [|intros u v; apply (si_one w I)]. split.
  - intros D v H. assert (destroyed k (s_log w) = 0) by (apply A; exists v; exact H). lia.
  - intros N. destruct (Nat.eq_dec (destroyed k (s_log w)) 0) as [Z|Z]; [|lia].
    apply A in Z. destruct Z as (v & H). destruct (N v H).
Qed.

(** Three objects; one is moved, one destroyed by hand. *)
Example C118_case :
  let h := [SNew 0 true true true true true 0; SNew 1 true true true true true 0; SNewDefault 2; SMove 3 0;
            SLock 3 0; SDestroy 1 0; SDelete 1 0; SDelete 0 0; SDelete 2 0] in
  no_assign h /\ exists w, srun s_start h = Ok w
  /\ s_log w = [EDestroy None; EDestroy None; EDestroy (Some 1); ELock (Some 0); ECreate 1; ECreate 0]
  /\ has_context w 3 0 /\ destroyed 0 (s_log w) = 0 /\ destroyed 1 (s_log w) = 1.
Proof.
  cbn zeta. split; [repeat constructor|]. eexists. split; [reflexivity|]. split; [reflexivity|].
  split; [|split; reflexivity]. eexists. split; reflexivity.
Qed.

(** Move assignment to an object that has a context, from another object or from itself: the
    context is not destroyed, then or by whatever is called afterwards. *)
Theorem C118_assign_refuted : forall history w v p k w1,
  srun s_start history = Ok w -> has_context w v k -> sstep w (SAssign v p) = Ok w1 ->
  forall h w2, srun w1 h = Ok w2 ->
    created k (s_log w1) /\ destroyed k (s_log w2) = 0 /\ forall u, ~ has_context w2 u k.
Proof.
  intros history w v p k w1 R0 H S1 h w2 R. pose proof (sinv_run history _ _ sinv_start R0) as I.
  assert (L : s_log w1 = s_log w /\ s_next w1 = s_next w).
  { cbn in S1. destruct (s_vars w v); [|discriminate]. destruct (s_vars w p); [|discriminate].
    unfold mutex_assign in S1. destruct (s_vars (set_var w v _) p); [|discriminate].
    injection S1 as <-. auto. }
  destruct L as (L & LN).
  destruct (si_alive w I v k H) as (C & D).
  assert (F : forgotten k w1).
  { split; [rewrite LN; exact (si_next w I k C)|]. intros u HC.
    cbn in S1. destruct (s_vars w v) as [m|] eqn:E; [|discriminate].
    destruct (s_vars w p) as [q|] eqn:EP; [|discriminate]. unfold mutex_assign in S1.
    destruct (s_vars (set_var w v (Some q)) p) as [q2|] eqn:E2; [|discriminate]. injection S1 as <-.
    apply has_set in HC. destruct HC as [(_ & x & X & XC)|(NP & HC)]; [injection X as <-; discriminate|].
    apply has_set in HC. destruct HC as [(-> & x & X & XC)|(NV & HC)].
    - injection X as <-. apply NP. apply (si_one w I v p k H). exists q. auto.
    - apply NV. exact (si_one w I u v k HC H). }
  destruct (forgotten_run k h w1 w2 F R) as ((_ & N) & D2).
  split; [rewrite L; exact C|]. split; [rewrite D2, L; exact D|exact N].
Qed.

Example C118_assign_case :
  let w := match srun s_start [SNew 0 true true true true true 0; SNew 1 true true true true true 0] with
           | Ok w => w | _ => s_start end in
  srun s_start [SNew 0 true true true true true 0; SNew 1 true true true true true 0] = Ok w
  /\ has_context w 0 0 /\ (exists w1, sstep w (SAssign 0 1) = Ok w1)
  /\ (exists w1, sstep w (SAssign 0 0) = Ok w1 /\ exists w2, srun w1 [SDelete 0 0; SDelete 1 0] = Ok w2).
Proof.
  cbn zeta. split; [|split; [|split]].
  - reflexivity.
  - eexists. split; reflexivity.
  - eexists. reflexivity.
  - eexists. split; [reflexivity|]. eexists. reflexivity.
Qed.

(** The functions of the application get the null pointer where nothing was created for it: for
    every object with the application's functions, when it is destroyed after it was moved from or
    destroyed by hand. *)
Theorem C118_null_refuted : forall history w v k a b,
  srun s_start history = Ok w -> has_context w v k ->
  exists w', srun w [SDestroy v a; SDelete v b] = Ok w' /\
    s_log w' = EDestroy None :: EDestroy (Some k) :: s_log w.
Proof.
  intros history w v k a b R0 (m & E & C). pose proof (sinv_run history _ _ sinv_start R0) as I. destruct (si_app w I v m k E C) as (D & _).
  cbn. rewrite E. unfold mutex_destroy at 1, call_destroy. rewrite D, C. cbn.
  rewrite sset_same. unfold mutex_destroy, call_destroy. cbn.
  eexists. split; reflexivity.
Qed.

(** * C119: construction with a function missing *)

(** Whichever of the four functions is missing: nothing of the application is called, the status
    says what is wrong; the object can be moved. *)
Theorem C119_missing_partial : forall w v c d l u made a,
  s_vars w v = None -> c && d && l && u = false ->
  exists w', sstep w (SNew v c d l u made a) = Ok w' /\
    last_status w' v = Some CKR_ARGUMENTS_BAD /\ s_log w' = s_log w /\
    (forall k, ~ has_context w' v k) /\ (forall p, p <> v -> s_vars w' p = s_vars w p).
Proof.
  intros w v c d l u made a E B. cbn [sstep]. rewrite E. eexists. split; [reflexivity|].
  unfold mutex_new. replace (negb c || negb d || negb l || negb u) with true
    by (destruct c, d, l, u; cbn in B |- *; congruence).
  unfold last_status. cbn. rewrite sset_same. repeat split.
  - intros k (m & X & XC). cbn in X. rewrite sset_same in X. injection X as <-. discriminate.
  - intros p N. apply sset_other. exact N.
Qed.

(** Destroying the object is safe exactly when the missing function is not the one that
    destroys; locking it exactly when it is not the one that locks. The application's function is
    then called without a context, and its answer is the status. *)
Theorem C119_missing_use_partial : forall w v c d l u made a,
  s_vars w v = None -> c && d && l && u = false ->
  (forall b, srun w [SNew v c d l u made a; SDelete v b] = UB <-> d = false) /\
  (forall b, (exists w', srun w [SNew v c d l u made a; SDelete v b] = Ok w' /\
                         s_log w' = EDestroy None :: s_log w) <-> d = true) /\
  (forall b, srun w [SNew v c d l u made a; SLock v b] = UB <-> l = false) /\
  (forall b, (exists w', srun w [SNew v c d l u made a; SLock v b] = Ok w' /\
                         s_log w' = ELock None :: s_log w /\ last_status w' v = Some b) <-> l = true).
Proof.
  intros w v c d l u made a E B. cbn [srun sstep]. rewrite E. cbn [bind].
  unfold mutex_new. replace (negb c || negb d || negb l || negb u) with true
    by (destruct c, d, l, u; cbn in B |- *; congruence).
  unfold set_var. cbn [s_vars]. rewrite sset_same.
  repeat split; destruct d, l; cbn; try rewrite sset_same; cbn; try discriminate; try reflexivity;
    try (intros (w' & X & _); discriminate); intros; eauto;
    eexists; (split; [reflexivity|]); unfold last_status; cbn; rewrite ?sset_same; auto.
Qed.

(** So for every combination without the destroying function the object, whose status has
    reported the error, cannot even be destroyed. *)
Theorem C119_destructor_refuted : forall w v c l u made a b,
  s_vars w v = None -> srun w [SNew v c false l u made a; SDelete v b] = UB.
Proof.
  intros w v c l u made a b E.
  apply (C119_missing_use_partial w v c false l u made a E); [|reflexivity].
  destruct c; reflexivity.
Qed.

(** When none is missing, the status is what the application answered. *)
Theorem C119_status : forall w v made a,
  s_vars w v = None ->
  exists w', sstep w (SNew v true true true true made a) = Ok w' /\ last_status w' v = Some a /\
    ((exists k, has_context w' v k) <-> made = true).
Proof.
  intros w v made a E. cbn [sstep]. rewrite E. eexists. split; [reflexivity|].
  unfold mutex_new. cbn. unfold last_status. destruct made; cbn; rewrite sset_same;
    (split; [reflexivity|]); split; try reflexivity.
  - intros _. exists (s_next w). eexists. cbn. rewrite sset_same. split; reflexivity.
  - intros (k & m & X & XC). cbn in X. rewrite sset_same in X. injection X as <-. discriminate.
  - discriminate.
Qed.

Example C119_case : s_vars s_start 5 = None /\ true && false && true && true = false.
Proof. split; reflexivity. Qed.

(** * C120: the general purpose functions check their arguments *)

(** Every null pointer that is checked is reported and nothing else is touched; otherwise what was
    asked for is stored. In PKCS#11 CKR_OK is 0 and CKR_ARGUMENTS_BAD is 7. *)
Theorem C120_arguments_partial : forall (I F : Type) (the_info : I) (the_list : F) (out : option I)
    (lst : F) (args : option nat) (interfaces : option (list I)),
  (fst (soft_getInfo the_info out) = 7 <-> out = None) /\
  (out <> None -> soft_getInfo the_info out = (0, Some the_info)) /\
  soft_getFunctionList the_list (Some lst) = Ok (0, Some the_list) /\
  (soft_initialize args = 0 <-> args <> None) /\
  soft_getInterfaceList the_info interfaces None = Ok (7, interfaces, None).
Proof.
  intros I F the_info the_list out lst args interfaces. split; [|split; [|split; [|split]]].
  - destruct out; cbn; unfold CKR_OK, CKR_ARGUMENTS_BAD; split; congruence.
  - destruct out; cbn; [intros _; reflexivity | intros X; destruct (X eq_refl)].
  - reflexivity.
  - destruct args; cbn; unfold CKR_OK, CKR_ARGUMENTS_BAD; split; congruence.
  - reflexivity.
Qed.

(** C_GetFunctionList with the null pointer: undefined instead of an answer. *)
Theorem C120_functionList_refuted : forall (F : Type) (the_list : F),
  soft_getFunctionList the_list None = UB.
Proof. reflexivity. Qed.

(** PKCS#11 lets C_Initialize be called with the null pointer; this module refuses. *)
Theorem C120_initialize_refuted : soft_initialize None <> CKR_OK.
Proof. discriminate. Qed.

(** C_GetInterfaceList, for every array of as many elements as the caller says: it follows the
    convention exactly when there is no array or its size is 1. *)
Theorem C120_interfaces_partial : forall (I : Type) (the_interface : I) (buffer : option (list I)) n,
  (forall b, buffer = Some b -> length b = n) ->
  ((exists r, soft_getInterfaceList the_interface buffer (Some n) = Ok (fst (fst r), snd (fst r), Some (snd r))
     /\ r = list_convention [the_interface] buffer n)
   <-> buffer = None \/ n = 1).
Proof.
  intros I x buffer n H. split.
  - intros (r & E & ->). destruct buffer as [b|]; [right|left; reflexivity].
    specialize (H b eq_refl). destruct b as [|y b]; cbn in H, E; [discriminate|].
    subst n. destruct b as [|z b]; [reflexivity|]. cbn in E. congruence.
  - intros [->| ->].
    + eexists. split; [|reflexivity]. reflexivity.
    + destruct buffer as [b|]; [|eexists; split; [|reflexivity]; reflexivity].
      specialize (H b eq_refl). destruct b as [|y [|z b]]; try discriminate.
      eexists. split; [|reflexivity]. reflexivity.
Qed.

(** With an array of no elements the module writes past its end, for every such call; with more
    than one element the count is not stored. *)
Theorem C120_interfaces_refuted : forall (I : Type) (x : I),
  soft_getInterfaceList x (Some []) (Some 0) = UB /\
  (forall y z b, let n := S (S (length b)) in
     soft_getInterfaceList x (Some (y :: z :: b)) (Some n) = Ok (CKR_OK, Some (x :: z :: b), Some n)
     /\ snd (list_convention [x] (Some (y :: z :: b)) n) = 1).
Proof. intros I x. split; [reflexivity|]. intros y z b. split; reflexivity. Qed.

Example C120_case : exists r,
  soft_getInterfaceList 7 (Some [0]) (Some 1) = Ok (fst (fst r), snd (fst r), Some (snd r))
  /\ r = list_convention [7] (Some [0]) 1.
Proof. eexists. split; [|reflexivity]. reflexivity. Qed.

(** * C194: C_GetInfo describes the module *)

(** The fields have their sizes, begin with the texts, and the flags are 0, which PKCS#11 asks
    for. Missing: the padding and the version. *)
Theorem C194_fields_partial : forall out r o, out <> None -> soft_getInfo the_soft_info out = (r, o) ->
  r = CKR_OK /\ exists i, o = Some i
  /\ length (i_manufacturer i) = 32 /\ firstn 4 (i_manufacturer i) = text_manufacturer
  /\ length (i_description i) = 32 /\ firstn 18 (i_description i) = text_description
  /\ (forall c, In c (skipn 4 (i_manufacturer i) ++ skipn 18 (i_description i)) -> c = 0)
  /\ i_flags i = 0 /\ i_version i = (0, 0).
Proof.
  intros out r o N E. destruct out as [x|]; [|contradiction]. cbn in E. injection E as <- <-.
  split; [reflexivity|]. eexists. split; [reflexivity|].
  repeat split. intros c I. cbn in I. repeat (destruct I as [<-|I]; [reflexivity|]). contradiction I.
Qed.
Example C194_case : soft_getInfo the_soft_info (Some (SoftInfo (1, 1) [] 1 [] (1, 1))) = (CKR_OK, Some the_soft_info).
Proof. reflexivity. Qed.

(** The texts are padded with zeros instead of blanks, whatever text is meant. *)
Theorem C194_padding_refuted : forall n text, length text < n ->
  ~ blank_padded n text (char_array n text)
  /\ (text = text_manufacturer -> n = 32 -> char_array n text = i_manufacturer the_soft_info)
  /\ (text = text_description -> n = 32 -> char_array n text = i_description the_soft_info).
Proof.
  intros n text L. split; [|split; intros -> ->; reflexivity].
  unfold blank_padded, char_array. intros E. apply app_inv_head in E.
  destruct (n - length text) eqn:D; [lia|]. discriminate E.
Qed.
(** No field of the module can be read as a padded text: the last byte is never a blank. *)
Theorem C194_manufacturer_refuted : forall text, length text < 32 ->
  ~ blank_padded 32 text (i_manufacturer the_soft_info) /\ ~ blank_padded 32 text (i_description the_soft_info).
Proof.
  intros text L.
  assert (G : forall field, blank_padded 32 text field -> last field 1 = 32).
  { intros field ->. replace (32 - length text) with (31 - length text + 1) by lia.
    rewrite repeat_app, app_assoc. apply last_last. }
  split; intros B; apply G in B; discriminate B.
Qed.
(** The version of PKCS#11 that the module says it follows is none that exists. *)
Theorem C194_version_refuted : forall major minor, 1 <= major -> i_cryptoki the_soft_info <> (major, minor).
Proof. intros [|major] minor L E; [lia|discriminate E]. Qed.

(** * C195: the life cycle of the module *)

(** An application that makes no mistake gets the answers of PKCS#11. *)
Theorem C195_proper_partial : forall cs, proper cs -> map gstep cs = life_answers false cs.
Proof.
  intros cs P. unfold proper in P. revert P. generalize false.
  induction cs as [|c cs IH]; intros b P; [reflexivity|]. cbn [map life_answers] in *.
  inversion P as [|? ? P1 P2]; subst. rewrite P1. f_equal; [destruct c; reflexivity|]. apply IH. exact P2.
Qed.
Example C195_case : proper [GInitialize 5; GGetInfo; GGetInfo; GFinalize; GInitialize 6; GFinalize].
Proof. repeat (constructor; [reflexivity|]). constructor. Qed.
(** An application that makes one gets answers that differ: no misuse is ever reported. *)
Theorem C195_misuse_refuted : forall cs,
  (forall r, In r (map gstep cs) -> r = CKR_OK) /\ (~ proper cs -> map gstep cs <> life_answers false cs).
Proof.
  assert (A : forall cs r, In r (map gstep cs) -> r = CKR_OK).
  { intros cs r I. apply in_map_iff in I. destruct I as (c & <- & _). destruct c; reflexivity. }
  intros cs. split; [apply A|]. intros N E. apply N. unfold proper. rewrite <- E. apply Forall_forall. apply A.
Qed.
Example C195_misuse_case : ~ proper [GInitialize 5; GInitialize 5] /\ ~ proper [GGetInfo] /\ ~ proper [GInitialize 5; GFinalize; GFinalize].
Proof.
  unfold proper. rewrite !Forall_forall. repeat split; intros P.
  - specialize (P CKR_CRYPTOKI_ALREADY_INITIALIZED). cbn in P. specialize (P ltac:(auto)). discriminate P.
  - specialize (P CKR_CRYPTOKI_NOT_INITIALIZED). cbn in P. specialize (P ltac:(auto)). discriminate P.
  - specialize (P CKR_CRYPTOKI_NOT_INITIALIZED). cbn in P. specialize (P ltac:(auto)). discriminate P.
Qed.

(** * C120: C_GetInterface *)

(** C_GetInterface never gives an interface: for every terminated name, or none, it answers that
    the arguments are bad, also for the name and version that C_GetInterfaceList gives. A name that
    is not terminated is read past its end. *)
Theorem C120_getInterface_refuted : forall (I : Type) name version (out : option I) flags,
  (match name with None => True | Some m => In 0 m end ->
     soft_getInterface name version out flags = Ok (CKR_ARGUMENTS_BAD, out))
  /\ (match name with None => False | Some m => ~ In 0 m end ->
     soft_getInterface name version out flags = UB).
Proof.
  intros I name version out flags. unfold soft_getInterface. split; intros H.
  - destruct name as [m|]; [|reflexivity].
    assert (G : exists n, name_length m = Ok n).
    { induction m as [|c m IH]; [contradiction H|]. cbn. destruct (Nat.eqb_spec c 0) as [->|N]; [eauto|].
      destruct H as [H|H]; [contradiction|]. destruct (IH H) as (n & ->). cbn. eauto. }
    destruct G as (n & ->). reflexivity.
  - destruct name as [m|]; [|contradiction H].
    assert (G : name_length m = UB).
    { induction m as [|c m IH]; [reflexivity|]. cbn. destruct (Nat.eqb_spec c 0) as [->|N].
      - exfalso. apply H. left. reflexivity.
      - rewrite IH; [reflexivity|]. intros X. apply H. right. exact X. }
    rewrite G. reflexivity.
Qed.

Print Assumptions C117_unlock_refuted.
Print Assumptions C118_exactly_once_partial.
Print Assumptions C118_assign_refuted.
Print Assumptions C119_missing_use_partial.
Print Assumptions C120_interfaces_partial.
Print Assumptions C194_fields_partial.
Print Assumptions C194_padding_refuted.
Print Assumptions C194_manufacturer_refuted.
Print Assumptions C194_version_refuted.
Print Assumptions C195_proper_partial.
Print Assumptions C195_misuse_refuted.
Print Assumptions C120_getInterface_refuted.
Print Assumptions C117_default_partial.
Print Assumptions C117_lock_partial.
Print Assumptions C117_never_unlocked_refuted.
Print Assumptions C118_null_refuted.
Print Assumptions C118_used_while_alive_partial.
Print Assumptions C119_destructor_refuted.
Print Assumptions C119_missing_partial.
Print Assumptions C119_status.
Print Assumptions C120_arguments_partial.
Print Assumptions C120_functionList_refuted.
Print Assumptions C120_initialize_refuted.
Print Assumptions C120_interfaces_refuted.
