(** Property C232: the notificator that is set is called for every event, and none that was taken back. *)
From Coq Require Import List Arith Bool Lia.
From Verif Require Import Base NotifyModel NotifySpec.
Import ListNotations.

Lemma nset_eq X (f : nat -> X) k x : nset f k x k = x.
Proof. unfold nset. rewrite Nat.eqb_refl. reflexivity. Qed.
Lemma nset_neq X (f : nat -> X) k x i : i <> k -> nset f k x i = f i.
Proof. intros N. unfold nset. destruct (Nat.eqb_spec i k); [contradiction|reflexivity]. Qed.

(** What holds at every moment of a patient history. *)
Definition sound (s : nstate) : Prop :=
  (forall id, n_object s = Some id -> n_alive s id = true)
  /\ (forall t, n_threads s t = Tested -> n_object s <> None)
  /\ (forall t id, n_threads s t = Calling id -> n_alive s id = true).

Lemma sound_step s mv : sound s -> sensible s mv -> patient s mv ->
  exists s' es, nstep s mv = Ok (s', es) /\ sound s'
    /\ (forall rest, faithful (n_object s') (n_alive s') rest -> faithful (n_object s) (n_alive s) (es ++ rest)).
Proof.
  intros (S1 & S2 & S3) G P. destruct mv as [id|id| |id|t]; cbn [nstep].
  - do 2 eexists. split; [reflexivity|]. split; [|intros rest F; exact F]. repeat split; cbn.
    + intros i E. unfold nset. destruct (i =? id); auto.
    + exact S2.
    + intros t i E. unfold nset. destruct (i =? id); [reflexivity|exact (S3 t i E)].
  - do 2 eexists. split; [reflexivity|]. split; [|intros rest F; exact F]. repeat split; cbn.
    + intros i E. injection E as <-. exact G.
    + discriminate.
    + exact S3.
  - do 2 eexists. split; [reflexivity|]. split; [|intros rest F; exact F]. cbn in P. repeat split; cbn.
    + discriminate.
    + intros t E. rewrite (P t) in E. discriminate.
    + exact S3.
  - do 2 eexists. split; [reflexivity|]. split; [|intros rest F; exact F]. cbn in P, G. repeat split; cbn.
    + intros i E. rewrite nset_neq; [exact (S1 i E)|]. congruence.
    + exact S2.
    + intros t i E. rewrite (P t) in E. discriminate.
  - destruct (n_threads s t) as [| |id] eqn:T.
    + destruct (n_object s) as [id|] eqn:O.
      * do 2 eexists. split; [reflexivity|]. split; [|intros rest F; exact F]. repeat split; cbn.
        -- intros i E. exact (S1 i E).
        -- discriminate.
        -- intros u i E. destruct (Nat.eq_dec u t) as [->|N]; [rewrite nset_eq in E; discriminate|].
           rewrite nset_neq in E by exact N. exact (S3 u i E).
      * do 2 eexists. split; [reflexivity|]. split.
        -- repeat split; [intros i E; exact (S1 i ltac:(congruence))|intros u E; rewrite O; exact (S2 u E)|exact S3].
        -- intros rest F. rewrite O in F. split; [reflexivity|exact F].
    + destruct (n_object s) as [id|] eqn:O; [|exfalso; exact (S2 t T eq_refl)].
      rewrite (S1 id eq_refl). do 2 eexists. split; [reflexivity|]. split.
      * repeat split; cbn.
        -- intros i E. exact (S1 i E).
        -- discriminate.
        -- intros u i E. destruct (Nat.eq_dec u t) as [->|N].
           ++ rewrite nset_eq in E. injection E as <-. exact (S1 id eq_refl).
           ++ rewrite nset_neq in E by exact N. exact (S3 u i E).
      * intros rest F. cbn in F. cbn. auto.
    + rewrite (S3 t id T). do 2 eexists. split; [reflexivity|]. split.
      * repeat split; cbn.
        -- exact S1.
        -- intros u E. destruct (Nat.eq_dec u t) as [->|N]; [rewrite nset_eq in E; discriminate|].
           rewrite nset_neq in E by exact N. exact (S2 u E).
        -- intros u i E. destruct (Nat.eq_dec u t) as [->|N]; [rewrite nset_eq in E; discriminate|].
           rewrite nset_neq in E by exact N. exact (S3 u i E).
      * intros rest F. cbn in F. cbn. split; [exact (S3 t id T)|exact F].
Qed.

(** Any number of threads, in any interleaving: if the application takes a notificator back and destroys one
    only while no thread is inside notify(), every call is of the notificator that is set, while it exists. *)
Theorem C232_patient_partial : forall l,
  throughout (fun s mv => sensible s mv /\ patient s mv) n_initial l ->
  exists s es, nrun n_initial l = Ok (s, es) /\ faithful None (fun _ => false) es.
Proof.
  intros l T.
  assert (G : forall l s, sound s -> throughout (fun s mv => sensible s mv /\ patient s mv) s l ->
    exists s' es, nrun s l = Ok (s', es) /\ faithful (n_object s) (n_alive s) es).
  { clear. induction l as [|mv l IH]; intros s S T; cbn [nrun].
    - do 2 eexists. split; [reflexivity|exact I].
    - destruct T as [[G P] T]. destruct (sound_step s mv S G P) as (s1 & es & E & S1 & F).
      rewrite E. cbn [bind fst snd]. destruct (IH s1 S1 (T _ E)) as (s2 & es2 & E2 & F2).
      rewrite E2. cbn [bind fst snd]. do 2 eexists. split; [reflexivity|]. exact (F es2 F2). }
  apply (G l n_initial); [|exact T]. repeat split; discriminate.
Qed.

(** A thread that is not inside notify() has made one step for each notify() that called nothing and three for
    each that called a notificator: no notify() has ended otherwise, and none has called more than one. *)
Theorem C232_each_partial : forall l s es t, nrun n_initial l = Ok (s, es) -> n_threads s t = Outside ->
  steps t l = passed t es + 3 * called t es.
Proof.
  intros l s es t R O.
  pose (w := fun p => match p with Outside => 1 | Tested => 2 | Calling _ => 0 end).
  assert (G : forall l s s' es, nrun s l = Ok (s', es) ->
    steps t l + w (n_threads s t) = passed t es + 3 * called t es + w (n_threads s' t)).
  { clear. induction l as [|mv l IH]; intros s s' es R; cbn [nrun] in R.
    - injection R as <- <-. reflexivity.
    - destruct (nstep s mv) as [[s1 e1]| |] eqn:E; try discriminate. cbn [bind fst snd] in R.
      destruct (nrun s1 l) as [[s2 e2]| |] eqn:E2; try discriminate. cbn [bind fst snd] in R.
      injection R as <- <-. specialize (IH s1 s2 e2 E2).
      destruct mv as [id|id| |id|u]; cbn [nstep] in E;
        try (injection E as <- <-; cbn [n_threads] in IH; exact IH).
      destruct (n_threads s u) as [| |id] eqn:T.
      + destruct (n_object s) as [id|] eqn:OB; injection E as <- <-; cbn [n_threads] in IH;
          unfold steps, passed, called in *; cbn [filter app] in *.
        * destruct (Nat.eqb_spec u t) as [->|N].
          -- rewrite nset_eq in IH. rewrite T. cbn [length w] in *. lia.
          -- rewrite nset_neq in IH by auto. exact IH.
        * destruct (Nat.eqb_spec u t) as [->|N]; [cbn [length]; lia|exact IH].
      + destruct (n_object s) as [id|] eqn:OB; [|discriminate]. destruct (n_alive s id); [|discriminate].
        injection E as <- <-. cbn [n_threads] in IH.
        unfold steps, passed, called in *; cbn [filter app] in *.
        destruct (Nat.eqb_spec u t) as [->|N].
        * rewrite nset_eq in IH. rewrite T. cbn [length w] in *. lia.
        * rewrite nset_neq in IH by auto. exact IH.
      + destruct (n_alive s id); [|discriminate].
        injection E as <- <-. cbn [n_threads] in IH.
        unfold steps, passed, called in *; cbn [filter app] in *.
        destruct (Nat.eqb_spec u t) as [->|N].
        * rewrite nset_eq in IH. rewrite T. cbn [length w] in *. lia.
        * rewrite nset_neq in IH by auto. exact IH. }
  specialize (G l n_initial s es R). rewrite O in G. cbn in G. cbn. lia.
Qed.

(** If the handler runs on the only thread of the application, nothing has to be added: what happens is
    exactly what is to happen. *)
Theorem C232_signal_partial : forall l, orderly None (fun _ => false) l ->
  exists s, nrun n_initial (schedule_of None l) = Ok (s, expected None l).
Proof.
  intros l O.
  assert (G : forall l s, orderly (n_object s) (n_alive s) l -> quiet s ->
    (forall id, n_object s = Some id -> n_alive s id = true) ->
    exists s', nrun s (schedule_of (n_object s) l) = Ok (s', expected (n_object s) l)).
  { clear. induction l as [|c l IH]; intros s O Q A; cbn [schedule_of expected].
    - exists s. reflexivity.
    - destruct c as [[id|id| |id|t]|t]; cbn [orderly] in O.
      + cbn [nrun nstep bind fst snd].
        destruct (IH (NState (n_object s) (nset (n_alive s) id true) (n_threads s)) O Q) as (s' & E).
        { cbn. intros i H. unfold nset. destruct (i =? id); auto. }
        cbn [n_object] in E. rewrite E. exists s'. reflexivity.
      + destruct O as [O1 O]. cbn [nrun nstep bind fst snd].
        destruct (IH (NState (Some id) (n_alive s) (n_threads s)) O Q) as (s' & E).
        { cbn. intros i H. injection H as <-. exact O1. }
        cbn [n_object] in E. rewrite E. exists s'. reflexivity.
      + cbn [nrun nstep bind fst snd].
        destruct (IH (NState None (n_alive s) (n_threads s)) O Q) as (s' & E); [discriminate|].
        cbn [n_object] in E. rewrite E. exists s'. reflexivity.
      + destruct O as [O1 O]. cbn [nrun nstep bind fst snd].
        destruct (IH (NState (n_object s) (nset (n_alive s) id false) (n_threads s)) O Q) as (s' & E).
        { cbn. intros i H. rewrite nset_neq by congruence. auto. }
        cbn [n_object] in E. rewrite E. exists s'. reflexivity.
      + contradiction.
      + destruct (n_object s) as [id|] eqn:OB; cbn [app].
        * cbn [nrun]. cbn [nstep]. rewrite (Q t), OB. cbn [bind fst snd n_threads].
          cbn [nrun nstep n_threads n_object n_alive]. rewrite nset_eq, (A id eq_refl). cbn [bind fst snd].
          cbn [nrun nstep n_threads n_object n_alive]. rewrite nset_eq, (A id eq_refl). cbn [bind fst snd].
          destruct (IH (NState (Some id) (n_alive s)
                      (nset (nset (nset (n_threads s) t Tested) t (Calling id)) t Outside)) O) as (s' & E).
          { intros u. cbn. unfold nset. destruct (u =? t); [reflexivity|exact (Q u)]. }
          { exact A. }
          cbn [n_object] in E. rewrite E. exists s'. reflexivity.
        * cbn [nrun nstep]. rewrite (Q t), OB. cbn [bind fst snd].
          rewrite <- OB in O. destruct (IH s O Q) as (s' & E); [intros i H; congruence|].
          rewrite OB in E. rewrite E. exists s'. reflexivity. }
  apply (G l n_initial); [exact O|intros t; reflexivity|discriminate].
Qed.

(** The notificator is taken back while another thread is between the condition and the call: it calls
    through a null pointer. *)
Theorem C232_null_refuted : forall id t,
  nrun n_initial [NCreate id; NSet id; NStep t; NUnset; NStep t] = UB
  /\ throughout sensible n_initial [NCreate id; NSet id; NStep t; NUnset; NStep t].
Proof.
  intros id t. split.
  - cbn [nrun nstep bind fst snd n_object n_alive n_threads n_initial].
    rewrite nset_eq. reflexivity.
  - repeat (cbn [throughout]; split; [first [exact I|apply nset_eq]|
            intros r E; first [discriminate|injection E as <-; cbn [fst]|exact I]]).
Qed.

(** It is destroyed after unsetNotificator() has returned, and is still being called. *)
Theorem C232_destroyed_refuted : forall id t,
  nrun n_initial [NCreate id; NSet id; NStep t; NStep t; NUnset; NDestroy id; NStep t] = UB
  /\ nrun n_initial [NCreate id; NSet id; NStep t; NStep t; NUnset; NDestroy id]
     = Ok (NState None (nset (nset (fun _ => false) id true) id false)
             (nset (nset (fun _ => Outside) t Tested) t (Calling id)),
           [ECreated id; ESet id; ECalled t id; EUnset; EDestroyed id]).
Proof.
  intros id t.
  split; cbn [nrun nstep bind fst snd n_object n_alive n_threads n_initial]; rewrite nset_eq;
    cbn [bind fst snd n_object n_alive n_threads]; rewrite !nset_eq;
    cbn [bind fst snd n_object n_alive n_threads app]; [|reflexivity].
  rewrite !nset_eq. reflexivity.
Qed.

(** Giving another one first does not help either: the old one may be in a call when it is destroyed. *)
Theorem C232_replaced_refuted : forall a b t, a <> b ->
  nrun n_initial [NCreate a; NCreate b; NSet a; NStep t; NStep t; NSet b; NDestroy a; NStep t] = UB.
Proof.
  intros a b t N. cbn [nrun nstep bind fst snd n_object n_alive n_threads n_initial]. rewrite nset_eq.
  cbn [bind fst snd n_object n_alive n_threads]. rewrite (nset_neq _ _ b true a N), nset_eq.
  cbn [bind fst snd n_object n_alive n_threads]. rewrite !nset_eq. reflexivity.
Qed.

Lemma throughout_step (P : nstate -> nmove -> Prop) s mv s' es l : nstep s mv = Ok (s', es) -> P s mv -> throughout P s' l ->
  throughout P s (mv :: l).
Proof. intros E H T. split; [exact H|]. rewrite E. intros r R. injection R as <-. exact T. Qed.

Example C232_case :
  let l := [NCreate 0; NSet 0; NStep 5; NStep 6; NStep 5; NStep 6; NStep 5; NStep 6; NUnset; NDestroy 0] in
  throughout (fun s mv => sensible s mv /\ patient s mv) n_initial l
  /\ match nrun n_initial l with
     | Ok (_, es) => es = [ECreated 0; ESet 0; ECalled 5 0; ECalled 6 0; EReturned 5 0; EReturned 6 0; EUnset; EDestroyed 0]
     | _ => False
     end.
Proof.
  split; [|vm_compute; reflexivity].
  repeat (eapply throughout_step; [lazy; reflexivity|split; cbn; try exact I; try reflexivity; try discriminate; intros t;
            do 7 (destruct t as [|t]; [reflexivity|]); reflexivity|]).
  exact I.
Qed.

Example C232_signal_case :
  orderly None (fun _ => false)
    [Do (NCreate 0); Signal 0; Do (NSet 0); Signal 0; Do NUnset; Do (NDestroy 0); Signal 0].
Proof. cbn. repeat split; discriminate. Qed.

Print Assumptions C232_patient_partial.
Print Assumptions C232_each_partial.
Print Assumptions C232_signal_partial.
Print Assumptions C232_null_refuted.
Print Assumptions C232_destroyed_refuted.
Print Assumptions C232_replaced_refuted.
