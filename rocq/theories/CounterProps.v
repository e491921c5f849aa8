(** C83: theorems about threads::Counter. *)
From Coq Require Import List Arith ZArith Lia.
From Verif Require Import Base ConcModel ConcSpec ConcProofs CounterModel CounterSpec.
Import ListNotations.

Definition holds (modulus : nat) (v : nat) (s : Z) : Prop :=
  v < modulus /\ (Z.of_nat v = s mod Z.of_nat modulus)%Z.

Lemma sequential_counter modulus : modulus <> 0 ->
  sequential _ _ _ _ (counter_code modulus) (counts modulus) (fun _ => True) (holds modulus).
Proof.
  intros MP o _. destruct o; cbn [counter_code].
  - eexists. split; [reflexivity|]. intros v s (L & E). cbn [counts fst snd].
    eexists. split.
    + eapply F_get; [reflexivity|]. eapply F_set; [reflexivity|]. apply F_release.
    + split; [apply Nat.mod_upper_bound; exact MP|].
      rewrite Nat2Z.inj_mod, Nat2Z.inj_add, E. change (Z.of_nat 1) with 1%Z.
      apply Zplus_mod_idemp_l.
  - eexists. split; [reflexivity|]. intros v s (L & E). cbn [counts fst snd].
    eexists. split.
    + eapply F_get; [reflexivity|]. eapply F_set; [reflexivity|]. apply F_release.
    + split; [apply Nat.mod_upper_bound; exact MP|].
      rewrite Nat2Z.inj_mod, Nat2Z.inj_add, E, Zplus_mod_idemp_l.
      rewrite Nat2Z.inj_sub by lia.
      replace (s + (Z.of_nat modulus - Z.of_nat 1))%Z with (s - 1 + 1 * Z.of_nat modulus)%Z by lia.
      apply Z_mod_plus_full.
  - eexists. split; [reflexivity|]. intros v s (L & E). cbn [counts fst snd].
    exists v. split; [|split; assumption].
    eapply F_get; [reflexivity|].
    replace (Z.to_nat (s mod Z.of_nat modulus)) with v by lia. apply F_release.
Qed.

Lemma balance_app a b : (balance (a ++ b) = balance a + balance b)%Z.
Proof.
  induction a as [|[[t o] r] a IH]; [reflexivity|]. destruct o; cbn [app balance]; lia.
Qed.

Lemma counts_balance modulus s st (h : list (event cop cres)) order :
  atomic (counts modulus) 0%Z Inv Res s st h order -> s = balance order.
Proof.
  induction 1 as [|s st h order t o _ IH|s st h order t o s' r _ IH _ E|s st h order t r _ IH];
    auto. rewrite balance_app, <- IH. destruct o; cbn in E; injection E as <- <-; cbn; lia.
Qed.

(** Any number of threads, any interleaving of their steps: no undefined behaviour; the history
    is that of a counter whose calls take effect at one instant; its state is the number of
    increments minus the number of decrements, and no update is lost. *)
Theorem C83_linearizable : forall modulus moves, modulus <> 0 ->
  exists c h, run (counter_code modulus) (quiet counter_new) [] moves = Ok (c, h) /\
    exists s st order, atomic (counts modulus) 0%Z Inv Res s st h order /\ s = balance order.
Proof.
  intros modulus moves MP.
  destruct (run_good _ _ _ _ (counter_code modulus) (counts modulus) 0%Z (fun _ => True)
              (holds modulus) (sequential_counter modulus MP) moves (quiet counter_new) [])
    as (c & h & E & G).
  - apply start_good. split; [unfold counter_new; lia|]. rewrite Zmod_0_l. reflexivity.
  - apply Forall_forall. intros [t o|t] _; exact I.
  - exists c, h. split; [exact E|]. destruct G as (w & s & st & order & AT & _).
    exists s, st, order. split; [exact AT|]. exact (counts_balance _ _ _ _ _ AT).
Qed.

(** Two increments interleaved step by step are both counted. *)
Example C83_linearizable_case :
  match run (counter_code 256) (quiet counter_new) []
    ([Call 1 Increment; Call 2 Increment; Tick 1; Tick 1; Tick 2; Tick 2; Tick 1; Tick 1; Tick 1]
     ++ repeat (Tick 2) 5 ++ [Call 3 Current] ++ repeat (Tick 3) 4) with
  | Ok (_, h) => h
  | _ => []
  end
  = [Inv 1 Increment; Inv 2 Increment; Res 1 RSelf; Res 2 RSelf; Inv 3 Current;
     Res 3 (RValue 2)].
Proof. vm_compute. reflexivity. Qed.

Definition counter_reachable (modulus : nat) (c : config nat cres) (h : list (event cop cres)) : Prop :=
  exists moves, run (counter_code modulus) (quiet counter_new) [] moves = Ok (c, h).

Lemma counter_good modulus c h : modulus <> 0 -> counter_reachable modulus c h ->
  good _ _ _ _ (counter_code modulus) (counts modulus) 0%Z (fun _ => True) (holds modulus) c h.
Proof.
  intros MP (moves & E).
  destruct (run_good _ _ _ _ (counter_code modulus) (counts modulus) 0%Z (fun _ => True)
              (holds modulus) (sequential_counter modulus MP) moves (quiet counter_new) [])
    as (c2 & h2 & E2 & G).
  - apply start_good. split; [unfold counter_new; lia|]. rewrite Zmod_0_l. reflexivity.
  - apply Forall_forall. intros [t o|t] _; exact I.
  - rewrite E in E2. injection E2 as <- <-. exact G.
Qed.

(** There are no data races on the value. *)
Theorem C83_no_race : forall modulus c h t u,
  modulus <> 0 -> counter_reachable modulus c h -> accessing c t -> accessing c u -> t = u.
Proof.
  intros modulus c h t u MP R It Iu.
  eapply good_inside; [apply sequential_counter; exact MP|apply counter_good; eauto| |];
    apply accessing_inside; assumption.
Qed.

(** Every pending call can still return. *)
Theorem C83_no_deadlock : forall modulus c h t p,
  modulus <> 0 -> counter_reachable modulus c h -> c_threads c t = Some p ->
  exists moves c' h' r, run (counter_code modulus) c h moves = Ok (c', h') /\
    In (Res t r) (skipn (length h) h').
Proof.
  intros modulus c h t p MP R ET.
  destruct (good_can_finish _ _ _ _ (counter_code modulus) (counts modulus) 0%Z (fun _ => True)
              (holds modulus) (sequential_counter modulus MP) c h t p)
    as (mv & c' & h' & r & E & A1 & I1).
  - apply counter_good; assumption.
  - exact ET.
  - exists mv, c', h', r. auto.
Qed.

Print Assumptions C83_linearizable.
Print Assumptions C83_no_race.
Print Assumptions C83_no_deadlock.
