(** C88, C89, C90: theorems about the Windows implementations of Spin and Semaphore. *)
From Coq Require Import List Arith ZArith Lia.
From Verif Require Import Base WinLockModel WinLockSpec.
Import ListNotations.

Lemma tset_same {P} (f : nat -> option P) t x : tset f t x t = x.
Proof. unfold tset. rewrite Nat.eqb_refl. reflexivity. Qed.
Lemma tset_other {P} (f : nat -> option P) t x u : u <> t -> tset f t x u = f u.
Proof. intros N. unfold tset. destruct (Nat.eqb_spec u t); congruence. Qed.

Lemma trun_app {M Op R P} (start : Op -> P) (pstep : P -> M -> M * (P + R)) a b : forall c,
  trun start pstep c (a ++ b) =
  (fst (trun start pstep (fst (trun start pstep c a)) b),
   snd (trun start pstep c a) ++ snd (trun start pstep (fst (trun start pstep c a)) b)).
Proof.
  induction a as [|mv a IH]; intros c; cbn [app trun fst snd].
  - destruct (trun start pstep c b); reflexivity.
  - rewrite IH. cbn [fst snd]. rewrite app_assoc. reflexivity.
Qed.

(** * C88: the spin lock of Windows *)

Definition value_of (held : bool) : Z := if held then LOCKED else UNLOCKED.

Lemma complete_ok th held t o : (forall u, th u = None) -> (o = SLock -> held = false) ->
  exists th', srun (TC (value_of held) th) (complete (t, o)) =
    (TC (value_of (fst (spin_effect held o))) th', [TInv t o; TRes t (snd (spin_effect held o))]) /\
    forall u, th' u = None.
Proof.
  intros I NH.
  assert (F : forall f : nat -> option spc, (forall u, u <> t -> f u = None) -> forall u, tset f t None u = None).
  { intros f H u. destruct (Nat.eq_dec u t) as [->|D]; [apply tset_same|].
    rewrite tset_other by exact D. apply H. exact D. }
  unfold srun, complete. cbn [fst snd repeat trun tstep tc_threads]. rewrite (I t).
  destruct o; cbn [sstart fst snd tc_threads tc_mem].
  - rewrite (NH eq_refl). rewrite tset_same.
    cbn [spstep value_of UNLOCKED LOCKED Z.eqb Pos.eqb fst snd tc_threads tc_mem].
    rewrite tset_same. cbn [spstep fst snd tc_threads tc_mem]. rewrite tset_same.
    cbn [spstep LOCKED Z.eqb Pos.eqb fst snd tc_threads tc_mem app Z.land Pos.land].
    eexists. split; [reflexivity|]. apply F. intros u D. rewrite !tset_other by exact D. apply I.
  - rewrite tset_same. destruct held;
      cbn [spstep value_of UNLOCKED LOCKED Z.eqb Pos.eqb fst snd tc_threads tc_mem];
      rewrite tset_same; cbn [spstep fst snd tc_threads tc_mem]; rewrite ?tset_same;
      cbn [spstep fst snd tc_threads tc_mem]; rewrite ?tset_same;
      (eexists; split; [reflexivity|]; apply F; intros u D; rewrite ?tset_other by exact D; auto).
  - rewrite tset_same. cbn [spstep fst snd tc_threads tc_mem]. rewrite tset_same.
    cbn [fst snd tc_threads]. rewrite tset_same.
    eexists. split; [reflexivity|]. apply F. intros u D. rewrite ?tset_other by exact D. auto.
Qed.

(** Calls that do not overlap give what a lock should give, if lock() is never called on a lock
    that is held. Missing: exactly the cases a lock is for, calls that overlap and lock() of a
    lock that is held; both are refuted below. *)
Theorem C88_sequential_partial : forall calls,
  not_locked_twice false calls ->
  exists c, srun spin_new (concat (map complete calls)) = (c, spin_history false calls).
Proof.
  assert (K : forall calls held th, (forall u, th u = None) -> not_locked_twice held calls ->
    exists c, srun (TC (value_of held) th) (concat (map complete calls)) = (c, spin_history held calls)).
  { induction calls as [|[t o] calls IH]; intros held th I NL.
    - eexists. reflexivity.
    - destruct NL as (N1 & N2).
      destruct (complete_ok th held t o I N1) as (th' & E & I').
      destruct (IH _ th' I' N2) as (c & E2). exists c. unfold srun in *.
      cbn [map concat]. rewrite trun_app, E. cbn [fst snd]. rewrite E2. reflexivity. }
  intros calls NL. apply (K calls false (fun _ => None)); auto.
Qed.

Example C88_sequential_case :
  not_locked_twice false [(1, SLock); (2, STryLock); (1, SUnlock); (2, STryLock); (2, SUnlock); (1, SLock)] /\
  snd (srun spin_new (concat (map complete
    [(1, SLock); (2, STryLock); (1, SUnlock); (2, STryLock); (2, SUnlock); (1, SLock)])))
  = [TInv 1 SLock; TRes 1 SVoid; TInv 2 STryLock; TRes 2 (STried false); TInv 1 SUnlock;
     TRes 1 SVoid; TInv 2 STryLock; TRes 2 (STried true); TInv 2 SUnlock; TRes 2 SVoid;
     TInv 1 SLock; TRes 1 SVoid].
Proof. split; [cbn; repeat split; congruence|vm_compute; reflexivity]. Qed.

(** lock() does not exclude anybody: any number of threads can lock the same lock one after the
    other, and every call returns although nobody unlocks. *)
Theorem C88_lock_refuted : forall ts,
  exists c, srun spin_new (concat (map (fun t => complete (t, SLock)) ts))
    = (c, concat (map (fun t => [TInv t SLock; TRes t SVoid]) ts)).
Proof.
  assert (K : forall held ts th, (forall u, th u = None) ->
    exists c, srun (TC (value_of held) th) (concat (map (fun t => complete (t, SLock)) ts))
      = (c, concat (map (fun t => [TInv t SLock; TRes t SVoid]) ts))).
  { assert (B : forall t th, (forall u, th u = None) -> exists th',
      srun (TC LOCKED th) (complete (t, SLock)) = (TC LOCKED th', [TInv t SLock; TRes t SVoid]) /\
      forall u, th' u = None).
    { intros t th I. unfold srun, complete. cbn [fst snd repeat trun tstep tc_threads]. rewrite (I t).
      cbn [sstart fst snd tc_threads tc_mem]. rewrite tset_same.
      cbn [spstep LOCKED Z.eqb Pos.eqb fst snd tc_threads tc_mem Z.land Pos.land app].
      rewrite tset_same. cbn [fst snd tc_threads]. rewrite tset_same. eexists. split; [reflexivity|].
      intros u. destruct (Nat.eq_dec u t) as [->|D]; [apply tset_same|].
      rewrite !tset_other by exact D. apply I. }
    intros held ts. revert held. induction ts as [|t ts IH]; intros held th I; [eexists; reflexivity|].
    assert (S1 : exists th', srun (TC (value_of held) th) (complete (t, SLock))
                  = (TC LOCKED th', [TInv t SLock; TRes t SVoid]) /\ forall u, th' u = None).
    { destruct held; [exact (B t th I)|].
      exact (complete_ok th false t SLock I (fun _ => eq_refl)). }
    destruct S1 as (th' & E & I').
    destruct (IH true th' I') as (c & E2). exists c. unfold srun in *. cbn [map concat].
    rewrite trun_app, E. cbn [fst snd value_of] in *. rewrite E2. reflexivity. }
  intros ts. apply (K false ts (fun _ => None)). reflexivity.
Qed.

(** Two threads call tryLock() on a free lock at the same time: both get the lock. *)
Theorem C88_try_lock_refuted : forall a b, a <> b ->
  snd (srun spin_new [TCall a STryLock; TCall b STryLock; TTick a; TTick b; TTick a; TTick b])
  = [TInv a STryLock; TInv b STryLock; TRes a (STried true); TRes b (STried true)].
Proof.
  intros a b N. unfold srun, spin_new, tquiet.
  cbn [trun tstep tc_threads fst snd sstart tc_mem].
  repeat (rewrite ?tset_same, ?(tset_other _ a _ b) by congruence;
          rewrite ?(tset_other _ b _ a) by congruence;
          cbn [trun tstep tc_threads fst snd sstart tc_mem spstep UNLOCKED LOCKED Z.eqb Pos.eqb
               Z.land Pos.land Z.of_N]; try change (0 =? LOCKED)%Z with false; cbv iota).
  reflexivity.
Qed.

(** * C89, C90: the semaphore of Windows *)

(** Sums over threads. *)
Fixpoint sum (f : nat -> Z) (N : nat) : Z :=
  match N with O => 0%Z | S n => (f n + sum f n)%Z end.

Lemma sum_ext f g N : (forall t, t < N -> f t = g t) -> sum f N = sum g N.
Proof.
  induction N as [|N IH]; intros H; [reflexivity|]. cbn. rewrite H, IH; auto.
Qed.
Lemma sum_upd f t x N : t < N ->
  sum (fun u => if Nat.eqb u t then x else f u) N = (sum f N - f t + x)%Z.
Proof.
  induction N as [|N IH]; intros L; [lia|]. cbn [sum].
  destruct (Nat.eqb_spec N t) as [->|D].
  - rewrite (sum_ext _ f t); [lia|]. intros u Lu. destruct (Nat.eqb_spec u t); [lia|reflexivity].
  - rewrite IH by lia. lia.
Qed.
Lemma sum_more f N K : (forall t, N <= t -> f t = 0%Z) -> N <= K -> sum f K = sum f N.
Proof.
  intros H L. induction K as [|K IH]; [replace N with 0 by lia; reflexivity|].
  destruct (Nat.eq_dec N (S K)) as [->|D]; [reflexivity|]. cbn [sum]. rewrite H by lia.
  rewrite IH by lia. reflexivity.
Qed.

(** What a thread in the middle of a call has taken from the object and not yet written to
    value. *)
Definition debt (p : option wpc) : Z :=
  match p with
  | Some (WDecrement _) | Some WTryDecrement => 1
  | Some WIncrement => -1
  | _ => 0
  end.
(** Tokens held inside a call: about to be handed out, or being given back. *)
Definition carried (p : option wpc) : Z :=
  match p with
  | Some (WDecrement _) | Some WTryDecrement | Some WRelease => 1
  | _ => 0
  end.

Definition no_value (p : option wpc) : Prop :=
  match p with
  | Some WRead | Some (WExchange _) | Some WLoad | Some (WDecrement false) => False
  | _ => True
  end.

Definition balanced (v : nat) (c : tconfig wsem wpc) : Prop :=
  ws_object (tc_mem c) = true /\ ws_max (tc_mem c) = v /\ ws_count (tc_mem c) <= v /\
  (forall t, no_value (tc_threads c t)) /\
  exists N, (forall t, N <= t -> tc_threads c t = None) /\
    (ws_value (tc_mem c) = Z.of_nat (ws_count (tc_mem c)) + sum (fun t => debt (tc_threads c t)) N)%Z.

Definition owned (v : nat) (c : tconfig wsem wpc) (own : nat -> nat) : Prop :=
  exists N, (forall t, N <= t -> tc_threads c t = None /\ own t = 0) /\
    (Z.of_nat (ws_count (tc_mem c)) +
     sum (fun t => carried (tc_threads c t) + Z.of_nat (own t)) N = Z.of_nat v)%Z.

Lemma sum_set {X} (w : option X -> Z) (f : nat -> option X) t x N : t < N ->
  (sum (fun u => w (tset f t x u)) N = sum (fun u => w (f u)) N - w (f t) + w x)%Z.
Proof.
  intros L. rewrite <- (sum_upd (fun u => w (f u)) t (w x) N L). apply sum_ext.
  intros u _. unfold tset. destruct (u =? t); reflexivity.
Qed.

Lemma no_value_set (f : nat -> option wpc) t x : (forall u, no_value (f u)) -> no_value x ->
  forall u, no_value (tset f t x u).
Proof.
  intros H HX u. destruct (Nat.eq_dec u t) as [->|D]; [rewrite tset_same; exact HX|].
  rewrite tset_other by exact D. apply H.
Qed.

(** A step of a thread that changes its own state, the count and the value consistently. *)
Lemma balanced_set v c t m x : balanced v c ->
  ws_object m = true -> ws_max m = v -> ws_count m <= v -> no_value x ->
  (ws_value m - Z.of_nat (ws_count m) - debt x =
   ws_value (tc_mem c) - Z.of_nat (ws_count (tc_mem c)) - debt (tc_threads c t))%Z ->
  balanced v (TC m (tset (tc_threads c) t x)).
Proof.
  intros (_ & _ & _ & NV & N & I & E) O MX CT NX D.
  split; [exact O|]. split; [exact MX|]. split; [exact CT|].
  split; [apply no_value_set; assumption|].
  exists (Nat.max N (S t)). split.
  - intros u L. cbn [tc_threads]. rewrite tset_other by lia. apply I. lia.
  - cbn [tc_mem tc_threads]. rewrite sum_set by lia.
    rewrite (sum_more _ N) by (intros; rewrite ?I by lia; reflexivity || lia).
    cbn beta in *. lia.
Qed.

Lemma balanced_step v c mv : balanced v c ->
  (match mv with TCall _ WGetValue => False | _ => True end) ->
  balanced v (fst (tstep wstart wpstep c mv)).
Proof.
  intros B NG. pose proof B as (O & MX & CT & NV & _).
  destruct mv as [t o|t]; cbn [tstep].
  - destruct (tc_threads c t) as [p|] eqn:T; [exact B|]. cbn [fst].
    apply balanced_set; auto.
    + destruct o; exact I || contradiction.
    + rewrite T. destruct o; cbn; lia.
  - destruct (tc_threads c t) as [p|] eqn:T; [|exact B].
    specialize (NV t). rewrite T in NV.
    destruct p; cbn [wpstep no_value] in *; try contradiction.
    + rewrite O. destruct (ws_count (tc_mem c)) as [|n] eqn:EC; cbn [fst snd].
      * apply balanced_set; auto; cbn; rewrite ?T; cbn; lia.
      * apply balanced_set; auto; cbn; rewrite ?T, ?EC; cbn; lia.
    + destruct ok; [|contradiction]. cbn [fst]. apply balanced_set; auto; cbn; auto; rewrite ?T; cbn; lia.
    + rewrite O. destruct (ws_count (tc_mem c)) as [|n] eqn:EC; cbn [fst snd].
      * apply balanced_set; auto; cbn; auto; rewrite ?T; cbn; lia.
      * apply balanced_set; auto; cbn; rewrite ?T, ?EC; cbn; lia.
    + cbn [fst]. apply balanced_set; auto; cbn; auto; rewrite ?T; cbn; lia.
    + rewrite O. cbn [andb]. destruct (Nat.ltb_spec (ws_count (tc_mem c)) (ws_max (tc_mem c))); cbn [fst].
      * apply balanced_set; auto; cbn; auto; try lia; rewrite ?T; cbn; lia.
      * apply balanced_set; auto; cbn; auto; rewrite ?T; cbn; lia.
    + cbn [fst]. apply balanced_set; auto; cbn; auto; rewrite ?T; cbn; lia.
Qed.

Lemma balanced_new v : 1 <= v -> balanced v (tquiet (wsem_new v)).
Proof.
  intros L. split; [cbn; destruct v; [lia|reflexivity]|]. split; [reflexivity|]. split; [cbn; lia|].
  split; [intros t; exact I|]. exists 0. split; [reflexivity|]. cbn. lia.
Qed.

Lemma balanced_run v : forall moves c, balanced v c ->
  Forall (fun mv => match mv with TCall _ WGetValue => False | _ => True end) moves ->
  balanced v (fst (wrun c moves)).
Proof.
  induction moves as [|mv moves IH]; intros c B A; [exact B|].
  inversion A as [|? ? A1 A2]; subst. unfold wrun in *. cbn [trun fst]. apply IH; [|exact A2].
  apply balanced_step; assumption.
Qed.

(** C89. Any number of threads wait, try and post, in any interleaving; when all calls have
    returned, getValue() gives the number of waits that would not block, which is what the
    system knows. Missing: getValue() while other calls run (refuted below). *)
Theorem C89_value_partial : forall v moves c h t,
  1 <= v ->
  Forall (fun mv => match mv with TCall _ WGetValue => False | _ => True end) moves ->
  wrun (tquiet (wsem_new v)) moves = (c, h) -> (forall u, tc_threads c u = None) ->
  snd (wrun c (TCall t WGetValue :: repeat (TTick t) 3))
  = [TInv t WGetValue; TRes t (WValue (Z.of_nat (ws_count (tc_mem c))))].
Proof.
  intros v moves c h t L A E Q.
  pose proof (balanced_run v moves _ (balanced_new v L) A) as B. rewrite E in B. cbn [fst] in B.
  destruct B as (_ & _ & _ & _ & N & _ & EV).
  rewrite (sum_more _ 0 N) in EV; [|intros u _; rewrite Q; reflexivity|lia]. cbn [sum] in EV.
  unfold wrun. cbn [trun repeat tstep]. rewrite (Q t). cbn [fst snd tc_threads wstart tc_mem].
  rewrite tset_same. cbn [wpstep fst snd tc_threads tc_mem]. rewrite tset_same.
  cbn [wpstep fst snd tc_threads tc_mem set_wvalue ws_value]. rewrite tset_same.
  cbn [wpstep fst snd tc_threads tc_mem set_wvalue ws_value app].
  rewrite Z.add_0_r in EV. rewrite EV.
  destruct (Z.eqb_spec (Z.of_nat (ws_count (tc_mem c))) 1); reflexivity.
Qed.

Example C89_value_case :
  exists c h, wrun (tquiet (wsem_new 3))
    [TCall 1 WWait; TCall 2 WWait; TTick 2; TTick 1; TTick 1; TTick 2; TCall 1 WPost; TTick 1; TTick 1]
    = (c, h) /\ ws_count (tc_mem c) = 2 /\
    snd (wrun c (TCall 1 WGetValue :: repeat (TTick 1) 3)) = [TInv 1 WGetValue; TRes 1 (WValue 2)].
Proof. eexists _, _. split; [vm_compute; reflexivity|]. split; vm_compute; reflexivity. Qed.

(** getValue() of one thread while another one waits changes the semaphore: the value it will
    show from then on is too large by [v - 1], for a semaphore of any initial value from 2 on. *)
Lemma waits_down : forall j v w th,
  th 2 = None ->
  exists th', trun wstart wpstep (TC (WSem true (j + w) v (Z.of_nat (j + w))) th)
      (concat (repeat [TCall 2 WWait; TTick 2; TTick 2] j))
    = (TC (WSem true w v (Z.of_nat w)) th',
       concat (repeat [TInv 2 WWait; TRes 2 (WWaited true)] j)) /\
    th' 2 = None /\ forall u, u <> 2 -> th' u = th u.
Proof.
  induction j as [|j IH]; intros v w th T2.
  - exists th. auto.
  - cbn [repeat concat]. rewrite trun_app.
    assert (E : trun wstart wpstep (TC (WSem true (S j + w) v (Z.of_nat (S j + w))) th)
                  [TCall 2 WWait; TTick 2; TTick 2]
      = (TC (WSem true (j + w) v (Z.of_nat (j + w)))
            (tset (tset (tset th 2 (Some WBlock)) 2 (Some (WDecrement true))) 2 None),
         [TInv 2 WWait; TRes 2 (WWaited true)])).
    { cbn [trun tstep tc_threads]. rewrite T2. cbn [fst snd tc_threads tc_mem wstart].
      rewrite tset_same. cbn [wpstep ws_object ws_count Nat.add fst snd tc_threads tc_mem set_wcount].
      rewrite tset_same. cbn [wpstep fst snd tc_mem set_wvalue ws_object ws_count ws_max ws_value app].
      unfold set_wvalue, set_wcount. cbn [ws_object ws_count ws_max ws_value].
      replace (Z.of_nat (S (j + w)) - 1)%Z with (Z.of_nat (j + w)) by lia. reflexivity. }
    rewrite E. cbn [fst snd].
    destruct (IH v w (tset (tset (tset th 2 (Some WBlock)) 2 (Some (WDecrement true))) 2 None))
      as (th' & E' & T' & T1).
    + apply tset_same.
    + exists th'. rewrite E'. split; [reflexivity|]. split; [exact T'|].
      intros u D. rewrite T1, !tset_other by exact D. reflexivity.
Qed.

Theorem C89_get_value_refuted : forall v, 2 <= v ->
  exists c h, wrun (tquiet (wsem_new v))
    ([TCall 1 WGetValue; TTick 1] ++ concat (repeat [TCall 2 WWait; TTick 2; TTick 2] (v - 1))
     ++ [TTick 1; TTick 1]) = (c, h) /\
    tc_threads c 1 = None /\ tc_threads c 2 = None /\
    ws_count (tc_mem c) = 1 /\
    snd (wrun c (TCall 3 WGetValue :: repeat (TTick 3) 3))
    = [TInv 3 WGetValue; TRes 3 (WValue (Z.of_nat v))].
Proof.
  intros v L. unfold wrun. rewrite !trun_app.
  set (th1 := tset (tset (fun _ : nat => @None wpc) 1 (Some WRead)) 1 (Some (WExchange (Z.of_nat v)))).
  assert (E1 : trun wstart wpstep (tquiet (wsem_new v)) [TCall 1 WGetValue; TTick 1]
    = (TC (WSem true v v (Z.of_nat v)) th1, [TInv 1 WGetValue])).
  { unfold tquiet, wsem_new. replace (0 <? v) with true by (symmetry; apply Nat.ltb_lt; lia).
    reflexivity. }
  rewrite E1. cbn [fst snd].
  destruct (waits_down (v - 1) v 1 th1) as (th2 & E2 & T2 & T1).
  { reflexivity. }
  replace (v - 1 + 1) with v in E2 by lia. rewrite E2. cbn [fst snd].
  assert (T1' : th2 1 = Some (WExchange (Z.of_nat v))) by (rewrite T1 by lia; reflexivity).
  cbn [trun tstep tc_threads tc_mem]. rewrite T1'. cbn [wpstep fst snd tc_threads tc_mem set_wvalue ws_value].
  rewrite tset_same. cbn [wpstep fst snd tc_threads tc_mem].
  change (Z.of_nat 1 =? 1)%Z with true. cbn iota.
  eexists _, _. split; [reflexivity|]. cbn [tc_threads tc_mem fst snd ws_count set_wvalue].
  split; [apply tset_same|]. split; [rewrite !tset_other by lia; exact T2|]. split; [reflexivity|].
  assert (T3 : th2 3 = None) by (rewrite T1 by lia; reflexivity).
  cbn [trun repeat tstep tc_threads tc_mem]. rewrite !tset_other by lia. rewrite T3.
  cbn [wstart fst snd tc_threads tc_mem]. rewrite tset_same.
  cbn [wpstep fst snd tc_threads tc_mem ws_value]. rewrite tset_same.
  cbn [wpstep fst snd tc_threads tc_mem set_wvalue ws_value]. rewrite tset_same.
  cbn [wpstep fst snd tc_threads tc_mem set_wvalue ws_value app].
  destruct (Z.eqb_spec (Z.of_nat v) 1); reflexivity.
Qed.

(** C90. Threads give back only tokens they have taken: then post() never fails, and the threads
    never have more tokens than the semaphore was made with. *)
Lemma total_sum own N : Z.of_nat (total_tokens own N) = sum (fun t => Z.of_nat (own t)) N.
Proof. induction N as [|N IH]; [reflexivity|]. cbn [total_tokens sum]. lia. Qed.

Lemma sum_nonneg f N : (forall t, (0 <= f t)%Z) -> (0 <= sum f N)%Z.
Proof. intros H. induction N as [|N IH]; cbn [sum]; [lia|]. specialize (H N). lia. Qed.

Lemma sum_le f g N : (forall t, (f t <= g t)%Z) -> (sum f N <= sum g N)%Z.
Proof. intros H. induction N as [|N IH]; cbn [sum]; [lia|]. specialize (H N). lia. Qed.

Lemma carried_nonneg p : (0 <= carried p)%Z.
Proof. destruct p as [[]|]; cbn; lia. Qed.

Lemma owned_set v c own t m x n : owned v c own ->
  (Z.of_nat (ws_count m) + carried x + Z.of_nat n =
   Z.of_nat (ws_count (tc_mem c)) + carried (tc_threads c t) + Z.of_nat (own t))%Z ->
  owned v (TC m (tset (tc_threads c) t x)) (fun u => if u =? t then n else own u).
Proof.
  intros (N & I & E) D. exists (Nat.max N (S t)). split.
  - intros u L. cbn [tc_threads]. rewrite tset_other by lia.
    destruct (Nat.eqb_spec u t); [lia|]. apply I. lia.
  - cbn [tc_mem tc_threads].
    rewrite (sum_ext _ (fun u => if u =? t then (carried x + Z.of_nat n)%Z
                                 else (carried (tc_threads c u) + Z.of_nat (own u))%Z)).
    2:{ intros u _. unfold tset. destruct (u =? t); reflexivity. }
    rewrite (sum_upd (fun u => (carried (tc_threads c u) + Z.of_nat (own u))%Z)) by lia.
    rewrite (sum_more _ N) by (try lia; intros u Lu; destruct (I u Lu) as (-> & ->); reflexivity).
    lia.
Qed.

Lemma owned_ext v c own own' : (forall t, own t = own' t) -> owned v c own -> owned v c own'.
Proof.
  intros H (N & I & E). exists N. split; [intros t L; rewrite <- H; auto|].
  rewrite <- E. f_equal. apply sum_ext. intros t _. rewrite H. reflexivity.
Qed.

(** A step at which the tokens of nobody change. *)
Lemma owned_same v c own t m x : owned v c own ->
  (Z.of_nat (ws_count m) + carried x =
   Z.of_nat (ws_count (tc_mem c)) + carried (tc_threads c t))%Z ->
  owned v (TC m (tset (tc_threads c) t x)) own.
Proof.
  intros O D. eapply owned_ext; [|exact (owned_set v c own t m x (own t) O ltac:(lia))].
  intros u. cbn beta. destruct (Nat.eqb_spec u t) as [->|]; reflexivity.
Qed.

Lemma owned_room v c own t : owned v c own ->
  (Z.of_nat (ws_count (tc_mem c)) + carried (tc_threads c t) <= Z.of_nat v)%Z.
Proof.
  intros (N & I & E). destruct (le_lt_dec N t) as [G|L].
  - destruct (I t G) as (-> & _). cbn.
    pose proof (sum_nonneg (fun t => (carried (tc_threads c t) + Z.of_nat (own t))%Z) N) as P.
    specialize (P ltac:(intros u; cbn; pose proof (carried_nonneg (tc_threads c u)); lia)). lia.
  - pose proof (sum_upd (fun u => (carried (tc_threads c u) + Z.of_nat (own u))%Z) t 0 N L) as U.
    pose proof (sum_nonneg (fun u => if u =? t then 0%Z
                  else (carried (tc_threads c u) + Z.of_nat (own u))%Z) N) as P.
    specialize (P ltac:(intros u; cbn; destruct (u =? t); [lia|];
                        pose proof (carried_nonneg (tc_threads c u)); lia)).
    cbn beta in *. lia.
Qed.

Lemma owned_step v c own mv : balanced v c -> owned v c own ->
  Forall (gives_back own) (snd (tstep wstart wpstep c mv)) ->
  owned v (fst (tstep wstart wpstep c mv)) (tokens own (snd (tstep wstart wpstep c mv))) /\
  (forall t, ~ In (TRes t (WPosted false)) (snd (tstep wstart wpstep c mv))).
Proof.
  intros B OW G. pose proof B as (O & MX & CT & NV & _).
  destruct mv as [t o|t]; cbn [tstep] in *.
  - destruct (tc_threads c t) as [p|] eqn:T; [split; [exact OW|intros u []]|].
    cbn [fst snd] in *. pose proof (Forall_inv G) as G1.
    split; [|intros u [X|[]]; discriminate].
    unfold tokens. cbn [fold_left tokens_after].
    destruct o; cbn [gives_back] in G1; try contradiction.
    + apply owned_same; [exact OW|]. rewrite T. cbn. lia.
    + apply owned_same; [exact OW|]. rewrite T. cbn. lia.
    + eapply owned_ext; [|apply (owned_set v c own t _ (Some WRelease) (Nat.pred (own t)) OW)].
      * intros u. cbn beta. destruct (Nat.eqb_spec u t) as [->|]; reflexivity.
      * rewrite T. cbn [carried]. lia.
  - destruct (tc_threads c t) as [p|] eqn:T; [|split; [exact OW|intros u []]].
    pose proof (NV t) as NT. rewrite T in NT.
    destruct p; cbn [wpstep no_value] in *; try contradiction.
    + rewrite O. destruct (ws_count (tc_mem c)) as [|n] eqn:EC; cbn [fst snd];
        (split; [|intros u []]); unfold tokens; cbn [fold_left];
        apply owned_same; auto; cbn; rewrite ?T, ?EC; cbn; lia.
    + destruct ok; [|contradiction]. cbn [fst snd]. split; [|intros u [X|[]]; discriminate].
      unfold tokens. cbn [fold_left tokens_after].
      eapply owned_ext; [|apply (owned_set v c own t _ None (S (own t)) OW)].
      * intros u. cbn beta. destruct (Nat.eqb_spec u t) as [->|]; reflexivity.
      * rewrite T. cbn [carried ws_count set_wvalue]. lia.
    + rewrite O. destruct (ws_count (tc_mem c)) as [|n] eqn:EC; cbn [fst snd];
        (split; [|intros u; try (intros []; discriminate || contradiction); intros []]);
        unfold tokens; cbn [fold_left tokens_after];
        apply owned_same; auto; cbn; rewrite ?T, ?EC; cbn; lia.
    + cbn [fst snd]. split; [|intros u [X|[]]; discriminate].
      unfold tokens. cbn [fold_left tokens_after].
      eapply owned_ext; [|apply (owned_set v c own t _ None (S (own t)) OW)].
      * intros u. cbn beta. destruct (Nat.eqb_spec u t) as [->|]; reflexivity.
      * rewrite T. cbn [carried ws_count set_wvalue]. lia.
    + pose proof (owned_room v c own t OW) as RM. rewrite T in RM. cbn [carried] in RM.
      rewrite O. cbn [andb]. destruct (Nat.ltb_spec (ws_count (tc_mem c)) (ws_max (tc_mem c))); [|lia].
      cbn [fst snd]. split; [|intros u []]. unfold tokens. cbn [fold_left].
      apply owned_same; auto. cbn. rewrite T. cbn. lia.
    + cbn [fst snd]. split; [|intros u [X|[]]; discriminate].
      unfold tokens. cbn [fold_left tokens_after].
      apply owned_same; auto. cbn. rewrite T. cbn. lia.
Qed.

Lemma disciplined_step v c own mv : balanced v c ->
  Forall (gives_back own) (snd (tstep wstart wpstep c mv)) ->
  balanced v (fst (tstep wstart wpstep c mv)).
Proof.
  intros B G. destruct mv as [t o|t]; [|apply balanced_step; auto].
  destruct o; try (apply balanced_step; [exact B|exact I]).
  cbn [tstep] in *. destruct (tc_threads c t); [exact B|]. cbn [snd] in G.
  inversion G as [|? ? G1 _]. destruct G1.
Qed.

Lemma owned_run v : forall moves c own c' h, balanced v c -> owned v c own ->
  disciplined own c moves -> wrun c moves = (c', h) ->
  owned v c' (tokens own h) /\ forall t, ~ In (TRes t (WPosted false)) h.
Proof.
  induction moves as [|mv moves IH]; intros c own c' h B OW D E.
  - injection E as <- <-. split; [exact OW|intros t []].
  - destruct D as (G & D). cbn [trun wrun] in E. unfold wrun in E. cbn [trun] in E.
    injection E as E1 E2. destruct (owned_step v c own mv B OW G) as (O1 & NF).
    destruct (IH _ _ _ _ (disciplined_step v c own mv B G) O1 D (surjective_pairing _)) as (O2 & NF2).
    unfold wrun in O2, NF2. rewrite E1 in O2. split.
    + rewrite <- E2. unfold tokens. rewrite fold_left_app. exact O2.
    + intros t X. rewrite <- E2 in X. apply in_app_or in X as [X|X]; [exact (NF t X)|exact (NF2 t X)].
Qed.

Theorem C90_tokens_partial : forall v moves c h,
  1 <= v -> disciplined (fun _ => 0) (tquiet (wsem_new v)) moves ->
  wrun (tquiet (wsem_new v)) moves = (c, h) ->
  (forall t, ~ In (TRes t (WPosted false)) h) /\
  forall N, total_tokens (tokens (fun _ => 0) h) N <= v.
Proof.
  intros v moves c h L D E.
  destruct (owned_run v moves _ _ c h (balanced_new v L) ltac:(exists 0; split; [split; reflexivity|cbn; lia]) D E)
    as ((N0 & I & EQ) & NF).
  split; [exact NF|]. intros N.
  set (own := tokens (fun _ => 0) h) in *.
  assert (X : (sum (fun t => Z.of_nat (own t)) (Nat.max N N0) <= Z.of_nat v)%Z).
  { rewrite (sum_more _ N0) by (try lia; intros u Lu; destruct (I u Lu) as (_ & ->); reflexivity).
    pose proof (sum_le (fun t => Z.of_nat (own t)) (fun t => (carried (tc_threads c t) + Z.of_nat (own t))%Z) N0) as LE.
    specialize (LE ltac:(intros u; cbn; pose proof (carried_nonneg (tc_threads c u)); lia)).
    cbn beta in LE. lia. }
  assert (Y : forall a b, a <= b -> (sum (fun t => Z.of_nat (own t)) a <= sum (fun t => Z.of_nat (own t)) b)%Z).
  { intros a b LE. induction LE; [lia|]. cbn [sum]. lia. }
  specialize (Y N (Nat.max N N0) ltac:(lia)). rewrite <- total_sum in Y. lia.
Qed.

Example C90_tokens_case :
  exists c h, wrun (tquiet (wsem_new 1))
      [TCall 1 WWait; TCall 2 WWait; TTick 1; TTick 1; TTick 2; TCall 1 WPost; TTick 1; TTick 2;
       TTick 2; TTick 1] = (c, h) /\
    h = [TInv 1 WWait; TInv 2 WWait; TRes 1 (WWaited true); TInv 1 WPost; TRes 2 (WWaited true);
         TRes 1 (WPosted true)] /\
    disciplined (fun _ => 0) (tquiet (wsem_new 1))
      [TCall 1 WWait; TCall 2 WWait; TTick 1; TTick 1; TTick 2; TCall 1 WPost; TTick 1; TTick 2;
       TTick 2; TTick 1] /\
    total_tokens (tokens (fun _ => 0) h) 5 = 1.
Proof.
  eexists _, _. split; [vm_compute; reflexivity|]. split; [reflexivity|]. split; [|reflexivity].
  vm_compute. repeat (split || constructor || discriminate).
Qed.

(** A semaphore that is made with the value [v] cannot be posted above [v]: the first post of a
    new semaphore always fails, so it cannot be used to signal an event. *)
Theorem C90_post_refuted : forall v t,
  let r := wrun (tquiet (wsem_new v)) [TCall t WPost; TTick t] in
  snd r = [TInv t WPost; TRes t (WPosted false)] /\
  ws_count (tc_mem (fst r)) = v.
Proof.
  intros v t. unfold wrun, tquiet. cbn [trun tstep tc_threads fst snd wstart tc_mem].
  rewrite tset_same. cbn [wpstep wsem_new ws_object ws_count ws_max].
  rewrite Nat.ltb_irrefl, Bool.andb_false_r. split; reflexivity.
Qed.

(** wait() on a semaphore that is made with the value 0 does not wait: there is no system object,
    the call returns at once with an error, and getValue() is then negative. *)
Theorem C90_zero_refuted : forall t,
  snd (wrun (tquiet (wsem_new 0))
         ([TCall t WWait; TTick t; TTick t] ++ TCall t WGetValue :: repeat (TTick t) 3))
  = [TInv t WWait; TRes t (WWaited false); TInv t WGetValue; TRes t (WValue (-1))].
Proof.
  intros t. unfold wrun, tquiet.
  cbn [app repeat].
  repeat (cbn [trun tstep tc_threads fst snd wstart tc_mem wpstep wsem_new ws_object ws_count ws_max
       ws_value set_wvalue set_wcount app Nat.ltb Nat.leb Z.of_nat Z.sub Z.add Z.opp Z.eqb];
  rewrite ?tset_same).
  reflexivity.
Qed.

Print Assumptions C88_sequential_partial.
Print Assumptions C88_lock_refuted.
Print Assumptions C88_try_lock_refuted.
Print Assumptions C89_value_partial.
Print Assumptions C89_get_value_refuted.
Print Assumptions C90_tokens_partial.
Print Assumptions C90_post_refuted.
Print Assumptions C90_zero_refuted.
