(** C90: the tokens of a Semaphore on Windows after every history of calls. *)
From Coq Require Import List Arith ZArith Lia Bool.
From Verif Require Import Base WinLockModel WinLockSpec WinLockProps WinTokensSpec.
Import ListNotations.

(** What a thread in the middle of a call has taken, less what it has given back; the post()s that
    have not returned. *)
Definition taken (p : option wpc) : Z :=
  match p with
  | Some (WDecrement true) | Some WTryDecrement => 1
  | Some WIncrement => -1
  | _ => 0
  end.
Definition posting (p : option wpc) : Z :=
  match p with Some WRelease | Some WIncrement => 1 | _ => 0 end.

Lemma count_app f a b : count_of f (a ++ b) = count_of f a + count_of f b.
Proof. unfold count_of. rewrite filter_app, app_length. reflexivity. Qed.

Record ledger (v : nat) (c : tconfig wsem wpc) (h : list (tevent wop wres)) : Prop := {
  t_object : ws_object (tc_mem c) = true;
  t_max : ws_max (tc_mem c) = v;
  t_count : ws_count (tc_mem c) <= v;
  t_sound : forall t, tc_threads c t <> Some (WDecrement false);
  t_sum : exists N, (forall t, N <= t -> tc_threads c t = None) /\
    (Z.of_nat (ws_count (tc_mem c)) + sum (fun t => taken (tc_threads c t)) N + Z.of_nat (count_of passes h)
     = Z.of_nat v + Z.of_nat (count_of posts h))%Z /\
    (Z.of_nat (count_of posts h) + sum (fun t => posting (tc_threads c t)) N
     <= Z.of_nat (count_of calls_post h))%Z
}.

(** One thread goes from [tc_threads c t] to [x], and [e] is seen. *)
Lemma ledger_set v c h t m x e : ledger v c h ->
  ws_object m = true -> ws_max m = v -> ws_count m <= v -> x <> Some (WDecrement false) ->
  (Z.of_nat (ws_count m) + taken x + Z.of_nat (count_of passes e)
   = Z.of_nat (ws_count (tc_mem c)) + taken (tc_threads c t) + Z.of_nat (count_of posts e))%Z ->
  (Z.of_nat (count_of posts e) + posting x
   <= Z.of_nat (count_of calls_post e) + posting (tc_threads c t))%Z ->
  ledger v (TC m (tset (tc_threads c) t x)) (h ++ e).
Proof.
  intros [O M C S (N & I & E1 & E2)] O' M' C' X D1 D2. split; cbn [tc_mem tc_threads]; auto.
  - intros u. unfold tset. destruct (u =? t); auto.
  - exists (Nat.max N (Datatypes.S t)). split; [|split].
    + intros u L. rewrite tset_other by lia. apply I. lia.
    + rewrite sum_set by lia. rewrite !count_app.
      rewrite (sum_more _ N (Nat.max N (Datatypes.S t))) by (try lia; intros u Lu; rewrite I by exact Lu; reflexivity).
      lia.
    + rewrite sum_set by lia. rewrite !count_app.
      rewrite (sum_more _ N (Nat.max N (Datatypes.S t))) by (try lia; intros u Lu; rewrite I by exact Lu; reflexivity).
      lia.
Qed.

Lemma ledger_step v c h mv : ledger v c h ->
  ledger v (fst (tstep wstart wpstep c mv)) (h ++ snd (tstep wstart wpstep c mv)).
Proof.
  intros L. pose proof L as [O M C S _].
  destruct mv as [t o|t]; cbn [tstep].
  - destruct (tc_threads c t) as [p|] eqn:T; cbn [fst snd]; [rewrite app_nil_r; exact L|].
    apply ledger_set; auto; [destruct o; discriminate| |];
      rewrite T; destruct o; cbn [taken posting count_of passes posts calls_post filter length wstart]; lia.
  - destruct (tc_threads c t) as [p|] eqn:T; [|cbn [fst snd]; rewrite app_nil_r; exact L].
    specialize (S t). rewrite T in S.
    destruct p; cbn [wpstep].
    + rewrite O. destruct (ws_count (tc_mem c)) as [|n] eqn:EC; cbn [fst snd];
        apply ledger_set; cbn [set_wcount ws_object ws_max ws_count]; auto; try discriminate; try lia;
        rewrite ?T, ?EC; cbn [taken posting count_of passes posts calls_post filter length]; lia.
    + destruct ok; [|congruence]. cbn [fst snd]. apply ledger_set; cbn [set_wvalue ws_object ws_max ws_count];
        auto; try discriminate; rewrite ?T; cbn [taken posting count_of passes posts calls_post filter length]; lia.
    + rewrite O. destruct (ws_count (tc_mem c)) as [|n] eqn:EC; cbn [fst snd];
        apply ledger_set; cbn [set_wcount ws_object ws_max ws_count]; auto; try discriminate; try lia;
        rewrite ?T, ?EC; cbn [taken posting count_of passes posts calls_post filter length]; lia.
    + cbn [fst snd]. apply ledger_set; cbn [set_wvalue ws_object ws_max ws_count];
        auto; try discriminate; rewrite ?T; cbn [taken posting count_of passes posts calls_post filter length]; lia.
    + rewrite O, M. cbn [andb].
      destruct (Nat.ltb_spec (ws_count (tc_mem c)) v); cbn [fst snd];
        apply ledger_set; cbn [set_wcount ws_object ws_max ws_count]; auto; try discriminate; try lia;
        rewrite ?T; cbn [taken posting count_of passes posts calls_post filter length]; lia.
    + cbn [fst snd]. apply ledger_set; cbn [set_wvalue ws_object ws_max ws_count];
        auto; try discriminate; rewrite ?T; cbn [taken posting count_of passes posts calls_post filter length]; lia.
    + cbn [fst snd]. apply ledger_set; auto; try discriminate; rewrite ?T; cbn [taken posting count_of passes posts calls_post filter length]; lia.
    + cbn [fst snd]. apply ledger_set; cbn [set_wvalue ws_object ws_max ws_count];
        auto; try discriminate; rewrite ?T; cbn [taken posting count_of passes posts calls_post filter length]; lia.
    + cbn [fst snd]. apply ledger_set; auto; try discriminate; rewrite ?T; cbn [taken posting count_of passes posts calls_post filter length]; lia.
Qed.

Lemma ledger_run v : forall moves c h, ledger v c h ->
  ledger v (fst (wrun c moves)) (h ++ snd (wrun c moves)).
Proof.
  induction moves as [|mv moves IH]; intros c h L; unfold wrun; cbn [trun].
  - cbn [fst snd]. rewrite app_nil_r. exact L.
  - cbn [fst snd]. rewrite app_assoc. apply IH, ledger_step, L.
Qed.

Lemma ledger_new v : 1 <= v -> ledger v (tquiet (wsem_new v)) [].
Proof.
  intros L. split; cbn [tquiet tc_mem tc_threads wsem_new ws_object ws_max ws_count]; auto; try discriminate.
  - destruct v; [lia|reflexivity].
  - exists 0. split; [auto|]. cbn. lia.
Qed.

Lemma sum_zero f N : (forall t, f t = 0%Z) -> sum f N = 0%Z.
Proof. intros H. induction N as [|N IH]; cbn [sum]; [reflexivity|]. rewrite H, IH. reflexivity. Qed.

(** Any history of calls of a semaphore made with [v] tokens. At any time no more waits have passed
    than there were tokens and calls of post(). When nobody is in a call the tokens there are those
    at the beginning, less the waits that passed, and with the posts that succeeded: and those are
    the posts made when there were less than [v]. *)
Theorem C90_exact_partial : forall v moves c h,
  1 <= v -> wrun (tquiet (wsem_new v)) moves = (c, h) ->
  count_of passes h <= v + count_of calls_post h /\
  (all_idle c ->
   exists free, free + count_of passes h = v + count_of posts h /\ free <= v /\
     forall t, next_calls v free c t).
Proof.
  intros v moves c h V E. pose proof (ledger_run v moves _ [] (ledger_new v V)) as L.
  rewrite E in L. cbn [fst snd app] in L. destruct L as [O M C S (N & I & E1 & E2)]. split.
  - assert (G : (- sum (fun t => posting (tc_threads c t)) N <= sum (fun t => taken (tc_threads c t)) N)%Z).
    { clear. induction N as [|N IH]; cbn [sum]; [lia|].
      destruct (tc_threads c N) as [[| [|] | | | | | | |]|]; cbn [taken posting]; lia. }
    lia.
  - intros Q. exists (ws_count (tc_mem c)).
    rewrite sum_zero in E1 by (intros t; rewrite Q; reflexivity).
    split; [lia|]. split; [exact C|]. intros t. unfold next_calls, wrun.
    destruct c as [m th]. cbn [tc_mem tc_threads] in *. unfold all_idle in Q. cbn [tc_threads] in Q.
    repeat split.
    + cbn [trun tstep tc_threads fst snd wstart tc_mem app]. rewrite Q.
      cbn [trun tstep tc_threads fst snd wstart tc_mem app]. rewrite tset_same. cbn [wpstep]. rewrite O.
      destruct (ws_count m) as [|n]; cbn [trun tstep tc_threads fst snd wstart tc_mem app]; rewrite tset_same; reflexivity.
    + cbn [trun tstep tc_threads fst snd wstart tc_mem app]. rewrite Q.
      cbn [trun tstep tc_threads fst snd wstart tc_mem app]. rewrite tset_same. cbn [wpstep]. rewrite O, M. cbn [andb].
      destruct (ws_count m <? v); cbn [trun tstep tc_threads fst snd wstart tc_mem app]; rewrite tset_same; reflexivity.
    + intros F. cbn [trun tstep tc_threads fst snd wstart tc_mem app]. rewrite Q.
      cbn [trun tstep tc_threads fst snd wstart tc_mem app]. rewrite tset_same. cbn [wpstep]. rewrite O.
      destruct (ws_count m) as [|n]; [lia|].
      cbn [trun tstep tc_threads fst snd wstart tc_mem app]. rewrite tset_same. reflexivity.
    + intros F n. cbn [trun tstep tc_threads fst snd wstart tc_mem]. rewrite Q.
      cbn [fst snd app]. f_equal.
      assert (K : forall f : nat -> option wpc, f t = Some WBlock ->
                snd (trun wstart wpstep (TC m f) (repeat (TTick t) n)) = []).
      { clear - O F. induction n as [|n IH]; intros f H; [reflexivity|].
        cbn [repeat trun tstep tc_threads]. rewrite H. cbn [wpstep tc_mem]. rewrite O, F.
        cbn [fst snd app]. apply IH. apply tset_same. }
      apply K, tset_same.
Qed.

(** Two tokens; three posts, one of them with nothing to give back, and a wait. *)
Example C90_exact_case :
  let moves := [TCall 5 WWait; TTick 5; TTick 5; TCall 5 WPost; TTick 5; TTick 5; TCall 6 WPost; TTick 6;
                TCall 7 WTryWait; TTick 7; TTick 7; TCall 8 WGetValue; TTick 8; TTick 8; TTick 8] in
  let r := wrun (tquiet (wsem_new 2)) moves in
  snd r = [TInv 5 WWait; TRes 5 (WWaited true); TInv 5 WPost; TRes 5 (WPosted true); TInv 6 WPost;
           TRes 6 (WPosted false); TInv 7 WTryWait; TRes 7 (WTried true); TInv 8 WGetValue; TRes 8 (WValue 1)] /\
  count_of passes (snd r) = 2 /\ count_of posts (snd r) = 1 /\ count_of calls_post (snd r) = 2 /\
  map (tc_threads (fst r)) [5; 6; 7; 8] = [None; None; None; None].
Proof. vm_compute. repeat split. Qed.

(** A semaphore made with the value 0 has no object of the system: no call ever succeeds, whatever
    is posted, and none waits. *)
Theorem C90_zero_partial : forall moves c h,
  wrun (tquiet (wsem_new 0)) moves = (c, h) ->
  Forall fails h /\ (forall t, tc_threads (fst (wrun c [TTick t; TTick t; TTick t])) t = None).
Proof.
  assert (K : forall moves c, ws_object (tc_mem c) = false ->
    (forall t, match tc_threads c t with
               | Some (WDecrement true) | Some WTryDecrement | Some WIncrement => False | _ => True end) ->
    Forall fails (snd (wrun c moves)) /\ ws_object (tc_mem (fst (wrun c moves))) = false /\
    (forall t, match tc_threads (fst (wrun c moves)) t with
               | Some (WDecrement true) | Some WTryDecrement | Some WIncrement => False | _ => True end)).
  { induction moves as [|mv moves IH]; intros c O S; unfold wrun; cbn [trun fst snd]; [auto|].
    assert (W : forall (f : nat -> option wpc) t x,
      (forall u, match f u with
                 | Some (WDecrement true) | Some WTryDecrement | Some WIncrement => False | _ => True end) ->
      match x with
      | Some (WDecrement true) | Some WTryDecrement | Some WIncrement => False | _ => True end ->
      forall u, match tset f t x u with
                | Some (WDecrement true) | Some WTryDecrement | Some WIncrement => False | _ => True end).
    { intros f t x F X u. unfold tset. destruct (u =? t); [exact X|apply F]. }
    assert (G : Forall fails (snd (tstep wstart wpstep c mv)) /\
                ws_object (tc_mem (fst (tstep wstart wpstep c mv))) = false /\
                forall t, match tc_threads (fst (tstep wstart wpstep c mv)) t with
                  | Some (WDecrement true) | Some WTryDecrement | Some WIncrement => False | _ => True end).
    { destruct mv as [t o|t]; cbn [tstep].
      - destruct (tc_threads c t) as [p|]; cbn [fst snd tc_mem tc_threads]; [auto|].
        split; [apply Forall_cons; [exact I|apply Forall_nil]|]. split; [exact O|].
        apply W; [exact S|]. destruct o; exact I.
      - destruct (tc_threads c t) as [p|] eqn:T; cbn [fst snd]; [|auto].
        pose proof (S t) as St. rewrite T in St.
        destruct p as [|[|]| | | | | |x|]; cbn [wpstep]; rewrite ?O; cbn [andb]; try contradiction;
          cbn [fst snd tc_mem tc_threads set_wvalue ws_object];
          (split; [first [apply Forall_nil | apply Forall_cons; [first [exact I|reflexivity]|apply Forall_nil]]|]);
          (split; [exact O|]); apply W; try exact S; exact I. }
    destruct G as (G1 & G2 & G3). destruct (IH _ G2 G3) as (H1 & H2 & H3).
    split; [apply Forall_app; auto|]. auto. }
  intros moves c h E. destruct (K moves (tquiet (wsem_new 0))) as (H1 & H2 & H3); [reflexivity|intros t; exact I|].
  rewrite E in H1, H2, H3. cbn [fst snd] in H1, H2, H3. split; [exact H1|]. intros t.
  specialize (H3 t). unfold wrun. cbn [trun fst snd].
  destruct c as [m f]. cbn [tc_mem tc_threads] in *.
  destruct (f t) as [[|[|]| | | | | |x|]|] eqn:T; try contradiction;
    repeat (cbn [tstep tc_threads tc_mem wpstep fst snd set_wvalue set_wcount ws_object]; rewrite ?T, ?tset_same, ?H2; cbn [andb]);
    try reflexivity; exact T.
Qed.

Example C90_zero_case :
  snd (wrun (tquiet (wsem_new 0)) [TCall 1 WPost; TTick 1; TCall 2 WTryWait; TTick 2; TCall 3 WWait; TTick 3; TTick 3])
  = [TInv 1 WPost; TRes 1 (WPosted false); TInv 2 WTryWait; TRes 2 (WTried false); TInv 3 WWait; TRes 3 (WWaited false)].
Proof. reflexivity. Qed.

Print Assumptions C90_exact_partial.
Print Assumptions C90_zero_partial.
