(** C196 - C199: bytes through a TCP connection, how errors are told, and the queries. *)
From Coq Require Import List Arith ZArith Bool Lia.
From Verif Require Import Base TcpStreamModel TcpStreamSpec.
Import ListNotations.
Local Open Scope Z_scope.

(** * Auxiliary *)

Lemma from_set_from c s d s' : from (set_from c s d) s' = if Bool.eqb s' s then d else from c s'.
Proof. reflexivity. Qed.
Lemma end_set_from c s d s' : end_of (set_from c s d) s' = end_of c s'.
Proof. reflexivity. Qed.
Lemma from_set_end c s e s' : from (set_end c s e) s' = from c s'.
Proof. reflexivity. Qed.
Lemma end_set_end c s e s' : end_of (set_end c s e) s' = if Bool.eqb s' s then e else end_of c s'.
Proof. reflexivity. Qed.

Lemma to_int_le n : (Z.to_nat (to_int (Z.of_nat n)) <= n)%nat.
Proof.
  unfold to_int. assert (H := Z.mod_le (Z.of_nat n + 2 ^ 31) (2 ^ 32) ltac:(lia) ltac:(lia)). lia.
Qed.
Lemma size_for_le p n : (Z.to_nat (size_for p n) <= n)%nat.
Proof. destruct p; cbn [size_for]; [ lia | apply to_int_le ]. Qed.
Lemma size_for_fits p n : fits p n -> size_for p n = Z.of_nat n.
Proof.
  destruct p; cbn [fits size_for]; [ reflexivity | intros H ]. unfold to_int.
  rewrite Z.mod_small by lia. lia.
Qed.
Lemma moved_le a n : (moved a n <= n)%nat.
Proof. unfold moved. lia. Qed.
Lemma moved_pos a n : (0 < n)%nat -> (0 < moved a n)%nat.
Proof. unfold moved. lia. Qed.
Lemma bad_pos p : 0 < bad_descriptor p.
Proof. destruct p; reflexivity. Qed.

(** What a send does: it fails and nothing is moved, or the first bytes are put behind the others. *)
Lemma send_cases p c s data a c' r :
  tcp_send p c s data a = Ran (c', r) -> 0 < error a ->
  (r = -1 /\ (forall s', from c' s' = from c s')
   /\ (forall s', is_open (end_of c' s') = is_open (end_of c s'))
   /\ (forall s', ignores (end_of c' s') = ignores (end_of c s'))
   /\ status (end_of c' s) < 0 /\ status (end_of c' (negb s)) = status (end_of c (negb s)))
  \/ (exists n : nat, r = Z.of_nat n /\ (n <= length data)%nat /\ is_open (end_of c s) = true
      /\ end_of c' = end_of c /\ from c' (negb s) = from c (negb s)
      /\ from c' s = Dir (flight (from c s) ++ firstn n data) (ended (from c s)) (refused (from c s))
      /\ n = moved a (Z.to_nat (size_for p (length data)))).
Proof.
  unfold tcp_send, sys_send. intros H E. assert (B := bad_pos p).
  assert (F : forall z, 0 < z ->
    match @Ran (direction * Z) (from c s, - z) with
    | Ran (d, result) =>
        let c := set_from c s d in
        if result <? 0
        then Ran (set_end c s (End (is_open (end_of c s)) result (ignores (end_of c s))), -1)
        else Ran (c, result)
    | Waits => Waits
    | Killed => Killed
    end = Ran (c', r) -> r = -1 /\ (forall s', from c' s' = from c s')
   /\ (forall s', is_open (end_of c' s') = is_open (end_of c s'))
   /\ (forall s', ignores (end_of c' s') = ignores (end_of c s'))
   /\ status (end_of c' s) < 0 /\ status (end_of c' (negb s)) = status (end_of c (negb s))).
  { intros z Hz. cbv zeta iota beta. destruct (- z <? 0) eqn:L; [ | apply Z.ltb_ge in L; lia ].
    intros [= <- <-]. split; [ reflexivity | ].
    split. { intros s'. rewrite from_set_end, from_set_from. destruct (Bool.eqb s' s) eqn:Q; [ | reflexivity ].
      apply eqb_prop in Q. subst. reflexivity. }
    split. { intros s'. rewrite end_set_end. destruct (Bool.eqb s' s) eqn:Q; [ | reflexivity ].
      apply eqb_prop in Q. subst. reflexivity. }
    split. { intros s'. rewrite end_set_end. destruct (Bool.eqb s' s) eqn:Q; [ | reflexivity ].
      apply eqb_prop in Q. subst. reflexivity. }
    split. { rewrite end_set_end, eqb_reflx. cbn [status]. lia. }
    rewrite end_set_end. destruct s; reflexivity. }
  destruct (is_open (end_of c s)) eqn:O; cbn [negb] in H; [ | left; exact (F _ B H) ].
  destruct (refused (from c s)) eqn:R.
  { destruct p; [ destruct (ignores (end_of c s)); [ left; exact (F EPIPE ltac:(reflexivity) H) | discriminate ] | ].
    left. exact (F _ E H). }
  destruct ((size_for p (length data) <? 0) || fails a); [ left; exact (F _ E H) | ].
  right. exists (moved a (Z.to_nat (size_for p (length data)))).
  destruct (Z.of_nat (moved a (Z.to_nat (size_for p (length data)))) <? 0) eqn:L;
    [ apply Z.ltb_lt in L; lia | ].
  injection H as <- <-.
  assert (M := moved_le a (Z.to_nat (size_for p (length data)))). assert (S1 := size_for_le p (length data)).
  repeat split; try assumption; try lia.
  - rewrite from_set_from. destruct s; reflexivity.
  - rewrite from_set_from, eqb_reflx. reflexivity.
Qed.

(** What a receive does. *)
Lemma receive_cases p c s size a c' r bytes :
  tcp_receive p c s size a = Ran (c', r, bytes) -> 0 < error a ->
  (r = -1 /\ bytes = [] /\ (forall s', from c' s' = from c s')
   /\ (forall s', is_open (end_of c' s') = is_open (end_of c s'))
   /\ (forall s', ignores (end_of c' s') = ignores (end_of c s'))
   /\ status (end_of c' s) < 0 /\ status (end_of c' (negb s)) = status (end_of c (negb s)))
  \/ (r = Z.of_nat (length bytes) /\ (length bytes <= size)%nat /\ end_of c' = end_of c
      /\ from c' s = from c s /\ is_open (end_of c s) = true
      /\ flight (from c (negb s)) = bytes ++ flight (from c' (negb s))
      /\ ended (from c' (negb s)) = ended (from c (negb s))
      /\ refused (from c' (negb s)) = refused (from c (negb s))
      /\ (bytes = [] -> (0 < size)%nat -> fits p size ->
          flight (from c (negb s)) = [] /\ ended (from c (negb s)) = true)).
Proof.
  unfold tcp_receive, sys_recv. intros H E. assert (B := bad_pos p).
  assert (F : forall z, 0 < z ->
    match @Ran (direction * Z * list Z) (from c (negb s), - z, []) with
    | Ran (d, result, bytes) =>
        let c := set_from c (negb s) d in
        if result <? 0
        then Ran (set_end c s (End (is_open (end_of c s)) result (ignores (end_of c s))), -1, bytes)
        else Ran (c, result, bytes)
    | Waits => Waits
    | Killed => Killed
    end = Ran (c', r, bytes) -> r = -1 /\ bytes = [] /\ (forall s', from c' s' = from c s')
   /\ (forall s', is_open (end_of c' s') = is_open (end_of c s'))
   /\ (forall s', ignores (end_of c' s') = ignores (end_of c s'))
   /\ status (end_of c' s) < 0 /\ status (end_of c' (negb s)) = status (end_of c (negb s))).
  { intros z Hz. cbv zeta iota beta. destruct (- z <? 0) eqn:L; [ | apply Z.ltb_ge in L; lia ].
    intros [= <- <- <-]. split; [ reflexivity | ]. split; [ reflexivity | ].
    split. { intros s'. rewrite from_set_end, from_set_from. destruct (Bool.eqb s' (negb s)) eqn:Q; [ | reflexivity ].
      apply eqb_prop in Q. subst. reflexivity. }
    split. { intros s'. rewrite end_set_end. destruct (Bool.eqb s' s) eqn:Q; [ | reflexivity ].
      apply eqb_prop in Q. subst. reflexivity. }
    split. { intros s'. rewrite end_set_end. destruct (Bool.eqb s' s) eqn:Q; [ | reflexivity ].
      apply eqb_prop in Q. subst. reflexivity. }
    split. { rewrite end_set_end, eqb_reflx. cbn [status]. lia. }
    rewrite end_set_end. destruct s; reflexivity. }
  destruct (is_open (end_of c s)) eqn:O; cbn [negb] in H; [ | left; exact (F _ B H) ].
  destruct ((size_for p size <? 0) || fails a) eqn:N; [ left; exact (F _ E H) | ].
  right. apply orb_false_iff in N as [N _]. apply Z.ltb_ge in N.
  assert (S1 := size_for_le p size).
  destruct (flight (from c (negb s))) as [ | b0 bs ] eqn:Q.
  - destruct (ended (from c (negb s))) eqn:D; [ | discriminate ].
    change (0 <? 0) with false in H. cbv iota zeta beta in H. injection H as <- <- <-.
    repeat rewrite from_set_from. rewrite eqb_reflx. cbn [length].
    split; [ reflexivity | ]. split; [ lia | ]. split; [ reflexivity | ].
    split; [ destruct s; reflexivity | ]. split; [ reflexivity | ].
    split; [ now rewrite Q | ]. split; [ auto | ]. split; [ reflexivity | ].
    intros _ _ _. auto.
  - remember (b0 :: bs) as bytes0 eqn:E0.
    set (n := moved a (Nat.min (Z.to_nat (size_for p size)) (length bytes0))) in *.
    assert (M := moved_le a (Nat.min (Z.to_nat (size_for p size)) (length bytes0))). fold n in M.
    assert (H2 : Ran (set_from c (negb s)
                 (Dir (skipn n bytes0) (ended (from c (negb s))) (refused (from c (negb s)))),
                 Z.of_nat n, firstn n bytes0) = Ran (c', r, bytes)).
    { rewrite <- H. clear H M. subst n. destruct bytes0 as [ | x xs ]; [ discriminate | ].
      cbv iota beta zeta.
      destruct (Z.of_nat (moved a (Nat.min (Z.to_nat (size_for p size)) (length (x :: xs)))) <? 0) eqn:L;
        [ apply Z.ltb_lt in L; lia | reflexivity ]. }
    clear H. injection H2 as <- <- <-.
    repeat rewrite from_set_from. rewrite eqb_reflx. cbn [flight ended refused].
    assert (Hl : length (firstn n bytes0) = n) by (rewrite firstn_length; lia).
    split; [ rewrite Hl; reflexivity | ]. split; [ lia | ]. split; [ reflexivity | ].
    split; [ destruct s; reflexivity | ]. split; [ reflexivity | ].
    split; [ symmetry; apply firstn_skipn | ]. split; [ reflexivity | ]. split; [ reflexivity | ].
    intros Hn Hs Hf. exfalso. rewrite Hn in Hl. cbn in Hl.
    assert (P : (0 < Nat.min (Z.to_nat (size_for p size)) (length bytes0))%nat).
    { rewrite size_for_fits by assumption. rewrite E0. cbn [length]. lia. }
    apply moved_pos with (a := a) in P. fold n in P. lia.
Qed.

(** The bytes that were sent are the bytes received and those on the way. A direction is ended only
    when its writer is closed. *)
Definition whole (c0 c : conn) (trace : list (tcall * Z * list Z)) : Prop :=
  forall s, flight (from c0 s) ++ said_sent s trace = stored (negb s) trace ++ flight (from c s).
Definition ended_closed (c : conn) : Prop :=
  forall s, ended (from c s) = true -> is_open (end_of c s) = false.

Lemma firstn_neg1 (l : list Z) : firstn (Z.to_nat (-1)) l = [].
Proof. reflexivity. Qed.

Lemma step_whole p c t c' r bytes :
  proper t -> tstep p c t = Ran (c', r, bytes) ->
  whole c c' [(t, r, bytes)] /\ (ended_closed c -> ended_closed c')
  /\ (forall s, is_open (end_of c s) = false -> is_open (end_of c' s) = false)
  /\ (forall s, ended (from c s) = true -> ended (from c' s) = true).
Proof.
  intros P H. destruct t as [ s data a | s size a | s | s ]; cbn [tstep proper] in *.
  - destruct (tcp_send p c s data a) as [ [c1 r1] | | ] eqn:T; [ | discriminate | discriminate ].
    injection H as <- <- <-. apply send_cases in T; [ | assumption ].
    destruct T as [ (-> & F & O & _) | (n & -> & L & O & E & F1 & F2 & _) ].
    + split. { intros s'. cbn [said_sent stored]. rewrite firstn_neg1, F.
        destruct (Bool.eqb s s'); cbn [app]; now rewrite app_nil_r. }
      split. { intros Q s'. rewrite F, O. apply Q. }
      split. { intros s'. now rewrite O. } { intros s'. now rewrite F. }
    + split. { intros s'. cbn [said_sent stored]. rewrite Nat2Z.id. destruct (Bool.eqb s s') eqn:Q.
        - apply eqb_prop in Q. subst s'. rewrite F2. cbn [flight app]. now rewrite app_nil_r.
        - assert (s' = negb s) as -> by (destruct s, s'; auto; discriminate).
          rewrite F1. cbn [app]. now rewrite app_nil_r. }
      assert (D : forall s', ended (from c1 s') = ended (from c s')).
      { intros s'. destruct (Bool.eqb s' s) eqn:Q.
        - apply eqb_prop in Q. subst s'. now rewrite F2.
        - assert (s' = negb s) as -> by (destruct s, s'; auto; discriminate). now rewrite F1. }
      split. { intros Q s'. rewrite D, E. apply Q. }
      split. { intros s'. now rewrite E. } { intros s'. now rewrite D. }
  - apply receive_cases in H; [ | assumption ].
    destruct H as [ (-> & -> & F & O & _) | (-> & L & E & F1 & O & F2 & F3 & _) ].
    + split. { intros s'. cbn [said_sent stored]. rewrite F.
        destruct (Bool.eqb s (negb s')); cbn [app]; now rewrite app_nil_r. }
      split. { intros Q s'. rewrite F, O. apply Q. }
      split. { intros s'. now rewrite O. } { intros s'. now rewrite F. }
    + split. { intros s'. cbn [said_sent stored]. rewrite app_nil_r. destruct (Bool.eqb s (negb s')) eqn:Q.
        - apply eqb_prop in Q. subst s. rewrite negb_involutive in F2. rewrite F2, app_nil_r. reflexivity.
        - assert (s' = s) as -> by (destruct s, s'; auto; discriminate). now rewrite F1. }
      assert (D : forall s', ended (from c' s') = ended (from c s')).
      { intros s'. destruct (Bool.eqb s' s) eqn:Q.
        - apply eqb_prop in Q. subst s'. now rewrite F1.
        - assert (s' = negb s) as -> by (destruct s, s'; auto; discriminate). now rewrite F3. }
      split. { intros Q s'. rewrite D, E. apply Q. }
      split. { intros s'. now rewrite E. } { intros s'. now rewrite D. }
  - injection H as <- <- <-. unfold tcp_close.
    split. { intros s'. cbn [said_sent stored]. rewrite from_set_end, from_set_from, app_nil_r. cbn [app].
      destruct (Bool.eqb s' s) eqn:Q; [ apply eqb_prop in Q; subst | ]; reflexivity. }
    split. { intros Q s'. rewrite from_set_end, from_set_from, end_set_end, end_set_from.
      destruct (Bool.eqb s' s); [ reflexivity | apply Q ]. }
    split. { intros s'. rewrite end_set_end, end_set_from. now destruct (Bool.eqb s' s). }
    intros s'. rewrite from_set_end, from_set_from. destruct (Bool.eqb s' s) eqn:Q; [ | auto ].
    apply eqb_prop in Q. subst. cbn [ended]. intros ->. apply orb_true_r.
  - injection H as <- <- <-. destruct (is_open (end_of c (negb s))) eqn:O.
    + split. { intros s'. cbn [said_sent stored]. now rewrite app_nil_r. } auto.
    + split. { intros s'. cbn [said_sent stored]. rewrite from_set_from, app_nil_r. cbn [app].
        destruct (Bool.eqb s' s) eqn:Q; [ apply eqb_prop in Q; subst | ]; reflexivity. }
      split. { intros Q s'. rewrite from_set_from, end_set_from.
        destruct (Bool.eqb s' s) eqn:Q1; [ apply eqb_prop in Q1; subst; apply Q | apply Q ]. }
      split. { intros s'. now rewrite end_set_from. }
      intros s'. rewrite from_set_from. destruct (Bool.eqb s' s) eqn:Q1; [ apply eqb_prop in Q1; subst | ]; auto.
Qed.

Lemma said_sent_app s t1 t2 : said_sent s (t1 ++ t2) = said_sent s t1 ++ said_sent s t2.
Proof.
  induction t1 as [ | [[[] r] b] t1 IH ]; cbn [app said_sent]; rewrite ?IH, ?app_assoc; reflexivity.
Qed.
Lemma stored_app s t1 t2 : stored s (t1 ++ t2) = stored s t1 ++ stored s t2.
Proof.
  induction t1 as [ | [[[] r] b] t1 IH ]; cbn [app stored]; rewrite ?IH, ?app_assoc; reflexivity.
Qed.

Lemma whole_trans c0 c1 c2 t1 t2 : whole c0 c1 t1 -> whole c1 c2 t2 -> whole c0 c2 (t1 ++ t2).
Proof.
  intros A B s. rewrite said_sent_app, stored_app, app_assoc, (A s), <- !app_assoc, (B s). reflexivity.
Qed.

Lemma run_whole p : forall h c c' trace,
  Forall proper h -> trun p c h = Ran (c', trace) ->
  whole c c' trace /\ (ended_closed c -> ended_closed c')
  /\ (forall s, is_open (end_of c s) = false -> is_open (end_of c' s) = false)
  /\ (forall s, ended (from c s) = true -> ended (from c' s) = true).
Proof.
  induction h as [ | t h IH ]; cbn [trun]; intros c c' trace P H.
  - injection H as <- <-. split; [ intros s; cbn; now rewrite app_nil_r | auto ].
  - destruct (tstep p c t) as [ [[c1 r] bytes] | | ] eqn:E; [ | discriminate | discriminate ].
    destruct (trun p c1 h) as [ [c2 tr] | | ] eqn:R; [ | discriminate | discriminate ].
    injection H as <- <-. inversion P as [ | ? ? P1 P2 ]; subst.
    apply step_whole in E as (W1 & E1 & O1 & D1); [ | assumption ].
    apply IH in R as (W2 & E2 & O2 & D2); [ | assumption ].
    split. { exact (whole_trans _ _ _ [(t, r, bytes)] tr W1 W2). }
    split; [ auto | ]. split; intros s Q; auto.
Qed.

(** Splitting a run at a call. *)
Lemma run_split p : forall t1 h c c' x t2,
  trun p c h = Ran (c', t1 ++ x :: t2) ->
  exists h1 h2 ca cb, h = h1 ++ fst (fst x) :: h2 /\ trun p c h1 = Ran (ca, t1)
    /\ tstep p ca (fst (fst x)) = Ran (cb, snd (fst x), snd x) /\ trun p cb h2 = Ran (c', t2).
Proof.
  induction t1 as [ | y t1 IH ]; intros h c c' x t2 H; destruct h as [ | t h ]; cbn [trun] in H;
    try (injection H as _ H; discriminate).
  - destruct (tstep p c t) as [ [[c1 r] bytes] | | ] eqn:E; [ | discriminate | discriminate ].
    destruct (trun p c1 h) as [ [c2 tr] | | ] eqn:R; [ | discriminate | discriminate ].
    injection H as <- <- <-. exists [], h, c, c1. cbn [fst snd app]. auto.
  - destruct (tstep p c t) as [ [[c1 r] bytes] | | ] eqn:E; [ | discriminate | discriminate ].
    destruct (trun p c1 h) as [ [c2 tr] | | ] eqn:R; [ | discriminate | discriminate ].
    cbn [app] in H. injection H as <- <- E2. rewrite E2 in R.
    apply IH in R as (h1 & h2 & ca & cb & -> & R1 & R2 & R3).
    exists (t :: h1), h2, ca, cb. cbn [app trun]. rewrite E, R1. auto.
Qed.

(** A closed end sends nothing. *)
Lemma closed_sends_nothing p s : forall h c c' trace,
  Forall proper h -> trun p c h = Ran (c', trace) -> is_open (end_of c s) = false ->
  said_sent s trace = [].
Proof.
  induction h as [ | t h IH ]; cbn [trun]; intros c c' trace P H O.
  - injection H as <- <-. reflexivity.
  - destruct (tstep p c t) as [ [[c1 r] bytes] | | ] eqn:E; [ | discriminate | discriminate ].
    destruct (trun p c1 h) as [ [c2 tr] | | ] eqn:R; [ | discriminate | discriminate ].
    injection H as <- <-. inversion P as [ | ? ? P1 P2 ]; subst.
    assert (O1 : is_open (end_of c1 s) = false).
    { apply step_whole in E as (_ & _ & O1 & _); [ | assumption ]. auto. }
    destruct t as [ s1 data a | s1 size a | s1 | s1 ]; cbn [said_sent]; try (eapply IH; eassumption).
    rewrite (IH _ _ _ P2 R O1), app_nil_r. destruct (Bool.eqb s1 s) eqn:Q; [ | reflexivity ].
    apply eqb_prop in Q. subst s1. cbn [tstep proper] in *.
    destruct (tcp_send p c s data a) as [ [c3 r3] | | ] eqn:T; [ | discriminate | discriminate ].
    injection E as <- <- <-. apply send_cases in T; [ | assumption ].
    destruct T as [ (-> & _) | (n & _ & _ & O2 & _) ]; [ reflexivity | congruence ].
Qed.

(** * C196: bytes arrive in order, none is lost and none is added *)

Theorem C196_in_order : forall p ignoring h c trace,
  Forall proper h ->
  trun p (connected ignoring) h = Ran (c, trace) ->
  forall s,
    (* what the other end stored is the beginning of what send said it sent *)
    (exists rest, said_sent s trace = stored (negb s) trace ++ rest
       (* and while the other end is open it is told how much more there is *)
       /\ (is_open (end_of c (negb s)) = true ->
           bytes_to_read p c (negb s) = Z.of_nat (length rest))).
Proof.
  intros p ign h c trace P H s. apply run_whole in H as (W & _); [ | assumption ].
  specialize (W s). cbn [connected from flight app] in W. exists (flight (from c s)).
  split; [ exact W | ]. intros O. unfold bytes_to_read. rewrite O, negb_involutive. reflexivity.
Qed.

(** The result of receive is the number of bytes stored, at most the size of the range; or it
    failed and nothing was stored. *)
Theorem C196_receive_result : forall p ignoring h c trace s size a r bytes,
  Forall proper h ->
  trun p (connected ignoring) h = Ran (c, trace) ->
  In (Receive s size a, r, bytes) trace ->
  (0 <= r /\ r = Z.of_nat (length bytes) /\ r <= Z.of_nat size) \/ (r = -1 /\ bytes = []).
Proof.
  intros p ign h c trace s size a r bytes P H I. apply in_split in I as (t1 & t2 & ->).
  apply run_split in H as (h1 & h2 & ca & cb & -> & R1 & R2 & R3). cbn [fst snd tstep] in *.
  apply Forall_app in P as [_ P]. inversion P as [ | ? ? P1 P2 ]; subst. cbn [proper] in P1.
  apply receive_cases in R2; [ | assumption ].
  destruct R2 as [ (-> & -> & _) | (-> & L & _) ]; [ right; auto | left ]. lia.
Qed.

(** The result of send is at most the size of the range, or -1. *)
Theorem C196_send_result : forall p ignoring h c trace s data a r bytes,
  Forall proper h ->
  trun p (connected ignoring) h = Ran (c, trace) ->
  In (Send s data a, r, bytes) trace ->
  (0 <= r <= Z.of_nat (length data)) \/ r = -1.
Proof.
  intros p ign h c trace s data a r bytes P H I. apply in_split in I as (t1 & t2 & ->).
  apply run_split in H as (h1 & h2 & ca & cb & -> & R1 & R2 & R3). cbn [fst snd tstep] in *.
  apply Forall_app in P as [_ P]. inversion P as [ | ? ? P1 P2 ]; subst. cbn [proper] in P1.
  destruct (tcp_send p ca s data a) as [ [c3 r3] | | ] eqn:T; [ | discriminate | discriminate ].
  injection R2 as <- <- <-. apply send_cases in T; [ | assumption ].
  destruct T as [ (-> & _) | (n & -> & L & _) ]; [ right; auto | left ]. lia.
Qed.

(** When receive returns 0 for a range that is not empty, the connection has ended and all that was
    ever sent through it, before and after, has been received. *)
Theorem C196_end : forall p ignoring h c t1 t2 s size a bytes,
  Forall proper h ->
  trun p (connected ignoring) h = Ran (c, t1 ++ (Receive s size a, 0, bytes) :: t2) ->
  (0 < size)%nat -> fits p size ->
  is_open (end_of c (negb s)) = false
  /\ said_sent (negb s) (t1 ++ (Receive s size a, 0, bytes) :: t2) = stored s t1.
Proof.
  intros p ign h c t1 t2 s size a bytes P H Hs Hf.
  apply run_split in H as (h1 & h2 & ca & cb & -> & R1 & R2 & R3). cbn [fst snd tstep] in *.
  apply Forall_app in P as [P0 P]. inversion P as [ | ? ? P1 P2 ]; subst. cbn [proper] in P1.
  apply run_whole in R1 as (W1 & E1 & _); [ | assumption ].
  assert (EC : ended_closed ca). { apply E1. intros s0. cbn. discriminate. }
  apply receive_cases in R2; [ | assumption ].
  destruct R2 as [ (? & _) | (L & _ & E & _ & _ & F & _ & _ & Q) ]; [ discriminate | ].
  assert (bytes = []) as -> by (destruct bytes; [ reflexivity | cbn [length] in L; lia ]).
  destruct (Q eq_refl Hs Hf) as [Q1 Q2]. apply EC in Q2. rewrite <- E in Q2.
  split. { apply run_whole in R3 as (_ & _ & O & _); [ | assumption ]. now apply O. }
  rewrite said_sent_app. cbn [said_sent].
  rewrite (closed_sends_nothing _ _ _ _ _ _ P2 R3 Q2), app_nil_r.
  specialize (W1 (negb s)). rewrite negb_involutive, Q1, app_nil_r in W1. exact W1.
Qed.

(** For an empty range receive returns 0 although the connection has not ended. *)
Theorem C196_empty_range : forall p ignoring byte a a',
  0 < error a -> 0 < error a' -> fails a = false -> fails a' = false ->
  exists c bytes, trun p (connected ignoring) [Send true [byte] a; Receive false 0 a']
         = Ran (c, [(Send true [byte] a, 1, []); (Receive false 0 a', 0, bytes)])
    /\ is_open (end_of c true) = true /\ flight (from c true) = [byte].
Proof.
  intros p ign byte a a' E E' F F'. cbn [trun tstep]. unfold tcp_send, sys_send.
  cbn [connected end_of is_open negb from refused length]. rewrite F.
  assert (S1 : size_for p 1 = 1) by (destruct p; reflexivity).
  assert (S0 : size_for p 0 = 0) by (destruct p; reflexivity).
  rewrite S1. change (1 <? 0) with false. cbn [orb]. change (Z.to_nat 1) with 1%nat.
  assert (M : moved a 1 = 1%nat) by (unfold moved; lia). rewrite M.
  change (Z.of_nat 1 <? 0) with false. cbv iota beta zeta.
  unfold tcp_receive, sys_recv. rewrite S0, F'. cbn.
  eexists _, _. split; [ reflexivity | ]. cbn. auto.
Qed.

Example C196_case :
  let a := Answer false 1 2 in
  match trun Posix (connected (fun _ => false))
    [Send true [1; 2; 3] a; Receive false 8 a; Send true [3] a; Close true; Receive false 1 a; Receive false 8 a]
  with
  | Ran (_, trace) => trace =
         [(Send true [1; 2; 3] a, 2, []); (Receive false 8 a, 2, [1; 2]); (Send true [3] a, 1, []);
          (Close true, 0, []); (Receive false 1 a, 1, [3]); (Receive false 8 a, 0, [])]
         /\ said_sent true trace = [1; 2; 3] /\ stored false trace = [1; 2; 3]
  | _ => False
  end.
Proof. vm_compute. auto. Qed.

(** * C197: all of a range is sent *)

(** On a connection that is read and without errors, the loop around send sends all, whatever part
    the system takes at a time, and nothing else is changed. *)
Theorem C197_send_all_partial : forall p s data answers c,
  is_open (end_of c s) = true -> refused (from c s) = false -> fits p (length data) ->
  (length data <= length answers)%nat -> Forall (fun a => fails a = false) answers ->
  exists c', send_all p c s data answers = Ran (c', true)
    /\ from c' s = Dir (flight (from c s) ++ data) (ended (from c s)) false
    /\ from c' (negb s) = from c (negb s) /\ end_of c' = end_of c.
Proof.
  intros p s data answers. revert data.
  induction answers as [ | a answers IH ]; intros data c O R F L A.
  - destruct data; [ | cbn in L; lia ]. exists c. cbn [send_all]. rewrite app_nil_r.
    split; [ reflexivity | ]. split; [ | auto ]. destruct (from c s); cbn in *. congruence.
  - destruct data as [ | b data ].
    { exists c. cbn [send_all]. rewrite app_nil_r. split; [ reflexivity | ]. split; [ | auto ].
      destruct (from c s); cbn in *. congruence. }
    remember (b :: data) as l eqn:El. assert (Hl : (0 < length l)%nat) by (rewrite El; cbn; lia).
    inversion A as [ | ? ? A1 A2 ]; subst x l0.
    assert (T : tcp_send p c s l a
                = Ran (set_from c s (Dir (flight (from c s) ++ firstn (moved a (length l)) l)
                                       (ended (from c s)) false), Z.of_nat (moved a (length l)))).
    { unfold tcp_send, sys_send. rewrite O, R, A1, size_for_fits by assumption. cbn [negb].
      assert (Z.of_nat (length l) <? 0 = false) as -> by (apply Z.ltb_ge; lia). cbn [orb].
      rewrite Nat2Z.id.
      assert (Z.of_nat (moved a (length l)) <? 0 = false) as -> by (apply Z.ltb_ge; lia). reflexivity. }
    set (n := moved a (length l)) in *. assert (N1 : (0 < n)%nat) by (apply moved_pos; lia).
    assert (N2 : (n <= length l)%nat) by apply moved_le.
    set (c1 := set_from c s (Dir (flight (from c s) ++ firstn n l) (ended (from c s)) false)) in *.
    assert (Lk : length (skipn n l) = (length l - n)%nat) by apply skipn_length.
    destruct (IH (skipn n l) c1) as (c' & I1 & I2 & I3 & I4).
    + exact O.
    + unfold c1. rewrite from_set_from, eqb_reflx. reflexivity.
    + destruct p; cbn [fits] in *; [ exact I | lia ].
    + cbn [length] in L. lia.
    + assumption.
    + exists c'. split.
      { rewrite El. cbn [send_all]. rewrite <- El, T. cbv iota.
        assert (Z.of_nat n <? 0 = false) as -> by (apply Z.ltb_ge; lia). rewrite Nat2Z.id. exact I1. }
      unfold c1 in I2, I3, I4. rewrite from_set_from, eqb_reflx in I2. cbn [flight ended] in I2.
      rewrite <- app_assoc, firstn_skipn in I2. split; [ exact I2 | ].
      rewrite from_set_from in I3. replace (Bool.eqb (negb s) s) with false in I3 by (destruct s; reflexivity).
      split; [ exact I3 | exact I4 ].
Qed.

(** A single send need not send all: for every range of two bytes or more there are answers of the
    system with which only a part of it is sent. *)
Theorem C197_send_refuted : forall p ignoring s data,
  (2 <= length data)%nat -> fits p (length data) ->
  exists a c', fails a = false /\ tcp_send p (connected ignoring) s data a = Ran (c', 1)
    /\ flight (from c' s) = firstn 1 data.
Proof.
  intros p ign s data L F. exists (Answer false 1 1).
  unfold tcp_send, sys_send. cbn [connected end_of is_open negb from refused fails error].
  rewrite size_for_fits by assumption.
  assert (Z.of_nat (length data) <? 0 = false) as -> by (apply Z.ltb_ge; lia). cbn [orb].
  rewrite Nat2Z.id. unfold moved. cbn [amount].
  replace (Nat.min (length data) (Nat.max 1 1)) with 1%nat by lia.
  change (Z.of_nat 1 <? 0) with false. eexists. split; [ reflexivity | ]. split; [ reflexivity | ].
  rewrite from_set_from, eqb_reflx. reflexivity.
Qed.

Lemma to_int_multiple n : Z.of_nat n mod 2 ^ 32 = 0 -> to_int (Z.of_nat n) = 0.
Proof.
  intros H. unfold to_int. rewrite Z.add_mod, H by lia. reflexivity.
Qed.

(** On Windows a range of a multiple of 4 GiB is sent as nothing: send returns 0, and the loop
    around it never ends. Likewise receive returns 0 although there is something to read. *)
Theorem C197_windows_refuted : forall s data answers c,
  is_open (end_of c s) = true -> refused (from c s) = false ->
  data <> [] -> Z.of_nat (length data) mod 2 ^ 32 = 0 -> Forall (fun a => fails a = false) answers ->
  (forall a, fails a = false -> exists c', tcp_send Windows c s data a = Ran (c', 0) /\
             forall s', flight (from c' s') = flight (from c s'))
  /\ send_all Windows c s data answers = Waits.
Proof.
  intros s data answers c O R N M A.
  assert (T : forall c a, is_open (end_of c s) = true -> refused (from c s) = false -> fails a = false ->
    tcp_send Windows c s data a
    = Ran (set_from c s (Dir (flight (from c s) ++ firstn 0 data) (ended (from c s)) (refused (from c s))), 0)).
  { intros c0 a O0 R0 Fa. unfold tcp_send, sys_send. rewrite O0, R0, Fa. cbn [negb size_for].
    rewrite to_int_multiple by assumption. change (0 <? 0) with false. cbn [orb]. reflexivity. }
  split.
  - intros a Fa. rewrite T by assumption. eexists. split; [ reflexivity | ]. intros s'.
    rewrite from_set_from. destruct (Bool.eqb s' s) eqn:Q; [ | reflexivity ].
    apply eqb_prop in Q. subst. cbn [flight firstn]. apply app_nil_r.
  - revert c O R. induction answers as [ | a answers IH ]; intros c O R.
    + destruct data; [ congruence | reflexivity ].
    + inversion A as [ | ? ? A1 A2 ]; subst. cbn [send_all]. rewrite T by assumption.
      change (0 <? 0) with false. change (Z.to_nat 0) with 0%nat. cbn [skipn].
      assert (K : forall x y : ran (conn * bool), match data with [] => x | _ :: _ => y end = y)
        by (intros; destruct data; [ congruence | reflexivity ]).
      rewrite K. apply IH; [ assumption | exact O | ]. rewrite from_set_from, eqb_reflx. exact R.
Qed.

Theorem C197_windows_receive_refuted : forall s size c a,
  is_open (end_of c s) = true -> fails a = false -> flight (from c (negb s)) <> [] ->
  Z.of_nat size mod 2 ^ 32 = 0 ->
  exists c', tcp_receive Windows c s size a = Ran (c', 0, [])
    /\ flight (from c' (negb s)) = flight (from c (negb s)).
Proof.
  intros s size c a O F N M. unfold tcp_receive, sys_recv. rewrite O, F. cbn [negb size_for].
  rewrite to_int_multiple by assumption. change (0 <? 0) with false. cbn [orb].
  destruct (flight (from c (negb s))) as [ | b bs ]; [ congruence | ].
  change (Z.to_nat 0) with 0%nat. cbn [Nat.min moved skipn firstn]. cbn [moved Nat.min].
  replace (moved a (Nat.min 0 (length (b :: bs)))) with 0%nat by (unfold moved; lia).
  change (Z.of_nat 0 <? 0) with false. eexists. split; [ reflexivity | ].
  rewrite from_set_from, eqb_reflx. reflexivity.
Qed.

Example C197_case :
  match send_all Posix (connected (fun _ => false)) true [1; 2; 3; 4; 5]
          [Answer false 1 2; Answer false 1 0; Answer false 1 9; Answer false 1 1; Answer false 1 1] with
  | Ran (c, ok) => ok = true /\ flight (from c true) = [1; 2; 3; 4; 5]
  | _ => False
  end.
Proof. vm_compute. auto. Qed.
(** There are ranges of a multiple of 4 GiB. *)
Example C197_windows_case : exists data : list Z, data <> [] /\ Z.of_nat (length data) mod 2 ^ 32 = 0.
Proof.
  exists (repeat 0 (Z.to_nat (2 ^ 32))). rewrite repeat_length, Z2Nat.id by lia. split; [ | reflexivity ].
  intros H. apply (f_equal (@length Z)) in H. rewrite repeat_length in H. cbn [length] in H. lia.
Qed.

(** * C198: errors are told *)

(** What a call that fails returns and leaves in the status. *)
Theorem C198_failure_partial : forall p ignoring h c trace s t r bytes,
  Forall proper h ->
  trun p (connected ignoring) h = Ran (c, trace) ->
  In (t, r, bytes) trace -> of_end s t = true -> r < 0 ->
  r = -1 /\ bytes = [] /\ status (end_of c s) < 0.
Proof.
  intros p ign h c trace s t r bytes P H I Of Hr. apply in_split in I as (t1 & t2 & ->).
  apply run_split in H as (h1 & h2 & ca & cb & -> & R1 & R2 & R3). cbn [fst snd] in *.
  apply Forall_app in P as [_ P]. inversion P as [ | ? ? P1 P2 ]; subst.
  assert (K : r = -1 /\ bytes = [] /\ status (end_of cb s) < 0).
  { destruct t as [ s1 data a | s1 size a | s1 | s1 ]; cbn [of_end tstep proper] in *; try discriminate;
      apply eqb_prop in Of; subst s1.
    - destruct (tcp_send p ca s data a) as [ [c3 r3] | | ] eqn:T; [ | discriminate | discriminate ].
      injection R2 as <- <- <-. apply send_cases in T; [ | assumption ].
      destruct T as [ (-> & _ & _ & _ & K & _) | (n & -> & _) ]; [ auto | lia ].
    - apply receive_cases in R2; [ | assumption ].
      destruct R2 as [ (-> & -> & _ & _ & _ & K & _) | (-> & _) ]; [ auto | lia ]. }
  destruct K as (-> & -> & K). split; [ reflexivity | ]. split; [ reflexivity | ].
  clear - R3 P2 K. revert cb R3 K.
  revert t2. induction h2 as [ | t h IH ]; cbn [trun]; intros t2 cb R3 K.
  - injection R3 as <- <-. exact K.
  - destruct (tstep p cb t) as [ [[c1 r] bytes] | | ] eqn:E; [ | discriminate | discriminate ].
    destruct (trun p c1 h) as [ [c2 tr] | | ] eqn:R; [ | discriminate | discriminate ].
    injection R3 as <- <-. inversion P2 as [ | ? ? P1 P3 ]; subst.
    apply (IH P3 _ _ R). destruct t as [ s1 data a | s1 size a | s1 | s1 ]; cbn [tstep proper] in *.
    + destruct (tcp_send p cb s1 data a) as [ [c3 r3] | | ] eqn:T; [ | discriminate | discriminate ].
      injection E as <- <- <-. apply send_cases in T; [ | assumption ].
      destruct T as [ (_ & _ & _ & _ & Q1 & Q2) | (n & _ & _ & _ & Q & _) ]; [ | now rewrite Q ].
      destruct (Bool.eqb s s1) eqn:Q; [ apply eqb_prop in Q; now subst | ].
      assert (s = negb s1) as -> by (destruct s, s1; auto; discriminate). now rewrite Q2.
    + apply receive_cases in E; [ | assumption ].
      destruct E as [ (_ & _ & _ & _ & _ & Q1 & Q2) | (_ & _ & Q & _) ]; [ | now rewrite Q ].
      destruct (Bool.eqb s s1) eqn:Q; [ apply eqb_prop in Q; now subst | ].
      assert (s = negb s1) as -> by (destruct s, s1; auto; discriminate). now rewrite Q2.
    + injection E as <- <- <-. unfold tcp_close. rewrite end_set_end, end_set_from.
      destruct (Bool.eqb s s1) eqn:Q; [ apply eqb_prop in Q; subst; exact K | exact K ].
    + injection E as <- <- <-. destruct (is_open (end_of cb (negb s1))); [ exact K | now rewrite end_set_from ].
Qed.

(** While no call of an end failed its status is 0. *)
Theorem C198_no_failure : forall p ignoring h c trace s,
  Forall proper h ->
  trun p (connected ignoring) h = Ran (c, trace) ->
  (forall t r bytes, In (t, r, bytes) trace -> of_end s t = true -> 0 <= r) ->
  status (end_of c s) = 0.
Proof.
  intros p ign h c trace s P H N.
  assert (G : forall h c0 c trace, Forall proper h -> trun p c0 h = Ran (c, trace) ->
    (forall t r bytes, In (t, r, bytes) trace -> of_end s t = true -> 0 <= r) ->
    status (end_of c s) = status (end_of c0 s)).
  { clear. induction h as [ | t h IH ]; cbn [trun]; intros c0 c trace P H N.
    - injection H as <- <-. reflexivity.
    - destruct (tstep p c0 t) as [ [[c1 r] bytes] | | ] eqn:E; [ | discriminate | discriminate ].
      destruct (trun p c1 h) as [ [c2 tr] | | ] eqn:R; [ | discriminate | discriminate ].
      injection H as <- <-. inversion P as [ | ? ? P1 P2 ]; subst.
      rewrite (IH _ _ _ P2 R) by (intros; eapply N; [ right; eassumption | assumption ]).
      assert (N0 := N t r bytes (or_introl eq_refl)).
      destruct t as [ s1 data a | s1 size a | s1 | s1 ]; cbn [tstep proper of_end] in *.
      + destruct (tcp_send p c0 s1 data a) as [ [c3 r3] | | ] eqn:T; [ | discriminate | discriminate ].
        injection E as <- <- <-. apply send_cases in T; [ | assumption ].
        destruct T as [ (-> & _ & _ & _ & Q1 & Q2) | (n & _ & _ & _ & Q & _) ]; [ | now rewrite Q ].
        destruct (Bool.eqb s1 s) eqn:Q; [ specialize (N0 eq_refl); lia | ].
        assert (s = negb s1) as -> by (destruct s, s1; auto; discriminate). exact Q2.
      + apply receive_cases in E; [ | assumption ].
        destruct E as [ (-> & _ & _ & _ & _ & Q1 & Q2) | (_ & _ & Q & _) ]; [ | now rewrite Q ].
        destruct (Bool.eqb s1 s) eqn:Q; [ specialize (N0 eq_refl); lia | ].
        assert (s = negb s1) as -> by (destruct s, s1; auto; discriminate). exact Q2.
      + injection E as <- <- <-. unfold tcp_close. rewrite end_set_end, end_set_from.
        destruct (Bool.eqb s s1) eqn:Q; [ apply eqb_prop in Q; subst; reflexivity | reflexivity ].
      + injection E as <- <- <-. destruct (is_open (end_of c0 (negb s1))); [ reflexivity | now rewrite end_set_from ]. }
  rewrite (G _ _ _ _ P H N). reflexivity.
Qed.

(** The error of the system is in the status after a call that failed: of send and of receive. *)
Theorem C198_which_error_partial : forall p c s a,
  is_open (end_of c s) = true -> fails a = true -> 0 < error a ->
  (forall data, refused (from c s) = false ->
    exists c', tcp_send p c s data a = Ran (c', -1) /\ status (end_of c' s) = - error a)
  /\ (forall size, exists c', tcp_receive p c s size a = Ran (c', -1, [])
                              /\ status (end_of c' s) = - error a).
Proof.
  intros p c s a O F E. split.
  - intros data R. unfold tcp_send, sys_send. rewrite O, R, F, orb_true_r. cbn [negb].
    assert (- error a <? 0 = true) as -> by (apply Z.ltb_lt; lia).
    eexists. split; [ reflexivity | ]. rewrite end_set_end, eqb_reflx. reflexivity.
  - intros size. unfold tcp_receive, sys_recv. rewrite O, F, orb_true_r. cbn [negb].
    assert (- error a <? 0 = true) as -> by (apply Z.ltb_lt; lia).
    eexists. split; [ reflexivity | ]. rewrite end_set_end, eqb_reflx. reflexivity.
Qed.

(** What is returned does not tell which error it was: it is not the status, unless that is -1. *)
Theorem C198_returned_refuted : forall p c s a data size,
  is_open (end_of c s) = true -> refused (from c s) = false -> fails a = true -> 1 < error a ->
  exists c' c'', tcp_send p c s data a = Ran (c', -1) /\ status (end_of c' s) <> -1
    /\ tcp_receive p c s size a = Ran (c'', -1, []) /\ status (end_of c'' s) <> -1.
Proof.
  intros p c s a data size O R F E.
  destruct (C198_which_error_partial p c s a O F ltac:(lia)) as [S1 S2].
  destruct (S1 data R) as (c' & -> & E1). destruct (S2 size) as (c'' & -> & E2).
  exists c', c''. repeat split; lia.
Qed.

(** A call that succeeds does not reset the status: after one call that failed the status tells an
    error for ever, whatever succeeds afterwards. *)
Theorem C198_stays_refuted : forall p ignoring s a b size byte bytes,
  fails a = true -> 0 < error a -> fails b = false -> 0 < error b -> fits p size -> (0 < size)%nat ->
  fits p (S (length bytes)) ->
  exists c r1 r2 got, trun p (connected ignoring)
      [Send (negb s) (byte :: bytes) b; Receive s size a; Receive s size b]
    = Ran (c, [(Send (negb s) (byte :: bytes) b, r1, []); (Receive s size a, -1, []);
               (Receive s size b, r2, got)])
    /\ 0 < r1 /\ 0 < r2 /\ status (end_of c s) = - error a.
Proof.
  intros p ign s a b size byte bytes Fa Ea Fb Eb Hf Hs Hf2. cbn [trun tstep].
  unfold tcp_send at 1, sys_send. cbn [connected end_of is_open negb from refused flight ended ignores].
  rewrite Fb, size_for_fits by assumption. set (l := byte :: bytes).
  assert (Z.of_nat (length l) <? 0 = false) as -> by (apply Z.ltb_ge; lia). cbn [orb]. rewrite Nat2Z.id.
  set (n := moved b (length l)). assert (N : (0 < n)%nat) by (apply moved_pos; cbn; lia).
  assert (Z.of_nat n <? 0 = false) as -> by (apply Z.ltb_ge; lia). cbv iota beta zeta.
  unfold tcp_receive at 1, sys_recv. rewrite end_set_from. cbn [connected end_of is_open negb].
  rewrite Fa, orb_true_r. assert (- error a <? 0 = true) as -> by (apply Z.ltb_lt; lia). cbv iota beta zeta.
  unfold tcp_receive, sys_recv. rewrite end_set_end, eqb_reflx. cbn [is_open negb].
  rewrite !end_set_from. cbn [connected end_of is_open negb]. rewrite Fb, size_for_fits by assumption.
  assert (Z.of_nat size <? 0 = false) as -> by (apply Z.ltb_ge; lia). cbn [orb]. rewrite Nat2Z.id.
  rewrite !from_set_end, !from_set_from, !eqb_reflx. cbn [flight ended refused app].
  destruct (firstn n l) as [ | x xs ] eqn:Fn.
  { apply (f_equal (@length Z)) in Fn. rewrite firstn_length in Fn.
    assert (n <= length l)%nat by apply moved_le. cbn [length] in Fn. lia. }
  set (m := moved b (Nat.min size (length (x :: xs)))).
  assert (M : (0 < m)%nat) by (apply moved_pos; cbn [length]; lia).
  assert (Z.of_nat m <? 0 = false) as -> by (apply Z.ltb_ge; lia).
  eexists _, _, _, _. split; [ reflexivity | ]. split; [ lia | ]. split; [ lia | ].
  rewrite end_set_from, end_set_end, eqb_reflx. reflexivity.
Qed.

(** On POSIX systems, sending into a connection the other end has closed terminates the process, once
    the system knows it is closed, unless the program ignores SIGPIPE; then the error is told. *)
Theorem C198_sigpipe_refuted : forall ignoring s data a,
  ignoring s = false ->
  trun Posix (connected ignoring) [Close (negb s); Learn s; Send s data a] = Killed.
Proof.
  intros ign s data a I.
  cbn [trun tstep]. unfold tcp_close. rewrite end_set_end, eqb_reflx. cbn [is_open].
  unfold tcp_send, sys_send. rewrite end_set_from, end_set_end.
  assert (Bool.eqb s (negb s) = false) as -> by (destruct s; reflexivity).
  rewrite end_set_from. cbn [connected end_of is_open negb ignores].
  rewrite from_set_from, eqb_reflx. cbn [refused]. rewrite I. reflexivity.
Qed.
Theorem C198_sigpipe_partial : forall c s data a,
  is_open (end_of c s) = true -> refused (from c s) = true -> ignores (end_of c s) = true ->
  exists c', tcp_send Posix c s data a = Ran (c', -1) /\ status (end_of c' s) = -32.
Proof.
  intros c s data a O R I. unfold tcp_send, sys_send. rewrite O, R, I. cbn [negb].
  eexists. split; [ reflexivity | ]. rewrite end_set_end, eqb_reflx. reflexivity.
Qed.

Example C198_case :
  match trun Posix (connected (fun _ => true))
          [Receive true 4 (Answer true 104 0); Send true [7] (Answer false 1 1); Close false; Learn true;
           Send true [8] (Answer false 1 1)] with
  | Ran (c, trace) => map (fun x => snd (fst x)) trace = [-1; 1; 0; 0; -1] /\ status (end_of c true) = -32
  | _ => False
  end.
Proof. vm_compute. auto. Qed.

(** * C199: the queries about a socket *)

(** Of a socket of the library, whatever error is pending, all queries are right on both systems. *)
Theorem C199_queries_partial : forall p errno k e,
  let x := Some (Sock (so_type (made k)) (so_accept (made k)) (so_reuse (made k)) e) in
  0 <= e ->
  (cb_type p errno x = match k with UdpServer | UdpClient => DATAGRAM | TcpServer | TcpClient => STREAM end)
  /\ base_type p errno x = cb_type p errno x
  /\ (cb_listener p errno x = true <-> k = TcpServer)
  /\ (cb_server p errno x = true <-> k = UdpServer \/ k = TcpServer)
  /\ snd (cb_error p errno x) = e.
Proof.
  intros p errno k e x He. subst x.
  assert (N : e <? 0 = false) by (apply Z.ltb_ge; exact He).
  assert (G : snd (cb_error p errno (Some (Sock (so_type (made k)) (so_accept (made k)) (so_reuse (made k)) e))) = e).
  { destruct p; cbn; rewrite ?N; reflexivity. }
  rewrite G. destruct p, k; cbn; repeat split; auto; try discriminate; intros [H | H]; discriminate.
Qed.

(** Of a descriptor that is not a socket the queries say so on POSIX systems. *)
Theorem C199_invalid_partial : forall errno,
  cb_type Posix errno None = UNKNOWN /\ base_type Posix errno None = UNKNOWN
  /\ cb_listener Posix errno None = false /\ cb_server Posix errno None = false
  /\ snd (cb_error Posix errno None) < 0.
Proof. intros errno. repeat split. Qed.

(** On Windows they do so only if [errno] happens not to be 0: the error of winsock is not there.
    The type of what is not a socket is then 0, which is no SocketType, and there is no error. *)
Theorem C199_windows_partial : forall errno, 0 < errno ->
  cb_type Windows errno None = UNKNOWN /\ snd (cb_error Windows errno None) < 0.
Proof.
  intros errno H. unfold cb_type, cb_error, query, windows_option.
  assert (- errno <? 0 = true) as -> by (apply Z.ltb_lt; lia). split; reflexivity.
Qed.
Theorem C199_windows_refuted :
  cb_type Windows 0 None = 0 /\ cb_type Windows 0 None <> UNKNOWN /\ cb_type Windows 0 None <> STREAM
  /\ cb_type Windows 0 None <> DATAGRAM /\ snd (cb_error Windows 0 None) = 0
  /\ base_type Windows 0 None = UNKNOWN.
Proof. repeat split; discriminate. Qed.

(** Asking for the error takes it away: the second query is told that there is none. *)
Theorem C199_error_refuted : forall p errno x,
  snd (cb_error p errno (fst (cb_error p errno (Some x)))) = 0.
Proof. intros [] errno x; reflexivity. Qed.

Example C199_case :
  cb_type Posix 0 (Some (made TcpServer)) = STREAM /\ cb_listener Posix 0 (Some (made TcpServer)) = true
  /\ cb_server Windows 0 (Some (made UdpClient)) = false
  /\ cb_error Posix 0 (Some (Sock 1 false false 111)) = (Some (Sock 1 false false 0), 111).
Proof. repeat split. Qed.

Print Assumptions C196_in_order.
Print Assumptions C196_receive_result.
Print Assumptions C196_send_result.
Print Assumptions C196_end.
Print Assumptions C196_empty_range.
Print Assumptions C197_send_all_partial.
Print Assumptions C197_send_refuted.
Print Assumptions C197_windows_refuted.
Print Assumptions C197_windows_receive_refuted.
Print Assumptions C198_failure_partial.
Print Assumptions C198_no_failure.
Print Assumptions C198_which_error_partial.
Print Assumptions C198_returned_refuted.
Print Assumptions C198_stays_refuted.
Print Assumptions C198_sigpipe_refuted.
Print Assumptions C198_sigpipe_partial.
Print Assumptions C199_queries_partial.
Print Assumptions C199_invalid_partial.
Print Assumptions C199_windows_partial.
Print Assumptions C199_windows_refuted.
Print Assumptions C199_error_refuted.
