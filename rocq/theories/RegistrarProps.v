(** C51: Registrar::clear. *)
From Coq Require Import List Arith ZArith Bool Lia.
From Verif Require Import Base BaseLemmas PointersProofs ConcModel ConcSpec ConcProofs
  QueueModel QueueSpec QueueProofs RegistrarModel.
Import ListNotations.

(** * Specification *)

(** The queue object contains these values (oldest first): it was never initialised and
    contains nothing, or it represents them ([rep]: they lie in the array, in order, from the
    position of the first one on, cyclically). *)
Definition contains {A : Type} (SIZE : nat) (q : queue A) (l : list A) : Prop :=
  (q = queue_new /\ l = []) \/ (SIZE <> 0 /\ rep A SIZE q l).

(** What follows the first element with the property. *)
Fixpoint after_first {A : Type} (f : A -> bool) (l : list A) : list A :=
  match l with
  | [] => []
  | x :: l' => if f x then l' else after_first f l'
  end.

(** The number no descriptor has. *)
Definition is_invalid (d : Z) : bool := (d =? -1)%Z.
(** A connection without server or without client. *)
Definition is_none (c : accepted) : bool :=
  (ac_server c =? -1)%Z || (ac_client c =? -1)%Z.

(** * Proofs *)

(** A call that finishes in [n] steps finishes when made alone. *)
Lemma finishes_alone {M R} p m m' r : finishes M R p m m' r ->
  exists n, forall fuel, n <= fuel -> alone fuel p m = Ok (m', r).
Proof.
  induction 1 as [r m|X g k m a m' r G F [n IH]|f k m m1 m' r G F [n IH]].
  - exists 2. intros [|[|fuel]] L; try lia. reflexivity.
  - exists (S n). intros [|fuel] L; [lia|]. cbn [alone]. rewrite G. cbn [bind]. apply IH. lia.
  - exists (S n). intros [|fuel] L; [lia|]. cbn [alone]. rewrite G. cbn [bind]. apply IH. lia.
Qed.

Lemma alone_mono {M R} : forall fuel fuel' (p : prog M R) m r,
  alone fuel p m = Ok r -> fuel <= fuel' -> alone fuel' p m = Ok r.
Proof.
  induction fuel as [|fuel IH]; intros fuel' p m r E L; [discriminate|].
  destruct fuel' as [|fuel']; [lia|]. cbn [alone] in *. destruct p as [r0|k|k|X g k|f k]; auto.
  - apply IH; auto; lia.
  - apply IH; auto; lia.
  - destruct (g m); cbn [bind] in *; try discriminate. apply IH; auto; lia.
  - destruct (f m); cbn [bind] in *; try discriminate. apply IH; auto; lia.
Qed.

Lemma alone_get {M R X} n (g : M -> outcome X) (k : X -> prog M R) m a :
  g m = Ok a -> alone (S n) (Get g k) m = alone n (k a) m.
Proof. intros E. cbn [alone]. rewrite E. reflexivity. Qed.
Lemma alone_set {M R} n (f : M -> outcome M) (k : prog M R) m m' :
  f m = Ok m' -> alone (S n) (Set_ f k) m = alone n k m'.
Proof. intros E. cbn [alone]. rewrite E. reflexivity. Qed.
Lemma alone_acquire {M R} n (k : prog M R) m : alone (S n) (Acquire k) m = alone n k m.
Proof. reflexivity. Qed.

Lemma pop_terminates {A} SIZE (fresh d : A) q l n : rep A SIZE q l ->
  exists r, alone (15 + n) (qcode SIZE fresh (Pop d)) q = Ok r.
Proof.
  intros (a & EA & LA & HF & ECt & LS & EL & NTH). cbn [qcode Nat.add]. unfold pop_code.
  rewrite alone_acquire. rewrite (alone_get _ _ _ _ (q_count q)) by reflexivity. cbv beta.
  destruct (q_count q =? 0) eqn:E0; [eexists; reflexivity|].
  apply Nat.eqb_neq in E0.
  rewrite (alone_get _ _ _ _ (q_first q)) by reflexivity. cbv beta.
  destruct (nth_error a (q_first q)) as [x|] eqn:EX.
  2:{ apply nth_error_None in EX. lia. }
  rewrite (alone_get _ _ _ _ x) by (unfold get_cell; rewrite EA; unfold read; rewrite EX; reflexivity).
  cbv beta. rewrite (alone_get _ _ _ _ (q_first q)) by reflexivity. cbv beta.
  erewrite alone_set.
  2:{ unfold set_cell. rewrite EA. unfold write.
      destruct (Nat.ltb_spec (q_first q) (length a)); [reflexivity|lia]. }
  erewrite alone_get by reflexivity. cbv beta. erewrite alone_set by reflexivity.
  erewrite alone_get by reflexivity. cbv beta. erewrite alone_set by reflexivity.
  eexists. reflexivity.
Qed.

Lemma pop_call_ok {A} SIZE (fresh d : A) q l : contains SIZE q l ->
  exists q', pop_call SIZE fresh d q = Ok (q', match l with [] => None | x :: _ => Some x end) /\
    contains SIZE q' (match l with [] => [] | _ :: l' => l' end).
Proof.
  intros [[-> ->]|[SP R]].
  - exists queue_new. split; [vm_compute; reflexivity|]. left. auto.
  - destruct (sequential_queue A SIZE fresh SP (Pop d) I) as (body & EC & B).
    destruct (B q l R) as (q' & F & R').
    exists q'. unfold pop_call. rewrite EC.
    assert (T : exists r, alone 20 (Acquire body) q = Ok r).
    { rewrite <- EC. replace 20 with (15 + 5) by lia. exact (pop_terminates SIZE fresh d q l 5 R). }
    destruct T as [r T].
    destruct (finishes_alone _ _ _ _ F) as [n HN].
    assert (T' : alone (20 + n) (Acquire body) q = Ok (q', snd (fifo SIZE l (Pop d)))).
    { replace (20 + n) with (S (19 + n)) by lia. rewrite alone_acquire. apply HN. lia. }
    rewrite (alone_mono 20 (20 + n) _ _ _ T) in T' by lia. injection T' as ->.
    rewrite T. cbn [bind fst snd]. destruct l as [|x l]; cbn [fifo fst snd] in *.
    + split; [reflexivity|right; auto].
    + split; [reflexivity|right; auto].
Qed.

Lemma drain_ok SIZE : forall l q fuel, contains SIZE q l -> length l < fuel ->
  exists q', drain fuel SIZE q = Ok q' /\ contains SIZE q' (after_first is_invalid l).
Proof.
  induction l as [|x l IH]; intros q fuel C L; (destruct fuel as [|fuel]; [cbn in L; lia|]);
    cbn [drain]; unfold pop_descriptor;
    destruct (pop_call_ok SIZE 0%Z INVALID q _ C) as (q' & -> & C'); cbn [bind fst snd].
  - exists q'. split; [reflexivity|exact C'].
  - cbn [after_first]. unfold is_invalid at 1, INVALID. destruct (x =? -1)%Z.
    + exists q'. auto.
    + apply IH; [exact C'|]. cbn in L. lia.
Qed.

Lemma drain_accepted_ok SIZE : forall l q fuel, contains SIZE q l -> length l < fuel ->
  exists q', drain_accepted fuel SIZE q = Ok q' /\ contains SIZE q' (after_first is_none l).
Proof.
  induction l as [|x l IH]; intros q fuel C L; (destruct fuel as [|fuel]; [cbn in L; lia|]);
    cbn [drain_accepted]; unfold pop_accepted;
    destruct (pop_call_ok SIZE accepted_default accepted_default q _ C) as (q' & -> & C');
    cbn [bind fst snd].
  - exists q'. split; [reflexivity|exact C'].
  - cbn [after_first]. unfold is_none at 1, accepted_bool, INVALID.
    destruct (ac_server x =? -1)%Z, (ac_client x =? -1)%Z; cbn [negb andb orb];
      try (exists q'; split; [reflexivity|exact C']).
    apply IH; [exact C'|]. cbn in L. lia.
Qed.

(** * Theorems *)

Section Theorems.
  (** Any capacities. *)
  Variables US UC TA TS TC : nat.

  (** What clear does, exactly: it terminates; of every queue what follows the first marker
      remains. *)
  Theorem C51_clear_exact : forall q us uc ta ts tc,
    contains US (udp_servers q) us -> contains UC (udp_clients q) uc ->
    contains TA (tcp_accepted q) ta -> contains TS (tcp_servers q) ts ->
    contains TC (tcp_clients q) tc ->
    exists steps, forall fuel, steps <= fuel -> exists q',
      clear US UC TA TS TC fuel q = Ok q' /\
      contains US (udp_servers q') (after_first is_invalid us) /\
      contains UC (udp_clients q') (after_first is_invalid uc) /\
      contains TA (tcp_accepted q') (after_first is_none ta) /\
      contains TS (tcp_servers q') (after_first is_invalid ts) /\
      contains TC (tcp_clients q') (after_first is_invalid tc).
  Proof.
    intros q us uc ta ts tc H1 H2 H3 H4 H5.
    exists (S (length us + length uc + length ta + length ts + length tc)). intros fuel L.
    unfold clear.
    destruct (drain_ok US us _ fuel H1 ltac:(lia)) as (q1 & -> & C1). cbn [bind].
    destruct (drain_ok UC uc _ fuel H2 ltac:(lia)) as (q2 & -> & C2). cbn [bind].
    destruct (drain_accepted_ok TA ta _ fuel H3 ltac:(lia)) as (q3 & -> & C3). cbn [bind].
    destruct (drain_ok TS ts _ fuel H4 ltac:(lia)) as (q4 & -> & C4). cbn [bind].
    destruct (drain_ok TC tc _ fuel H5 ltac:(lia)) as (q5 & -> & C5). cbn [bind].
    eexists. split; [reflexivity|]. auto 10.
  Qed.

  (** When no marker is stored, clear empties all queues: every later pop finds nothing. *)
  Theorem C51_clear_partial : forall q us uc ta ts tc,
    contains US (udp_servers q) us -> contains UC (udp_clients q) uc ->
    contains TA (tcp_accepted q) ta -> contains TS (tcp_servers q) ts ->
    contains TC (tcp_clients q) tc ->
    ~ In (-1)%Z (us ++ uc ++ ts ++ tc) ->
    Forall (fun c => ac_server c <> (-1)%Z /\ ac_client c <> (-1)%Z) ta ->
    exists steps, forall fuel, steps <= fuel -> exists q',
      clear US UC TA TS TC fuel q = Ok q' /\
      (exists s, pop_call US 0%Z INVALID (udp_servers q') = Ok (s, None)) /\
      (exists s, pop_call UC 0%Z INVALID (udp_clients q') = Ok (s, None)) /\
      (exists s, pop_call TA accepted_default accepted_default (tcp_accepted q') = Ok (s, None)) /\
      (exists s, pop_call TS 0%Z INVALID (tcp_servers q') = Ok (s, None)) /\
      (exists s, pop_call TC 0%Z INVALID (tcp_clients q') = Ok (s, None)).
  Proof.
    intros q us uc ta ts tc H1 H2 H3 H4 H5 NI NA.
    assert (K : forall l, ~ In (-1)%Z l -> after_first is_invalid l = []).
    { induction l as [|x l IH]; intros N; [reflexivity|]. cbn [after_first]. unfold is_invalid at 1.
      destruct (Z.eqb_spec x (-1)) as [->|_]; [destruct N; left; reflexivity|].
      apply IH. intros HI. apply N. right. exact HI. }
    assert (KA : after_first is_none ta = []).
    { clear H3. induction NA as [|x l [N1 N2] _ IH]; [reflexivity|]. cbn [after_first]. unfold is_none at 1.
      destruct (Z.eqb_spec (ac_server x) (-1)); [contradiction|].
      destruct (Z.eqb_spec (ac_client x) (-1)); [contradiction|]. exact IH. }
    rewrite !in_app_iff in NI.
    destruct (C51_clear_exact q us uc ta ts tc H1 H2 H3 H4 H5) as (n & HN).
    exists n. intros fuel L. destruct (HN fuel L) as (q' & E & C1 & C2 & C3 & C4 & C5).
    exists q'. rewrite K in C1, C2, C4, C5 by tauto. rewrite KA in C3.
    split; [exact E|].
    split; [destruct (pop_call_ok US 0%Z INVALID _ _ C1) as (s & Es & _); eauto|].
    split; [destruct (pop_call_ok UC 0%Z INVALID _ _ C2) as (s & Es & _); eauto|].
    split; [destruct (pop_call_ok TA accepted_default accepted_default _ _ C3) as (s & Es & _); eauto|].
    split; [destruct (pop_call_ok TS 0%Z INVALID _ _ C4) as (s & Es & _); eauto|].
    destruct (pop_call_ok TC 0%Z INVALID _ _ C5) as (s & Es & _); eauto.
  Qed.

  (** A marker that was pushed (pushUdpServer accepts any number) hides what follows it. *)
  Theorem C51_clear_refuted : forall q before x after,
    contains US (udp_servers q) (before ++ (-1)%Z :: x :: after) -> ~ In (-1)%Z before ->
    udp_clients q = queue_new -> tcp_accepted q = queue_new -> tcp_servers q = queue_new ->
    tcp_clients q = queue_new ->
    exists steps, forall fuel, steps <= fuel -> exists q' s,
      clear US UC TA TS TC fuel q = Ok q' /\
      pop_call US 0%Z INVALID (udp_servers q') = Ok (s, Some x).
  Proof.
    intros q before x after H1 NB E2 E3 E4 E5.
    assert (N : forall A SIZE, @contains A SIZE queue_new []) by (intros; left; auto).
    destruct (C51_clear_exact q _ [] [] [] [] H1) as (n & HN);
      try (rewrite ?E2, ?E3, ?E4, ?E5; apply N).
    exists n. intros fuel L. destruct (HN fuel L) as (q' & E & C1 & _).
    assert (AF : after_first is_invalid (before ++ (-1)%Z :: x :: after) = x :: after).
    { clear - NB. induction before as [|y l IH].
      - reflexivity.
      - cbn [app after_first]. unfold is_invalid at 1.
        destruct (Z.eqb_spec y (-1)) as [->|_]; [destruct NB; left; reflexivity|].
        apply IH. intros HI. apply NB. right. exact HI. }
    rewrite AF in C1. destruct (pop_call_ok US 0%Z INVALID _ _ C1) as (s & Es & _).
    exists q', s. auto.
  Qed.
End Theorems.

(** A queue with the values 4, -1, 5 pushed by the API. *)
Example C51_case :
  exists q, (let! a := push_call 3 0%Z 4%Z (initialised Z 3 INVALID 0) in
             let! b := push_call 3 0%Z INVALID (fst a) in
             push_call 3 0%Z 5%Z (fst b)) = Ok (q, true) /\
    contains 3 q [4; -1; 5]%Z /\
    exists q', drain 10 3 q = Ok q' /\ contains 3 q' [5%Z].
Proof.
  assert (R : forall f l c (a i : list Z), f < 3 -> l = (f + length i) mod 3 -> c = length i -> length a = 3 ->
    length i <= 3 -> (forall j, j < length i -> nth_error a ((f + j) mod 3) = nth_error i j) ->
    contains 3 (Queue (Some a) f l c) i).
  { intros f l c a i H1 H2 H3 H4 H5 H6. right. split; [discriminate|].
    exists a. cbn. auto 10. }
  eexists. split; [vm_compute; reflexivity|].
  assert (C : contains 3 (Queue (Some [4; INVALID; 5]%Z) 0 0 3) [4; -1; 5]%Z).
  { apply R; cbn; auto; try lia. intros [|[|[|j]]] Hj; try reflexivity. lia. }
  split; [exact C|]. exact (drain_ok 3 _ _ 10 C ltac:(cbn; lia)).
Qed.

Print Assumptions C51_clear_exact.
Print Assumptions C51_clear_partial.
Print Assumptions C51_clear_refuted.
