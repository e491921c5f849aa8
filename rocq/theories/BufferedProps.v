(** C219: the buffered writer. *)
From Coq Require Import List Arith Bool Lia.
From Verif Require Import Base Store BaseLemmas StoreLemmas CircularArrayModel CircularArraySpec
  CircularArrayProofs BufferedModel BufferedSpec.
Import ListNotations.

Section Proofs.
  Context {A : Type}.
  Variable m : mode.
  Variable cap : nat.

  Lemma put_loop_ok (xs : list A) : forall b q n, holds cap b q ->
    exists b', put_loop m b xs n = Ok (b', n + min (cap - length q) (length xs))
      /\ holds cap b' (q ++ firstn (cap - length q) xs).
  Proof.
    induction xs as [|x xs IH]; intros b q n H; cbn [put_loop];
      rewrite (holds_size _ _ _ H), (holds_capacity _ _ _ H); pose proof (h_len _ _ _ H) as Hl;
      destruct (Nat.eqb_spec (length q) cap) as [E|E].
    - exists b. replace (cap - length q) with 0 by lia. cbn. rewrite Nat.add_0_r, app_nil_r. auto.
    - exists b. rewrite Nat.min_r, Nat.add_0_r, firstn_nil, app_nil_r by (cbn; lia). auto.
    - exists b. replace (cap - length q) with 0 by lia. cbn. rewrite Nat.add_0_r, app_nil_r. auto.
    - destruct (push_ok m cap b q x H) as (b1 & E1 & H1 & _).
      destruct (Nat.ltb_spec (length q) cap) as [Hc|Hc]; [|lia]. rewrite E1. cbn [bind].
      destruct (IH b1 (q ++ [x]) (S n) H1) as (b2 & E2 & H2). exists b2. rewrite E2.
      rewrite app_length in *. cbn [length] in *.
      replace (cap - length q) with (S (cap - (length q + 1))) by lia. cbn [firstn Nat.min].
      split. + do 2 f_equal. lia.
      + rewrite <- app_assoc in H2. exact H2.
  Qed.

  (** One call: the answer and the waiting bytes are the wanted ones, except that a flush leaves
      everything where it is. *)
  Lemma bw_step_ok (w : bwriter A) q op : holds cap (bw_buffer w) q ->
    let p := Pending q (bw_stream w) in
    exists w', bw_step m w op = Ok (fst (wanted_step cap p op), w')
      /\ bw_stream w' = bw_stream w
      /\ holds cap (bw_buffer w')
           (match op with BFlush => q | _ => waiting (snd (wanted_step cap p op)) end).
  Proof.
    intros H. cbn zeta. destruct op as [xs| |]; cbn [bw_step wanted_step fst snd waiting].
    - unfold bw_put. destruct (put_loop_ok xs (bw_buffer w) q 0 H) as (b & E & Hb).
      rewrite E. cbn [bind fst snd]. eexists. split; [reflexivity|]. split; auto.
    - exists w. auto.
    - unfold bw_move, ca_move. rewrite (elements_ok _ _ _ H). cbn [bind].
      rewrite (h_N _ _ _ H), (holds_size _ _ _ H).
      destruct (fill_ok m cap q (h_len _ _ _ H)) as (b & Eb & Hb & _).
      rewrite Eb. cbn [bind]. eexists. split; [reflexivity|]. split; auto.
  Qed.

  Lemma bw_run_ok ops : forall (w : bwriter A) q, holds cap (bw_buffer w) q ->
    exists as_ w', bw_run m w ops = Ok (as_, w') /\ bw_stream w' = bw_stream w
      /\ holds cap (bw_buffer w') (q ++ firstn (cap - length q) (offered ops))
      /\ (forall k, nth_error ops k = Some BFlush -> nth_error as_ k = Some (ABool true)).
  Proof.
    induction ops as [|op ops IH]; intros w q H; cbn [bw_run].
    - exists [], w. unfold offered. cbn. rewrite firstn_nil, app_nil_r.
      split; [auto|]. split; [auto|]. split; [auto|]. intros [|k] Hk; discriminate Hk.
    - destruct (bw_step_ok w q op H) as (w1 & E1 & S1 & H1). rewrite E1. cbn [bind snd fst].
      destruct (IH w1 _ H1) as (as_ & w2 & E2 & S2 & H2 & F2). rewrite E2. cbn [bind snd fst].
      do 2 eexists. split; [reflexivity|]. split; [congruence|]. split.
      + destruct op as [xs| |]; cbn [wanted_step snd waiting] in H2;
          unfold offered in *; cbn [map concat]; auto.
        rewrite <- app_assoc in H2. rewrite firstn_app.
        rewrite app_length, firstn_length in H2.
        replace (cap - (length q + Init.Nat.min (cap - length q) (length xs)))
          with (cap - length q - length xs) in H2 by lia. exact H2.
      + intros [|k] Hk; cbn in *.
        * injection Hk as ->. reflexivity.
        * auto.
  Qed.

  Lemma bw_wanted_ok ops : forall (w : bwriter A) q, holds cap (bw_buffer w) q ->
    idle_flushes cap (Pending q (bw_stream w)) ops ->
    exists w', bw_run m w ops
        = Ok (fst (wanted_run cap (Pending q (bw_stream w)) ops), w')
      /\ holds cap (bw_buffer w') (waiting (snd (wanted_run cap (Pending q (bw_stream w)) ops)))
      /\ bw_stream w' = written (snd (wanted_run cap (Pending q (bw_stream w)) ops)).
  Proof.
    induction ops as [|op ops IH]; intros w q H Hi; cbn [bw_run wanted_run idle_flushes] in *.
    - exists w. auto.
    - destruct Hi as [Hf Hi].
      destruct (bw_step_ok w q op H) as (w1 & E1 & S1 & H1). rewrite E1. cbn [bind snd fst].
      assert (P : snd (wanted_step cap (Pending q (bw_stream w)) op)
                  = Pending (match op with BFlush => q
                             | _ => waiting (snd (wanted_step cap (Pending q (bw_stream w)) op))
                             end) (bw_stream w1)).
      { rewrite S1. destruct op; cbn in *; auto. rewrite (Hf eq_refl), app_nil_r. reflexivity. }
      rewrite P in Hi.
      destruct (IH w1 _ H1 Hi) as (w2 & E2 & H2 & S2).
      destruct (wanted_step cap (Pending q (bw_stream w)) op) as [a p]. cbn [snd fst] in *.
      rewrite <- P in *.
      destruct (wanted_run cap p ops) as [as_ p']. rewrite E2. cbn [bind snd fst] in *.
      exists w2. auto.
  Qed.
End Proofs.

(** The whole history: while no flush finds bytes that wait, the writer answers as it should, and
    its buffer and the stream hold what they should. *)
Theorem C219_writer_partial :
  forall (A : Type) (m : mode) (cap : nat) (stream : list A) (ops : list (bw_op A)),
  idle_flushes cap (Pending [] stream) ops ->
  let (answers, p) := wanted_run cap (Pending [] stream) ops in
  exists w, bw_run m (bw_new cap stream) ops = Ok (answers, w)
    /\ ca_elements (bw_buffer w) = Ok (waiting p) /\ bw_stream w = written p.
Proof.
  intros A m cap stream ops Hi.
  destruct (bw_wanted_ok m cap ops (bw_new cap stream) [] (holds_new cap) Hi) as (w & E & H & S).
  cbn [bw_new bw_stream] in *. destruct (wanted_run cap (Pending [] stream) ops) as [as_ p].
  exists w. cbn [fst snd] in *. split; auto. split; auto. apply (elements_ok _ _ _ H).
Qed.

Example C219_writer_case :
  let ops := [BFlush; BPut [1; 2]; BMove; BPut [3; 4; 5]; BPut [6]] in
  idle_flushes 4 (Pending [] [9]) ops
  /\ wanted_run 4 (Pending [] [9]) ops
     = ([ABool true; ANumber 2; ANothing; ANumber 2; ANumber 0], Pending [1; 2; 3; 4] [9]).
Proof. cbn zeta. split; [cbn; repeat split; congruence|reflexivity]. Qed.

(** A writer keeps the first bytes that it was offered and nothing else, whatever is flushed in
    between: nothing ever reaches the stream, and every flush answers that it was successful. *)
Theorem C219_flush_refuted :
  forall (A : Type) (m : mode) (cap : nat) (stream : list A) (ops : list (bw_op A)),
  exists answers w, bw_run m (bw_new cap stream) ops = Ok (answers, w)
    /\ bw_stream w = stream
    /\ ca_elements (bw_buffer w) = Ok (firstn cap (offered ops))
    /\ (forall k, nth_error ops k = Some BFlush -> nth_error answers k = Some (ABool true)).
Proof.
  intros A m cap stream ops.
  destruct (bw_run_ok m cap ops (bw_new cap stream) [] (holds_new cap))
    as (as_ & w & E & S & H & F).
  exists as_, w. split; auto. split; auto. split; auto.
  cbn [app length] in H. rewrite Nat.sub_0_r in H. apply (elements_ok _ _ _ H).
Qed.

(** So any flush of accepted bytes breaks the promise, and a writer that has once been filled
    accepts nothing any more. *)
Theorem C219_stuck_refuted :
  forall (A : Type) (m : mode) (cap : nat) (stream xs ys : list A),
  0 < cap -> cap <= length xs -> ys <> [] ->
  exists w, bw_run m (bw_new cap stream) [BPut xs; BFlush; BPut ys]
              = Ok ([ANumber cap; ABool true; ANumber 0], w)
    /\ bw_stream w = stream
    /\ exists n, fst (wanted_run cap (Pending [] stream) [BPut xs; BFlush; BPut ys])
                 = [ANumber cap; ABool true; ANumber n] /\ 0 < n
    /\ written (snd (wanted_run cap (Pending [] stream) [BPut xs; BFlush; BPut ys]))
       = stream ++ firstn cap xs
    /\ stream ++ firstn cap xs <> stream.
Proof.
  intros A m cap stream xs ys Hc Hl Hy.
  cbn [bw_run wanted_run wanted_step waiting written length fst snd app].
  destruct (bw_step_ok m cap (bw_new cap stream) [] (BPut xs) (holds_new cap))
    as (w1 & E1 & S1 & H1).
  cbn [wanted_step fst snd waiting length app bw_new bw_stream] in *. rewrite Nat.sub_0_r in *.
  rewrite Nat.min_l in * by lia. rewrite E1. cbn [bind snd fst bw_step bw_flush].
  destruct (bw_step_ok m cap w1 _ (BPut ys) H1) as (w2 & E2 & S2 & H2).
  cbn [wanted_step fst snd waiting bw_step] in E2. 
  replace (cap - length (firstn cap xs)) with 0 in E2 by (rewrite firstn_length; lia).
  cbn [Nat.min] in E2.
  rewrite E2. cbn [bind fst snd]. exists w2. split; [reflexivity|]. split; [congruence|].
  exists (min cap (length ys)). split; [reflexivity|]. split.
  { destruct ys; [congruence|cbn; lia]. }
  split; [reflexivity|].
  intros E. assert (L : length (stream ++ firstn cap xs) = length stream) by congruence.
  rewrite app_length, firstn_length in L. lia.
Qed.

Example C219_stuck_case : 0 < 2 /\ 2 <= length [7; 8; 9] /\ [5] <> [].
Proof. repeat split; try discriminate; cbn; lia. Qed.

Print Assumptions C219_writer_partial.
Print Assumptions C219_flush_refuted.
Print Assumptions C219_stuck_refuted.
