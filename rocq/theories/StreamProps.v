(** C53: RamStream is a lossless FIFO byte stream. C54: splitting a circular range. *)
From Coq Require Import List Arith ZArith Lia Bool.
From Verif Require Import Base BaseLemmas Store VectorModel StreamModel StreamSpec StreamProofs
  CircularArrayProofs.
Import ListNotations.

(** * C53 *)

(** Every history of reads and writes, through linear and circular ranges of any memory,
    behaves call by call like a queue of bytes: a write appends all bytes of its range and
    reports their number; a read fills the first places of its range with the oldest bytes,
    touches nothing else, and reports min(requested, available). *)
Theorem C53_fifo : forall (mem : memory) (h : list ram_call),
  mem <> NoMemory -> Forall call_in_memory h ->
  exists s shown, ram_run mem ram_new h = Ok (s, shown) /\ stream_run [] h shown.
Proof. intros mem h HM HC. apply ram_run_ok; auto. apply StreamProofs.holds_new. Qed.

(** What was read in total is a prefix of what was written in total. *)
Theorem C53_prefix : forall (mem : memory) (h : list ram_call) s shown,
  mem <> NoMemory -> Forall call_in_memory h -> ram_run mem ram_new h = Ok (s, shown) ->
  exists rest, all_written h = all_read h shown ++ rest.
Proof.
  intros mem h s shown HM HC E. destruct (C53_fifo mem h HM HC) as (s' & shown' & E' & R).
  rewrite E in E'. injection E' as <- <-. apply (stream_total h [] shown HC R).
Qed.

(** A ring of five bytes read from place 3 around to place 2, ten bytes written in between. *)
Definition ram_example : list ram_call :=
  [RWrite [1;2;3;4;5;6;7]%Z (Linear 1 6); RRead [0;0;0;0;0]%Z (Circular 3 2); RFlush;
   RWrite [8;9;10;11]%Z (Circular 2 1); RRead [0;0;0]%Z (Linear 0 1);
   RRead [20;21;22;23;24;25]%Z (Circular 4 3)].
Example C53_case : Forall call_in_memory ram_example
  /\ option_map snd (match ram_run Realloc ram_new ram_example with Ok p => Some p | _ => None end)
     = Some [([1;2;3;4;5;6;7]%Z, 5); ([4;5;0;2;3]%Z, 4); ([], 0); ([8;9;10;11]%Z, 3);
             ([6;0;0]%Z, 1); ([8;21;22;23;10;11]%Z, 3)].
Proof. split; [repeat constructor; cbn; lia|reflexivity]. Qed.

(** * C54 *)

(** The places of two linear ranges, one after the other. *)
Definition both (p : (nat * nat) * (nat * nat)) : list nat :=
  places 0 (Linear (fst (fst p)) (snd (fst p))) ++ places 0 (Linear (fst (snd p)) (snd (snd p))).

(** Right for a range that goes past the end of the ring, or ends there. *)
Theorem C54_wrapping_partial : forall n b e, b < n -> e < b ->
  exists p, getContiniousRanges n b e = Ok p /\ both p = places n (Circular b e).
Proof.
  intros n b e Hb He. exists ((b, n), (0, e)). split; [apply ranges_ok; auto|].
  rewrite circular_places by lia. rewrite gap by lia.
  destruct (Nat.leb_spec b e); [lia|].
  unfold both. cbn [fst snd places]. rewrite Nat.sub_0_r.
  replace (e + n - b) with ((n - b) + e) by lia. rewrite seq_app, map_app. f_equal.
  - rewrite <- (Nat.add_0_r b) at 1. rewrite seq_map_add. apply map_ext_in.
    intros i Hi. apply in_seq in Hi. ix_cases; lia.
  - rewrite Nat.add_0_l, <- (Nat.add_0_r (n - b)). rewrite seq_map_add, map_map.
    rewrite <- (map_id (seq 0 e)) at 1. apply map_ext_in.
    intros i Hi. apply in_seq in Hi. ix_cases; lia.
Qed.

(** Wrong for every other range: the result goes once around the whole ring and on to the end
    of the range, so it has a whole ring too many places; an empty range gives all places. *)
Theorem C54_refuted : forall n b e, b < n -> e < n -> b <= e ->
  exists p, getContiniousRanges n b e = Ok p
    /\ length (both p) = length (places n (Circular b e)) + n
    /\ both p <> places n (Circular b e).
Proof.
  intros n b e Hb He Hle. exists ((b, n), (0, e)). split; [apply ranges_ok; auto|].
  assert (L : length (both ((b, n), (0, e))) = length (places n (Circular b e)) + n).
  { rewrite circular_places by lia. rewrite gap by lia.
    destruct (Nat.leb_spec b e); [|lia].
    unfold both. cbn [fst snd places]. rewrite app_length, map_length, !seq_length. lia. }
  split; auto. intros E. rewrite E in L. lia.
Qed.

Example C54_case :
  getContiniousRanges 6 4 3 = Ok ((4, 6), (0, 3)) /\ places 6 (Circular 4 3) = [4; 5; 0; 1; 2]
  /\ getContiniousRanges 6 1 3 = Ok ((1, 6), (0, 3)) /\ places 6 (Circular 1 3) = [1; 2].
Proof. repeat split. Qed.

Print Assumptions C53_fifo.
Print Assumptions C53_prefix.
Print Assumptions C54_wrapping_partial.
Print Assumptions C54_refuted.
