(** The memory stream is a queue of bytes. *)
From Coq Require Import List Arith ZArith Lia Bool.

From Verif Require Import Base BaseLemmas Store StoreLemmas StaticVectorModel StaticVectorSpec
  StaticVectorProofs VectorModel VectorSpec VectorProofs IteratorsModel CircularArrayModel
  CircularArrayProofs StreamModel StreamSpec UtilsProps.
Import ListNotations.

(** * Ranges *)

(** Going from [it] to [last] by [next] passes exactly [ps]. *)
Fixpoint walk (next : nat -> nat) (last : nat) (ps : list nat) (it : nat) : Prop :=
  match ps with
  | [] => it = last
  | p :: ps => it = p /\ p <> last /\ walk next last ps (next p)
  end.

Lemma mod_ix n b i : b < n -> i < n -> (b + i) mod n = ix n b i.
Proof.
  intros Hb Hi. unfold ix. destruct (Nat.ltb_spec (b + i) n).
  - apply Nat.mod_small; auto.
  - replace (b + i) with ((b + i - n) + 1 * n) by lia. rewrite Nat.mod_add by lia.
    rewrite Nat.mod_small; lia.
Qed.

Lemma gap n b e : b < n -> e < n -> (e + n - b) mod n = if b <=? e then e - b else e + n - b.
Proof.
  intros Hb He. destruct (Nat.leb_spec b e).
  - replace (e + n - b) with ((e - b) + 1 * n) by lia. rewrite Nat.mod_add by lia.
    apply Nat.mod_small; lia.
  - apply Nat.mod_small; lia.
Qed.

Lemma circular_places n b e : b < n -> e < n ->
  places n (Circular b e) = map (ix n b) (seq 0 ((e + n - b) mod n)).
Proof.
  intros Hb He. cbn [places]. apply map_ext_in. intros i Hi. apply in_seq in Hi.
  assert ((e + n - b) mod n < n) by (apply Nat.mod_upper_bound; lia).
  apply mod_ix; lia.
Qed.

Lemma walk_linear e : forall k b, b + k = e -> walk S e (seq b k) b.
Proof.
  induction k as [|k IH]; intros b H; cbn [seq walk]; [lia|].
  repeat split; [lia|]. apply IH. lia.
Qed.

Lemma walk_circular n b : b < n -> forall k i, i + k < n ->
  walk (ci_inc n) (ix n b (i + k)) (map (ix n b) (seq i k)) (ix n b i).
Proof.
  intros Hb. induction k as [|k IH]; intros i H; cbn [seq map walk].
  - rewrite Nat.add_0_r. reflexivity.
  - repeat split.
    + intros E. apply ix_inj in E; lia.
    + rewrite ci_inc_ix by lia. replace (i + S k) with (S i + k) by lia. apply IH. lia.
Qed.

Lemma walk_places n r : in_memory n r ->
  walk (br_next n r) (br_end r) (places n r) (br_begin r)
  /\ length (places n r) <= n
  /\ (forall p, In p (places n r) -> p < n)
  /\ NoDup (places n r).
Proof.
  destruct r as [b e|b e]; cbn [in_memory br_next br_end br_begin].
  - intros H. cbn [places]. rewrite seq_length. repeat split.
    + apply walk_linear. lia.
    + lia.
    + intros p Hp. apply in_seq in Hp. lia.
    + apply seq_NoDup.
  - intros [Hb He]. rewrite circular_places by auto.
    assert (Hk : (e + n - b) mod n < n) by (apply Nat.mod_upper_bound; lia).
    assert (Ee : ix n b ((e + n - b) mod n) = e).
    { rewrite gap by auto. destruct (Nat.leb_spec b e); ix_cases; lia. }
    repeat split.
    + pose proof (walk_circular n b Hb ((e + n - b) mod n) 0) as W. cbn [Nat.add] in W.
      rewrite ix_0, Ee in W by auto. apply W; auto.
    + rewrite map_length, seq_length. lia.
    + intros p Hp. apply in_map_iff in Hp as (i & <- & Hi). apply in_seq in Hi.
      apply ix_lt; lia.
    + apply nodup_map_in; [|apply seq_NoDup]. intros i j Hi Hj E.
      apply in_seq in Hi, Hj. apply ix_inj in E; lia.
Qed.

Lemma seq_map_add k : forall a b, seq (a + b) k = map (fun i => a + i) (seq b k).
Proof.
  induction k as [|k IH]; intros a b; cbn [seq map]; auto. f_equal.
  rewrite <- IH. f_equal. lia.
Qed.

(** * Splitting *)

Lemma split_loop_ok n : forall k fuel b, b + k = n - 1 -> b < n -> k <= fuel ->
  split_loop fuel n b (ci_inc n b) = Ok (n - 1, 0).
Proof.
  induction k as [|k IH]; intros fuel b H Hb Hf.
  - assert (b = n - 1) as -> by lia.
    assert (E : ci_inc n (n - 1) = 0).
    { unfold ci_inc, circ_inc.
      destruct (Z.eqb_spec (Z.of_nat (n - 1) + 1) (Z.of_nat n)); lia. }
    rewrite E. destruct fuel; reflexivity.
  - assert (E : ci_inc n b = S b).
    { unfold ci_inc, circ_inc. destruct (Z.eqb_spec (Z.of_nat b + 1) (Z.of_nat n)); lia. }
    destruct fuel as [|fuel]; [lia|]. cbn [split_loop]. rewrite E.
    destruct (Nat.ltb_spec b (S b)); [|lia]. apply IH; lia.
Qed.

Lemma ranges_ok n b e : b < n ->
  getContiniousRanges n b e = Ok ((b, n), (0, e)).
Proof.
  intros Hb. unfold getContiniousRanges.
  replace (ci_plus n b 1) with (ci_inc n b).
  - rewrite (split_loop_ok n (n - 1 - b)) by lia. cbn [bind]. repeat f_equal. lia.
  - destruct (Nat.eq_dec n 1) as [->|Hn].
    + assert (b = 0) as -> by lia. reflexivity.
    + rewrite ci_plus_ix by lia. rewrite <- ci_inc_ix, ix_0 by lia. reflexivity.
Qed.

(** * Filling *)

Fixpoint put (ps : list nat) (xs out : list Z) : list Z :=
  match ps, xs with
  | p :: ps, x :: xs => put ps xs (upd out p x)
  | _, _ => out
  end.

Lemma put_length ps : forall xs out, length (put ps xs out) = length out.
Proof.
  induction ps as [|p ps IH]; intros [|x xs] out; cbn [put]; auto.
  rewrite IH. apply upd_length.
Qed.

Lemma put_other ps : forall xs out p, ~ In p (firstn (length xs) ps) ->
  nth_error (put ps xs out) p = nth_error out p.
Proof.
  induction ps as [|p ps IH]; intros [|x xs] out q H; cbn [put]; auto.
  cbn [length firstn] in H. rewrite IH by (intros K; apply H; right; auto).
  apply nth_error_upd_neq. intros ->. apply H. left; auto.
Qed.

Lemma put_at ps : forall xs out i p x, NoDup ps -> (forall p, In p ps -> p < length out) ->
  nth_error ps i = Some p -> nth_error xs i = Some x -> nth_error (put ps xs out) p = Some x.
Proof.
  induction ps as [|q ps IH]; intros [|y xs] out [|i] p x HD HL Hp Hx; cbn in Hp, Hx;
    try discriminate; cbn [put]; inversion HD; subst.
  - injection Hp as ->. injection Hx as ->. rewrite put_other.
    + apply nth_error_upd_eq. apply HL. left; auto.
    + intros K. apply H1. rewrite <- (firstn_skipn (length xs) ps). apply in_app_iff; auto.
  - eapply IH; eauto. intros r Hr. rewrite upd_length. apply HL. right; auto.
Qed.

Lemma put_filled out r xs : in_memory (length out) r ->
  filled out r xs (put (places (length out) r) xs out).
Proof.
  intros H. destruct (walk_places _ _ H) as (_ & _ & HL & HD). split; [|split].
  - apply put_length.
  - intros i p x Hp Hx. eapply put_at; eauto.
  - intros p Hp. apply put_other; auto.
Qed.

Lemma put_firstn ps : forall xs out k, length ps <= k -> put ps (firstn k xs) out = put ps xs out.
Proof.
  induction ps as [|p ps IH]; intros [|x xs] out [|k] H; cbn [put firstn length] in *; auto; try lia.
  apply IH. lia.
Qed.

(** * The stream *)

Section Ram.
  Variable mem : memory.
  Hypothesis Hmem : mem <> NoMemory.

  (** The stream [s] holds [q]. *)
  Definition ram_holds (s : ram) (q : list Z) : Prop :=
    exists rest k, s = Vec (SVec (St (map Some q ++ rest) k) (length q)) (length q + length rest)
      /\ length q + length rest <> 1.

  Lemma holds_new : ram_holds ram_new [].
  Proof. exists [], 0. split; [reflexivity|discriminate]. Qed.

  Lemma holds_len s q : ram_holds s q -> vec_size s = length q.
  Proof. intros (rest & k & -> & _). reflexivity. Qed.

  Lemma holds_front s x q : ram_holds s (x :: q) -> vec_index s 0 = Ok x.
  Proof. intros (rest & k & -> & _). reflexivity. Qed.

  Lemma holds_erase s x q : ram_holds s (x :: q) ->
    exists s', vec_erase Trivial byte_moved s 0 = Ok s' /\ ram_holds s' q.
  Proof.
    intros (rest & k & -> & Hc). unfold vec_erase.
    pose proof (StaticVectorProofs.erase_ok Trivial byte_moved (length (x :: q) + length rest) (x :: q) rest k 0
                  eq_refl (Nat.le_0_l _)) as (r' & k' & E & L & _).
    unfold vec_lift. cbn [vc_arr vc_capacity]. rewrite E. cbn [bind].
    eexists. split; [reflexivity|]. cbn in L. exists r', k'.
    change (erase_at 0 1 (x :: q)) with q. split.
    - f_equal. cbn [length]. lia.
    - cbn [length] in *. lia.
  Qed.

  Lemma holds_push s q x : ram_holds s q ->
    exists s', vec_pushBack Trivial mem 2 s x = Ok s' /\ ram_holds s' (q ++ [x]).
  Proof.
    intros (rest & k & -> & Hc).
    destruct (@VectorProofs.push_ok Z Trivial mem Hmem q rest k _ x 0 eq_refl (or_intror Hc))
      as (r' & k' & E & L & _).
    eexists. split; [exact E|]. exists r', k'. split; [f_equal; lia|].
    rewrite L. destruct (length q <? length q + length rest); auto. apply grow_ne1; auto.
  Qed.

  Lemma read_loop_ok next last : forall ps fuel it s q out,
    walk next last ps it -> length ps <= fuel -> (forall p, In p ps -> p < length out) ->
    ram_holds s q ->
    exists s', ram_read_loop fuel next it last s out = Ok (s', put ps q out)
      /\ ram_holds s' (skipn (length ps) q).
  Proof.
    induction ps as [|p ps IH]; intros fuel it s q out HW Hf HL HS; cbn [walk] in HW.
    - subst it. exists s. split; auto. destruct fuel; cbn [ram_read_loop]; rewrite Nat.eqb_refl; reflexivity.
    - destruct HW as (-> & Hne & HW). destruct fuel as [|fuel]; [cbn in Hf; lia|].
      cbn [ram_read_loop]. destruct (Nat.eqb_spec p last); [lia|].
      rewrite (holds_len _ _ HS). destruct q as [|x q].
      + cbn [length Nat.eqb negb put skipn]. exists s. auto.
      + cbn [length Nat.eqb negb]. rewrite (holds_front _ _ _ HS). cbn [bind].
        rewrite write_ok by (apply HL; left; auto). cbn [bind].
        destruct (holds_erase _ _ _ HS) as (s1 & E1 & H1). rewrite E1. cbn [bind put skipn].
        apply IH; auto.
        * cbn in Hf. lia.
        * intros r Hr. rewrite upd_length. apply HL. right; auto.
  Qed.

  Lemma read_ok s q out r : in_memory (length out) r -> ram_holds s q ->
    exists s', ram_read s out r
        = Ok (s', put (places (length out) r) q out,
              Nat.min (length (places (length out) r)) (length q))
      /\ ram_holds s' (skipn (length (places (length out) r)) q).
  Proof.
    intros HM HS. destruct (walk_places _ _ HM) as (HW & Hlen & HL & HD).
    unfold ram_read.
    destruct (read_loop_ok _ _ _ (length out) _ s q out HW Hlen HL HS) as (s' & E & H').
    rewrite E. cbn [bind]. exists s'. split; auto.
    rewrite (holds_len _ _ HS), (holds_len _ _ H'), skipn_length.
    match goal with |- Ok (_, _, ?a) = Ok (_, _, ?b) => replace a with b by lia end. reflexivity.
  Qed.

  Lemma write_loop_ok next last src : forall ps fuel it s q,
    walk next last ps it -> length ps <= fuel -> (forall p, In p ps -> p < length src) ->
    ram_holds s q ->
    exists s', ram_write_loop mem fuel next it last s src = Ok s'
      /\ ram_holds s' (q ++ map (fun i => nth i src 0%Z) ps).
  Proof.
    induction ps as [|p ps IH]; intros fuel it s q HW Hf HL HS; cbn [walk] in HW.
    - subst it. exists s. cbn [map]. rewrite app_nil_r. split; auto.
      destruct fuel; cbn [ram_write_loop]; rewrite Nat.eqb_refl; reflexivity.
    - destruct HW as (-> & Hne & HW). destruct fuel as [|fuel]; [cbn in Hf; lia|].
      cbn [ram_write_loop]. destruct (Nat.eqb_spec p last); [lia|].
      assert (Hp : p < length src) by (apply HL; left; auto).
      rewrite (read_some src p (nth p src 0%Z)) by (apply nth_error_nth'; auto). cbn [bind].
      destruct (holds_push s q (nth p src 0%Z) HS) as (s1 & E1 & H1). rewrite E1. cbn [bind map].
      destruct (IH fuel (next p) s1 (q ++ [nth p src 0%Z]) HW) as (s2 & E2 & H2); eauto.
      + cbn in Hf. lia.
      + intros r Hr. apply HL. right; auto.
      + exists s2. split; auto. rewrite <- app_assoc in H2. exact H2.
  Qed.

  Lemma write_ok' s q src r : in_memory (length src) r -> ram_holds s q ->
    exists s', ram_write mem s src r = Ok (s', length (bytes_of src r))
      /\ ram_holds s' (q ++ bytes_of src r).
  Proof.
    intros HM HS. destruct (walk_places _ _ HM) as (HW & Hlen & HL & HD).
    unfold ram_write.
    destruct (write_loop_ok _ _ src _ (length src) _ s q HW Hlen HL HS) as (s' & E & H').
    rewrite E. cbn [bind]. exists s'. split; auto.
    rewrite (holds_len _ _ HS), (holds_len _ _ H'), app_length. unfold bytes_of.
    match goal with |- Ok (_, ?a) = Ok (_, ?b) => replace a with b by lia end. reflexivity.
  Qed.

  Lemma ram_step_ok s q c : call_in_memory c -> ram_holds s q ->
    exists s' q' shown, ram_step mem s c = Ok (s', shown) /\ ram_holds s' q'
      /\ stream_step q c q' shown.
  Proof.
    intros HM HS. destruct c as [src r|out r|]; cbn [ram_step call_in_memory] in *.
    - destruct (write_ok' s q src r HM HS) as (s' & E & H'). rewrite E. cbn [bind fst snd].
      do 3 eexists. split; [reflexivity|]. split; [exact H'|]. cbn [stream_step]. auto.
    - destruct (read_ok s q out r HM HS) as (s' & E & H'). rewrite E. cbn [bind].
      do 3 eexists. split; [reflexivity|]. split; [exact H'|]. cbn [stream_step fst snd].
      split; [|split; auto].
      + set (n := length (places (length out) r)). destruct (Nat.le_ge_cases n (length q)).
        * rewrite Nat.min_l by auto. reflexivity.
        * rewrite Nat.min_r by auto. rewrite !skipn_all2 by lia. reflexivity.
      + rewrite <- (put_firstn _ q out (length (places (length out) r))) by auto.
        replace (firstn (Nat.min (length (places (length out) r)) (length q)) q)
          with (firstn (length (places (length out) r)) q).
        * apply put_filled; auto.
        * destruct (Nat.le_ge_cases (length (places (length out) r)) (length q)).
          -- rewrite Nat.min_l by auto. reflexivity.
          -- rewrite Nat.min_r by auto. rewrite !firstn_all2 by lia. reflexivity.
    - exists s, q, ([], 0). repeat split; auto.
  Qed.

  Lemma ram_run_ok h : forall s q, Forall call_in_memory h -> ram_holds s q ->
    exists s' shown, ram_run mem s h = Ok (s', shown) /\ stream_run q h shown.
  Proof.
    induction h as [|c h IH]; intros s q HM HS; cbn [ram_run].
    - exists s, []. split; auto. exact I.
    - inversion HM; subst. destruct (ram_step_ok s q c) as (s1 & q1 & r1 & E1 & K1 & S1); auto.
      rewrite E1. cbn [bind fst snd]. destruct (IH s1 q1) as (s2 & r2 & E2 & S2); auto.
      rewrite E2. cbn [bind fst snd]. exists s2, (r1 :: r2). split; auto.
      cbn [stream_run]. eauto.
  Qed.
End Ram.

(** * What a run shows, in total *)

Lemma filled_bytes out r xs out' : in_memory (length out) r ->
  length xs <= length (places (length out) r) ->
  filled out r xs out' -> firstn (length xs) (bytes_of out' r) = xs.
Proof.
  intros HM Hl (HL & HF & _). unfold bytes_of. rewrite HL.
  assert (G : forall ps (zs : list Z), length zs <= length ps ->
    (forall i p x, nth_error ps i = Some p -> nth_error zs i = Some x -> nth_error out' p = Some x) ->
    firstn (length zs) (map (fun i => nth i out' 0%Z) ps) = zs).
  { clear. induction ps as [|p ps IH]; intros [|z zs] Hl H; cbn in *; auto; try lia.
    f_equal.
    - apply nth_error_nth. apply (H 0 p z); auto.
    - apply IH; [lia|]. intros i q x Hp Hx. apply (H (S i) q x); auto. }
  apply G; auto.
Qed.

Lemma stream_total h : forall q shown, Forall call_in_memory h -> stream_run q h shown ->
  exists rest, q ++ all_written h = all_read h shown ++ rest.
Proof.
  induction h as [|c h IH]; intros q [|r shown] HM HR; cbn [stream_run] in HR; try tauto.
  - exists q. cbn. apply app_nil_r.
  - destruct HR as (q' & HS & HR). inversion HM; subst.
    destruct (IH q' shown) as [rest E]; auto.
    destruct c as [src rg|out rg|]; cbn [stream_step all_written all_read] in *.
    + destruct HS as [-> ->]. exists rest. rewrite app_assoc. exact E.
    + destruct r as [out' k]. cbn [fst snd] in HS. destruct HS as (Hq & -> & HF).
      exists rest. rewrite <- app_assoc, <- E, Hq.
      set (k := Nat.min (length (places (length out) rg)) (length q)) in *.
      assert (Hk : length (firstn k q) = k) by (rewrite firstn_length; subst k; lia).
      rewrite <- Hk at 1.
      rewrite (filled_bytes out rg (firstn k q) out') by (auto; rewrite Hk; subst k; lia).
      rewrite app_assoc, firstn_skipn. reflexivity.
    + subst q'. exists rest. exact E.
Qed.
