(** C230: theorems about reads and writes that make progress, on both systems. *)
From Coq Require Import List Arith ZArith Bool Lia.
From Verif Require Import Base BaseLemmas StreamModel StreamSpec StreamProofs FileIoModel FileIoSpec FileIoProofs
  WinIoModel WinIoSpec.
Import ListNotations.

Lemma next_willing f n : 0 < n -> willing f ->
  exists k, fst (next_answer f n) = AtMost k /\ 0 < k.
Proof.
  intros Hn W. unfold willing, next_answer in *. destruct (f_answers f) as [|[|k] l]; cbn in *; try tauto; eauto.
Qed.

Lemma sys_read_progress f m p n : 0 < n -> p + n <= length m ->
  exists f' m' count, sys_read f m p n = Ok (f', m', count) /\ read_progress f count /\ (-1 <= count)%Z.
Proof.
  intros Hn Hp. rewrite sys_read_ok by lia. do 3 eexists. split; [reflexivity|]. split.
  - intros W. destruct (next_willing f n Hn W) as (k & -> & Hk). cbn [got result].
    destruct (f_input f) as [|x l]; cbn [length].
    + split; [split; intros; [reflexivity|lia]|lia].
    + split; [split; intros H; [lia|discriminate]|lia].
  - destruct (fst (next_answer f n)); cbn [got result]; lia.
Qed.

Lemma sys_write_progress f m p n : 0 < n -> p + n <= length m ->
  exists f' count, sys_write f m p n = Ok (f', count) /\ write_progress f count /\ (-1 <= count)%Z.
Proof.
  intros Hn Hp. rewrite sys_write_ok by lia. do 2 eexists. split; [reflexivity|]. split.
  - intros W. destruct (next_willing f n Hn W) as (k & -> & Hk). cbn [sent result]. lia.
  - destruct (fst (next_answer f n)); cbn [sent result]; lia.
Qed.

Lemma size_pos b e : b < e -> (Z.of_nat e - Z.of_nat b >? 0)%Z = true /\ Z.to_nat (Z.of_nat e - Z.of_nat b) = e - b.
Proof. intros H. split; [rewrite Z.gtb_ltb; apply Z.ltb_lt; lia|lia]. Qed.

(** C230. On Posix: reading into and writing from a linear range that is not empty makes progress whenever
    the system does, and a read reports 0 exactly at the end of the input. *)
Theorem C230_posix_partial : forall f m b e, b < e -> e <= length m ->
  (exists f' m' count, file_read f m (Linear b e) = Ok (f', m', count) /\ read_progress f count)
  /\ (exists f' count, file_write f m (Linear b e) = Ok (f', count) /\ write_progress f count).
Proof.
  intros f m b e Hb He. destruct (size_pos b e Hb) as [S1 S2]. cbn [file_read file_write].
  unfold fr_linear, fw_linear. rewrite S1, S2. split.
  - destruct (sys_read_progress f m b (e - b)) as (f' & m' & c & E & P & _); [lia|lia|eauto 6].
  - destruct (sys_write_progress f m b (e - b)) as (f' & c & E & P & _); [lia|lia|eauto 6].
Qed.

(** A file with three bytes and a system that gives one at a time. *)
Example C230_posix_case :
  let f := File [7; 8; 9]%Z [] [AtMost 1] in
  willing f /\ match file_read f [0; 0; 0; 0]%Z (Linear 1 4) with Ok (_, m, c) => (m, c) = ([0; 7; 0; 0], 1)%Z | _ => False end.
Proof. cbn. split; [lia|reflexivity]. Qed.

(** On Windows as long as the size is no multiple of the number of values of DWORD, and a read is not from
    a pipe without writers. *)
Theorem C230_windows_partial : forall DWORD f m b e, 0 < DWORD -> b < e -> e <= length m -> (e - b) mod DWORD <> 0 ->
  (exists f' m' count, win_read DWORD false f m (Linear b e) = Ok (f', m', count) /\ read_progress f count)
  /\ (exists f' count, win_write DWORD f m (Linear b e) = Ok (f', count) /\ write_progress f count).
Proof.
  intros D f m b e HD Hb He Hm. destruct (size_pos b e Hb) as [S1 S2]. cbn [win_read win_write].
  unfold wr_linear, ww_linear, ReadFile, WriteFile. rewrite S1, S2. cbn [andb].
  assert (L : (e - b) mod D <= e - b) by (apply Nat.mod_le; lia).
  split.
  - destruct (sys_read_progress f m b ((e - b) mod D)) as (f' & m' & c & E & P & Hc); [lia|lia|].
    rewrite E. cbn [bind]. do 3 eexists. split; [reflexivity|].
    destruct (Z.ltb_spec c 0); [|exact P]. replace c with (-1)%Z in P by lia. exact P.
  - destruct (sys_write_progress f m b ((e - b) mod D)) as (f' & c & E & P & Hc); [lia|lia|].
    rewrite E. cbn [bind]. do 2 eexists. split; [reflexivity|].
    destruct (Z.ltb_spec c 0); [|exact P]. replace c with (-1)%Z in P by lia. exact P.
Qed.

Lemma wr_linear_same D f m b e : e - b < D -> wr_linear D false f m b e = fr_linear f m b e \/ length m < e.
Proof.
  intros H. destruct (Nat.le_gt_cases e (length m)) as [He|He]; [left|right; exact He].
  unfold wr_linear, fr_linear, ReadFile. destruct (Z.of_nat e - Z.of_nat b >? 0)%Z eqn:S; [|reflexivity].
  rewrite Z.gtb_ltb in S. apply Z.ltb_lt in S. cbn [andb].
  rewrite Nat.mod_small by lia. rewrite sys_read_ok by lia. cbn [bind].
  destruct (fst (next_answer f _)) as [|k]; cbn [got result]; [reflexivity|].
  match goal with |- context [(Z.of_nat ?x <? 0)%Z] => destruct (Z.ltb_spec (Z.of_nat x) 0); [lia|reflexivity] end.
Qed.
Lemma ww_linear_same D f m b e : e - b < D -> ww_linear D f m b e = fw_linear f m b e \/ length m < e.
Proof.
  intros H. destruct (Nat.le_gt_cases e (length m)) as [He|He]; [left|right; exact He].
  unfold ww_linear, fw_linear, WriteFile. destruct (Z.of_nat e - Z.of_nat b >? 0)%Z eqn:S; [|reflexivity].
  rewrite Z.gtb_ltb in S. apply Z.ltb_lt in S.
  rewrite Nat.mod_small by lia. rewrite sys_write_ok by lia. cbn [bind].
  destruct (fst (next_answer f _)) as [|k]; cbn [sent result]; [reflexivity|].
  match goal with |- context [(Z.of_nat ?x <? 0)%Z] => destruct (Z.ltb_spec (Z.of_nat x) 0); [lia|reflexivity] end.
Qed.

(** A read or write on Windows of less than 2 to the 32 bytes, from a handle that is no pipe without writers,
    does what it does on Posix, whatever the range; so C77 and C78 hold there, and are refuted there, as on Posix. *)
Theorem C230_same_partial : forall DWORD f m r, length m < DWORD -> in_memory (length m) r ->
  win_read DWORD false f m r = file_read f m r /\ win_write DWORD f m r = file_write f m r.
Proof.
  intros D f m r HD I. destruct r as [b e|b e]; cbn [win_read file_read win_write file_write in_memory] in *.
  - destruct I as [I1 I2]. split.
    + destruct (wr_linear_same D f m b e) as [E|E]; [lia|exact E|lia].
    + destruct (ww_linear_same D f m b e) as [E|E]; [lia|exact E|lia].
  - destruct I as [I1 I2]. unfold wr_circular, fr_circular, ww_circular, fw_circular.
    rewrite (ranges_ok (length m) b e) by lia. cbn [bind]. split.
    + destruct (wr_linear_same D f m b (length m)) as [E|E]; [lia| |lia]. rewrite E.
      destruct (fr_linear f m b (length m)) as [[[f1 m1] c0]| |] eqn:E1; [|reflexivity|reflexivity]. cbn [bind].
      destruct (negb (c0 =? INVALID_COUNT_BYTES)%Z); [|reflexivity].
      assert (L1 : length m1 = length m).
      { rewrite fr_linear_ok in E1 by lia. destruct (b <? length m); [|injection E1 as <- <- <-; reflexivity].
        rewrite sys_read_ok in E1 by lia. injection E1 as <- <- <-. apply put_length. }
      destruct (wr_linear_same D f1 m1 0 e) as [E2|E2]; [lia| |lia]. rewrite E2. reflexivity.
    + destruct (ww_linear_same D f m b (length m)) as [E|E]; [lia| |lia]. rewrite E.
      destruct (fw_linear f m b (length m)) as [[f1 c0]| |]; [|reflexivity|reflexivity]. cbn [bind].
      destruct (_ && _); [|reflexivity].
      destruct (ww_linear_same D f1 m 0 e) as [E2|E2]; [lia| |lia]. rewrite E2. reflexivity.
Qed.

(** A file of two bytes read into a ring of four, from its third place on. *)
Example C230_same_case :
  let f := File [7; 8]%Z [] [AtMost 5; AtMost 5] in
  4 < 256 /\ in_memory 4 (Circular 2 1)
  /\ win_read 256 false f [0; 0; 0; 0]%Z (Circular 2 1) = Ok (File [] [] [], [0; 0; 7; 8]%Z, 2%Z).
Proof. cbn. repeat split; lia. Qed.

(** A range whose size is a multiple of the number of values of DWORD: nothing is transferred and 0 is reported,
    whatever is there to read, and however willing the system is. *)
Theorem C230_size_refuted : forall DWORD input output m b e x,
  0 < DWORD -> b < e -> e <= length m -> (e - b) mod DWORD = 0 ->
  let f := File (x :: input) output [] in
  (exists f', win_read DWORD false f m (Linear b e) = Ok (f', m, 0%Z)) /\ ~ read_progress f 0
  /\ (exists f', win_write DWORD f m (Linear b e) = Ok (f', 0%Z) /\ f_output f' = output) /\ ~ write_progress f 0.
Proof.
  intros D input output m b e x HD Hb He Hm f. destruct (size_pos b e Hb) as [S1 S2]. cbn [win_read win_write].
  unfold wr_linear, ww_linear, ReadFile, WriteFile. rewrite S1, S2, Hm. cbn [andb].
  split; [|split; [|split]].
  - eexists. unfold sys_read, next_answer. cbn. reflexivity.
  - intros P. destruct (P I) as [P1 _]. destruct P1 as [P1 _]. specialize (P1 eq_refl). discriminate.
  - eexists. unfold sys_write, next_answer. cbn. split; [reflexivity|]. apply app_nil_r.
  - intros P. specialize (P I). lia.
Qed.

(** A loop that writes such a range piece by piece never ends and writes nothing. *)
Theorem C230_loop_refuted : forall DWORD input output m b e fuel,
  0 < DWORD -> b < e -> e <= length m -> (e - b) mod DWORD = 0 ->
  write_everything DWORD fuel (File input output []) m b e = Diverge.
Proof.
  intros D input output m b e fuel HD Hb He Hm. destruct (size_pos b e Hb) as [S1 S2].
  induction fuel as [|fuel IH]; [reflexivity|]. cbn [write_everything].
  destruct (Nat.leb_spec e b); [lia|]. unfold ww_linear, WriteFile. rewrite S1, S2, Hm.
  unfold sys_write, next_answer. cbn. rewrite app_nil_r, Nat.add_0_r. exact IH.
Qed.

(** A loop that writes a shorter range piece by piece writes exactly its bytes, however small the pieces
    the system takes. *)
Theorem C230_loop_partial : forall DWORD m e n b input output answers,
  Forall (fun a => exists k, a = AtMost k /\ 0 < k) answers ->
  b + n = e -> e <= length m -> n < DWORD ->
  exists f', write_everything DWORD (S n) (File input output answers) m b e = Ok f'
    /\ f_input f' = input /\ f_output f' = output ++ bytes_of m (Linear b e).
Proof.
  intros D m e. 
  assert (G : forall n b input output answers fuel, n < fuel ->
    Forall (fun a => exists k, a = AtMost k /\ 0 < k) answers ->
    b + n = e -> e <= length m -> n < D ->
    exists f', write_everything D fuel (File input output answers) m b e = Ok f'
      /\ f_input f' = input /\ f_output f' = output ++ bytes_of m (Linear b e)).
  { induction n as [n IH] using lt_wf_ind. intros b input output answers fuel Hf A Hn He HD.
    destruct fuel as [|fuel]; [lia|]. cbn [write_everything].
    destruct (Nat.leb_spec e b) as [Hle|Hlt].
    - eexists. split; [reflexivity|]. cbn [f_input f_output]. unfold bytes_of. cbn [places].
      replace (e - b) with 0 by lia. cbn. rewrite app_nil_r. auto.
    - destruct (ww_linear_same D (File input output answers) m b e) as [E|E]; [lia| |lia]. rewrite E.
      destruct (size_pos b e Hlt) as [S1 S2]. unfold fw_linear. rewrite S1, S2.
      rewrite sys_write_ok by lia.
      assert (W : exists k, fst (next_answer (File input output answers) (e - b)) = AtMost k /\ 0 < k).
      { apply next_willing; [lia|]. destruct answers as [|a l]; [exact I|].
        inversion A as [|? ? (k & -> & Hk) _]; subst. exact Hk. }
      destruct W as (k & -> & Hk). cbn [sent put_some result bind f_input f_output].
      set (j := Nat.min k (e - b)). destruct (Z.ltb_spec (Z.of_nat j) 0); [lia|]. rewrite Nat2Z.id.
      assert (Hj : 0 < j) by (subst j; lia). assert (Hj' : j <= e - b) by (subst j; lia).
      destruct (IH (n - j) ltac:(lia) (b + j) input
                  (output ++ map (fun i => nth i m 0%Z) (seq b j)) (snd (next_answer (File input output answers) (e - b)))
                  fuel ltac:(lia)) as (f' & E' & I' & O'); try lia.
      { unfold next_answer. cbn [f_answers]. destruct answers; [constructor|]. inversion A; assumption. }
      exists f'. split; [exact E'|]. split; [exact I'|]. rewrite O'. rewrite <- app_assoc. f_equal.
      unfold bytes_of. cbn [places]. rewrite <- map_app. f_equal.
      replace (e - b) with (j + (e - (b + j))) by lia. rewrite seq_app. reflexivity. }
  intros n b input output answers A Hn He HD. apply (G n); auto; lia.
Qed.

(** Three bytes, at most one or two at a time. *)
Example C230_loop_case :
  write_everything 256 4 (File [] [] [AtMost 1; AtMost 5]) [5; 6; 7; 8]%Z 1 4 = Ok (File [] [6; 7; 8]%Z []).
Proof. vm_compute. reflexivity. Qed.

(** Reading a pipe whose writers are gone reports a failure at the end of the input, not 0. *)
Theorem C230_pipe_refuted : forall DWORD output answers m b e, b < e -> e <= length m ->
  let f := File [] output answers in
  win_read DWORD true f m (Linear b e) = Ok (f, m, (-1)%Z) /\ (willing f -> ~ read_progress f (-1)).
Proof.
  intros D output answers m b e Hb He f. destruct (size_pos b e Hb) as [S1 S2]. split.
  - cbn [win_read]. unfold wr_linear, ReadFile. rewrite S1. cbn [f_input f andb bind]. reflexivity.
  - intros W P. destruct (P W) as [_ P2]. lia.
Qed.

(** The conditions can be met: any number of values of DWORD, 2 to the 32 too. *)
Example C230_size_case : forall DWORD, 0 < DWORD ->
  let m := repeat 0%Z DWORD in 0 < DWORD /\ DWORD <= length m /\ (DWORD - 0) mod DWORD = 0.
Proof. intros D H. cbn. rewrite repeat_length, Nat.sub_0_r, Nat.mod_same by lia. lia. Qed.

Print Assumptions C230_posix_partial.
Print Assumptions C230_windows_partial.
Print Assumptions C230_same_partial.
Print Assumptions C230_size_refuted.
Print Assumptions C230_loop_refuted.
Print Assumptions C230_loop_partial.
Print Assumptions C230_pipe_refuted.
