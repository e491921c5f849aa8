(** Lemmas for SerializationProps.v *)
From Coq Require Import ZArith List Lia Arith.
From Verif Require Import Base BaseLemmas BitsModel ByteOrderModel ByteOrderSpec
  ByteOrderProofs SerializationModel
  SerializationSpec.
Import ListNotations.

Lemma mem_of_bytes_in host t v : mem_of host t v = bytes_in host (size_of (it_width t)) v.
Proof. reflexivity. Qed.

Lemma val_of_mem_of host t v : in_range t v -> val_of host t (mem_of host t v) = v.
Proof.
  intros H. apply (in_range_congr t).
  - destruct t as [w s]; unfold in_range, val_of; cbn [it_width it_signed].
    destruct s; [apply to_signed_range|].
    set (l := match host with LE => _ | BE => _ end).
    assert (l = le_bytes (size_of w) v) as ->.
    { subst l. destruct host; cbn; auto. rewrite rev_involutive. auto. }
    fold (le_val (le_bytes (size_of w) v)).
    rewrite bytes_mod_val. apply to_unsigned_range.
  - auto.
  - destruct t as [w s]; unfold val_of; cbn [it_width it_signed].
    set (l := match host with LE => _ | BE => _ end).
    assert (l = le_bytes (size_of w) v) as ->.
    { subst l. destruct host; cbn; auto. rewrite rev_involutive. auto. }
    fold (le_val (le_bytes (size_of w) v)). rewrite bytes_mod_val.
    destruct s.
    + rewrite to_signed_mod. apply Z.mod_mod. destruct w; discriminate.
    + apply Z.mod_mod. destruct w; discriminate.
Qed.

Lemma write_ok {A} (l : list A) i x : i < length l -> write l i x = Ok (upd l i x).
Proof. intros H. unfold write. apply Nat.ltb_lt in H. rewrite H. auto. Qed.

Lemma splice_step {A} (buf src : list A) b pos :
  pos + S (length src) <= length buf ->
  firstn (S pos) (upd buf pos b) ++ src ++ skipn (S pos + length src) (upd buf pos b)
  = firstn pos buf ++ (b :: src) ++ skipn (pos + S (length src)) buf.
Proof.
  intros H. apply list_ext. intros i.
  cbn [app]. 
  rewrite !nth_error_app, !firstn_length, !upd_length.
  replace (Nat.min (S pos) (length buf)) with (S pos) by lia.
  replace (Nat.min pos (length buf)) with pos by lia.
  rewrite !nth_error_firstn, !nth_error_skipn, !nth_error_upd.
  destruct (Nat.ltb_spec i (S pos)).
  - destruct (Nat.ltb_spec i pos).
    + destruct (Nat.eqb_spec pos i); [lia|]. reflexivity.
    + assert (i = pos) as -> by lia. rewrite Nat.eqb_refl, Nat.sub_diag.
      assert (pos <? length buf = true) as -> by (apply Nat.ltb_lt; lia). reflexivity.
  - destruct (Nat.ltb_spec i pos); [lia|].
    change (b :: src ++ skipn (pos + S (length src)) buf)
      with ([b] ++ (src ++ skipn (pos + S (length src)) buf)).
    rewrite (nth_error_app [b]). cbn [length].
    destruct (Nat.ltb_spec (i - pos) 1); [lia|].
    rewrite nth_error_app.
    replace (i - pos - 1) with (i - S pos) by lia.
    destruct (Nat.ltb_spec (i - S pos) (length src)); auto.
    rewrite nth_error_skipn.
    destruct (Nat.eqb_spec pos (S pos + length src + (i - S pos - length src))); [lia|].
    cbn [andb]. f_equal. lia.
Qed.

Lemma copy_loop_ok src : forall buf pos c,
  pos + length src <= length buf ->
  copy_loop src buf pos c
  = Ok (firstn pos buf ++ src ++ skipn (pos + length src) buf, c + length src).
Proof.
  induction src as [|b src IH]; intros buf pos c H; simpl copy_loop; simpl length in *.
  - rewrite !Nat.add_0_r. cbn [app]. rewrite firstn_skipn. reflexivity.
  - rewrite write_ok by lia. cbn [bind].
    rewrite IH by (rewrite upd_length; lia).
    rewrite splice_step by lia. do 2 f_equal. lia.
Qed.

Lemma copy_loop_UB src : forall buf pos c,
  src <> [] -> length buf < pos + length src -> copy_loop src buf pos c = UB.
Proof.
  induction src as [|b src IH]; intros buf pos c Hne H; [congruence|].
  simpl copy_loop; simpl length in *. unfold write.
  destruct (Nat.ltb_spec pos (length buf)); cbn [bind]; auto.
  destruct src as [|b' src]; simpl length in *; [lia|].
  apply IH; [congruence|]. rewrite upd_length. lia.
Qed.

Lemma read_bytes_ok n : forall buf pos,
  pos + n <= length buf -> read_bytes buf pos n = Ok (firstn n (skipn pos buf)).
Proof.
  induction n as [|n IH]; intros buf pos H; auto.
  simpl read_bytes. unfold read.
  destruct (nth_error_lt buf pos) as [x Hx]; [lia|]. rewrite Hx. cbn [bind].
  rewrite IH by lia. cbn [bind].
  assert (skipn pos buf = x :: skipn (S pos) buf) as ->; [|reflexivity].
  clear -Hx. revert buf Hx; induction pos; intros [|b buf] Hx; try discriminate.
  - injection Hx as ->. reflexivity.
  - cbn [skipn]. rewrite (IHpos buf) by auto. reflexivity.
Qed.

Lemma serialize_ok host o t v s :
  in_range t v ->
  s_offset s + size_of (it_width t) <= length (s_data s) ->
  serialize host o t v s
  = Ok (Ser (firstn (s_offset s) (s_data s)
             ++ bytes_in o (size_of (it_width t)) v
             ++ skipn (s_offset s + size_of (it_width t)) (s_data s))
            (s_offset s + size_of (it_width t)), size_of (it_width t)).
Proof.
  intros Hr Hl. unfold serialize. rewrite mem_of_bytes_in, ToNeedOrder_bytes by auto.
  rewrite copy_loop_ok by (rewrite bytes_in_length; lia).
  cbn [bind]. rewrite bytes_in_length. reflexivity.
Qed.

Lemma enc_size_cons t v vs : enc_size ((t, v) :: vs) = size_of (it_width t) + enc_size vs.
Proof. reflexivity. Qed.

Lemma encode_cons o t v vs :
  encode o ((t, v) :: vs) = bytes_in o (size_of (it_width t)) v ++ encode o vs.
Proof. reflexivity. Qed.

Lemma encode_length o vs : length (encode o vs) = enc_size vs.
Proof.
  induction vs as [|[t v] vs IH]; auto. unfold encode, enc_size in *. cbn.
  rewrite app_length, bytes_in_length, IH. reflexivity.
Qed.

Lemma firstn_app_exact {A} (l1 l2 : list A) n : n = length l1 -> firstn n (l1 ++ l2) = l1.
Proof. intros ->. rewrite firstn_app, Nat.sub_diag, firstn_all, app_nil_r. auto. Qed.

Lemma skipn_app_exact {A} (l1 l2 : list A) n : n = length l1 -> skipn n (l1 ++ l2) = l2.
Proof. intros ->. rewrite skipn_app, Nat.sub_diag, skipn_all. auto. Qed.

Lemma skipn_add {A} (l : list A) n m : skipn m (skipn n l) = skipn (n + m) l.
Proof.
  apply list_ext; intros i. rewrite !nth_error_skipn. f_equal. lia.
Qed.

Lemma serialize_all_ok host o vs : forall s,
  Forall (fun p => in_range (fst p) (snd p)) vs ->
  s_offset s + enc_size vs <= length (s_data s) ->
  serialize_all host o vs s
  = Ok (Ser (firstn (s_offset s) (s_data s) ++ encode o vs
             ++ skipn (s_offset s + enc_size vs) (s_data s))
            (s_offset s + enc_size vs),
        map (fun p => size_of (it_width (fst p))) vs).
Proof.
  induction vs as [|[t v] vs IH]; intros [buf off] HF Hl; simpl s_data in *; simpl s_offset in *.
  - cbn. rewrite !Nat.add_0_r, firstn_skipn. reflexivity.
  - inversion HF as [|? ? Hr HF']; subst. cbn [fst snd] in Hr.
    rewrite enc_size_cons in *.
    cbn [serialize_all]. rewrite serialize_ok by (auto; simpl; lia). cbn [bind s_data s_offset].
    set (n := size_of (it_width t)) in *.
    rewrite IH; [|auto|].
    2:{ cbn [s_data s_offset]. rewrite !app_length, firstn_length, skipn_length, bytes_in_length. lia. }
    cbn [bind s_data s_offset map fst]. rewrite encode_cons. fold n.
    assert (length (firstn off buf) = off) as Hfl by (rewrite firstn_length; lia).
    do 2 f_equal. f_equal; [|lia].
    rewrite (app_assoc (firstn off buf)).
    rewrite firstn_app_exact by (rewrite app_length, bytes_in_length, Hfl; auto).
    rewrite <- (skipn_add _ (off + n) (enc_size vs)).
    rewrite skipn_app_exact by (rewrite app_length, bytes_in_length, Hfl; auto).
    rewrite skipn_add. rewrite <- !app_assoc. do 3 f_equal. f_equal. lia.
Qed.

Lemma deserialize_ok host o t v pre post buf :
  in_range t v ->
  buf = pre ++ bytes_in o (size_of (it_width t)) v ++ post ->
  deserialize host o t (Ser buf (length pre))
  = Ok (Ser buf (length pre + size_of (it_width t)), v, size_of (it_width t)).
Proof.
  intros Hr ->. unfold deserialize. cbn [s_data s_offset].
  set (n := size_of (it_width t)).
  rewrite read_bytes_ok by (rewrite !app_length, bytes_in_length; fold n; lia).
  cbn [bind].
  rewrite skipn_app_exact by auto.
  rewrite firstn_app_exact by (rewrite bytes_in_length; auto).
  rewrite copy_loop_ok by (rewrite bytes_in_length, repeat_length; lia).
  cbn [bind]. rewrite bytes_in_length. cbn [firstn app].
  rewrite skipn_all2 by (rewrite repeat_length; lia). rewrite app_nil_r.
  do 3 f_equal.
  subst n. rewrite <- (ToNeedOrder_bytes host o t v) by auto.
  rewrite <- mem_of_bytes_in, val_of_mem_of by (apply ToNeedOrder_range; auto).
  apply ToNeedOrder_back; auto.
Qed.

Lemma deserialize_all_ok host o vs : forall pre post buf,
  Forall (fun p => in_range (fst p) (snd p)) vs ->
  buf = pre ++ encode o vs ++ post ->
  deserialize_all host o (map fst vs) (Ser buf (length pre))
  = Ok (Ser buf (length pre + enc_size vs), map snd vs,
        map (fun p => size_of (it_width (fst p))) vs).
Proof.
  induction vs as [|[t v] vs IH]; intros pre post buf HF Hb.
  - cbn. unfold enc_size; cbn. rewrite Nat.add_0_r. reflexivity.
  - inversion HF as [|? ? Hr HF']; subst. cbn [fst snd] in *.
    cbn [map fst snd deserialize_all].
    rewrite encode_cons.
    rewrite (deserialize_ok host o t v pre (encode o vs ++ post))
      by (auto; rewrite <- app_assoc; auto).
    cbn [bind].
    set (n := size_of (it_width t)).
    set (pre' := pre ++ bytes_in o n v).
    assert (length pre + n = length pre') as -> by (unfold pre'; rewrite app_length, bytes_in_length; auto).
    rewrite (IH pre' post) by (auto; unfold pre'; rewrite <- !app_assoc; reflexivity).
    cbn [bind]. do 3 f_equal. f_equal.
    unfold pre'. rewrite enc_size_cons, app_length, bytes_in_length. fold n. lia.
Qed.

(** ** Partial values *)

Lemma nth_error_rev' {A} (l : list A) i :
  i < length l -> nth_error (rev l) i = nth_error l (length l - S i).
Proof.
  revert i; induction l as [|a l IH]; intros i H; simpl in *; [lia|].
  rewrite nth_error_app, rev_length.
  destruct (Nat.ltb_spec i (length l)).
  - rewrite IH by auto. destruct (length l - i) eqn:E; [lia|].
    simpl. f_equal. lia.
  - assert (i = length l) as -> by lia. rewrite !Nat.sub_diag. reflexivity.
Qed.

Lemma rev_slice {A} (l : list A) size off :
  size + off <= length l ->
  firstn size (skipn (length l - size - off) l) = rev (firstn size (skipn off (rev l))).
Proof.
  intros H.
  assert (length (firstn size (skipn off (rev l))) = size) as Hlen.
  { rewrite firstn_length, skipn_length, rev_length. lia. }
  apply list_ext. intros i.
  destruct (Nat.ltb_spec i size).
  - rewrite nth_error_rev' by lia. rewrite Hlen.
    rewrite !nth_error_firstn, !nth_error_skipn.
    destruct (Nat.ltb_spec i size); [|lia].
    destruct (Nat.ltb_spec (size - S i) size); [|lia].
    rewrite nth_error_rev' by lia. f_equal. lia.
  - rewrite (proj2 (nth_error_None _ _)). symmetry. apply nth_error_None.
    rewrite rev_length. lia. rewrite firstn_length. lia.
Qed.

Lemma significant_length o n size off v :
  size + off <= n -> length (significant o n size off v) = size.
Proof.
  intros H. unfold significant, be_bytes.
  destruct o; rewrite ?rev_length, firstn_length, skipn_length, rev_length, le_bytes_length; lia.
Qed.

Lemma sv_forward_make host o t v size off :
  in_range t v -> size + off <= size_of (it_width t) ->
  sv_forward o (makeSpecializedValue host o t v size off)
  = Ok (significant o (size_of (it_width t)) size off v).
Proof.
  intros Hr Hs. unfold sv_forward, makeSpecializedValue, sv_begin. cbn [sv_mem sv_size sv_off].
  rewrite mem_of_bytes_in, ToNeedOrder_bytes, bytes_in_length by auto.
  set (n := size_of (it_width t)) in *.
  destruct (Nat.leb_spec (size + off) n); [|lia].
  destruct o; cbn [bind].
  - rewrite read_bytes_ok by (rewrite bytes_in_length; lia). f_equal.
    unfold significant. cbn [bytes_in].
    rewrite <- (le_bytes_length n v) at 1. rewrite rev_slice; [reflexivity|].
    rewrite le_bytes_length. lia.
  - rewrite read_bytes_ok by (rewrite bytes_in_length; lia). reflexivity.
Qed.

Lemma rev_significant o o' n size off v :
  o <> o' -> rev (significant o n size off v) = significant o' n size off v.
Proof.
  intros H. unfold significant. destruct o, o'; try congruence; auto using rev_involutive.
Qed.

Lemma serialize_sv_ok host so vo t v size off s :
  in_range t v -> size + off <= size_of (it_width t) ->
  s_offset s + size <= length (s_data s) ->
  serialize_sv so vo (makeSpecializedValue host vo t v size off) s
  = Ok (Ser (firstn (s_offset s) (s_data s)
             ++ significant so (size_of (it_width t)) size off v
             ++ skipn (s_offset s + size) (s_data s))
            (s_offset s + size), size).
Proof.
  intros Hr Hs Hl. unfold serialize_sv.
  assert ((if order_eqb so vo
           then sv_forward vo (makeSpecializedValue host vo t v size off)
           else sv_backward vo (makeSpecializedValue host vo t v size off))
          = Ok (significant so (size_of (it_width t)) size off v)) as ->.
  { unfold sv_backward. rewrite sv_forward_make by auto. cbn [bind].
    destruct so, vo; cbn [order_eqb]; auto; f_equal; apply rev_significant; congruence. }
  cbn [bind]. rewrite copy_loop_ok by (rewrite significant_length; auto).
  cbn [bind]. rewrite significant_length by auto. reflexivity.
Qed.

Lemma copy_loop_rev_ok src : forall buf pos c,
  length src <= S pos -> pos < length buf ->
  copy_loop_rev src buf pos c
  = Ok (firstn (S pos - length src) buf ++ rev src ++ skipn (S pos) buf, c + length src).
Proof.
  induction src as [|b src IH]; intros buf pos c H1 H2; simpl copy_loop_rev; simpl length in *.
  - cbn [rev app]. rewrite Nat.sub_0_r, firstn_skipn, Nat.add_0_r. reflexivity.
  - rewrite write_ok by lia. cbn [bind].
    destruct src as [|b' src].
    + simpl. rewrite Nat.sub_0_r. f_equal. f_equal; [|lia].
      apply list_ext; intros i.
      rewrite nth_error_upd, nth_error_app, firstn_length, nth_error_firstn.
      replace (Nat.min pos (length buf)) with pos by lia.
      destruct (Nat.ltb_spec i pos).
      * destruct (Nat.eqb_spec pos i); [lia|]. reflexivity.
      * destruct (Nat.eqb_spec pos i).
        -- subst. rewrite Nat.sub_diag. destruct (Nat.ltb_spec i (length buf)); [|lia]. reflexivity.
        -- cbn [andb]. destruct (i - pos) eqn:E; [lia|].
           change (b :: match buf with [] => [] | _ :: l => skipn pos l end)
             with (b :: skipn (S pos) buf).
           cbn [nth_error]. rewrite nth_error_skipn. f_equal. lia.
    + assert (0 < length (b' :: src)) by (simpl; lia).
      remember (b' :: src) as src2 eqn:Hsrc2. clear Hsrc2.
      rewrite IH by (rewrite ?upd_length; lia).
      f_equal. f_equal; [|lia].
      replace (S (pred pos)) with pos by lia.
      cbn [rev]. rewrite <- (app_assoc (rev src2)). cbn [app].
      apply list_ext; intros i.
      rewrite !nth_error_app, !firstn_length, !upd_length, !nth_error_firstn, !rev_length.
      replace (S pos - S (length src2)) with (pos - length src2) by lia.
      replace (Nat.min (pos - length src2) (length buf)) with (pos - length src2) by lia.
      destruct (Nat.ltb_spec i (pos - length src2)).
      * rewrite nth_error_upd. destruct (Nat.eqb_spec pos i); [lia|]. reflexivity.
      * destruct (Nat.ltb_spec (i - (pos - length src2)) (length src2)); auto.
        remember (i - (pos - length src2) - length src2) as k eqn:Hk.
        assert (i = pos + k) as Hi by lia. clear Hk.
        rewrite nth_error_skipn, nth_error_upd.
        destruct (Nat.eqb_spec pos (pos + k)).
        -- replace k with 0 by lia. destruct (Nat.ltb_spec pos (length buf)); [|lia]. reflexivity.
        -- cbn [andb]. destruct k as [|k]; [lia|]. cbn [nth_error].
           rewrite nth_error_skipn. f_equal. lia.
Qed.

(** Memory image of a value of which only the selected bytes are set. *)
Definition blank (o : order) (n size off : nat) (src : list Z) : list Z :=
  let b := match o with BE => off | LE => n - size - off end in
  repeat 0%Z b ++ src ++ repeat 0%Z (n - size - b).

Lemma mem_of_zero host t : mem_of host t 0 = repeat 0%Z (size_of (it_width t)).
Proof. destruct host, t as [[] ?]; reflexivity. Qed.

Lemma firstn_repeat {A} (x : A) n m : firstn n (repeat x m) = repeat x (Nat.min n m).
Proof. revert m; induction n; intros [|m]; simpl; auto. f_equal; auto. Qed.

Lemma skipn_repeat {A} (x : A) n m : skipn n (repeat x m) = repeat x (m - n).
Proof. revert m; induction n; intros [|m]; simpl; auto. Qed.

Lemma deserialize_sv_ok host so vo t v size off pre post buf :
  in_range t v -> size + off <= size_of (it_width t) ->
  buf = pre ++ significant so (size_of (it_width t)) size off v ++ post ->
  deserialize_sv so vo (makeSpecializedValueEmpty host t size off) (Ser buf (length pre))
  = Ok (Ser buf (length pre + size),
        SV (blank vo (size_of (it_width t)) size off
              (significant vo (size_of (it_width t)) size off v)) size off, size).
Proof.
  intros Hr Hs ->. unfold deserialize_sv, sv_begin, makeSpecializedValueEmpty.
  cbn [sv_mem sv_size sv_off s_data s_offset]. rewrite mem_of_zero, repeat_length.
  set (n := size_of (it_width t)) in *.
  destruct (Nat.leb_spec (size + off) n) as [_|]; [|lia].
  set (b := match vo with BE => off | LE => n - size - off end).
  assert ((match vo with BE => Ok off | LE => Ok (n - size - off) end) = Ok b) as Hb
    by (destruct vo; reflexivity).
  assert (match vo with LE => Ok (n - size - off) | BE => Ok off end = Ok b) as ->
    by (destruct vo; reflexivity).
  cbn [bind].
  rewrite read_bytes_ok by (rewrite !app_length, significant_length; lia).
  cbn [bind].
  rewrite skipn_app_exact by auto.
  rewrite firstn_app_exact by (rewrite significant_length; auto).
  assert (b + size <= n) as Hbn by (subst b; destruct vo; lia).
  destruct (Nat.eq_dec size 0) as [E0|E0].
  { subst size. assert (significant so n 0 off v = []) as ->
      by (unfold significant; destruct so; reflexivity).
    assert (significant vo n 0 off v = []) as ->
      by (unfold significant; destruct vo; reflexivity).
    destruct (order_eqb so vo); cbn [copy_loop copy_loop_rev bind];
      do 3 f_equal; f_equal; unfold blank; fold b; rewrite Nat.sub_0_r; cbn [app];
      rewrite <- repeat_app; f_equal; lia. }
  destruct (order_eqb so vo) eqn:Eo.
  - assert (so = vo) as -> by (destruct so, vo; cbn in Eo; congruence).
    rewrite copy_loop_ok by (rewrite significant_length, repeat_length; lia).
    cbn [bind]. rewrite significant_length by auto. rewrite Nat.add_0_l.
    unfold blank. fold b. rewrite firstn_repeat, skipn_repeat.
    replace (Nat.min b n) with b by lia. do 6 f_equal. f_equal. lia.
  - assert (so <> vo) as Hne by (destruct so, vo; cbn in Eo; congruence).
    rewrite copy_loop_rev_ok by (rewrite ?significant_length, ?repeat_length; lia).
    cbn [bind]. rewrite significant_length by auto. rewrite Nat.add_0_l.
    rewrite rev_significant with (o' := vo) by auto.
    unfold blank. fold b. rewrite firstn_repeat, skipn_repeat.
    replace (Nat.min (S (b + size - 1) - size) n) with b by lia.
    do 6 f_equal. f_equal. lia.
Qed.

(** The value of the blanked memory image. *)
Lemma byte_of_mod v k i :
  byte_of (v mod 256 ^ Z.of_nat k) i = if i <? k then byte_of v i else 0%Z.
Proof.
  revert v k; induction i as [|i IH]; intros v [|k].
  - cbn. rewrite Zmod_1_r. reflexivity.
  - rewrite !byte_of_0. cbn [Nat.ltb Nat.leb].
    rewrite Nat2Z.inj_succ, Z.pow_succ_r by lia.
    assert (0 < 256 ^ Z.of_nat k)%Z by (apply Z.pow_pos_nonneg; lia).
    rewrite Z.rem_mul_r by lia. rewrite Z.mul_comm, Z.mod_add by lia. apply Z.mod_mod; lia.
  - cbn [Nat.ltb Nat.leb Z.of_nat]. rewrite Z.pow_0_r, Zmod_1_r.
    unfold byte_of. rewrite Z.div_0_l. reflexivity. apply Z.pow_nonzero; lia.
  - rewrite !byte_of_S. change (S i <? S k) with (i <? k). rewrite <- IH. f_equal.
    rewrite Nat2Z.inj_succ, Z.pow_succ_r by lia.
    assert (0 < 256 ^ Z.of_nat k)%Z by (apply Z.pow_pos_nonneg; lia).
    rewrite Z.rem_mul_r by lia.
    rewrite (Z.mul_comm 256), Z.div_add by lia.
    rewrite (Z.div_small (v mod 256)) by (apply Z.mod_pos_bound; lia). lia.
Qed.

Lemma byte_of_shift x a i :
  byte_of (x * 256 ^ Z.of_nat a) i = if i <? a then 0%Z else byte_of x (i - a).
Proof.
  revert i; induction a as [|a IH]; intros i.
  - cbn [Z.of_nat]. rewrite Z.pow_0_r, Z.mul_1_r, Nat.sub_0_r. reflexivity.
  - rewrite Nat2Z.inj_succ, Z.pow_succ_r by lia.
    replace (x * (256 * 256 ^ Z.of_nat a))%Z with (x * 256 ^ Z.of_nat a * 256)%Z by lia.
    destruct i as [|i].
    + rewrite byte_of_0, Z.mod_mul by lia. reflexivity.
    + rewrite byte_of_S, Z.div_mul by lia. apply IH.
Qed.

Lemma byte_of_div v a i : byte_of (v / 256 ^ Z.of_nat a) i = byte_of v (i + a).
Proof.
  unfold byte_of. rewrite Z.div_div by (try apply Z.pow_nonzero; try apply Z.pow_pos_nonneg; lia).
  rewrite <- Z.pow_add_r, Nat2Z.inj_add by lia. do 3 f_equal. lia.
Qed.

Lemma nth_error_le_bytes n v i :
  nth_error (le_bytes n v) i = if i <? n then Some (byte_of v i) else None.
Proof.
  unfold le_bytes. rewrite nth_error_map'.
  destruct (Nat.ltb_spec i n).
  - rewrite (nth_error_nth' _ 0) by (rewrite seq_length; auto).
    rewrite seq_nth by auto. reflexivity.
  - rewrite (proj2 (nth_error_None _ _)). reflexivity. rewrite seq_length; auto.
Qed.

Lemma blank_bytes o n size off v :
  size + off <= n ->
  blank o n size off (significant o n size off v) = bytes_in o n (select n size off v).
Proof.
  intros H.
  assert (blank LE n size off (significant LE n size off v) = le_bytes n (select n size off v)) as HLE.
  { apply list_ext. intros i. unfold blank, significant.
    remember (n - size - off) as a eqn:Ha.
    rewrite !nth_error_app, !repeat_length, !nth_error_repeat_lt.
    rewrite rev_length. rewrite firstn_length, skipn_length.
    replace (length (be_bytes n v)) with n
      by (unfold be_bytes; rewrite rev_length, le_bytes_length; reflexivity).
    replace (Nat.min size (n - off)) with size by lia.
    rewrite nth_error_le_bytes. unfold select.
    replace (n - off - size) with a by lia.
    rewrite byte_of_shift.
    destruct (Nat.ltb_spec i a).
    - destruct (Nat.ltb_spec i n); [reflexivity|lia].
    - rewrite byte_of_mod, byte_of_div.
      destruct (Nat.ltb_spec (i - a) size).
      + destruct (Nat.ltb_spec i n); [|lia].
        unfold be_bytes. 
        pose proof (rev_slice (le_bytes n v) size off) as RS.
        rewrite le_bytes_length in RS. rewrite <- Ha in RS. rewrite <- RS by lia.
        rewrite nth_error_firstn, nth_error_skipn, nth_error_le_bytes.
        destruct (Nat.ltb_spec (i - a) size); [|lia].
        destruct (Nat.ltb_spec (a + (i - a)) n); [|lia].
        do 2 f_equal. lia.
      + destruct (Nat.ltb_spec i n); destruct (Nat.ltb_spec (i - a - size) (n - size - a)); auto; lia. }
  destruct o; [exact HLE|].
  cbn [bytes_in]. unfold be_bytes at 1. rewrite <- HLE.
  unfold blank. rewrite !rev_app_distr.
  assert (rev (significant LE n size off v) = significant BE n size off v) as ->
    by (apply rev_significant; congruence).
  assert (forall (x : Z) k, rev (repeat x k) = repeat x k) as Hrr.
  { intros x k. induction k; simpl; auto. rewrite IHk.
    clear. induction k; simpl; auto. f_equal; auto. }
  rewrite !Hrr, <- app_assoc. f_equal. f_equal. lia.
Qed.

Lemma select_range w size off v :
  size + off <= size_of w ->
  (0 <= select (size_of w) size off v < 2 ^ bits w)%Z.
Proof.
  intros H. rewrite bits_pow. unfold select.
  set (n := size_of w) in *. set (a := n - off - size).
  assert (0 < 256 ^ Z.of_nat a)%Z by (apply Z.pow_pos_nonneg; lia).
  assert (0 < 256 ^ Z.of_nat size)%Z by (apply Z.pow_pos_nonneg; lia).
  pose proof (Z.mod_pos_bound (v / 256 ^ Z.of_nat a) (256 ^ Z.of_nat size)) as Hm.
  split; [apply Z.mul_nonneg_nonneg; lia|].
  apply Z.lt_le_trans with (256 ^ Z.of_nat size * 256 ^ Z.of_nat a)%Z.
  - apply Z.mul_lt_mono_pos_r; lia.
  - rewrite <- Z.pow_add_r by lia. apply Z.pow_le_mono_r; lia.
Qed.

Lemma sv_value_blank host vo t v size off :
  in_range t v -> size + off <= size_of (it_width t) ->
  sv_value host vo t
    (SV (blank vo (size_of (it_width t)) size off
           (significant vo (size_of (it_width t)) size off v)) size off)
  = as_type t (select (size_of (it_width t)) size off v).
Proof.
  intros Hr Hs. unfold sv_value. cbn [sv_mem]. rewrite blank_bytes by auto.
  set (n := size_of (it_width t)) in *. set (x := as_type t (select n size off v)).
  assert (in_range t x) as Hx.
  { unfold x, in_range, as_type. destruct (it_signed t).
    - apply to_signed_range.
    - apply select_range; auto. }
  assert (bytes_in vo n (select n size off v) = bytes_in vo n x) as ->.
  { assert (le_bytes n (select n size off v) = le_bytes n x) as E.
    { apply le_bytes_congr. unfold x, as_type. destruct (it_signed t); auto.
      symmetry. apply to_signed_mod. }
    destruct vo; cbn; unfold be_bytes; rewrite E; reflexivity. }
  unfold n. rewrite <- (ToNeedOrder_bytes host vo t x) by auto.
  rewrite <- mem_of_bytes_in, val_of_mem_of by (apply ToNeedOrder_range; auto).
  apply ToNeedOrder_back; auto.
Qed.
