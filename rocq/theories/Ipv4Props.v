(** C43, C44, C45: theorems about Ipv4. *)
From Coq Require Import List Arith ZArith Lia Bool.
From Verif Require Import Base BaseLemmas UtilsModel UtilsProps Ipv4Model Ipv4Spec Ipv4Proofs.
Import ListNotations.
Local Open Scope Z_scope.

(** * C43: round trip *)

(** True for all addresses without an octet 100..109 or 200..209, for assignment to any
    object and for construction. *)
Theorem C43_round_trip_partial : forall a b c d port other,
  octet a -> octet b -> octet c -> octet d ->
  ~ loses_zero a -> ~ loses_zero b -> ~ loses_zero c -> ~ loses_zero d ->
  length (ip_numbers other) = 4%nat ->
  exists text, ip_to_address (Ip [a; b; c; d] port) = Ok text /\
    ip_set_address other text = Ok (true, Ip [a; b; c; d] port) /\
    ip_of_address text = Ok (Ip [a; b; c; d] port).
Proof.
  intros a b c d port other Ha Hb Hc Hd La Lb Lc Ld LO.
  apply squash_same in La, Lb, Lc, Ld.
  destruct (round_trip a b c d (ip_numbers other) Ha Hb Hc Hd LO) as (buf & E1 & E2).
  destruct (round_trip a b c d (ip_numbers ip_default) Ha Hb Hc Hd eq_refl) as (buf' & E1' & E2').
  assert (buf' = buf) by congruence. subst buf'.
  exists (Addr buf port). unfold ip_to_address, ip_set_address, ip_of_address, ip_set_text,
    ip_of_text. cbn [ip_numbers ip_port ad_text ad_port]. rewrite E1. cbn [bind].
  rewrite E2, E2'. cbn [bind fst snd]. rewrite La, Lb, Lc, Ld. auto.
Qed.

Example C43_round_trip_case :
  exists text, ip_to_address (Ip [192; 168; 0; 110] 8080) = Ok text /\
    firstn 14 (ad_text text) = [49; 57; 50; 46; 49; 54; 56; 46; 48; 46; 49; 49; 48; 0] /\
    ip_of_address text = Ok (Ip [192; 168; 0; 110] 8080).
Proof. eexists. split; [vm_compute; reflexivity|]. split; vm_compute; reflexivity. Qed.

(** False for every address with such an octet: the text is accepted and is another address. *)
Theorem C43_round_trip_refuted : forall a b c d port other,
  octet a -> octet b -> octet c -> octet d ->
  loses_zero a \/ loses_zero b \/ loses_zero c \/ loses_zero d ->
  length (ip_numbers other) = 4%nat ->
  exists text r, ip_to_address (Ip [a; b; c; d] port) = Ok text /\
    ip_set_address other text = Ok (true, r) /\ ip_numbers r <> [a; b; c; d] /\
    ip_bool r = true.
Proof.
  intros a b c d port other Ha Hb Hc Hd L LO.
  destruct (round_trip a b c d (ip_numbers other) Ha Hb Hc Hd LO) as (buf & E1 & E2).
  exists (Addr buf port), (Ip [squash a; squash b; squash c; squash d] port).
  unfold ip_to_address, ip_set_address, ip_set_text.
  cbn [ip_numbers ip_port ad_text ad_port]. rewrite E1. cbn [bind].
  rewrite E2. cbn [bind fst snd]. split; [reflexivity|]. split; [reflexivity|]. split.
  - intros [= Ea Eb Ec Ed]. apply squash_same in Ea, Eb, Ec, Ed. tauto.
  - apply squash_octet in Ha, Hb, Hc, Hd. unfold octet in *.
    unfold ip_bool. cbn [ip_numbers all_octets].
    repeat match goal with
    | |- context [(0 <=? ?x) && (?x <=? 255)] =>
        replace ((0 <=? x) && (x <=? 255)) with true by
          (symmetry; apply andb_true_iff; split; apply Z.leb_le; lia)
    end. reflexivity.
Qed.

(** 10.0.0.105 becomes 10.0.0.15. *)
Example C43_round_trip_refuted_case :
  exists text, ip_to_address (Ip [10; 0; 0; 105] 80) = Ok text /\
    ip_of_address text = Ok (Ip [10; 0; 0; 15] 80).
Proof. eexists. split; [vm_compute; reflexivity|]. vm_compute. reflexivity. Qed.

(** * C44: the parser *)

Lemma clean_joined : forall comps,
  Forall (fun c => c <> 0) (joined comps) -> Forall (Forall (fun c => c <> dot)) comps ->
  Forall clean_part comps.
Proof.
  induction comps as [|c comps IH]; intros NZ ND; [constructor|]. inversion ND; subst.
  assert (Forall (fun c0 => c0 <> 0) c /\ Forall (fun c0 => c0 <> 0) (joined comps)) as [Z1 Z2].
  { destruct comps as [|d comps]; [split; [exact NZ|constructor]|].
    rewrite joined_cons in NZ. apply Forall_app in NZ as [Z1 Z2]. inversion Z2; auto. }
  constructor; [|auto]. unfold clean_part. rewrite Forall_forall in *. intros x Hx. auto.
Qed.

(** The texts that are accepted: one to four numbers with dots between, where the first one
    may be empty, of 7 to 15 characters. *)
Theorem C44_accepted_texts_partial : forall a memory text port,
  length (ip_numbers a) = 4%nat -> c_string memory text ->
  ((exists r, ip_set_text a memory port = Ok (true, r)) <->
   (7 <= length text <= 15)%nat /\
   exists first rest, text = joined (first :: rest) /\ (length (first :: rest) <= 4)%nat /\
     Forall digit first /\ Forall is_decimal rest).
Proof.
  intros a memory text port LA [NZ [tl ->]].
  set (comps := split_dots text).
  assert (ET : joined comps = text) by apply joined_split.
  assert (NE : comps <> []) by apply split_dots_nonempty.
  assert (CL : Forall clean_part comps) by (apply clean_split; exact NZ).
  unfold ip_set_text.
  assert (CS : c_string (text ++ 0 :: tl) (joined comps)).
  { rewrite ET. split; [exact NZ|]. exists tl. reflexivity. }
  rewrite (convert_from_text_ok _ comps _ NE CL CS LA). rewrite ET.
  split.
  - intros [r H].
    destruct (Nat.ltb_spec (length text) 7); cbn [orb bind fst] in H; [discriminate|].
    destruct (Nat.ltb_spec 15 (length text)); cbn [bind fst] in H; [discriminate|].
    destruct (verdict true 0 comps (ip_numbers a)) as [[[|] r']| |] eqn:V;
      cbn [bind fst] in H; try discriminate.
    split; [lia|]. apply verdict_true in V; [|lia]. destruct V as [V L].
    destruct comps as [|c comps]; [congruence|]. destruct V as (D & _ & G).
    exists c, comps. rewrite <- ET. auto.
  - intros (L & first & rest & E & L4 & D & G).
    destruct (Nat.ltb_spec (length text) 7); [lia|].
    destruct (Nat.ltb_spec 15 (length text)); [lia|]. cbn [orb].
    assert (EC : comps = first :: rest).
    { unfold comps. rewrite E. apply split_joined; [discriminate|].
      constructor; [apply digit_clean; exact D|].
      revert G. apply Forall_impl. intros c [_ Dc]. apply digit_clean, Dc. }
    rewrite EC, verdict_good; [|repeat split; auto; discriminate|cbn in *; lia].
    cbn [bind fst]. eauto.
Qed.

(** Four numbers below 32768: accepted, and these numbers are stored. *)
Theorem C44_dotted_quad : forall a memory w x y z port,
  length (ip_numbers a) = 4%nat ->
  is_decimal w -> is_decimal x -> is_decimal y -> is_decimal z ->
  decimal w < 32768 -> decimal x < 32768 -> decimal y < 32768 -> decimal z < 32768 ->
  c_string memory (joined [w; x; y; z]) -> (length (joined [w; x; y; z]) <= 15)%nat ->
  ip_set_text a memory port =
    Ok (true, Ip [decimal w; decimal x; decimal y; decimal z] port) /\
  ip_of_text memory port = Ok (Ip [decimal w; decimal x; decimal y; decimal z] port).
Proof.
  assert (P : forall ds, Forall digit ds -> forall n, 0 <= n ->
    0 <= fold_left (fun n c => 10 * n + (c - 48)) ds n).
  { induction 1 as [|c ds D _ IH]; intros n Hn; cbn [fold_left]; [exact Hn|]. apply IH.
    unfold digit in D. lia. }
  intros a memory w x y z port LA [Nw Dw] [Nx Dx] [Ny Dy] [Nz Dz] Mw Mx My Mz CS L.
  assert (G : forall ip, length ip = 4%nat -> convert_from_text memory ip =
    Ok (true, [decimal w; decimal x; decimal y; decimal z])).
  { intros ip LI. rewrite (convert_from_text_ok memory [w; x; y; z]); auto; try discriminate.
    - replace ((_ <? 7) || _)%nat with false.
      + rewrite verdict_good; [|repeat split; auto; try discriminate; repeat constructor; auto
                                |cbn; lia].
        rewrite stored_eq by (auto; cbn; lia). cbn [map app length].
        rewrite skipn_all2 by lia.
        unfold decimal in *.
        rewrite !to_short_small by (split; [etransitivity; [|apply P]; auto; lia|auto]).
        reflexivity.
      + symmetry. apply orb_false_iff. split; apply Nat.ltb_ge; [|exact L].
        cbn [joined]. rewrite !app_length. cbn [length].
        rewrite !app_length. cbn [length]. rewrite !app_length. cbn [length].
        destruct w, x, y, z; try congruence; cbn; lia.
    - repeat constructor; apply digit_clean; auto. }
  unfold ip_set_text, ip_of_text. rewrite !G by auto. split; reflexivity.
Qed.

Example C44_dotted_quad_case :
  c_string [49; 50; 55; 46; 48; 46; 48; 46; 49; 0] (joined [[49; 50; 55]; [48]; [48]; [49]]) /\
  is_decimal [49; 50; 55] /\ decimal [49; 50; 55] = 127.
Proof.
  split; [split|].
  - cbn. repeat constructor; discriminate.
  - exists []. reflexivity.
  - split; [|reflexivity]. split; [discriminate|]. unfold digit. repeat constructor; lia.
Qed.

(** Whatever the text: if it is refused, the object is the default one, which is invalid; the
    call is defined (it reads nothing outside the text) when no component after the first is
    empty. *)
Theorem C44_refused_texts_partial : forall a memory text first rest port,
  length (ip_numbers a) = 4%nat -> c_string memory text -> text = joined (first :: rest) ->
  Forall (fun p => p <> []) rest -> Forall (Forall (fun c => c <> dot)) (first :: rest) ->
  exists b r, ip_set_text a memory port = Ok (b, r) /\
    (b = false -> r = Ip [- 2 ^ 15; - 2 ^ 15; - 2 ^ 15; - 2 ^ 15] (- 2 ^ 31) /\ ip_bool r = false).
Proof.
  intros a memory text first rest port LA [NZ [tl ->]] E NR ND.
  assert (CL : Forall clean_part (first :: rest)).
  { apply clean_joined; [rewrite <- E; exact NZ|exact ND]. }
  unfold ip_set_text.
  rewrite (convert_from_text_ok _ (first :: rest)); auto; try discriminate.
  2:{ rewrite <- E. split; [exact NZ|]. exists tl. reflexivity. }
  destruct (_ || _).
  - cbn [bind fst]. exists false, ip_default. auto.
  - destruct (verdict_defined (first :: rest) true 0 (ip_numbers a)) as (b & r & V);
      [split; [discriminate|exact NR]|lia|].
    rewrite V. cbn [bind fst snd]. destruct b.
    + eexists _, _. split; [reflexivity|discriminate].
    + exists false, ip_default. auto.
Qed.

Example C44_refused_case :
  ip_set_text (Ip [1; 2; 3; 4] 5) [49; 46; 50; 46; 51; 46; 120; 0] 80 = Ok (false, ip_default) /\
  ip_set_text (Ip [1; 2; 3; 4] 5) [49; 46; 50; 46; 51; 46; 52; 46; 53; 0] 80
  = Ok (false, ip_default).
Proof. split; vm_compute; reflexivity. Qed.

(** An empty number after the first one, with fewer than four numbers before it, makes the
    parser walk out of the text. *)
Theorem C44_empty_number_refuted : forall a memory text first before after port,
  length (ip_numbers a) = 4%nat -> c_string memory text ->
  text = joined (first :: before ++ [] :: after) -> (7 <= length text <= 15)%nat ->
  Forall (Forall (fun c => c <> dot)) after ->
  Forall digit first -> Forall is_decimal before -> (length (first :: before) < 4)%nat ->
  ip_set_text a memory port = UB.
Proof.
  intros a memory text first before after port LA [NZ [tl ->]] E L ND D G L4.
  assert (CL : Forall clean_part (first :: before ++ [] :: after)).
  { constructor; [apply digit_clean, D|]. apply Forall_app. split.
    - revert G. apply Forall_impl. intros c [_ Dc]. apply digit_clean, Dc.
    - constructor; [constructor|].
      assert (NZ' : Forall (fun c => c <> 0) (joined after)).
      { subst text. clear - NZ. change (first :: before ++ [] :: after)
          with ((first :: before) ++ [] :: after) in NZ.
        revert NZ. generalize (first :: before) as l. induction l as [|c l IH]; intros NZ.
        - destruct after as [|d after]; [constructor|]. cbn [app] in NZ.
          rewrite joined_cons in NZ. inversion NZ; auto.
        - apply IH. cbn [app] in NZ.
          destruct (l ++ [] :: after) as [|d q] eqn:Eq; [destruct l; discriminate|].
          rewrite joined_cons in NZ. apply Forall_app in NZ as [_ NZ]. inversion NZ; auto. }
      apply clean_joined; auto. }
  unfold ip_set_text.
  rewrite (convert_from_text_ok _ (first :: before ++ [] :: after)); auto; try discriminate.
  2:{ rewrite <- E. split; [exact NZ|]. exists tl. reflexivity. }
  rewrite <- E.
  destruct (Nat.ltb_spec (length text) 7); [lia|].
  destruct (Nat.ltb_spec 15 (length text)); [lia|]. cbn [orb].
  change (first :: before ++ [] :: after) with ((first :: before) ++ [] :: after).
  rewrite (verdict_ub (first :: before) true 0 (ip_numbers a) after);
    [reflexivity|repeat split; auto; discriminate|cbn in *; lia].
Qed.

(** "1..2.3.4" *)
Example C44_empty_number_case :
  ip_set_text ip_default [49; 46; 46; 50; 46; 51; 46; 52; 0] 80 = UB.
Proof. vm_compute. reflexivity. Qed.

(** Fewer than four numbers are accepted; the other numbers stay what they were. *)
Theorem C44_fewer_numbers_refuted : forall a memory first rest port,
  length (ip_numbers a) = 4%nat -> c_string memory (joined (first :: rest)) ->
  is_decimal first -> Forall is_decimal rest -> (length (first :: rest) < 4)%nat ->
  (7 <= length (joined (first :: rest)) <= 15)%nat ->
  ip_set_text a memory port =
    Ok (true, Ip (map (fun p => short_of (decimal p)) (first :: rest)
                  ++ skipn (length (first :: rest)) (ip_numbers a)) port).
Proof.
  intros a memory first rest port LA CS [N D] G L4 L. unfold ip_set_text.
  rewrite (convert_from_text_ok _ (first :: rest)); auto; try discriminate.
  - destruct (Nat.ltb_spec (length (joined (first :: rest))) 7); [lia|].
    destruct (Nat.ltb_spec 15 (length (joined (first :: rest)))); [lia|]. cbn [orb].
    rewrite verdict_good; [|repeat split; auto; discriminate|cbn in *; lia].
    cbn [bind fst snd]. rewrite stored_eq by (auto; lia).
    rewrite (map_ext (fun c => to_short (decimal c)) (fun p => short_of (decimal p)));
      [reflexivity|]. intros p. apply to_short_spec.
  - constructor; [apply digit_clean, D|].
    revert G. apply Forall_impl. intros c [_ Dc]. apply digit_clean, Dc.
Qed.

(** "1234567" is accepted and keeps three numbers of the old address. *)
Example C44_fewer_numbers_case :
  ip_set_text (Ip [1; 2; 3; 4] 5) [49; 50; 51; 52; 53; 54; 55; 0] 80
  = Ok (true, Ip [-10617; 2; 3; 4] 80).
Proof. vm_compute. reflexivity. Qed.

(** An empty first number is accepted. *)
Theorem C44_leading_dot_refuted : forall a memory x y z port,
  length (ip_numbers a) = 4%nat -> c_string memory (joined [[]; x; y; z]) ->
  is_decimal x -> is_decimal y -> is_decimal z ->
  (7 <= length (joined [[]; x; y; z]) <= 15)%nat ->
  exists r, ip_set_text a memory port = Ok (true, r).
Proof.
  intros a memory x y z port LA CS X Y Z L.
  apply (C44_accepted_texts_partial a memory (joined [[]; x; y; z]) port LA CS).
  split; [exact L|]. exists [], [x; y; z]. repeat split; auto.
Qed.

Example C44_leading_dot_case :
  ip_set_text ip_default [46; 49; 46; 50; 46; 51; 52; 0] 80 = Ok (true, Ip [0; 1; 2; 34] 80).
Proof. vm_compute. reflexivity. Qed.

(** A number of 32768 or more is accepted, and another number is stored. *)
Theorem C44_large_number_refuted : forall a memory w x y z port,
  length (ip_numbers a) = 4%nat -> c_string memory (joined [w; x; y; z]) ->
  is_decimal w -> is_decimal x -> is_decimal y -> is_decimal z ->
  (7 <= length (joined [w; x; y; z]) <= 15)%nat -> 32768 <= decimal w ->
  exists r n, ip_set_text a memory port = Ok (true, r) /\
    nth_error (ip_numbers r) 0 = Some n /\ n <> decimal w.
Proof.
  intros a memory w x y z port LA CS [_ W] [Nx X] [Ny Y] [Nz Z] L Big. unfold ip_set_text.
  rewrite (convert_from_text_ok _ [w; x; y; z]); auto; try discriminate.
  - destruct (Nat.ltb_spec (length (joined [w; x; y; z])) 7); [lia|].
    destruct (Nat.ltb_spec 15 (length (joined [w; x; y; z]))); [lia|]. cbn [orb].
    rewrite verdict_good; [|repeat split; auto; try discriminate; repeat constructor; auto
                            |cbn in *; lia].
    cbn [bind fst snd]. rewrite stored_eq by (auto; cbn; lia).
    eexists _, _. split; [reflexivity|]. split; [reflexivity|].
    rewrite to_short_spec. unfold short_of. cbv zeta.
    pose proof (Z.mod_pos_bound (decimal w) 65536 ltac:(lia)).
    destruct (Z.ltb_spec (decimal w mod 65536) 32768); lia.
  - repeat constructor; apply digit_clean; auto.
Qed.

(** "65537.0.0.1" is taken as 1.0.0.1. *)
Example C44_large_number_case :
  ip_set_text ip_default [54; 53; 53; 51; 55; 46; 48; 46; 48; 46; 49; 0] 80
  = Ok (true, Ip [1; 0; 0; 1] 80).
Proof. vm_compute. reflexivity. Qed.

(** * C45: validity and the Address buffer *)

Theorem C45_validity :
  (forall a, ip_bool a = true <-> Forall octet (ip_numbers a)) /\
  (forall a b c d port, exists ip, ip_of_numbers [a; b; c; d] port = Ok ip /\
     ip_numbers ip = [a; b; c; d] /\ ip_port ip = port) /\
  (forall v a b c d port, length (ip_numbers v) = 4%nat ->
     ip_set_numbers v [a; b; c; d] port = Ok (true, Ip [a; b; c; d] port)) /\
  ip_bool ip_default = false /\
  (forall port, ip_localhost port = Ok (Ip [127; 0; 0; 1] port) /\ ip_bool (Ip [127; 0; 0; 1] port) = true) /\
  (forall port, ip_of_address (Addr address_init port) = Ok (Ip [0; 0; 0; 0] port)).
Proof.
  split; [|split; [|split; [|split; [|split]]]].
  - intros [l p]. unfold ip_bool. cbn [ip_numbers]. induction l as [|i l IH].
    + split; [constructor|reflexivity].
    + cbn [all_octets]. destruct (Z.leb_spec 0 i); cbn [andb].
      * destruct (Z.leb_spec i 255).
        -- rewrite IH. split; [intros K; constructor; [unfold octet; lia|exact K]|].
           intros K. inversion K; auto.
        -- split; [discriminate|]. intros K. inversion K as [|? ? Ho]; subst.
           unfold octet in Ho. lia.
      * split; [discriminate|]. intros K. inversion K as [|? ? Ho]; subst.
        unfold octet in Ho. lia.
  - intros a b c d port. eexists. split; [reflexivity|]. split; reflexivity.
  - intros [l p] a b c d port L. cbn [ip_numbers] in L.
    destruct l as [|? [|? [|? [|? [|]]]]]; try discriminate L. reflexivity.
  - reflexivity.
  - intros port. split; reflexivity.
  - intros port. reflexivity.
Qed.

(** Every four numbers, valid or not: the text has at most 15 characters and is terminated
    inside the buffer of 16. *)
Theorem C45_fits : forall a b c d port,
  exists text n, ip_to_address (Ip [a; b; c; d] port) = Ok text /\
    length (ad_text text) = 16%nat /\ ad_port text = port /\
    length_from (fun ch => ch =? 0) 17 (ad_text text) 0 0 = Ok n /\ (n <= 15)%nat.
Proof.
  intros a b c d port.
  destruct (format_ok a b c d address_init eq_refl) as (rest & E & L16 & L15).
  unfold ip_to_address. cbn [ip_numbers]. rewrite E. cbn [bind].
  set (t := joined _) in *.
  assert (K : exists n, (n <= length t)%nat /\
    (forall i x, (i < n)%nat -> nth_error (t ++ 0 :: rest) i = Some x -> (x =? 0) = false) /\
    exists z, nth_error (t ++ 0 :: rest) n = Some z /\ (z =? 0) = true).
  { clear. induction t as [|x t (n & L & H & z & Hz & Nz)].
    - exists 0%nat. split; [lia|]. split; [intros; lia|]. exists 0. auto.
    - destruct (Z.eqb_spec x 0) as [->|N].
      + exists 0%nat. split; [lia|]. split; [intros; lia|]. exists 0. auto.
      + exists (S n). split; [cbn; lia|]. split; [|exists z; auto].
        intros [|i] y Hi Hy; cbn in Hy.
        * injection Hy as <-. apply Z.eqb_neq, N.
        * apply (H i); auto; lia. }
  destruct K as (n & Ln & H & Hz).
  eexists _, n. split; [reflexivity|]. cbn [ad_text ad_port]. split; [exact L16|].
  split; [reflexivity|]. split; [|lia].
  apply C64_length; auto. lia.
Qed.

Example C45_fits_case :
  exists text, ip_to_address (Ip [255; 255; 255; 255] 80) = Ok text /\
    length_from (fun ch => ch =? 0) 17 (ad_text text) 0 0 = Ok 15%nat.
Proof. eexists. split; [vm_compute; reflexivity|]. vm_compute. reflexivity. Qed.

Print Assumptions C43_round_trip_partial.
Print Assumptions C43_round_trip_refuted.
Print Assumptions C44_accepted_texts_partial.
Print Assumptions C44_dotted_quad.
Print Assumptions C44_refused_texts_partial.
Print Assumptions C44_empty_number_refuted.
Print Assumptions C44_fewer_numbers_refuted.
Print Assumptions C44_leading_dot_refuted.
Print Assumptions C44_large_number_refuted.
Print Assumptions C45_validity.
Print Assumptions C45_fits.
