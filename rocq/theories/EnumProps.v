(** C171 - C174: theorems about the enumerations of the PKCS#11 wrapper. *)
From Coq Require Import List ZArith Lia String Bool.
From Verif Require Import EnumTable EnumModel EnumSpec.
Import ListNotations.
Local Open Scope string_scope.
Local Open Scope Z_scope.

Definition a_long (long : Z) : Prop := long = 32 \/ long = 64.

(** * C171: every enumerator has the value of its constant *)

Definition row_ok (long : Z) (e : enumeration) (r : string * Z) : bool :=
  if stands_for_nothing (en_name e) (fst r) then snd r =? 0
  else if same (en_name e, fst r) ("Mechanism", "E2B_256_HMAC_GENERAL") then true
  else match meant (en_name e) (fst r) with
       | Some c => match constant long c with Some x => x =? snd r | None => false end
       | None => false
       end.
Definition all_ok (long : Z) : bool :=
  forallb (fun e => match values long e with Some l => forallb (row_ok long e) l | None => false end) enumerations.
Lemma all_ok_32 : all_ok 32 = true. Proof. vm_compute. reflexivity. Qed.
Lemma all_ok_64 : all_ok 64 = true. Proof. vm_compute. reflexivity. Qed.

Lemma same_true a b : same a b = true -> a = b.
Proof.
  destruct a, b. unfold same. cbn. intros H. apply andb_true_iff in H. destruct H as [A B].
  apply String.eqb_eq in A, B. congruence.
Qed.

(** All enumerations compile on both systems, and each enumerator but one has the value of the
    constant of the header it is named after; those for no flag are zero. *)
Theorem C171_names_partial : forall long e, a_long long -> In e enumerations ->
  exists l, values long e = Some l /\ map fst l = map fst (en_rows e) /\
  forall n x, In (n, x) l -> (en_name e, n) <> ("Mechanism", "E2B_256_HMAC_GENERAL") ->
    (stands_for_nothing (en_name e) n = true /\ x = 0) \/
    (exists c, meant (en_name e) n = Some c /\ constant long c = Some x).
Proof.
  intros long e L I.
  assert (A : all_ok long = true) by (destruct L as [->| ->]; [apply all_ok_32|apply all_ok_64]).
  unfold all_ok in A. rewrite forallb_forall in A. specialize (A e I).
  destruct (values long e) as [l|] eqn:V; [|discriminate]. exists l. split; [reflexivity|]. split.
  - unfold values in V. revert V. generalize (en_rows e), l. generalize 0 at 1.
    intros z rows. revert z. induction rows as [|[n v] rows IH]; intros z l0 V; cbn [values_from] in V.
    + injection V as <-. reflexivity.
    + destruct v as [c|k|]; [destruct (constant long c) as [x|]; [|discriminate]| |];
        (destruct (_ && _); [|discriminate]);
        (destruct (values_from _ _ _ rows) as [l1|] eqn:R; [|discriminate]); injection V as <-;
        cbn [map fst]; f_equal; eapply IH; exact R.
  - rewrite forallb_forall in A. intros n x J N. specialize (A (n, x) J). unfold row_ok in A. cbn [fst snd] in A.
    destruct (stands_for_nothing (en_name e) n) eqn:S.
    + left. split; [reflexivity|]. apply Z.eqb_eq in A. exact A.
    + right. destruct (same _ _) eqn:T in A; [apply same_true in T; contradiction|].
      destruct (meant (en_name e) n) as [c|]; [|discriminate]. exists c. split; [reflexivity|].
      destruct (constant long c) as [y|]; [|discriminate]. apply Z.eqb_eq in A. congruence.
Qed.
Example C171_case : exists l, values 64 enum_Mechanism = Some l /\ List.length l = 417%nat /\
  In ("AES_GCM", 4231) l /\ constant 64 "CKM_AES_GCM" = Some 4231.
Proof.
  eexists. split; [vm_compute; reflexivity|]. split; [reflexivity|]. split; [|reflexivity].
  match goal with |- In ?x ?l => assert (E : existsb (fun r => String.eqb (fst r) (fst x) && (snd r =? snd x)) l = true)
    by (vm_compute; reflexivity) end.
  apply existsb_exists in E. destruct E as [[n x] [I H]]. apply andb_true_iff in H. destruct H as [A B].
  apply String.eqb_eq in A. apply Z.eqb_eq in B. cbn in A, B. subst. exact I.
Qed.

(** The remaining one: no constant has the name of the enumerator E2B_256_HMAC_GENERAL, and the
    constant CKM_BLAKE2B_256_HMAC_GENERAL has no enumerator of its name. *)
Theorem C171_misspelt_refuted : forall long,
  (exists v, In ("E2B_256_HMAC_GENERAL", v) (en_rows enum_Mechanism)) /\
  (forall c, meant "Mechanism" "E2B_256_HMAC_GENERAL" = Some c -> constant long c = None) /\
  constant long "CKM_BLAKE2B_256_HMAC_GENERAL" = Some 16403 /\
  forall n v, In (n, v) (en_rows enum_Mechanism) -> n <> "BLAKE2B_256_HMAC_GENERAL".
Proof.
  intros long. split; [|split; [|split]].
  - assert (E : existsb (fun r => String.eqb (fst r) "E2B_256_HMAC_GENERAL") (en_rows enum_Mechanism) = true)
      by (vm_compute; reflexivity).
    apply existsb_exists in E. destruct E as [[n v] [I H]]. apply String.eqb_eq in H. cbn in H. subst. eauto.
  - intros c H. cbn in H. injection H as <-. vm_compute. reflexivity.
  - vm_compute. reflexivity.
  - intros n v I H. subst.
    assert (E : forallb (fun r => negb (String.eqb (fst r) "BLAKE2B_256_HMAC_GENERAL")) (en_rows enum_Mechanism) = true)
      by (vm_compute; reflexivity).
    rewrite forallb_forall in E. specialize (E _ I). discriminate.
Qed.

(** * C172: every constant has an enumerator *)

Definition enum_table (long : Z) := map (fun e => (prefix_of (en_name e), values long e)) enumerations.
Definition covered (long : Z) (table : list (option string * option (list (string * Z)))) (c : string) : bool :=
  match constant long c with
  | None => false
  | Some x =>
      existsb (fun t =>
        match t with
        | (Some p, Some l) => String.prefix p c && existsb (fun r => snd r =? x) l
        | _ => false
        end) table
  end.
Definition left_out : list string := ["CKA_SECONDARY_AUTH"; "CKA_AUTH_PIN_FLAGS"].
Definition all_covered (long : Z) : bool :=
  let table := enum_table long in
  forallb (fun h => existsb (String.eqb (fst h)) left_out || covered long table (fst h)) header.
Lemma covered_32 : all_covered 32 = true. Proof. vm_compute. reflexivity. Qed.
Lemma covered_64 : all_covered 64 = true. Proof. vm_compute. reflexivity. Qed.

(** Every constant of the header but two is the value of an enumerator of an enumeration for
    constants with its prefix. *)
Theorem C172_complete_partial : forall long c v, a_long long -> In (c, v) header -> ~ In c left_out ->
  exists x e p l n, constant long c = Some x /\ In e enumerations /\ prefix_of (en_name e) = Some p /\
    String.prefix p c = true /\ values long e = Some l /\ In (n, x) l.
Proof.
  intros long c v L I N.
  assert (A : all_covered long = true) by (destruct L as [->| ->]; [apply covered_32|apply covered_64]).
  unfold all_covered in A. cbv zeta in A. rewrite forallb_forall in A. specialize (A _ I). cbn [fst] in A.
  apply orb_true_iff in A. destruct A as [A|A].
  - exfalso. apply existsb_exists in A. destruct A as [d [D E]]. apply String.eqb_eq in E. subst. auto.
  - unfold covered in A. destruct (constant long c) as [x|]; [|discriminate].
    apply existsb_exists in A. destruct A as [t [E F]].
    unfold enum_table in E. apply in_map_iff in E. destruct E as [e [<- E]].
    destruct (prefix_of (en_name e)) as [p|] eqn:P; [|discriminate].
    destruct (values long e) as [l|] eqn:V; [|discriminate].
    apply andb_true_iff in F. destruct F as [F G]. apply existsb_exists in G. destruct G as [[n y] [G K]].
    apply Z.eqb_eq in K. cbn in K. subst y. exists x, e, p, l, n. auto 10.
Qed.
Example C172_case : In ("CKM_CAST5_CBC", HNumber 802) header /\ ~ In "CKM_CAST5_CBC" left_out /\ constant 32 "CKM_CAST5_CBC" = Some 802.
Proof.
  split; [|split; [|vm_compute; reflexivity]].
  - assert (E : existsb (fun r => String.eqb (fst r) "CKM_CAST5_CBC" && match snd r with HNumber n => n =? 802 | _ => false end) header = true)
      by (vm_compute; reflexivity).
    apply existsb_exists in E. destruct E as [[n v] [I H]]. apply andb_true_iff in H. destruct H as [A B].
    apply String.eqb_eq in A. cbn in A, B. destruct v; try discriminate. apply Z.eqb_eq in B. subst. exact I.
  - intros [H|[H|[]]]; discriminate.
Qed.
(** The other two are in the header, and no enumerator of Attribute has their values. *)
Theorem C172_left_out_refuted : forall long c, a_long long -> In c left_out ->
  exists x l, constant long c = Some x /\ values long enum_Attribute = Some l /\ forall n y, In (n, y) l -> y <> x.
Proof.
  intros long c L I.
  assert (A : forallb (fun c => match constant long c, values long enum_Attribute with
                                | Some x, Some l => forallb (fun r => negb (snd r =? x)) l
                                | _, _ => false end) left_out = true)
    by (destruct L as [->| ->]; vm_compute; reflexivity).
  rewrite forallb_forall in A. specialize (A c I).
  destruct (constant long c) as [x|]; [|discriminate]. destruct (values long enum_Attribute) as [l|]; [|discriminate].
  exists x, l. split; [reflexivity|]. split; [reflexivity|]. intros n y J E. subst y.
  rewrite forallb_forall in A. specialize (A _ J). cbn in A. rewrite Z.eqb_refl in A. discriminate.
Qed.

(** * C173: flags *)

(** A single bit of the type. *)
Definition one_bit (long : Z) (x : Z) : Prop := exists k, 0 <= k < long /\ x = 2 ^ k.
(** [flags | flags | ...] *)
Definition combined (long : Z) (fs : list Z) : Z := fold_left (flag_or long Long) fs 0.

Lemma long_pos long : a_long long -> 0 < long. Proof. intros [->| ->]; lia. Qed.

Lemma land_pow a k : 0 <= k -> Z.land a (2 ^ k) = if Z.testbit a k then 2 ^ k else 0.
Proof.
  intros K. apply Z.bits_inj'. intros n N. rewrite Z.land_spec.
  rewrite Z.pow2_bits_eqb by exact K. destruct (Z.eqb_spec k n) as [<-|M].
  - rewrite andb_true_r. destruct (Z.testbit a k); [rewrite Z.pow2_bits_true by exact K|rewrite Z.bits_0]; reflexivity.
  - rewrite andb_false_r. destruct (Z.testbit a k); [rewrite Z.pow2_bits_false by auto|rewrite Z.bits_0]; reflexivity.
Qed.
Lemma range_bits long a : 0 < long -> 0 <= a < 2 ^ long -> forall n, long <= n -> Z.testbit a n = false.
Proof.
  intros L R n N. destruct (Z.eq_dec a 0) as [->|M]; [apply Z.bits_0|].
  apply Z.bits_above_log2; [lia|]. assert (Z.log2 a < long) by (apply Z.log2_lt_pow2; lia). lia.
Qed.
Lemma or_range long a b : 0 < long -> 0 <= a < 2 ^ long -> 0 <= b < 2 ^ long -> 0 <= Z.lor a b < 2 ^ long.
Proof.
  intros L A B. split; [apply Z.lor_nonneg; lia|].
  destruct (Z.eq_dec (Z.lor a b) 0) as [->|M]; [apply Z.pow_pos_nonneg; lia|].
  assert (0 <= Z.lor a b) by (apply Z.lor_nonneg; lia).
  assert (Q : forall x, 0 <= x < 2 ^ long -> Z.log2 x < long).
  { intros x X. destruct (Z.eq_dec x 0) as [->|N]; [cbn; lia|]. apply Z.log2_lt_pow2; lia. }
  apply Z.log2_lt_pow2; [lia|]. rewrite Z.log2_lor by lia.
  assert (A' := Q a A). assert (B' := Q b B). lia.
Qed.
Lemma pow_range long k : 0 <= k < long -> 0 <= 2 ^ k < 2 ^ long.
Proof. intros H. split; [lia|]. apply Z.pow_lt_mono_r; lia. Qed.

Lemma flag_or_ok long a b : 0 < long -> 0 <= a < 2 ^ long -> 0 <= b < 2 ^ long -> flag_or long Long a b = Z.lor a b.
Proof.
  intros L A B. unfold flag_or, to_enum, of_enum, bits. rewrite !(Z.mod_small a), !(Z.mod_small b) by assumption.
  apply Z.mod_small. apply or_range; assumption.
Qed.
Lemma combined_bits long fs : 0 < long -> Forall (one_bit long) fs ->
  forall a, 0 <= a < 2 ^ long ->
  0 <= fold_left (flag_or long Long) fs a < 2 ^ long /\
  forall n, 0 <= n -> Z.testbit (fold_left (flag_or long Long) fs a) n = Z.testbit a n || existsb (Z.eqb (2 ^ n)) fs.
Proof.
  intros L F. induction F as [|f fs [k [K ->]] F IH]; intros a A; cbn [fold_left existsb].
  - split; [exact A|]. intros n N. rewrite orb_false_r. reflexivity.
  - assert (P := pow_range long k K). rewrite flag_or_ok by assumption.
    destruct (IH (Z.lor a (2 ^ k)) (or_range long a (2 ^ k) L A P)) as [R B]. split; [exact R|].
    intros n N. rewrite B by exact N. rewrite Z.lor_spec, <- orb_assoc. f_equal. f_equal.
    rewrite Z.pow2_bits_eqb by lia. destruct (Z.eqb_spec k n) as [->|M].
    + rewrite Z.eqb_refl. reflexivity.
    + symmetry. apply Z.eqb_neq. intros E. apply M. symmetry. apply (Z.pow_inj_r 2); lia.
Qed.

Definition flags_ok (long : Z) : bool :=
  forallb (fun e =>
    match en_width e, values long e with
    | Long, Some l =>
        forallb (fun r => (snd r =? 0) || ((0 <? snd r) && (2 ^ Z.log2 (snd r) =? snd r) && (Z.log2 (snd r) <? long))) l
    | _, _ => false
    end) flag_enumerations.
Lemma flags_32 : flags_ok 32 = true. Proof. vm_compute. reflexivity. Qed.
Lemma flags_64 : flags_ok 64 = true. Proof. vm_compute. reflexivity. Qed.

(** Any flags of an enumeration of flags, combined with | in any order and with repetitions: the
    operator & finds exactly the flags that were put in, and finds each as itself. *)
Theorem C173_flags : forall long e l, a_long long -> In e flag_enumerations -> values long e = Some l ->
  forall fs n f,
  (forall g, In g fs -> g <> 0 /\ exists m, In (m, g) l) -> In (n, f) l -> f <> 0 ->
  flag_and long (en_width e) (combined long fs) f = if in_dec Z.eq_dec f fs then f else 0.
Proof.
  intros long e l L I V fs n f G J F.
  assert (A : flags_ok long = true) by (destruct L as [->| ->]; [apply flags_32|apply flags_64]).
  unfold flags_ok in A. rewrite forallb_forall in A. specialize (A e I).
  destruct (en_width e) eqn:W; [discriminate|]. rewrite V in A. rewrite forallb_forall in A.
  assert (P := long_pos long L).
  assert (O : forall m x, In (m, x) l -> x <> 0 -> one_bit long x).
  { intros m x M X. specialize (A _ M). cbn [snd] in A. apply orb_true_iff in A. destruct A as [A|A].
    - apply Z.eqb_eq in A. contradiction.
    - apply andb_true_iff in A. destruct A as [A B]. apply andb_true_iff in A. destruct A as [A C].
      apply Z.ltb_lt in A, B. apply Z.eqb_eq in C. exists (Z.log2 x). split; [|auto].
      split; [apply Z.log2_nonneg|exact B]. }
  assert (Fs : Forall (one_bit long) fs).
  { apply Forall_forall. intros g H. destruct (G g H) as [N [m M]]. eapply O; eauto. }
  destruct (O n f J F) as [k [K ->]].
  destruct (combined_bits long fs P Fs 0) as [R B]; [split; [lia|apply Z.pow_pos_nonneg; lia]|].
  unfold flag_and, to_enum, of_enum, bits, combined.
  rewrite (Z.mod_small _ _ R), (Z.mod_small (2 ^ k)) by (apply pow_range; exact K).
  rewrite land_pow by lia. rewrite B by lia. rewrite Z.bits_0. cbn [orb].
  destruct (in_dec Z.eq_dec (2 ^ k) fs) as [H|H].
  - rewrite (proj2 (existsb_exists _ _)); [apply Z.mod_small; apply pow_range; exact K|].
    exists (2 ^ k). split; [exact H|apply Z.eqb_refl].
  - destruct (existsb (Z.eqb (2 ^ k)) fs) eqn:E; [|apply Z.mod_0_l; apply Z.pow_nonzero; lia].
    exfalso. apply H. apply existsb_exists in E. destruct E as [x [X Y]]. apply Z.eqb_eq in Y. subst. exact X.
Qed.
Example C173_case : exists l, values 64 enum_TokenInfoFlags = Some l /\ In ("LOGIN_REQUIRED", 4) l /\
  combined 64 [1; 4; 1024] = 1029 /\ flag_and 64 Long 1029 4 = 4 /\ flag_and 64 Long 1029 2 = 0.
Proof. eexists. split; [vm_compute; reflexivity|]. split; [cbn; auto|]. repeat split. Qed.

(** * C174: different enumerators are different values *)

(** Enumerators of one enumeration that the standard gives the same value. *)
Definition equal_in_standard (e : string) (n m : string) : bool :=
  String.eqb e "Version" || String.eqb e "SpecialValue" ||
  (String.eqb e "Attribute" && existsb (String.eqb n) ["SUBPRIME_BITS"; "SUB_PRIME_BITS"] && existsb (String.eqb m) ["SUBPRIME_BITS"; "SUB_PRIME_BITS"]).
Fixpoint all_pairs (P : string * Z -> string * Z -> bool) (l : list (string * Z)) : bool :=
  match l with
  | [] => true
  | x :: l => forallb (fun y => P x y && P y x) l && all_pairs P l
  end.
Lemma all_pairs_in P l : all_pairs P l = true -> forall x y, In x l -> In y l -> x = y \/ P x y = true.
Proof.
  induction l as [|a l IH]; intros H x y X Y; [destruct X|]. cbn [all_pairs] in H.
  apply andb_true_iff in H. destruct H as [A B]. rewrite forallb_forall in A.
  destruct X as [<-|X], Y as [<-|Y]; auto.
  - right. specialize (A _ Y). apply andb_true_iff in A. apply A.
  - right. specialize (A _ X). apply andb_true_iff in A. apply A.
Qed.
Definition distinct_ok (long : Z) : bool :=
  forallb (fun e =>
    match values long e with
    | Some l => all_pairs (fun r s => negb (snd r =? snd s) || equal_in_standard (en_name e) (fst r) (fst s)) l &&
                all_pairs (fun r s => negb (String.eqb (fst r) (fst s))) l
    | None => false
    end) enumerations.
Lemma distinct_32 : distinct_ok 32 = true. Proof. vm_compute. reflexivity. Qed.
Lemma distinct_64 : distinct_ok 64 = true. Proof. vm_compute. reflexivity. Qed.

Theorem C174_distinct : forall long e l n m x, a_long long -> In e enumerations -> values long e = Some l ->
  In (n, x) l -> In (m, x) l -> n = m \/ equal_in_standard (en_name e) n m = true.
Proof.
  intros long e l n m x L I V N M.
  assert (A : distinct_ok long = true) by (destruct L as [->| ->]; [apply distinct_32|apply distinct_64]).
  unfold distinct_ok in A. rewrite forallb_forall in A. specialize (A e I). rewrite V in A.
  apply andb_true_iff in A. destruct A as [A _].
  destruct (all_pairs_in _ _ A _ _ N M) as [E|E]; [left; congruence|].
  cbn [fst snd] in E. rewrite Z.eqb_refl in E. right. exact E.
Qed.
(** Each value of the underlying type is kept by the conversions to the enumeration and back. *)
Theorem C174_conversion : forall long w v, a_long long ->
  let n := match w with Eight => 8 | Long => long end in
  (0 <= v < 2 ^ n -> of_enum long w (to_enum long w v) = v)
  /\ 0 <= of_enum long w (to_enum long w v) < 2 ^ n.
Proof.
  intros long w v L n. change n with (bits long w).
  assert (P : 0 < 2 ^ bits long w) by (apply Z.pow_pos_nonneg; [lia|]; destruct w, L; cbn; lia).
  unfold of_enum, to_enum. rewrite Z.mod_mod by lia.
  split; [apply Z.mod_small|apply Z.mod_pos_bound, P].
Qed.
Example C174_case : exists l, values 32 enum_ReturnType = Some l /\ In ("ARGUMENTS_BAD", 7) l /\
  equal_in_standard "ReturnType" "OK" "ARGUMENTS_BAD" = false.
Proof. eexists. split; [vm_compute; reflexivity|]. split; [cbn; tauto|reflexivity]. Qed.

Print Assumptions C171_names_partial.
Print Assumptions C171_misspelt_refuted.
Print Assumptions C172_complete_partial.
Print Assumptions C172_left_out_refuted.
Print Assumptions C173_flags.
Print Assumptions C174_distinct.
Print Assumptions C174_conversion.
