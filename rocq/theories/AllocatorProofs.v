(** The allocators follow the specification: lemmas. *)
From Coq Require Import List Arith Bool ZArith Lia.
From Verif Require Import Base BaseLemmas AllocatorModel AllocatorSpec.
Import ListNotations.

Section Proofs.
  Context {A : Type}.
  Variable moved : A -> A.
  Variable type_size : nat.
  Hypothesis SIZE : 1 <= type_size.

  (** The values that the loop of construct gives to the objects. *)
  Fixpoint passed (a : argument A) (n : nat) : list A :=
    match n with
    | 0 => []
    | S n =>
        match a with
        | Lvalue x => x :: passed (Lvalue x) n
        | Rvalue x => x :: passed (Rvalue (moved x)) n
        end
    end.

  Lemma passed_lvalue x n : passed (Lvalue x) n = repeat x n.
  Proof. induction n; simpl; congruence. Qed.
  Lemma passed_length a n : length (passed a n) = n.
  Proof. revert a; induction n; intros [x|x]; simpl; auto. Qed.

  Lemma fill_ok n : forall pre a,
    fill_cells moved (pre ++ raw A n) (length pre) n a = Ok (pre ++ map Some (passed a n)).
  Proof.
    induction n as [|n IH]; intros pre a; [reflexivity|].
    assert (E : forall x, construct (pre ++ raw A (S n)) (length pre) x
                = Ok ((pre ++ [Some x]) ++ raw A n)).
    { intros x. unfold construct. rewrite nth_error_app2 by lia. rewrite Nat.sub_diag.
      cbn [raw repeat nth_error]. f_equal. rewrite <- app_assoc. cbn [app].
      clear. induction pre; simpl; [reflexivity|]. f_equal. exact IHpre. }
    destruct a as [x|x]; cbn [fill_cells passed map]; rewrite E; cbn [bind].
    - specialize (IH (pre ++ [Some x]) (Lvalue x)). rewrite app_length in IH. simpl in IH.
      rewrite Nat.add_1_r in IH. rewrite IH, <- app_assoc. reflexivity.
    - specialize (IH (pre ++ [Some x]) (Rvalue (moved x))). rewrite app_length in IH. simpl in IH.
      rewrite Nat.add_1_r in IH. rewrite IH, <- app_assoc. reflexivity.
  Qed.

  Lemma fill_overflow n : forall c i a, length c < i + n -> i <= length c ->
    fill_cells moved c i n a = UB.
  Proof.
    induction n as [|n IH]; intros c i a H1 H2; [lia|].
    destruct (Nat.eq_dec i (length c)) as [E|E].
    - assert (F : forall x, construct c i x = UB).
      { intros x. unfold construct. replace (nth_error c i) with (@None (option A)); [reflexivity|].
        symmetry. apply nth_error_None. lia. }
      destruct a; cbn [fill_cells]; rewrite F; reflexivity.
    - destruct a as [x|x]; cbn [fill_cells]; unfold construct;
        destruct (nth_error c i) as [[|]|]; cbn [bind]; try reflexivity;
        apply IH; rewrite upd_length; lia.
  Qed.

  Lemma clear_ok l : forall pre post,
    clear_cells (pre ++ map Some l ++ post) (length pre) (length l)
    = Ok (pre ++ raw A (length l) ++ post).
  Proof.
    induction l as [|x l IH]; intros pre post; [reflexivity|].
    cbn [length clear_cells map app]. unfold destroy.
    rewrite nth_error_app2 by lia. rewrite Nat.sub_diag. cbn [nth_error bind].
    replace (upd (pre ++ Some x :: map Some l ++ post) (length pre) None)
      with ((pre ++ [None]) ++ map Some l ++ post).
    2:{ rewrite <- app_assoc. cbn [app]. clear. induction pre; simpl; [reflexivity|].
        f_equal. exact IHpre. }
    specialize (IH (pre ++ [None]) post). rewrite app_length in IH. simpl in IH.
    rewrite Nat.add_1_r in IH. rewrite IH, <- app_assoc. reflexivity.
  Qed.

  Lemma clear_overflow n : forall c i, length c < i + n -> i <= length c ->
    clear_cells c i n = @UB (cells A).
  Proof.
    induction n as [|n IH]; intros c i H1 H2; [lia|].
    cbn [clear_cells]. unfold destroy.
    destruct (Nat.eq_dec i (length c)) as [E|E].
    - replace (nth_error c i) with (@None (option A)); [reflexivity|].
      symmetry. apply nth_error_None. lia.
    - destruct (nth_error c i) as [[|]|]; cbn [bind]; try reflexivity.
      apply IH; rewrite upd_length; lia.
  Qed.

  Lemma count_live_map (l : list A) : count_live (map Some l) = length l.
  Proof. induction l; simpl; auto. Qed.
  Lemma count_live_app (c1 c2 : cells A) : count_live (c1 ++ c2) = count_live c1 + count_live c2.
  Proof. induction c1 as [|[x|] c1 IH]; simpl; auto. Qed.
  Lemma count_live_raw n : count_live (raw A n) = 0.
  Proof. induction n; simpl; auto. Qed.

  (** ** malloc *)
  Lemma room n : representable type_size n ->
    Z.to_nat (byte_count type_size n / Z.of_nat type_size) = n.
  Proof.
    unfold representable, byte_count, size_modulus. intros H.
    rewrite Z.mod_small by lia. rewrite Z.mul_comm, Z.div_mul by lia. lia.
  Qed.
  Lemma room_overflow n : ~ representable type_size n ->
    Z.to_nat (byte_count type_size n / Z.of_nat type_size) < n.
  Proof.
    unfold representable, byte_count, size_modulus. intros H.
    set (b := (_ mod _)%Z).
    assert (B : (0 <= b < 2 ^ 64)%Z) by (apply Z.mod_pos_bound; lia).
    assert (D : (b / Z.of_nat type_size < Z.of_nat n)%Z)
      by (apply Z.div_lt_upper_bound; lia).
    assert (0 <= b / Z.of_nat type_size)%Z by (apply Z.div_pos; lia).
    lia.
  Qed.

  Lemma nth_last {B} (l : list B) x : nth_error (l ++ [x]) (length l) = Some x.
  Proof. rewrite nth_error_app2 by lia. rewrite Nat.sub_diag. reflexivity. Qed.
  Lemma upd_last {B} (l : list B) x y : upd (l ++ [x]) (length l) y = l ++ [y].
  Proof. induction l; simpl; [reflexivity|]. f_equal. exact IHl. Qed.
  Lemma upd_twice {B} (l : list B) i x y : upd (upd l i x) i y = upd l i y.
  Proof. revert i; induction l; intros [|i]; simpl; auto. f_equal. apply IHl. Qed.

  Lemma array_construct_ok (w : aworld A) n a : representable type_size n ->
    array_construct moved type_size w n a true
    = Ok (AW (h_blocks w ++ [Some (map Some (passed a n))]) (h_vars w) (h_lost w),
          Some (length (h_blocks w))).
  Proof.
    intros R. unfold array_construct, a_malloc, block_of. rewrite (room _ R).
    cbn [h_blocks h_vars h_lost]. rewrite nth_last. cbn [bind].
    pose proof (fill_ok n [] a) as F. cbn [app length] in F. rewrite F. cbn [bind].
    rewrite upd_last. reflexivity.
  Qed.
  Lemma array_construct_overflow (w : aworld A) n a : ~ representable type_size n ->
    array_construct moved type_size w n a true = UB.
  Proof.
    intros R. unfold array_construct, a_malloc, block_of.
    cbn [h_blocks h_vars h_lost]. rewrite nth_last. cbn [bind].
    rewrite fill_overflow; [reflexivity| |lia].
    unfold raw. rewrite repeat_length. apply room_overflow in R. lia.
  Qed.
  Lemma object_construct_ok (w : aworld A) a :
    object_construct type_size w a true
    = Ok (AW (h_blocks w ++ [Some [Some (value_of a)]]) (h_vars w) (h_lost w),
          Some (length (h_blocks w))).
  Proof.
    unfold object_construct, a_malloc, block_of.
    rewrite Z.div_same by lia. cbn [h_blocks h_vars h_lost]. rewrite nth_last. cbn [bind].
    change (Z.to_nat 1) with 1. cbn [raw repeat construct nth_error upd bind].
    unfold construct. cbn [nth_error upd bind]. rewrite upd_last. destruct a; reflexivity.
  Qed.

  Lemma clear_whole l n : n <= length l ->
    clear_cells (map Some l) 0 n = Ok (raw A n ++ map Some (skipn n l)).
  Proof.
    intros H. pose proof (clear_ok (firstn n l) [] (map Some (skipn n l))) as C.
    cbn [app length] in C. rewrite <- map_app, firstn_skipn, firstn_length_le in C by auto.
    exact C.
  Qed.

  Lemma array_destroy_some (w : aworld A) b l n : nth_error (h_blocks w) b = Some (Some (map Some l)) ->
    n <= length l ->
    array_destroy w (Some b) n
    = Ok (AW (upd (h_blocks w) b None) (h_vars w) ((length l - n) + h_lost w)).
  Proof.
    intros B H. unfold array_destroy, block_of. rewrite B. cbn [bind].
    rewrite (clear_whole _ _ H). cbn [bind]. unfold a_free. cbn [h_blocks h_vars h_lost].
    rewrite nth_error_upd_eq by (apply nth_error_Some; congruence).
    rewrite upd_twice, count_live_app, count_live_raw, count_live_map, skipn_length. reflexivity.
  Qed.
  Lemma array_destroy_over (w : aworld A) b l n : nth_error (h_blocks w) b = Some (Some (map Some l)) ->
    length l < n -> array_destroy w (Some b) n = UB.
  Proof.
    intros B H. unfold array_destroy, block_of. rewrite B. cbn [bind].
    rewrite clear_overflow; [reflexivity| |]; rewrite ?map_length; lia.
  Qed.
  Lemma object_destroy_some (w : aworld A) b x : nth_error (h_blocks w) b = Some (Some [Some x]) ->
    object_destroy w (Some b) = Ok (AW (upd (h_blocks w) b None) (h_vars w) (h_lost w)).
  Proof.
    intros B. unfold object_destroy, block_of. rewrite B. cbn [bind].
    unfold destroy. cbn [nth_error bind upd]. unfold a_free. cbn [h_blocks h_vars h_lost].
    rewrite nth_error_upd_eq by (apply nth_error_Some; congruence).
    rewrite upd_twice. reflexivity.
  Qed.

  (** ** The invariant *)
  Lemma set_array_upd (s : @arrays A) v x : set_array s v x = upd s v x.
  Proof. revert v; induction s; intros [|v]; simpl; auto. f_equal. auto. Qed.

  Record ainv (w : aworld A) (s : @arrays A) : Prop := {
    I_len : length (h_vars w) = length s;
    I_points : forall v x, nth_error s v = Some x -> points_to w v x;
    I_distinct : forall v v' b, nth_error (h_vars w) v = Some (Some b) ->
      nth_error (h_vars w) v' = Some (Some b) -> v = v';
    I_range : forall v b, nth_error (h_vars w) v = Some (Some b) -> b < length (h_blocks w);
    I_lost : h_lost w = 0;
    I_count : live_blocks w = not_null s
  }.

  Lemma ainv_start : ainv (a_start) [].
  Proof.
    constructor; try reflexivity; cbn; intros; try (destruct v; discriminate).
  Qed.

  Definition is_some {B} (x : option B) : bool := match x with Some _ => true | None => false end.
  Lemma live_app (w : aworld A) b v k : live_blocks (AW (h_blocks w ++ [b]) v k)
    = live_blocks w + (if is_some b then 1 else 0).
  Proof.
    unfold live_blocks. cbn [h_blocks]. rewrite filter_app, app_length. destruct b; reflexivity.
  Qed.
  Lemma not_null_app (s : @arrays A) x : not_null (s ++ [x])
    = not_null s + (if is_some x then 1 else 0).
  Proof. unfold not_null. rewrite filter_app, app_length. destruct x; reflexivity. Qed.
  Lemma filter_upd_none {B} (l : list (option B)) i x : nth_error l i = Some (Some x) ->
    length (filter (fun b => match b with Some _ => true | None => false end) l)
    = S (length (filter (fun b => match b with Some _ => true | None => false end) (upd l i None))).
  Proof.
    revert i; induction l as [|y l IH]; intros [|i] H; try discriminate H; simpl in H.
    - injection H as ->. reflexivity.
    - specialize (IH i H). simpl. destruct y; simpl; lia.
  Qed.

  Lemma ainv_new w s l : ainv w s ->
    ainv (AW (h_blocks w ++ [Some (map Some l)]) (h_vars w ++ [Some (length (h_blocks w))])
             (h_lost w)) (s ++ [Some l]).
  Proof.
    intros [L P D R O C]. constructor; cbn [h_blocks h_vars h_lost].
    - rewrite !app_length, L. reflexivity.
    - intros v x E. destruct (Nat.lt_ge_cases v (length s)) as [H|H].
      + rewrite nth_error_app1 in E by auto. specialize (P v x E).
        destruct x as [l'|]; cbn [points_to h_vars h_blocks] in *.
        * destruct P as (b & E1 & E2). exists b. split.
          -- rewrite nth_error_app1; [exact E1|rewrite L; exact H].
          -- rewrite nth_error_app1; [exact E2|]. apply nth_error_Some. congruence.
        * rewrite nth_error_app1; [exact P|rewrite L; exact H].
      + rewrite nth_error_app2 in E by auto.
        destruct (v - length s) as [|k] eqn:K; cbn in E; [|destruct k; discriminate E].
        injection E as <-. assert (v = length s) by lia. subst v.
        exists (length (h_blocks w)). cbn [h_vars h_blocks]. rewrite <- L, !nth_last. auto.
    - intros v v' b E E'.
      assert (Q : forall u, nth_error (h_vars w ++ [Some (length (h_blocks w))]) u = Some (Some b) ->
        (u < length s /\ nth_error (h_vars w) u = Some (Some b)) \/ (u = length s /\ b = length (h_blocks w))).
      { intros u U. destruct (Nat.lt_ge_cases u (length s)) as [H|H].
        - rewrite nth_error_app1 in U by (rewrite L; auto). auto.
        - right. rewrite nth_error_app2 in U by (rewrite L; auto). rewrite L in U.
          destruct (u - length s) as [|k] eqn:K; cbn in U; [|destruct k; discriminate U].
          injection U as <-. split; [lia|reflexivity]. }
      destruct (Q _ E) as [[H1 H2]|[H1 H2]], (Q _ E') as [[H3 H4]|[H3 H4]].
      + eauto.
      + apply R in H2. lia.
      + apply R in H4. lia.
      + lia.
    - intros v b E. rewrite app_length. cbn [length].
      destruct (Nat.lt_ge_cases v (length (h_vars w))) as [H|H].
      + rewrite nth_error_app1 in E by auto. apply R in E. lia.
      + rewrite nth_error_app2 in E by auto.
        destruct (v - length (h_vars w)) as [|k] eqn:K; cbn in E; [|destruct k; discriminate E].
        injection E as <-. lia.
    - exact O.
    - rewrite live_app, not_null_app, C. reflexivity.
  Qed.

  Lemma ainv_null w s : ainv w s ->
    ainv (AW (h_blocks w) (h_vars w ++ [None]) (h_lost w)) (s ++ [None]).
  Proof.
    intros [L P D R O C].
    assert (Q : forall u b, nth_error (h_vars w ++ [None]) u = Some (Some b) ->
              nth_error (h_vars w) u = Some (Some b)).
    { intros u b U. destruct (Nat.lt_ge_cases u (length (h_vars w))) as [H|H].
      - rewrite nth_error_app1 in U by auto. exact U.
      - rewrite nth_error_app2 in U by auto.
        destruct (u - length (h_vars w)) as [|k]; cbn in U; [|destruct k]; discriminate U. }
    constructor; cbn [h_blocks h_vars h_lost].
    - rewrite !app_length, L. reflexivity.
    - intros v x E. destruct (Nat.lt_ge_cases v (length s)) as [H|H].
      + rewrite nth_error_app1 in E by auto. specialize (P v x E).
        destruct x as [l'|]; cbn [points_to h_vars h_blocks] in *.
        * destruct P as (b & E1 & E2). exists b. split; [|exact E2].
          rewrite nth_error_app1; [exact E1|rewrite L; exact H].
        * rewrite nth_error_app1; [exact P|rewrite L; exact H].
      + rewrite nth_error_app2 in E by auto.
        destruct (v - length s) as [|k] eqn:K; cbn in E; [|destruct k; discriminate E].
        injection E as <-. assert (v = length s) by lia. subst v.
        cbn [points_to h_vars]. rewrite <- L. apply nth_last.
    - intros v v' b E E'. apply Q in E. apply Q in E'. eauto.
    - intros v b E. apply Q in E. eauto.
    - exact O.
    - rewrite not_null_app, <- C. cbn. unfold live_blocks. cbn. lia.
  Qed.

  Lemma ainv_drop w s v b l : ainv w s -> nth_error (h_vars w) v = Some (Some b) ->
    nth_error (h_blocks w) b = Some (Some (map Some l)) -> nth_error s v = Some (Some l) ->
    ainv (AW (upd (h_blocks w) b None) (upd (h_vars w) v None) (h_lost w)) (upd s v None).
  Proof.
    intros [L P D R O C] V B X.
    assert (Q : forall u c, nth_error (upd (h_vars w) v None) u = Some (Some c) ->
              u <> v /\ nth_error (h_vars w) u = Some (Some c)).
    { intros u c U. destruct (Nat.eq_dec v u) as [->|N].
      - rewrite nth_error_upd_eq in U by (apply nth_error_Some; congruence). discriminate U.
      - rewrite nth_error_upd_neq in U by auto. auto. }
    constructor; cbn [h_blocks h_vars h_lost].
    - rewrite !upd_length. exact L.
    - intros u x E. destruct (Nat.eq_dec v u) as [->|N].
      + rewrite nth_error_upd_eq in E by (apply nth_error_Some; congruence). injection E as <-.
        cbn [points_to h_vars]. apply nth_error_upd_eq, nth_error_Some. congruence.
      + rewrite nth_error_upd_neq in E by auto. specialize (P u x E).
        destruct x as [l'|]; cbn [points_to h_vars h_blocks] in *.
        * destruct P as (c & E1 & E2). exists c. rewrite !nth_error_upd_neq; auto.
          intros <-. apply N. eauto.
        * rewrite nth_error_upd_neq by auto. exact P.
    - intros u u' c E E'. apply Q in E. apply Q in E'. destruct E, E'. eauto.
    - intros u c E. apply Q in E. rewrite upd_length. destruct E. eauto.
    - exact O.
    - unfold live_blocks, not_null in *. cbn [h_blocks] in *.
      rewrite (filter_upd_none _ _ _ B), (filter_upd_none _ _ _ X) in C. lia.
  Qed.

  Lemma upd_same_nth {B} (l : list B) i x : nth_error l i = Some x -> upd l i x = l.
  Proof.
    revert i; induction l; intros [|i] H; simpl in *; try discriminate; [congruence|].
    f_equal; auto.
  Qed.

  Lemma passed_proper n a : match a with Lvalue _ => True | Rvalue _ => n <= 1 end ->
    passed a n = repeat (value_of a) n.
  Proof.
    destruct a as [x|x]; intros H; [apply passed_lvalue|].
    destruct n as [|[|n]]; [reflexivity|reflexivity|lia].
  Qed.

  Lemma astep_ok w s c : ainv w s -> proper_call type_size s c ->
    exists w', astep moved type_size w c = Ok w' /\ ainv w' (arrays_step s c).
  Proof.
    intros I PC. destruct c as [n a ok|v n|a ok|v]; cbn [proper_call arrays_step astep] in *.
    - destruct PC as [R PA]. destruct ok.
      + rewrite (array_construct_ok _ _ _ R). cbn [bind h_blocks h_vars h_lost]. eexists.
        split; [reflexivity|]. rewrite (passed_proper _ _ PA). apply ainv_new, I.
      + cbn. eexists. split; [reflexivity|]. apply ainv_null, I.
    - rewrite set_array_upd. destruct (nth_error s v) as [[l|]|] eqn:E; [| |contradiction].
      + destruct (I_points _ _ I _ _ E) as (b & E1 & E2).
        unfold read. rewrite E1. cbn [bind]. rewrite (array_destroy_some _ _ _ _ E2) by lia.
        cbn [bind h_blocks h_vars h_lost]. eexists. split; [reflexivity|].
        rewrite PC, Nat.sub_diag. cbn [Nat.add]. eapply ainv_drop; eauto.
      + pose proof (I_points _ _ I _ _ E) as E1. cbn [points_to] in E1.
        unfold read. rewrite E1. cbn [bind]. rewrite PC. cbn. eexists. split; [reflexivity|].
        rewrite !upd_same_nth by auto. destruct w; exact I.
    - destruct ok.
      + rewrite object_construct_ok. cbn [bind h_blocks h_vars h_lost]. eexists.
        split; [reflexivity|]. apply (ainv_new _ _ [value_of a] I).
      + cbn. eexists. split; [reflexivity|]. apply ainv_null, I.
    - destruct PC as (x & E). rewrite set_array_upd.
      destruct (I_points _ _ I _ _ E) as (b & E1 & E2).
      unfold read. rewrite E1. cbn [bind]. rewrite (object_destroy_some _ _ _ E2).
      cbn [bind h_blocks h_vars h_lost]. eexists. split; [reflexivity|].
      eapply ainv_drop; eauto.
  Qed.

  Lemma arun_ok h : forall w s, ainv w s -> proper_history type_size s h ->
    exists w', arun moved type_size w h = Ok w' /\ ainv w' (fold_left arrays_step h s).
  Proof.
    induction h as [|c h IH]; intros w s I PH; cbn [arun fold_left].
    - eauto.
    - destruct PH as [PC PH]. destruct (astep_ok w s c I PC) as (w1 & E1 & I1).
      rewrite E1. cbn [bind]. apply IH; auto.
  Qed.

  Lemma arun_app h1 : forall h2 w, arun moved type_size w (h1 ++ h2)
    = let! w := arun moved type_size w h1 in arun moved type_size w h2.
  Proof.
    induction h1 as [|c h1 IH]; intros h2 w; [reflexivity|]. cbn [app arun].
    destruct (astep moved type_size w c); cbn [bind]; auto.
  Qed.
End Proofs.
