(** C169, C170: theorems about proxying allocators and the addresses of the streams library. *)
From Coq Require Import List Arith ZArith Lia Bool.
From Verif Require Import Base BaseLemmas ProxyModel ProxySpec.
Import ListNotations.

(** * C169: a proxying allocator *)

Section Proofs.
  Context {St Call Res : Type}.
  Variable work : St -> Call -> outcome (St * Res).
  (** The allocators that work answer every call. *)
  Hypothesis works : forall s c, exists s' r, work s c = Ok (s', r).

  Definition pinv (w : list (option (alloc St))) : Prop :=
    forall a t, nth_error w a = Some (Some (Proxy t)) -> t < a /\ exists x, nth_error w t = Some (Some x).

  Lemma behind_exists w : pinv w -> forall n a x, a < n -> nth_error w a = Some (Some x) ->
    exists r, behind w a r /\ (exists s, nth_error w r = Some (Some (Worker s))) /\ r <= a.
  Proof.
    intros I. induction n as [|n IH]; intros a x L N; [lia|].
    destruct x as [s|t].
    - exists a. split; [econstructor; eauto|]. split; [eauto|lia].
    - destruct (I a t N) as [T [y Y]]. destruct (IH t y ltac:(lia) Y) as [r [B [W R]]].
      exists r. split; [eapply behind_proxy; eauto|]. split; [exact W|lia].
  Qed.

  Lemma call_behind w a r c : behind w a r ->
    forall s, nth_error w r = Some (Some (Worker s)) -> pinv w ->
    forall fuel, a < fuel ->
    proxy_call work fuel w a c =
      (let! x := work s c in Ok (upd w r (Some (Worker (fst x))), snd x)).
  Proof.
    induction 1 as [a s0 N|a t r N B IH]; intros s W I fuel L; (destruct fuel as [|fuel]; [lia|]); cbn [proxy_call].
    - rewrite W. reflexivity.
    - rewrite N. destruct (I a t N) as [T _]. apply IH; auto. lia.
  Qed.

  Lemma nth_app_new {A} (l : list A) x a y : nth_error (l ++ [x]) a = Some y ->
    (a < length l /\ nth_error l a = Some y) \/ (a = length l /\ x = y).
  Proof.
    intros H. destruct (Nat.lt_ge_cases a (length l)) as [L|L].
    - rewrite nth_error_app1 in H by lia. auto.
    - rewrite nth_error_app2 in H by lia. destruct (a - length l) as [|k] eqn:K; cbn in H.
      + injection H as ->. right. split; [lia|reflexivity].
      + destruct k; discriminate.
  Qed.
  Lemma nth_app_old {A} (l : list A) x a y : nth_error l a = Some y -> nth_error (l ++ [x]) a = Some y.
  Proof. intros H. rewrite nth_error_app1; [exact H|]. apply nth_error_Some. congruence. Qed.
  Lemma nth_some_lt {A} (l : list A) a y : nth_error l a = Some y -> a < length l.
  Proof. intros H. apply nth_error_Some. congruence. Qed.

  Lemma inv_step fuel w c : pinv w -> careful w c -> length w <= fuel ->
    exists w' r, proxy_step work fuel w c = Ok (w', r) /\ pinv w' /\ length w' <= S (length w).
  Proof.
    intros I C F. destruct c; cbn [careful proxy_step] in *.
    - do 2 eexists. split; [reflexivity|]. split; [|rewrite app_length; cbn; lia].
      intros a t N. destruct (nth_app_new _ _ _ _ N) as [[L M]|[_ M]]; [|discriminate].
      destruct (I a t M) as [T [x X]]. split; [exact T|]. exists x. apply nth_app_old. exact X.
    - destruct C as [x X]. rewrite X. do 2 eexists. split; [reflexivity|].
      split; [|rewrite app_length; cbn; lia].
      intros a t N. destruct (nth_app_new _ _ _ _ N) as [[L M]|[-> M]].
      + destruct (I a t M) as [T [y Y]]. split; [exact T|]. exists y. apply nth_app_old. exact Y.
      + injection M as ->. split; [eapply nth_some_lt; eauto|]. exists x. apply nth_app_old. exact X.
    - destruct C as [t X]. unfold is_proxy. rewrite X. cbn [bind]. do 2 eexists. split; [reflexivity|].
      split; [|rewrite app_length; cbn; lia].
      destruct (I a t X) as [T [y Y]].
      intros b u N. destruct (nth_app_new _ _ _ _ N) as [[L M]|[-> M]].
      + destruct (I b u M) as [T' [z Z]]. split; [exact T'|]. exists z. apply nth_app_old. exact Z.
      + injection M as ->. split; [eapply nth_some_lt; eauto|]. exists y. apply nth_app_old. exact Y.
    - destruct C as [[t X] B]. unfold is_proxy. rewrite X. cbn [bind].
      unfold before in B. destruct (nth_error w b) as [[[s|u]|]|] eqn:Y; try discriminate.
      apply Nat.ltb_lt in B. cbn [bind]. do 2 eexists. split; [reflexivity|].
      split; [|rewrite upd_length; lia].
      destruct (I b u Y) as [_ [z Z]].
      intros k j N. destruct (Nat.eq_dec k a) as [->|M].
      + rewrite nth_error_upd_eq in N by (eapply nth_some_lt; eauto). injection N as <-. split; [exact B|].
        exists z. rewrite nth_error_upd_neq by lia. exact Z.
      + rewrite nth_error_upd_neq in N by auto. destruct (I k j N) as [T [x' X']]. split; [exact T|].
        destruct (Nat.eq_dec j a) as [->|M'].
        * exists (Proxy u). apply nth_error_upd_eq. eapply nth_some_lt; eauto.
        * exists x'. rewrite nth_error_upd_neq by auto. exact X'.
    - destruct C as [[x X] D]. rewrite X. do 2 eexists. split; [reflexivity|].
      split; [|rewrite upd_length; lia].
      intros k j N. destruct (Nat.eq_dec k a) as [->|M].
      + rewrite nth_error_upd_eq in N by (eapply nth_some_lt; eauto). discriminate.
      + rewrite nth_error_upd_neq in N by auto. destruct (I k j N) as [T [y Y]]. split; [exact T|].
        exists y. rewrite nth_error_upd_neq; [exact Y|]. intros ->. apply (D k). exact N.
    - destruct C as [x X].
      destruct (behind_exists w I (S a) a x ltac:(lia) X) as [r [B [[s W] R]]].
      assert (L := nth_some_lt _ _ _ X).
      rewrite (call_behind w a r c B s W I fuel) by lia.
      destruct (works s c) as [s' [q Q]]. rewrite Q. cbn [bind fst snd].
      do 2 eexists. split; [reflexivity|]. split; [|rewrite upd_length; lia].
      intros k j N. destruct (Nat.eq_dec k r) as [->|M].
      + rewrite nth_error_upd_eq in N by (eapply nth_some_lt; eauto). discriminate.
      + rewrite nth_error_upd_neq in N by auto. destruct (I k j N) as [T [y Y]]. split; [exact T|].
        destruct (Nat.eq_dec j r) as [->|M'].
        * eexists. apply nth_error_upd_eq. eapply nth_some_lt; eauto.
        * exists y. rewrite nth_error_upd_neq by auto. exact Y.
  Qed.

  (** The worlds that careful histories lead to. *)
  Inductive carefully : list (option (alloc St)) -> Prop :=
  | careful_start : carefully []
  | careful_next w c w' r fuel : carefully w -> careful w c -> length w <= fuel ->
      proxy_step work fuel w c = Ok (w', r) -> carefully w'.

  Lemma carefully_inv w : carefully w -> pinv w.
  Proof.
    induction 1 as [|w c w' r fuel H IH C F E].
    - intros [|a] t N; discriminate.
    - destruct (inv_step fuel w c IH C F) as [w1 [r1 [E1 [I _]]]]. rewrite E in E1. injection E1 as <- <-. exact I.
  Qed.
End Proofs.

(** In such histories every call on a proxy, however many proxies are in between, is the call on
    the one allocator behind it: the same result, the same change there, and no other change. *)
Theorem C169_proxy_partial : forall St Call Res (work : St -> Call -> outcome (St * Res)),
  (forall s c, exists s' r, work s c = Ok (s', r)) ->
  forall w a x c fuel,
  carefully work w -> nth_error w a = Some (Some x) -> length w <= fuel ->
  exists r s s' q,
    behind w a r /\ nth_error w r = Some (Some (Worker s)) /\ work s c = Ok (s', q) /\
    proxy_step work fuel w (PCall a c) = Ok (upd w r (Some (Worker s')), Some q).
Proof.
  intros St Call Res work K w a x c fuel H X F.
  assert (I := carefully_inv work K w H).
  destruct (behind_exists w I (S a) a x ltac:(lia) X) as [r [B [[s W] R]]].
  destruct (K s c) as [s' [q Q]]. exists r, s, s', q.
  split; [exact B|]. split; [exact W|]. split; [exact Q|].
  cbn [proxy_step]. assert (L := nth_some_lt _ _ _ X).
  rewrite (call_behind work w a r c B s W I fuel) by lia. rewrite Q. reflexivity.
Qed.

(** Every careful call can be made. *)
Theorem C169_calls_partial : forall St Call Res (work : St -> Call -> outcome (St * Res)),
  (forall s c, exists s' r, work s c = Ok (s', r)) ->
  forall w c, carefully work w -> careful w c ->
  exists w' r, proxy_step work (length w) w c = Ok (w', r).
Proof.
  intros St Call Res work K w c H C.
  destruct (inv_step work K (length w) w c (carefully_inv work K w H) C (le_n _)) as [w' [r [E _]]]. eauto.
Qed.

(** The behind relation leads to one worker only. *)
Theorem C169_one_worker_partial : forall St (w : list (option (alloc St))) a r r',
  behind w a r -> behind w a r' -> r = r'.
Proof.
  intros St w a r r' H. revert r'. induction H as [a s N|a t r N B IH]; intros r' H'.
  - inversion H'; [reflexivity|congruence].
  - inversion H' as [x s N'|x t' y N' B']; subst; [congruence|].
    rewrite N in N'. injection N' as <-. apply IH. exact B'.
Qed.

(** What is behind the objects afterwards: a new proxy has the allocator of its argument behind
    it, a copy that of its source, and after an assignment both proxies have that of the source;
    calls change nothing about it, and whatever is made, the others keep theirs. *)
Lemma behind_app St (w : list (option (alloc St))) o a r : behind w a r -> behind (w ++ [o]) a r.
Proof.
  induction 1 as [a s N|a t r N B IH].
  - econstructor. apply nth_app_old. exact N.
  - eapply behind_proxy; [apply nth_app_old; exact N|exact IH].
Qed.
Lemma behind_lower St (w : list (option (alloc St))) a t r :
  pinv w -> behind w a r -> forall k, a < k -> behind (upd w k t) a r.
Proof.
  intros I H. induction H as [a s N|a u r N B IH]; intros k L.
  - econstructor. rewrite nth_error_upd_neq by lia. exact N.
  - eapply behind_proxy; [rewrite nth_error_upd_neq by lia; exact N|].
    apply IH. destruct (I a u N). lia.
Qed.
Lemma behind_update St (w : list (option (alloc St))) a r k s s' :
  nth_error w k = Some (Some (Worker s)) -> behind w a r -> behind (upd w k (Some (Worker s'))) a r.
Proof.
  intros K H. induction H as [a s0 N|a u r N B IH].
  - destruct (Nat.eq_dec a k) as [->|M].
    + econstructor. apply nth_error_upd_eq. eapply nth_some_lt; eauto.
    + econstructor. rewrite nth_error_upd_neq by auto. exact N.
  - eapply behind_proxy; [|exact IH]. rewrite nth_error_upd_neq; [exact N|]. intros ->. congruence.
Qed.

Theorem C169_made_partial : forall St Call Res (work : St -> Call -> outcome (St * Res)),
  (forall s c, exists s' r, work s c = Ok (s', r)) ->
  forall w c w' q fuel, carefully work w -> careful w c -> length w <= fuel ->
  proxy_step work fuel w c = Ok (w', q) ->
  match c with
  | PWorker s => behind w' (length w) (length w) /\ nth_error w' (length w) = Some (Some (Worker s))
  | PProxy t => forall r, behind w t r -> behind w' (length w) r
  | PCopy a => forall r, behind w a r -> behind w' (length w) r
  | PAssign a b => forall r, behind w b r -> behind w' a r /\ behind w' b r
  | _ => True
  end /\
  match c with
  | PAssign _ _ | PDelete _ => True
  | _ => forall a r, behind w a r -> behind w' a r
  end.
Proof.
  intros St Call Res work K w c w' q fuel H C F E.
  assert (I := carefully_inv work K w H).
  destruct c as [s|t|a|a b|a|a c]; cbn [proxy_step careful] in E, C.
  - injection E as <- <-. split; [|intros; apply behind_app; assumption].
    assert (N : nth_error (w ++ [Some (Worker s)]) (length w) = Some (Some (Worker s)))
      by (rewrite nth_error_app2, Nat.sub_diag by lia; reflexivity).
    split; [econstructor; exact N|exact N].
  - destruct C as [x X]. rewrite X in E. injection E as <- <-.
    split; [|intros; apply behind_app; assumption]. intros r B.
    eapply behind_proxy; [|apply behind_app; exact B]. rewrite nth_error_app2, Nat.sub_diag by lia. reflexivity.
  - destruct C as [t X]. unfold is_proxy in E. rewrite X in E. cbn [bind] in E. injection E as <- <-.
    split; [|intros; apply behind_app; assumption]. intros r B.
    inversion B as [x s N|x u y N B']; subst; rewrite X in N; [discriminate|]. injection N as <-.
    eapply behind_proxy; [|apply behind_app; exact B']. rewrite nth_error_app2, Nat.sub_diag by lia. reflexivity.
  - destruct C as [[t X] L]. unfold is_proxy in E. rewrite X in E. cbn [bind] in E.
    unfold before in L. destruct (nth_error w b) as [[[s|u]|]|] eqn:Y; try discriminate.
    apply Nat.ltb_lt in L. cbn [bind] in E. injection E as <- <-. split; [|exact Logic.I]. intros r B.
    inversion B as [x s N|x v y N B']; subst; rewrite Y in N; [discriminate|]. injection N as <-.
    assert (A : behind (upd w a (Some (Proxy u))) u r) by (apply behind_lower; auto).
    assert (A' : behind (upd w a (Some (Proxy u))) a r).
    { eapply behind_proxy; [|exact A]. apply nth_error_upd_eq. eapply nth_some_lt; eauto. }
    split; [exact A'|]. destruct (Nat.eq_dec b a) as [->|M]; [exact A'|].
    eapply behind_proxy; [|exact A]. rewrite nth_error_upd_neq by auto. exact Y.
  - split; exact Logic.I.
  - split; [exact Logic.I|]. destruct C as [x X].
    destruct (C169_proxy_partial St Call Res work K w a x c fuel H X F) as [r [s [s' [q' [_ [W [_ E']]]]]]].
    cbn [proxy_step] in E'. rewrite E' in E. injection E as <- _. intros k r' B'.
    eapply behind_update; eauto.
Qed.

(** A counter as an allocator: each call adds and tells the total. *)
Definition counting (s c : nat) : outcome (nat * nat) := Ok (s + c, s + c).
Example C169_case :
  proxy_run counting 9 [] [PWorker 10; PProxy 0; PProxy 1; PCopy 2; PWorker 50; PProxy 4; PAssign 5 1; PCall 3 5; PCall 5 7; PCall 4 1] =
  Ok ([Some (Worker 22); Some (Proxy 0); Some (Proxy 1); Some (Proxy 1); Some (Worker 51); Some (Proxy 0)],
      [None; None; None; None; None; None; None; Some 15; Some 22; Some 51]).
Proof. reflexivity. Qed.
Example C169_careful_case :
  careful (Call := nat) [Some (Worker 10); Some (Proxy 0); Some (Worker 50); Some (Proxy 2)] (PAssign 3 1).
Proof. cbn. split; [eauto|reflexivity]. Qed.

(** Assigning to a proxy a proxy of itself: every call on either then calls itself for ever,
    although both have been proxies of a working allocator. *)
Theorem C169_cycle_refuted : forall St Call Res (work : St -> Call -> outcome (St * Res)) s c,
  exists w, proxy_run work 9 [] [PWorker s; PProxy 0; PProxy 1; PAssign 1 2] = Ok (w, [None; None; None; None]) /\
    forall fuel, proxy_call work fuel w 1 c = Diverge /\ proxy_call work fuel w 2 c = Diverge.
Proof.
  intros St Call Res work s c. eexists. split; [reflexivity|].
  assert (A : forall fuel, proxy_call work fuel [Some (Worker s); Some (Proxy 1); Some (Proxy 1)] 1 c = Diverge).
  { induction fuel as [|fuel IH]; [reflexivity|]. exact IH. }
  intros fuel. split; [apply A|]. destruct fuel as [|fuel]; [reflexivity|]. apply A.
Qed.

(** * C170: the addresses of the streams library *)
Local Open Scope Z_scope.

(** Addresses whose numbers were set are copied and assigned as they are. *)
Theorem C170_copy_partial : forall l p, address_copy (Addr (map Some l) (Some p)) = Ok (Addr (map Some l) (Some p)).
Proof.
  intros l p. unfold address_copy. cbn [a_numbers a_port].
  assert (R : read_numbers (map Some l) = Ok (map Some l)).
  { induction l as [|x l IH]; cbn [map read_numbers]; [reflexivity|]. rewrite IH. reflexivity. }
  rewrite R. reflexivity.
Qed.
Example C170_copy_case : exists a, address_copy (Addr [Some 127; Some 0; Some 0; Some 1] (Some 80)) = Ok a /\ a_port a = Some 80.
Proof. eexists. split; reflexivity. Qed.

(** Whatever the text, the address made of it is 0.0.0.0 with port 0. *)
Theorem C170_text_refuted : forall text, ipv4_from_text text = Addr [Some 0; Some 0; Some 0; Some 0] (Some 0).
Proof.
  intros text. unfold ipv4_from_text, string_to_ipv4.
  destruct (_ <=? _)%nat; [reflexivity|]. destruct (_ <? _)%nat; reflexivity.
Qed.

Lemma count_app c l l' : count_char c (l ++ l') = (count_char c l + count_char c l')%nat.
Proof. induction l as [|x l IH]; cbn; [reflexivity|]. destruct (x =? c); cbn; rewrite IH; reflexivity. Qed.
Lemma digits_no_colon n : 0 <= n <= 255 -> count_char COLON (digits n) = O.
Proof.
  intros H. unfold digits, COLON.
  assert (D : forall d, 0 <= d <= 9 -> (48 + d =? 58) = false) by (intros; apply Z.eqb_neq; lia).
  assert (M10 := Z.mod_pos_bound n 10). assert (M := Z.mod_pos_bound (n / 10) 10).
  assert (A : 0 <= n / 10) by (apply Z.div_pos; lia). assert (B : 0 <= n / 100) by (apply Z.div_pos; lia).
  destruct (Z.ltb_spec n 10); [|destruct (Z.ltb_spec n 100)]; cbn [count_char];
    rewrite ?D; try reflexivity; try lia.
  - split; [lia|]. assert (n / 10 < 10) by (apply Z.div_lt_upper_bound; lia). lia.
  - split; [lia|]. assert (n / 100 < 3) by (apply Z.div_lt_upper_bound; lia). lia.
Qed.

(** No dotted text of an address is even taken for one: the function looks for colons. *)
Theorem C170_dotted_refuted : forall a b c d,
  0 <= a <= 255 -> 0 <= b <= 255 -> 0 <= c <= 255 -> 0 <= d <= 255 ->
  string_to_ipv4 (quad a b c d) = inr (-1).
Proof.
  intros a b c d A B C D. unfold string_to_ipv4. destruct (_ <=? _)%nat; [reflexivity|].
  assert (E : count_char COLON (quad a b c d) = O).
  { unfold quad. rewrite !count_app, !digits_no_colon by assumption. reflexivity. }
  rewrite E. reflexivity.
Qed.
Example C170_dotted_case :
  quad 192 168 0 17 = [49; 57; 50; 46; 49; 54; 56; 46; 48; 46; 49; 55] /\
  string_to_ipv4 (quad 192 168 0 17) = inr (-1) /\ string_to_ipv4 [58; 58; 58] = inl ipv4_default.
Proof. repeat split. Qed.

(** Exactly the texts of at most 14 characters with at least three colons are accepted, and all of
    them stand for the same address. *)
Theorem C170_accepted_refuted : forall text,
  string_to_ipv4 text
  = if ((length text <? 15)%nat && (3 <=? length (filter (Z.eqb 58) text))%nat)%bool
    then inl (Addr [Some 0; Some 0; Some 0; Some 0] (Some 0)) else inr (-1).
Proof.
  intros text. unfold string_to_ipv4.
  assert (E : count_char COLON text = length (filter (Z.eqb 58) text)).
  { induction text as [|x text IH]; [reflexivity|]. cbn [count_char filter]. unfold COLON at 1.
    rewrite Z.eqb_sym, IH. destruct (58 =? x); reflexivity. }
  rewrite E. unfold IPV4_MAX_LENGTH, COUNT_SPLITTERS.
  destruct (Nat.leb_spec 15 (length text)); destruct (Nat.ltb_spec (length text) 15); try lia; [reflexivity|].
  cbn [andb]. destruct (Nat.ltb_spec (length (filter (Z.eqb 58) text)) 3);
    destruct (Nat.leb_spec 3 (length (filter (Z.eqb 58) text))); try lia; reflexivity.
Qed.
Example C170_accepted_case : string_to_ipv4 [49; 58; 49; 58; 49; 58; 49] = inl ipv4_default
  /\ string_to_ipv4 [49; 58; 49; 58; 49] = inr (-1).
Proof. split; reflexivity. Qed.

(** New addresses are zero, and can be copied: four numbers, or eight. *)
Theorem C170_new_partial :
  address_copy ipv4_default = Ok (Addr (map Some [0; 0; 0; 0]) (Some 0))
  /\ address_copy ipv6_default = Ok (Addr (map Some [0; 0; 0; 0; 0; 0; 0; 0]) (Some 0)).
Proof. split; reflexivity. Qed.

(** The text of an address is always empty, even if the address is not. *)
Theorem C170_get_refuted : forall a, get_address a = [].
Proof. reflexivity. Qed.

(** An Ipv6 made of a text cannot even be copied. *)
Theorem C170_ipv6_refuted : forall text, address_copy (ipv6_from_text text) = UB.
Proof. reflexivity. Qed.

Print Assumptions C169_proxy_partial.
Print Assumptions C169_calls_partial.
Print Assumptions C169_made_partial.
Print Assumptions C169_one_worker_partial.
Print Assumptions C169_cycle_refuted.
Print Assumptions C170_copy_partial.
Print Assumptions C170_text_refuted.
Print Assumptions C170_dotted_refuted.
Print Assumptions C170_accepted_refuted.
Print Assumptions C170_new_partial.
Print Assumptions C170_get_refuted.
Print Assumptions C170_ipv6_refuted.
