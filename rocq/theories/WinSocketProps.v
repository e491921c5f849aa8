(** Properties of sockets on Windows: C145 - C147. *)
From Coq Require Import List Arith ZArith Bool Lia Permutation.
From Verif Require Import Base BaseLemmas WinSocketModel WinSocketSpec.
Import ListNotations.

(** ** C145: making and deleting sockets leaves none open *)

Record sinv (w : sworld) (lost : list nat) : Prop := {
  SI_open : Permutation (s_open w) (owned (s_objects w) ++ lost);
  SI_nodup : NoDup (s_open w);
  SI_startups : s_startups w = if s_inited w then 1 else 0
}.
Lemma owned_app a b : owned (a ++ b) = owned a ++ owned b.
Proof. induction a as [|[[x|]|] a IH]; cbn; rewrite ?IH; reflexivity. Qed.
Lemma owned_upd l : forall i s, nth_error l i = Some (Some s) ->
  Permutation (owned l) (match s with Some x => [x] | None => [] end ++ owned (upd l i None)).
Proof.
  induction l as [|o l IH]; intros [|i] s E; try discriminate E.
  - injection E as ->. destruct s; reflexivity.
  - cbn [nth_error] in E. specialize (IH i s E). destruct o as [[x|]|]; cbn [owned upd]; try exact IH.
    rewrite IH. destruct s; cbn; [apply perm_swap|reflexivity].
Qed.
Lemma filter_out x l : ~ In x l -> filter (fun y => negb (y =? x)) l = l.
Proof.
  induction l as [|y l IH]; intros N; [reflexivity|]. cbn.
  destruct (Nat.eqb_spec y x) as [E|E]; [elim N; left; exact E|]. cbn. rewrite IH; [reflexivity|].
  intros X. apply N. right. exact X.
Qed.
Lemma NoDup_filter_perm x l r : NoDup l -> Permutation l (x :: r) ->
  Permutation (filter (fun y => negb (y =? x)) l) r.
Proof.
  intros N P.
  assert (F : forall a b : list nat, Permutation a b ->
     Permutation (filter (fun y => negb (y =? x)) a) (filter (fun y => negb (y =? x)) b)).
  { induction 1; cbn; auto.
    - destruct (negb (x0 =? x)); auto.
    - destruct (negb (x0 =? x)), (negb (y =? x)); auto; apply perm_swap.
    - eapply Permutation_trans; eassumption. }
  rewrite (F _ _ P). cbn. rewrite Nat.eqb_refl. cbn. rewrite filter_out; [reflexivity|].
  apply (Permutation_NoDup P) in N. inversion N; assumption.
Qed.

Lemma create_server_ok w a lost : sinv w lost ->
  fresh w (MakeServer a) ->
  sinv (add_object (create_server w a)) (unbound (s_inited w) [MakeServer a] ++ lost)
  /\ s_inited (add_object (create_server w a)) = s_inited w || a_startup a.
Proof.
  intros [P N SS] F. cbn in F. unfold create_server, winsock_init, wsa_socket. cbn [unbound].
  destruct w as [inited st op ob]. cbn [s_inited s_open s_startups s_objects] in *.
  assert (G : forall (inited' : bool) (st' : nat), st' = (if inited' then 1 else 0) -> forall s r, inited' = true ->
     a_socket a = s ->
     add_object
       (let (w, s) := match s with
                      | None => (SWorld inited' st' op ob, None)
                      | Some h => (SWorld inited' st' (h :: op) ob, Some h)
                      end in
        match s with
        | None => (w, None)
        | Some h => if negb (a_option a) then (close_socket w (Some h), None)
                    else if negb (a_bind a) then (w, None) else (w, Some h)
        end) = r ->
     sinv r (match s, a_option a, a_bind a with Some x, true, false => [x] | _, _, _ => [] end ++ lost)
     /\ s_inited r = true).
  { intros i' st' ES s r -> EA <-. destruct s as [x|].
    - specialize (F x EA). destruct (a_option a); cbn [negb].
      + destruct (a_bind a); cbn [negb add_object s_inited s_startups s_open s_objects]; (split; [|reflexivity]);
          constructor; cbn [s_open s_objects s_startups s_inited]; auto; try (constructor; assumption);
          rewrite owned_app; cbn [owned app].
        * rewrite <- app_assoc. cbn [app]. rewrite <- Permutation_middle. auto.
        * rewrite app_nil_r, <- Permutation_middle. auto.
      + cbn [close_socket add_object s_inited s_startups s_open s_objects filter].
        rewrite Nat.eqb_refl. cbn [negb]. rewrite filter_out by exact F. split; [|reflexivity].
        constructor; cbn [s_open s_objects s_startups s_inited]; auto. rewrite owned_app. cbn [owned]. rewrite app_nil_r. exact P.
    - cbn [add_object s_inited s_startups s_open s_objects]. split; [|reflexivity].
      constructor; cbn [s_open s_objects s_startups s_inited]; auto. rewrite owned_app. cbn [owned]. rewrite app_nil_r. exact P. }
  destruct inited; cbn [negb orb].
  - specialize (G true st SS (a_socket a) _ eq_refl eq_refl eq_refl).
    rewrite app_nil_r. destruct (a_socket a), (a_option a), (a_bind a); exact G.
  - destruct (a_startup a); cbn [negb].
    + rewrite SS. specialize (G true 1 eq_refl (a_socket a) _ eq_refl eq_refl eq_refl).
      rewrite app_nil_r. destruct (a_socket a), (a_option a), (a_bind a); exact G.
    + split; [|reflexivity]. constructor; cbn; auto. rewrite owned_app. cbn [owned]. rewrite app_nil_r. exact P.
Qed.
Lemma create_client_ok w a lost : sinv w lost -> fresh w (MakeClient a) ->
  sinv (add_object (create_client w a)) lost
  /\ s_inited (add_object (create_client w a)) = s_inited w || a_startup a.
Proof.
  intros [P N SS] F. cbn in F. unfold create_client, winsock_init, wsa_socket.
  destruct w as [inited st op ob]. cbn [s_inited s_open s_startups s_objects] in *.
  destruct inited; [|destruct (a_startup a)]; cbn [negb orb].
  3:{ split; [|reflexivity]. constructor; cbn; auto. rewrite owned_app. cbn [owned]. rewrite app_nil_r. exact P. }
  all: destruct (a_socket a) as [x|]; cbn [add_object s_inited s_startups s_open s_objects]; (split; [|reflexivity]);
    constructor; cbn [s_open s_objects s_startups s_inited]; auto; try (constructor; auto; fail);
    try (rewrite SS; reflexivity); rewrite owned_app; cbn [owned].
  all: try (rewrite app_nil_r; exact P).
  all: rewrite <- app_assoc; cbn [app]; rewrite <- Permutation_middle; auto.
Qed.
Lemma delete_ok w i w' lost : sinv w lost -> sstep w (Delete i) = Ok w' ->
  sinv w' lost /\ s_inited w' = s_inited w.
Proof.
  intros [P N SS] E. cbn [sstep] in E. destruct (nth_error (s_objects w) i) as [[s|]|] eqn:O; try discriminate E.
  injection E as <-. pose proof (owned_upd _ _ _ O) as U. destruct s as [x|]; cbn [close_socket s_inited s_startups s_open s_objects].
  - split; [|reflexivity]. constructor; cbn [s_inited s_startups s_open s_objects]; auto.
    + rewrite U in P. cbn [app] in P. apply NoDup_filter_perm in P; assumption.
    + apply NoDup_filter. exact N.
  - split; [|reflexivity]. constructor; cbn [s_inited s_startups s_open s_objects]; auto. rewrite P, U. reflexivity.
Qed.
Lemma srun_ok h : forall w lost w', sinv w lost -> fresh_history w h -> srun w h = Ok w' ->
  exists l, Permutation l (unbound (s_inited w) h ++ lost) /\ sinv w' l.
Proof.
  induction h as [|c h IH]; intros w lost w' I F E; [injection E as <-; exists lost; split; [reflexivity|exact I]|].
  cbn [srun] in E. destruct (sstep w c) as [w1| |] eqn:S1; cbn [bind] in E; try discriminate E.
  destruct F as [F1 F2]. specialize (F2 w1 S1).
  assert (G : forall lost1, sinv w1 lost1 -> exists l, Permutation l (unbound (s_inited w1) h ++ lost1) /\ sinv w' l)
    by (intros lost1 I1; exact (IH w1 lost1 w' I1 F2 E)).
  destruct c as [a|a|i].
  - injection S1 as <-. destruct (create_server_ok w a lost I F1) as [I1 EI].
    destruct (G _ I1) as (l & PL & IL). exists l. split; [|exact IL]. rewrite PL, EI. cbn [unbound]. rewrite app_nil_r.
    rewrite !app_assoc. apply Permutation_app_tail. apply Permutation_app_comm.
  - injection S1 as <-. destruct (create_client_ok w a lost I F1) as [I1 EI].
    destruct (G _ I1) as (l & PL & IL). exists l. split; [|exact IL]. rewrite PL, EI. reflexivity.
  - destruct (delete_ok w i w1 lost I S1) as [I1 EI].
    destruct (G _ I1) as (l & PL & IL). exists l. split; [|exact IL]. rewrite PL, EI. reflexivity.
Qed.

(** Exactly what is open after any calls: the sockets of the objects, and those of servers that
    could not be bound. No two objects have the same socket. *)
Theorem C145_open_partial h w : fresh_history sworld_new h -> srun sworld_new h = Ok w ->
  Permutation (s_open w) (owned (s_objects w) ++ unbound false h) /\ NoDup (s_open w).
Proof.
  intros F E.
  assert (I : sinv sworld_new []) by (constructor; cbn; auto; constructor).
  destruct (srun_ok h _ _ _ I F E) as (l & PL & [P N _]). split; [|exact N].
  rewrite P, PL, app_nil_r. reflexivity.
Qed.
(** So, if no bind failed and all objects were deleted, nothing is open. *)
Theorem C145_none_left_partial h w : fresh_history sworld_new h -> srun sworld_new h = Ok w ->
  unbound false h = [] -> (forall i o, nth_error (s_objects w) i = Some o -> o = None) -> s_open w = [].
Proof.
  intros F E U D. destruct (C145_open_partial h w F E) as [P _].
  assert (O : owned (s_objects w) = []).
  { clear - D. induction (s_objects w) as [|o l IH]; [reflexivity|].
    rewrite (D 0 o eq_refl). cbn. apply IH. intros i x X. apply (D (S i) x X). }
  rewrite O, U in P. apply Permutation_nil. symmetry. exact P.
Qed.
(** A server that cannot be bound leaves its socket open for good, whatever is done later. *)
Theorem C145_bind_refuted w a x : s_inited w = true -> a_socket a = Some x -> ~ In x (s_open w) ->
  a_option a = true -> a_bind a = false ->
  exists w', srun w [MakeServer a; Delete (length (s_objects w))] = Ok w' /\ s_open w' = x :: s_open w.
Proof.
  intros I S N O B. unfold srun, sstep, create_server, winsock_init. rewrite I. cbn [negb]. unfold wsa_socket. rewrite S, O, B.
  cbn [negb add_object bind s_objects s_inited s_startups s_open].
  rewrite nth_error_app2, Nat.sub_diag by lia. cbn [nth_error close_socket]. eexists. split; reflexivity.
Qed.
Theorem C145_bind_forever_refuted h w x : fresh_history sworld_new h -> srun sworld_new h = Ok w ->
  In x (unbound false h) -> In x (s_open w) /\ ~ In (Some (Some x)) (s_objects w).
Proof.
  intros F E U. destruct (C145_open_partial h w F E) as [P N]. split.
  - apply (Permutation_in x (Permutation_sym P)), in_or_app. right. exact U.
  - intros O. apply (Permutation_NoDup P) in N.
    assert (OW : In x (owned (s_objects w))).
    { clear - O. induction (s_objects w) as [|[[y|]|] l IH]; [contradiction| | |]; cbn; destruct O as [O|O]; try discriminate O; auto.
      injection O as ->. auto. }
    apply in_split in OW as (l1 & l2 & EQ). rewrite EQ, <- app_assoc in N. cbn [app] in N.
    apply NoDup_remove_2 in N. apply N. apply in_or_app. right. apply in_or_app. right. exact U.
Qed.
(** winsock is started at most once. *)
Theorem C145_startup_partial h w : fresh_history sworld_new h -> srun sworld_new h = Ok w ->
  s_startups w <= 1 /\ (s_open w <> [] -> s_startups w = 1).
Proof.
  intros F E.
  assert (I : sinv sworld_new []) by (constructor; cbn; auto; constructor).
  assert (X : s_startups w = if s_inited w then 1 else 0).
  { destruct (srun_ok h _ _ _ I F E) as (l & _ & [_ _ SS]). exact SS. }
  split; [rewrite X; destruct (s_inited w); lia|].
  assert (G : forall h w0 w, (s_inited w0 = false -> s_open w0 = []) -> srun w0 h = Ok w -> s_inited w = false -> s_open w = []).
  { clear. induction h as [|c h IH]; intros w0 w Z E N; [injection E as <-; auto|].
    cbn [srun] in E. destruct (sstep w0 c) as [w1| |] eqn:S1; cbn [bind] in E; try discriminate E.
    apply (IH w1 w); auto. clear E N IH. intros N.
    destruct c as [a|a|i]; cbn [sstep] in S1.
    - injection S1 as <-. unfold create_server, winsock_init, wsa_socket, close_socket in *. destruct w0 as [[|] st op ob]; cbn in *.
      + destruct (a_socket a), (a_option a), (a_bind a); cbn in *; discriminate N.
      + destruct (a_startup a); cbn in *; [destruct (a_socket a), (a_option a), (a_bind a); cbn in *; discriminate N|auto].
    - injection S1 as <-. unfold create_client, winsock_init, wsa_socket in *. destruct w0 as [[|] st op ob]; cbn in *.
      + destruct (a_socket a); cbn in *; discriminate N.
      + destruct (a_startup a); cbn in *; [destruct (a_socket a); cbn in *; discriminate N|auto].
    - destruct (nth_error (s_objects w0) i) as [[s|]|]; try discriminate S1. injection S1 as <-.
      destruct s; cbn in *; auto. rewrite (Z N). reflexivity. }
  intros O. rewrite X. destruct (s_inited w) eqn:B; [reflexivity|]. elim O. apply (G h sworld_new w); auto.
Qed.

Example C145_case :
  let ok x := WAnswers true (Some x) true true in
  let bad x := WAnswers true (Some x) true false in
  let h := [MakeServer (ok 5); MakeClient (ok 7); MakeServer (bad 9); Delete 0; MakeServer (ok 5); Delete 2; Delete 1; Delete 3] in
  fresh_history sworld_new h /\ exists w, srun sworld_new h = Ok w /\ s_open w = [9] /\ unbound false h = [9].
Proof.
  cbv zeta. split.
  - cbn [fresh_history fresh]. repeat (split; [cbn; intros; try injection H as <-; intuition discriminate|intros w' E; cbn in E; injection E as <-]). exact I.
  - eexists. split; [reflexivity|]. split; reflexivity.
Qed.

(** ** C146: a datagram is received whole with a buffer as large as wait says *)

Lemma fionread_ge d ds : (Z.of_nat (length (wd_data d)) <= win_fionread (d :: ds))%Z.
Proof. unfold win_fionread. cbn. lia. Qed.
Lemma wait_is from d ds : wait_server (d :: ds) from
  = Some (win_fionread (d :: ds), snd (match receive_server (d :: ds) 1 true from with Some x => x | None => ([], 0%Z, [], from) end)).
Proof.
  unfold wait_server, receive_server, win_recvfrom. destruct (length (wd_data d) <=? 1).
  - replace (Z.of_nat (length (wd_data d)) <? 0)%Z with false by (symmetry; apply Z.ltb_ge; lia). reflexivity.
  - rewrite Z.eqb_refl, andb_false_r. reflexivity.
Qed.
Lemma arrivals_run ds : forall w h, udp_run w (map Arrive ds ++ h)
  = let! r := udp_run (UWorld (uw_waiting w ++ ds) (uw_sent w) (uw_clients w)) h in
    Ok (match r with None => None | Some (w, l) => Some (w, repeat Nothing (length ds) ++ l) end).
Proof.
  induction ds as [|d ds IH]; intros w h; cbn [map app udp_run length repeat].
  - rewrite app_nil_r. destruct w as [a b c]. cbn. destruct (udp_run _ h) as [[[x l]|]| |]; reflexivity.
  - cbn [udp_step bind]. rewrite IH. cbn [uw_waiting uw_sent uw_clients]. rewrite <- app_assoc. cbn [app].
    destruct (udp_run _ h) as [[[x l]|]| |]; reflexivity.
Qed.
Lemma nth_lastx {A} (l : list A) x : nth_error (l ++ [x]) (length l) = Some x.
Proof. rewrite nth_error_app2, Nat.sub_diag by lia. reflexivity. Qed.
Lemma upd_lastx {A} (l : list A) x y : upd (l ++ [x]) (length l) y = l ++ [y].
Proof. induction l as [|z l IH]; cbn; [reflexivity|]. f_equal. exact IH. Qed.

(** Whatever waits and whatever arrives after the call of wait: with a buffer as large as wait
    says, receive gives the whole of the next datagram, and a reply goes to its sender. *)
Theorem C146_whole w d rest ds reply : uw_waiting w = d :: rest ->
  exists r, (0 <= r)%Z
  /\ forall size, (r <= Z.of_nat size)%Z ->
     let i := length (uw_clients w) in
     exists w', udp_run w (Wait :: map Arrive ds ++ [Receive i size; Send i reply])
       = Ok (Some (w', Number r [] :: repeat Nothing (length ds)
                         ++ [Number (Z.of_nat (length (wd_data d))) (wd_data d);
                             Number (Z.of_nat (length reply)) []]))
     /\ uw_waiting w' = rest ++ ds /\ uw_sent w' = uw_sent w ++ [(wd_from d, reply)].
Proof.
  intros W. exists (win_fionread (d :: rest)). split; [unfold win_fionread; lia|]. intros size L i.
  pose proof (fionread_ge d rest) as G.
  cbn [udp_run udp_step bind]. rewrite W, wait_is. cbn [snd bind]. rewrite arrivals_run. cbn [uw_waiting uw_sent uw_clients app udp_run udp_step].
  unfold i. rewrite nth_lastx. unfold receive_server, win_recvfrom.
  replace (length (wd_data d) <=? size) with true by (symmetry; apply Nat.leb_le; lia).
  replace (Z.of_nat (length (wd_data d)) <? 0)%Z with false by (symmetry; apply Z.ltb_ge; lia).
  cbn [bind uw_clients uw_waiting uw_sent udp_run udp_step]. rewrite upd_lastx, nth_lastx. cbn [r_pointer r_address bind].
  rewrite firstn_all2 by lia. eexists. split; [reflexivity|]. split; reflexivity.
Qed.

(** The same at a client: with a buffer as large as wait says, receive gives the whole of the next
    datagram; with a smaller one the first bytes and an error, and the datagram is gone. Nothing
    waits: both calls wait. *)
Theorem C146_client d rest ds :
  (exists r, wait_client (d :: rest) = Some r /\ (0 <= r)%Z
    /\ forall size, (r <= Z.of_nat size)%Z ->
       receive_client (d :: rest ++ ds) size false
       = Some (rest ++ ds, Z.of_nat (length (wd_data d)), wd_data d))
  /\ (forall size, size < length (wd_data d) -> receive_client (d :: rest ++ ds) size false
       = Some (rest ++ ds, (- WSAEMSGSIZE)%Z, firstn size (wd_data d)))
  /\ wait_client [] = None /\ (forall size peek, receive_client [] size peek = None).
Proof.
  repeat split.
  - exists (win_fionread (d :: rest)). split; [|split; [unfold win_fionread; lia|]].
    + unfold wait_client, receive_client, win_recvfrom. destruct (length (wd_data d) <=? 1).
      * replace (Z.of_nat (length (wd_data d)) <? 0)%Z with false by (symmetry; apply Z.ltb_ge; lia). reflexivity.
      * rewrite Z.eqb_refl, andb_false_r. reflexivity.
    + intros size L. pose proof (fionread_ge d rest) as G. unfold receive_client, win_recvfrom.
      replace (length (wd_data d) <=? size) with true by (symmetry; apply Nat.leb_le; lia).
      rewrite firstn_all2 by lia. reflexivity.
  - intros size L. unfold receive_client, win_recvfrom.
    replace (length (wd_data d) <=? size) with false by (symmetry; apply Nat.leb_gt; lia). reflexivity.
Qed.
Example C146_client_case : receive_client [WDgram 7 [1; 2; 3]%Z; WDgram 8 [4]%Z] 2 false
  = Some ([WDgram 8 [4]%Z], (- WSAEMSGSIZE)%Z, [1; 2]%Z) /\ wait_client [WDgram 7 [1; 2; 3]%Z; WDgram 8 [4]%Z] = Some 4%Z.
Proof. split; vm_compute; reflexivity. Qed.

Lemma received_nil_r h : received h [] = [].
Proof. destruct h as [|[]]; reflexivity. Qed.
Lemma udp_account h : forall w w' l, udp_run w h = Ok (Some (w', l)) ->
  exists taken, uw_waiting w ++ arrived h = taken ++ uw_waiting w'
  /\ Forall2 (fun (r : nat * answer) d =>
       (fits (fst r) d -> whole (snd r) d) /\ (~ fits (fst r) d -> cut (fst r) (snd r) d)) (received h l) taken.
Proof.
  induction h as [|c h IH]; intros w w' l E.
  - cbn in E. injection E as <- <-. exists []. cbn. rewrite app_nil_r. split; [reflexivity|constructor].
  - cbn [udp_run] in E. destruct (udp_step w c) as [[[w1 a]|]| |] eqn:S1; cbn [bind] in E; try discriminate E.
    destruct (udp_run w1 h) as [[[w2 l2]|]| |] eqn:R; cbn [bind] in E; try discriminate E. injection E as <- <-.
    destruct (IH _ _ _ R) as (taken & A & B). destruct c as [d| |i size|i data]; cbn [arrived received].
    + injection S1 as <- <-. cbn [uw_waiting] in A. rewrite <- app_assoc in A. exists taken. split; assumption.
    + cbn [udp_step] in S1. injection S1 as S1. destruct (wait_server _ _) as [[r x]|]; [|discriminate S1].
      injection S1 as <- <-. exists taken. split; assumption.
    + cbn [udp_step] in S1. destruct (nth_error (uw_clients w) i) as [from|]; [|discriminate S1]. injection S1 as S1.
      unfold receive_server, win_recvfrom in S1. destruct (uw_waiting w) as [|d ds] eqn:W; [discriminate S1|].
      injection S1 as <- <-. cbn [uw_waiting] in A. exists (d :: taken). split; [cbn; rewrite A; reflexivity|].
      constructor; [|exact B]. cbn [fst snd]. unfold fits, whole, cut. split; intros X.
      * replace (length (wd_data d) <=? size) with true by (symmetry; apply Nat.leb_le; exact X). rewrite firstn_all2 by exact X. reflexivity.
      * replace (length (wd_data d) <=? size) with false by (symmetry; apply Nat.leb_gt; lia). reflexivity.
    + cbn [udp_step] in S1. destruct (nth_error (uw_clients w) i) as [to|]; [|discriminate S1].
      destruct (r_pointer to); [|discriminate S1]. injection S1 as <- <-. exists taken. split; assumption.
Qed.
(** Over any calls: the receives take the datagrams in the order in which they arrived, each
    whole if it fits in the buffer, and what was not taken waits. *)
Theorem C146_in_order h w l : udp_run uworld_new h = Ok (Some (w, l)) ->
  exists taken, arrived h = taken ++ uw_waiting w
  /\ Forall2 (fun (r : nat * answer) d =>
       (fits (fst r) d -> whole (snd r) d) /\ (~ fits (fst r) d -> cut (fst r) (snd r) d)) (received h l) taken.
Proof. intros E. exact (udp_account h uworld_new w l E). Qed.

Example C146_case : exists w, udp_run uworld_new
    [Arrive (WDgram 1 [10; 20; 30]%Z); Wait; Arrive (WDgram 2 [40]%Z); Receive 0 3; Wait; Receive 0 2; Send 0 [7%Z]]
  = Ok (Some (w, [Nothing; Number 3 []; Nothing; Number 3 [10; 20; 30]%Z; Number 1 []; Number 1 [40%Z]; Number 1 []]))
  /\ uw_sent w = [(2, [7%Z])].
Proof. eexists. split; reflexivity. Qed.

(** ** C147: sizes and replies *)

(** wait gives the number of bytes of all datagrams that wait, so it is the size of the next one
    if and only if the others are empty. *)
Lemma sum_cons x l : list_sum (x :: l) = x + list_sum l.
Proof. reflexivity. Qed.
Theorem C147_size_partial w d rest : uw_waiting w = d :: rest ->
  exists w' r, udp_run w [Wait] = Ok (Some (w', [Number r []]))
  /\ (r = Z.of_nat (length (wd_data d)) <-> forall e, In e rest -> wd_data e = []).
Proof.
  intros W. cbn [udp_run udp_step]. rewrite W, wait_is. cbn [bind snd]. eexists _, _. split; [reflexivity|].
  assert (SUM : win_fionread (d :: rest) = (Z.of_nat (length (wd_data d)) + win_fionread rest)%Z).
  { unfold win_fionread. cbn [map]. rewrite sum_cons. lia. }
  rewrite SUM. clear SUM.
  assert (Z0 : win_fionread rest = 0%Z <-> forall e, In e rest -> wd_data e = []).
  { clear. unfold win_fionread. induction rest as [|x rest IH]; cbn [map In].
    - split; [contradiction|reflexivity].
    - rewrite sum_cons. split.
      + intros E e [<-|I]; [destruct (wd_data x); [reflexivity|cbn [length] in E; lia]|]. apply IH; [lia|exact I].
      + intros A. rewrite (A x (or_introl eq_refl)). cbn [length Nat.add]. apply IH. intros e I. apply A. right. exact I. }
  rewrite <- Z0. lia.
Qed.
Theorem C147_size_refuted w d e rest : uw_waiting w = d :: e :: rest -> wd_data e <> [] ->
  exists w' r, udp_run w [Wait] = Ok (Some (w', [Number r []])) /\ (Z.of_nat (length (wd_data d)) < r)%Z.
Proof.
  intros W N. cbn [udp_run udp_step]. rewrite W, wait_is. cbn [bind snd]. eexists _, _. split; [reflexivity|].
  unfold win_fionread. cbn [map]. rewrite !sum_cons. destruct (wd_data e); [contradiction|cbn [length]; lia].
Qed.

(** A datagram that is longer than the buffer is lost: receive fails, the rest of the datagram
    is gone, and the program cannot reply: a null pointer is followed. *)
Theorem C147_too_long_refuted w d rest size reply : uw_waiting w = d :: rest ->
  size < length (wd_data d) ->
  let i := length (uw_clients w) in
  (exists w' r, udp_run w [Wait; Receive i size] = Ok (Some (w', [Number r []; Number (-10040) (firstn size (wd_data d))]))
     /\ uw_waiting w' = rest)
  /\ udp_run w [Wait; Receive i size; Send i reply] = UB.
Proof.
  intros W L i. cbn [udp_run udp_step bind]. rewrite W, wait_is. cbn [snd bind uw_waiting uw_sent uw_clients udp_run udp_step].
  unfold i. rewrite nth_lastx. unfold receive_server, win_recvfrom.
  replace (length (wd_data d) <=? size) with false by (symmetry; apply Nat.leb_gt; exact L).
  cbn [bind uw_clients uw_waiting uw_sent udp_run udp_step Z.ltb Z.compare Z.opp WSAEMSGSIZE r_pointer receiver_new].
  rewrite upd_lastx, nth_lastx. split; [|reflexivity]. do 2 eexists. split; reflexivity.
Qed.

(** A reply goes to the sender of the datagram that this object received last, as long as every
    datagram it received fitted; whatever other objects do meanwhile. *)
Definition others (i : nat) (c : ucall) : Prop :=
  match c with Receive j _ => j <> i | _ => True end.
Lemma others_keep i h : forall w w' l, Forall (others i) h -> udp_run w h = Ok (Some (w', l)) ->
  forall x, nth_error (uw_clients w) i = Some x -> nth_error (uw_clients w') i = Some x.
Proof.
  induction h as [|c h IH]; intros w w' l F E x N; [cbn in E; injection E as <- <-; exact N|].
  inversion F as [|? ? F1 F2]; subst. cbn [udp_run] in E.
  destruct (udp_step w c) as [[[w1 a]|]| |] eqn:S1; cbn [bind] in E; try discriminate E.
  destruct (udp_run w1 h) as [[[w2 l2]|]| |] eqn:R; cbn [bind] in E; try discriminate E. injection E as <- <-.
  apply (IH w1 _ _ F2 R). destruct c as [d| |j size|j data]; cbn [udp_step] in S1.
  - injection S1 as <- <-. exact N.
  - injection S1 as S1. destruct (wait_server _ _) as [[r y]|]; [|discriminate S1]. injection S1 as <- <-.
    cbn [uw_clients]. rewrite nth_error_app1; [exact N|]. apply nth_error_Some. congruence.
  - destruct (nth_error (uw_clients w) j) as [from|]; [|discriminate S1]. injection S1 as S1.
    destruct (receive_server _ _ _ _) as [[[[a1 a2] a3] a4]|]; [|discriminate S1]. injection S1 as <- <-.
    cbn [uw_clients]. cbn in F1. rewrite nth_error_upd_neq by auto. exact N.
  - destruct (nth_error (uw_clients w) j) as [to|]; [|discriminate S1].
    destruct (r_pointer to); [|discriminate S1]. injection S1 as <- <-. exact N.
Qed.
Theorem C147_reply_partial w i size w1 d rest a h w2 l reply :
  uw_waiting w = d :: rest -> fits size d ->
  udp_step w (Receive i size) = Ok (Some (w1, a)) ->
  Forall (others i) h -> udp_run w1 h = Ok (Some (w2, l)) ->
  exists w3, udp_step w2 (Send i reply) = Ok (Some (w3, Number (Z.of_nat (length reply)) []))
    /\ uw_sent w3 = uw_sent w2 ++ [(wd_from d, reply)].
Proof.
  intros W F R O E. cbn [udp_step] in R. destruct (nth_error (uw_clients w) i) as [from|] eqn:N; [|discriminate R].
  rewrite W in R. unfold receive_server, win_recvfrom in R.
  replace (length (wd_data d) <=? size) with true in R by (symmetry; apply Nat.leb_le; exact F).
  replace (Z.of_nat (length (wd_data d)) <? 0)%Z with false in R by (symmetry; apply Z.ltb_ge; lia).
  injection R as <- <-.
  assert (L : i < length (uw_clients w)) by (apply nth_error_Some; congruence).
  pose proof (others_keep i h _ _ _ O E (Receiver (wd_from d) true)) as K. cbn [uw_clients] in K.
  rewrite nth_error_upd_eq in K by exact L. specialize (K eq_refl).
  cbn [udp_step]. rewrite K. cbn [r_pointer r_address]. eexists. split; reflexivity.
Qed.

Example C147_case : exists w1 a, udp_step
    (UWorld [WDgram 4 [1; 2]%Z; WDgram 6 [3%Z]] [] [receiver_new; receiver_new]) (Receive 1 2) = Ok (Some (w1, a))
  /\ exists w2 l, udp_run w1 [Receive 0 9; Send 0 [8%Z]; Arrive (WDgram 3 [])] = Ok (Some (w2, l)).
Proof. do 2 eexists. split; [reflexivity|]. do 2 eexists. reflexivity. Qed.

Print Assumptions C145_open_partial. Print Assumptions C145_none_left_partial.
Print Assumptions C145_bind_refuted. Print Assumptions C145_bind_forever_refuted.
Print Assumptions C145_startup_partial. Print Assumptions C146_whole.
Print Assumptions C146_client. Print Assumptions C146_in_order.
Print Assumptions C147_size_partial. Print Assumptions C147_size_refuted.
Print Assumptions C147_too_long_refuted. Print Assumptions C147_reply_partial.
