(** C166 - C168: theorems about Tuple and InitializerList. *)
From Coq Require Import List Arith Lia Bool.
From Verif Require Import Base BaseLemmas TupleModel TupleSpec.
Import ListNotations.

(** * C166: Tuple *)

Section TupleProofs.
  Context {V : Type}.
  Variable mv : V -> V.

  Fixpoint repr (l : list V) : tuple V :=
    match l with
    | [] => TEmpty
    | x :: l => TCons (repr l) (Some x)
    end.

  Record tmatch (w : tworld V) (s : tspec V) : Prop := TM {
    tm_tuples : tw_tuples w = map (option_map repr) (ts_tuples s);
    tm_objects : forall p, tw_objects w p = ts_objects s p;
    tm_count : tw_made w = tw_gone w + values_in (ts_tuples s)
  }.

  Definition more (w : tworld V) (n : nat) : tworld V :=
    TW (tw_tuples w) (tw_objects w) (n + tw_made w) (tw_gone w).

  Lemma make_ok xs : forall w, tup_make w xs = (more w (length xs), repr xs).
  Proof.
    induction xs as [|x xs IH]; intros w; cbn [tup_make].
    - destruct w; reflexivity.
    - rewrite IH. reflexivity.
  Qed.
  Lemma from_ok ps : forall w, tup_from w ps = (more w (length ps), repr (map (tw_objects w) ps)).
  Proof.
    induction ps as [|p ps IH]; intros w; cbn [tup_from].
    - destruct w; reflexivity.
    - rewrite IH. reflexivity.
  Qed.
  Lemma from_move_ok ps : forall w, distinct ps = true ->
    exists w', tup_from_move mv w ps = (w', repr (map (tw_objects w) ps)) /\
      tw_tuples w' = tw_tuples w /\ tw_made w' = length ps + tw_made w /\ tw_gone w' = tw_gone w /\
      forall q, tw_objects w' q = if existsb (Nat.eqb q) ps then mv (tw_objects w q) else tw_objects w q.
  Proof.
    induction ps as [|p ps IH]; intros w D; cbn [tup_from_move].
    - exists w. repeat split.
    - cbn [distinct] in D. apply andb_true_iff in D. destruct D as [N D]. apply negb_true_iff in N.
      destruct (IH w D) as [w' [E [A [B [C F]]]]]. rewrite E.
      assert (G : tw_objects w' p = tw_objects w p) by (rewrite F, N; reflexivity).
      rewrite G. eexists. split; [reflexivity|].
      cbn [one_made set_object tw_tuples tw_made tw_gone tw_objects length].
      rewrite A, B, C. repeat split. intros q. cbn [existsb].
      destruct (Nat.eqb_spec q p) as [->|M]; [reflexivity|]. cbn [orb]. apply F.
  Qed.
  Lemma copy_ok l : forall w, tup_copy w (repr l) = Ok (more w (length l), repr l).
  Proof.
    induction l as [|x l IH]; intros w; cbn [repr tup_copy].
    - destruct w; reflexivity.
    - rewrite IH. reflexivity.
  Qed.
  Lemma move_ok l : forall w, tup_move mv w (repr l) = Ok (more w (length l), (repr l, repr (map mv l))).
  Proof.
    induction l as [|x l IH]; intros w; cbn [repr tup_move].
    - destruct w; reflexivity.
    - rewrite IH. reflexivity.
  Qed.
  Lemma assign_ok l : forall l', length l = length l' -> tup_assign (repr l) (repr l') = Ok (repr l').
  Proof.
    induction l as [|x l IH]; intros [|y l'] E; try discriminate; cbn [repr tup_assign]; [reflexivity|].
    injection E as E. rewrite (IH l' E). reflexivity.
  Qed.
  Lemma move_assign_ok l : forall l', length l = length l' ->
    tup_move_assign mv (repr l) (repr l') = Ok (repr l', repr (map mv l')).
  Proof.
    induction l as [|x l IH]; intros [|y l'] E; try discriminate; cbn [repr tup_move_assign]; [reflexivity|].
    injection E as E. rewrite (IH l' E). reflexivity.
  Qed.
  Lemma get_ok l : forall i, tup_get (repr l) i = match nth_error l i with Some x => Ok x | None => UB end.
  Proof. induction l as [|x l IH]; intros [|i]; cbn; auto. Qed.
  Lemma set_ok l : forall i x, i < length l -> tup_set (repr l) i x = Ok (repr (upd l i x)).
  Proof.
    induction l as [|y l IH]; intros [|i] x H; cbn [length repr tup_set upd] in *; try lia; [reflexivity|].
    rewrite IH by lia. reflexivity.
  Qed.
  Lemma destroy_ok l : forall w, tup_destroy w (repr l) =
    Ok (TW (tw_tuples w) (tw_objects w) (tw_made w) (length l + tw_gone w)).
  Proof.
    induction l as [|x l IH]; intros w; cbn [repr tup_destroy get_object bind].
    - destruct w; reflexivity.
    - rewrite IH. cbn. do 2 f_equal. lia.
  Qed.

  Lemma map_upd' {A B} (f : A -> B) l : forall i x, map f (upd l i x) = upd (map f l) i (f x).
  Proof. induction l as [|y l IH]; intros [|i] x; cbn; f_equal; auto. Qed.

  Definition size_of (o : option (list V)) : nat := match o with Some l => length l | None => 0 end.
  Lemma values_upd l : forall i o x, nth_error l i = Some o ->
    values_in (upd l i x) + size_of o = values_in l + size_of x.
  Proof.
    induction l as [|y l IH]; intros [|i] o x H; cbn [nth_error] in H; try discriminate.
    - injection H as ->. destruct o, x; cbn; lia.
    - specialize (IH i o x H). destruct y; cbn [upd values_in]; lia.
  Qed.

  Lemma fresh_ok w s v : tmatch w s -> ts_free s v = true ->
    tuple_fresh w v = Ok tt /\ nth_error (ts_tuples s) v = Some None.
  Proof.
    intros M F. unfold ts_free in F. unfold tuple_fresh. rewrite (tm_tuples w s M), nth_error_map.
    destruct (nth_error (ts_tuples s) v) as [[l|]|]; try discriminate. split; reflexivity.
  Qed.
  Lemma at_ok w s v l : tmatch w s -> ts_at s v = Some l ->
    the_tuple w v = Ok (repr l) /\ nth_error (ts_tuples s) v = Some (Some l).
  Proof.
    intros M F. unfold ts_at in F. unfold the_tuple. rewrite (tm_tuples w s M), nth_error_map.
    destruct (nth_error (ts_tuples s) v) as [[k|]|]; try discriminate. injection F as ->. split; reflexivity.
  Qed.

  Lemma match_put tw obj made gone s v l o obj' :
    tw = map (option_map repr) (ts_tuples s) ->
    nth_error (ts_tuples s) v = Some o -> (forall p, obj p = obj' p) ->
    made + size_of o = gone + values_in (ts_tuples s) + size_of l ->
    tmatch (TW (upd tw v (option_map repr l)) obj made gone) (TS (upd (ts_tuples s) v l) obj').
  Proof.
    intros T N O C. constructor; cbn [tw_tuples ts_tuples tw_objects ts_objects tw_made tw_gone].
    - rewrite T, map_upd'. reflexivity.
    - exact O.
    - assert (U := values_upd (ts_tuples s) v o l N). lia.
  Qed.

  Lemma nth_upd_other (l : list (option (list V))) v u x : v <> u -> nth_error (upd l v x) u = nth_error l u.
  Proof. revert v u. induction l as [|y l IH]; intros [|v] [|u] H; cbn; auto; try lia. Qed.

  Lemma step_ok w s c s' r : tmatch w s -> ts_step mv s c = Some (s', r) ->
    exists w', tuple_step mv w c = Ok (w', r) /\ tmatch w' s'.
  Proof.
    intros M E. destruct (M) as [T O C]. destruct c; cbn [ts_step] in E; unfold tuple_step.
    - destruct (ts_free s v) eqn:F; [|discriminate]. injection E as <- <-.
      destruct (fresh_ok w s v M F) as [-> N]. cbn [bind]. rewrite make_ok.
      eexists. split; [reflexivity|]. apply (match_put _ _ _ _ s v (Some xs) None); auto; cbn [size_of tw_made tw_gone more]; rewrite ?map_length, ?upd_length; lia.
    - destruct (ts_free s v) eqn:F; [|discriminate]. injection E as <- <-.
      destruct (fresh_ok w s v M F) as [-> N]. cbn [bind]. rewrite from_ok.
      rewrite (map_ext _ _ O).
      eexists. split; [reflexivity|]. apply (match_put _ _ _ _ s v (Some _) None); auto; cbn [size_of tw_made tw_gone more]; rewrite ?map_length, ?upd_length; lia.
    - destruct (ts_free s v) eqn:F; [|discriminate]. destruct (distinct ps) eqn:D; [|discriminate].
      cbn [andb] in E. injection E as <- <-.
      destruct (fresh_ok w s v M F) as [-> N]. cbn [bind].
      destruct (from_move_ok ps w D) as [w' [-> [A [B [G K]]]]]. rewrite (map_ext _ _ O).
      eexists. split; [reflexivity|]. unfold set_tuple. rewrite A, B, G.
      apply (match_put _ _ _ _ s v (Some _) None); auto.
      + intros p. rewrite K, O. reflexivity.
      + cbn [size_of]. rewrite map_length. lia.
    - destruct (ts_free s v) eqn:F; [|discriminate]. destruct (ts_at s u) as [l|] eqn:A; [|discriminate].
      injection E as <- <-.
      destruct (fresh_ok w s v M F) as [-> N]. destruct (at_ok w s u l M A) as [-> K]. cbn [bind].
      rewrite copy_ok. cbn [bind fst snd].
      eexists. split; [reflexivity|]. apply (match_put _ _ _ _ s v (Some l) None); auto; cbn [size_of tw_made tw_gone more]; rewrite ?map_length, ?upd_length; lia.
    - destruct (ts_free s v) eqn:F; [|discriminate]. destruct (ts_at s u) as [l|] eqn:A; [|discriminate].
      injection E as <- <-.
      destruct (fresh_ok w s v M F) as [-> N]. destruct (at_ok w s u l M A) as [-> K]. cbn [bind].
      rewrite move_ok. cbn [bind fst snd].
      eexists. split; [reflexivity|].
      assert (NE : v <> u) by (intros ->; congruence).
      assert (M1 : tmatch (set_tuple (more w (length l)) v (Some (repr l))) (ts_put s v (Some l))).
      { apply (match_put _ _ _ _ s v (Some l) None); auto; cbn [size_of tw_made tw_gone more]; rewrite ?map_length, ?upd_length; lia. }
      destruct M1 as [T1 O1 C1].
      apply (match_put _ _ _ _ (ts_put s v (Some l)) u (Some (map mv l)) (Some l)); auto.
      + cbn [ts_put ts_tuples]. rewrite nth_upd_other by exact NE. exact K.
      + cbn [size_of]. rewrite map_length. lia.
    - destruct (ts_at s v) as [l|] eqn:A; [|discriminate]. destruct (ts_at s u) as [l'|] eqn:A'; [|discriminate].
      destruct (Nat.eqb_spec (length l) (length l')) as [L|]; [|discriminate]. injection E as <- <-.
      destruct (at_ok w s v l M A) as [-> K]. destruct (at_ok w s u l' M A') as [-> K']. cbn [bind].
      rewrite assign_ok by exact L. cbn [bind].
      eexists. split; [reflexivity|]. apply (match_put _ _ _ _ s v (Some l') (Some l)); auto; cbn [size_of tw_made tw_gone more]; rewrite ?map_length, ?upd_length; lia.
    - destruct (ts_at s v) as [l|] eqn:A; [|discriminate]. destruct (ts_at s u) as [l'|] eqn:A'; [|discriminate].
      destruct (Nat.eqb_spec (length l) (length l')) as [L|]; [|discriminate].
      destruct (Nat.eqb_spec v u) as [|NE]; [discriminate|]. cbn [andb negb] in E. injection E as <- <-.
      destruct (at_ok w s v l M A) as [-> K]. destruct (at_ok w s u l' M A') as [-> K']. cbn [bind].
      rewrite move_assign_ok by exact L. cbn [bind fst snd].
      eexists. split; [reflexivity|].
      assert (M1 : tmatch (set_tuple w v (Some (repr l'))) (ts_put s v (Some l'))).
      { apply (match_put _ _ _ _ s v (Some l') (Some l)); auto; cbn [size_of tw_made tw_gone more]; lia. }
      destruct M1 as [T1 O1 C1].
      apply (match_put _ _ _ _ (ts_put s v (Some l')) u (Some (map mv l')) (Some l')); auto.
      + cbn [ts_put ts_tuples]. rewrite nth_upd_other by exact NE. exact K'.
      + cbn [size_of]. rewrite map_length. lia.
    - destruct (ts_at s v) as [l|] eqn:A; [|discriminate].
      destruct (nth_error l i) as [x|] eqn:X; [|discriminate]. injection E as <- <-.
      destruct (at_ok w s v l M A) as [-> K]. cbn [bind]. rewrite get_ok, X. cbn [bind].
      eexists. split; [reflexivity|exact M].
    - destruct (ts_at s v) as [l|] eqn:A; [|discriminate].
      destruct (Nat.ltb_spec i (length l)) as [L|]; [|discriminate]. injection E as <- <-.
      destruct (at_ok w s v l M A) as [-> K]. cbn [bind]. rewrite set_ok by exact L. cbn [bind].
      eexists. split; [reflexivity|]. apply (match_put _ _ _ _ s v (Some _) (Some l)); auto; cbn [size_of tw_made tw_gone more]; rewrite ?map_length, ?upd_length; lia.
    - destruct (ts_at s v) as [l|] eqn:A; [|discriminate]. injection E as <- <-.
      destruct (at_ok w s v l M A) as [-> K]. cbn [bind]. rewrite destroy_ok. cbn [bind].
      eexists. split; [reflexivity|]. apply (match_put _ _ _ _ s v None (Some l)); auto; cbn [size_of tw_made tw_gone more]; rewrite ?map_length, ?upd_length; lia.
  Qed.

  Lemma run_ok h : forall w s s' rs, tmatch w s -> ts_run mv s h = Some (s', rs) ->
    exists w', tuple_run mv w h = Ok (w', rs) /\ tmatch w' s'.
  Proof.
    induction h as [|c h IH]; intros w s s' rs M E; cbn [ts_run tuple_run] in *.
    - injection E as <- <-. eauto.
    - destruct (ts_step mv s c) as [[s1 r]|] eqn:E1; [|discriminate].
      destruct (ts_run mv s1 h) as [[s2 rs']|] eqn:E2; [|discriminate]. injection E as <- <-.
      destruct (step_ok w s c s1 r M E1) as [w1 [-> M1]]. cbn [bind fst snd].
      destruct (IH w1 s1 s2 rs' M1 E2) as [w2 [-> M2]]. eexists. split; [reflexivity|exact M2].
  Qed.

  Lemma start_match n objects : tmatch (tw_start n objects) (ts_start n objects).
  Proof.
    constructor; cbn [tw_start ts_start tw_tuples ts_tuples tw_objects ts_objects tw_made tw_gone]; auto.
    - induction n; cbn; f_equal; auto.
    - induction n; cbn; auto.
  Qed.
End TupleProofs.

(** In every history of calls that makes sense the tuples hold the values they should: every
    access tells the value last stored; named objects change only when they are moved from; there
    is one living object for every value. *)
Theorem C166_tuple : forall V (mv : V -> V) n objects h s rs,
  ts_run mv (ts_start n objects) h = Some (s, rs) ->
  exists w, tuple_run mv (tw_start n objects) h = Ok (w, rs) /\
    (forall p, tw_objects w p = ts_objects s p) /\
    tw_made w = tw_gone w + values_in (ts_tuples s) /\
    forall v i l x, ts_at s v = Some l -> nth_error l i = Some x ->
      tuple_step mv w (TGet v i) = Ok (w, Some x).
Proof.
  intros V mv n objects h s rs E.
  destruct (run_ok mv h _ _ s rs (start_match n objects) E) as [w [R M]].
  exists w. split; [exact R|]. split; [apply M|]. split; [apply M|].
  intros v i l x A X. cbn [tuple_step]. destruct (at_ok w s v l M A) as [-> _]. cbn [bind].
  rewrite get_ok, X. reflexivity.
Qed.
Example C166_tuple_case : exists s w,
  ts_run (fun _ => 0) (ts_start 3 (fun p => 10 + p))
    [TFromMove 0 [4; 5; 6]; TCopy 1 0; TSet 0 2 99; TMove 2 1; TGet 0 2; TGet 2 2; TGet 1 0; TDelete 1] =
  Some (s, [None; None; None; None; Some 99; Some 16; Some 0; None]) /\
  tuple_run (fun _ => 0) (tw_start 3 (fun p => 10 + p))
    [TFromMove 0 [4; 5; 6]; TCopy 1 0; TSet 0 2 99; TMove 2 1; TGet 0 2; TGet 2 2; TGet 1 0; TDelete 1] =
  Ok (w, [None; None; None; None; Some 99; Some 16; Some 0; None]) /\
  tw_made w = 9 /\ tw_gone w = 3 /\ tw_objects w 5 = 0 /\ tw_objects w 7 = 17.
Proof.
  do 2 eexists. split; [vm_compute; reflexivity|]. split; [vm_compute; reflexivity|].
  repeat split; vm_compute; reflexivity.
Qed.

(** When all tuples are deleted no object is left. *)
Theorem C166_none_left : forall V (mv : V -> V) n objects h s rs,
  ts_run mv (ts_start n objects) h = Some (s, rs) -> Forall (eq None) (ts_tuples s) ->
  exists w, tuple_run mv (tw_start n objects) h = Ok (w, rs) /\ tw_made w = tw_gone w.
Proof.
  intros V mv n objects h s rs E F.
  destruct (C166_tuple V mv n objects h s rs E) as [w [R [_ [C _]]]]. exists w. split; [exact R|].
  rewrite C. enough (values_in (ts_tuples s) = 0) by lia.
  clear - F. induction F as [|o l H F IH]; [reflexivity|]. subst o. exact IH.
Qed.
Example C166_none_left_case : exists s,
  ts_run (fun x => x) (ts_start 1 (fun p => p)) [TNew 0 [7; 8]; TDelete 0] = Some (s, [None; None]) /\
  Forall (eq None) (ts_tuples s).
Proof. eexists. split; [reflexivity|]. repeat constructor. Qed.

(** * C167: the elements of an InitializerList *)

Section InitListProofs.
  Context {V : Type}.
  Variable initial : V.

  Lemma init_ok args : forall (done rest : list (option V)),
    length args <= length rest -> (forall o, In o rest -> exists x, o = Some x) ->
    il_init (done ++ rest) (length done) args = Ok (done ++ map Some args ++ skipn (length args) rest).
  Proof.
    induction args as [|x args IH]; intros done rest L A; cbn [il_init].
    - reflexivity.
    - destruct rest as [|o rest]; cbn [length] in L; [lia|].
      destruct (A o (or_introl eq_refl)) as [y ->].
      assert (N : nth_error (done ++ Some y :: rest) (length done) = Some (Some y)).
      { rewrite nth_error_app2, Nat.sub_diag by lia. reflexivity. }
      unfold assign. rewrite N. cbn [bind].
      assert (U : upd (done ++ Some y :: rest) (length done) (Some x) = (done ++ [Some x]) ++ rest).
      { clear. induction done as [|d done IH]; cbn; f_equal; auto. }
      rewrite U. replace (S (length done)) with (length (done ++ [Some x])) by (rewrite app_length; cbn; lia).
      rewrite IH.
      + rewrite <- app_assoc. reflexivity.
      + lia.
      + intros o H. apply A. right. exact H.
  Qed.

  Lemma repeat_some n : forall o, In o (repeat (Some initial) n) -> exists x, o = Some x.
  Proof. intros o H. apply repeat_spec in H. eauto. Qed.

  Lemma skipn_repeat {A} (x : A) n : forall k, skipn k (repeat x n) = repeat x (n - k).
  Proof. induction n; intros [|k]; cbn; auto. Qed.

  Lemma new_ok size args : 0 < length args <= size ->
    il_new initial size args =
    Ok (IL (length args) (map Some args ++ repeat (Some initial) (size - length args))).
  Proof.
    intros H. unfold il_new. rewrite (proj2 (Nat.ltb_ge _ _)), (proj2 (Nat.eqb_neq _ _)) by lia. cbn [orb].
    assert (E := init_ok args [] (repeat (Some initial) size)). cbn [app length] in E.
    rewrite E; [rewrite skipn_repeat; reflexivity|rewrite repeat_length; lia|apply repeat_some].
  Qed.

  Lemma walk_ok w n l args : forall (done : list V) rest,
    nth_error w n = Some (Some l) -> il_cells l = map Some done ++ map Some args ++ rest ->
    il_walk w (n, length done) (length args) = Ok args.
  Proof.
    induction args as [|x args IH]; intros done rest W C; cbn [length il_walk]; [reflexivity|].
    unfold il_deref, the_list. cbn [fst snd]. rewrite W. cbn [bind].
    unfold load. rewrite C, nth_error_app2 by (rewrite map_length; lia).
    rewrite map_length, Nat.sub_diag. cbn [map app nth_error bind].
    replace (S (length done)) with (length (done ++ [x])) by (rewrite app_length; cbn; lia).
    rewrite (IH (done ++ [x]) rest W).
    - reflexivity.
    - rewrite C, map_app, <- app_assoc. reflexivity.
  Qed.
End InitListProofs.

(** The list has as many elements as arguments were given, and walking through it yields the
    arguments in order. *)
Theorem C167_elements : forall V (initial : V) size args w,
  0 < length args <= size ->
  exists w' n l, i_new initial w size args = Ok (w', n) /\ nth_error w' n = Some (Some l) /\
    il_size l = length args /\ length (il_cells l) = size /\ il_elements w' n = Ok args.
Proof.
  intros V initial size args w H. unfold i_new. rewrite new_ok by exact H. cbn [bind].
  do 3 eexists. split; [reflexivity|].
  assert (N : nth_error (w ++ [Some (IL (length args) (map Some args ++ repeat (Some initial) (size - length args)))]) (length w)
              = Some (Some (IL (length args) (map Some args ++ repeat (Some initial) (size - length args))))).
  { rewrite nth_error_app2, Nat.sub_diag by lia. reflexivity. }
  split; [exact N|]. split; [reflexivity|]. split.
  - cbn [il_cells]. rewrite app_length, map_length, repeat_length. lia.
  - unfold il_elements, il_end, the_list. rewrite N. cbn [bind snd il_size]. rewrite Nat.sub_0_r.
    apply (walk_ok _ _ _ args [] (repeat (Some initial) (size - length args)) N). reflexivity.
Qed.
Example C167_elements_case :
  0 < length [5; 6; 7] <= 4 /\
  exists w, i_new 0 [] 4 [5; 6; 7] = Ok (w, 0) /\ il_elements w 0 = Ok [5; 6; 7].
Proof. split; [cbn; lia|]. eexists. split; reflexivity. Qed.

(** * C168: the life of an InitializerList *)

Lemma destroy_all {V} (l : list V) : forall (done : nat),
  destroy_from (repeat None done ++ map Some l) done (length l) = Ok (repeat None (done + length l)).
Proof.
  induction l as [|x l IH]; intros done; cbn [length destroy_from map].
  - rewrite app_nil_r, Nat.add_0_r. reflexivity.
  - unfold destroy. rewrite nth_error_app2 by (rewrite repeat_length; lia).
    rewrite repeat_length, Nat.sub_diag. cbn [nth_error bind].
    assert (U : upd (repeat None done ++ Some x :: map Some l) done None = repeat None (S done) ++ map Some l).
    { clear. induction done as [|d IH]; [reflexivity|]. cbn [repeat app upd]. rewrite IH. reflexivity. }
    rewrite U, IH. do 2 f_equal. lia.
Qed.

Lemma destroy_prefix {V} (l : list V) : forall (done : nat) rest,
  destroy_from (repeat None done ++ map Some l ++ rest) done (length l) = Ok (repeat None (done + length l) ++ rest).
Proof.
  induction l as [|x l IH]; intros done rest; cbn [length destroy_from map app].
  - rewrite Nat.add_0_r. reflexivity.
  - unfold destroy. rewrite nth_error_app2 by (rewrite repeat_length; lia).
    rewrite repeat_length, Nat.sub_diag. cbn [nth_error bind].
    assert (U : upd (repeat None done ++ Some x :: map Some l ++ rest) done None = repeat None (S done) ++ map Some l ++ rest).
    { clear. induction done as [|d IH]; [reflexivity|]. cbn [repeat app upd]. rewrite IH. reflexivity. }
    rewrite U, IH. do 2 f_equal. f_equal. lia.
Qed.

(** If the destructor of the elements does nothing, an InitializerList can be deleted, and all
    its cells are released. *)
Theorem C168_trivial_partial : forall V (initial : V) size args w,
  0 < length args <= size ->
  exists w' n l, i_new initial w size args = Ok (w', n) /\ nth_error w' n = Some (Some l) /\
    il_destroy true l = Ok (raw V size) /\ i_delete true w' n = Ok (w ++ [None]).
Proof.
  intros V initial size args w H. unfold i_new. rewrite new_ok by exact H. cbn [bind].
  do 3 eexists. split; [reflexivity|].
  assert (N : nth_error (w ++ [Some (IL (length args) (map Some args ++ repeat (Some initial) (size - length args)))]) (length w)
              = Some (Some (IL (length args) (map Some args ++ repeat (Some initial) (size - length args))))).
  { rewrite nth_error_app2, Nat.sub_diag by lia. reflexivity. }
  split; [exact N|].
  assert (D : il_destroy true (IL (length args) (map Some args ++ repeat (Some initial) (size - length args))) = Ok (raw V size)).
  { unfold il_destroy. cbn [il_cells bind].
    rewrite app_length, map_length, repeat_length.
    replace (map Some args ++ repeat (Some initial) (size - length args))
      with (map Some (args ++ repeat initial (size - length args)))
      by (rewrite map_app; f_equal; clear; induction (size - length args); cbn; f_equal; auto).
    replace (length args + (size - length args)) with (length (args ++ repeat initial (size - length args)))
      by (rewrite app_length, repeat_length; reflexivity).
    assert (E := destroy_all (args ++ repeat initial (size - length args)) 0). cbn [repeat app] in E. rewrite E.
    rewrite app_length, repeat_length. cbn [Nat.add]. unfold raw. do 2 f_equal. lia. }
  split; [exact D|]. unfold i_delete, the_list. rewrite N. cbn [bind]. rewrite D. cbn [bind].
  f_equal. clear. induction w as [|o w IH]; cbn; f_equal; auto.
Qed.
Example C168_trivial_case : exists w,
  i_new 0 [] 3 [5; 6] = Ok (w, 0) /\ i_delete true w 0 = Ok [None].
Proof. eexists. split; reflexivity. Qed.

(** Otherwise its destructor destroys the elements, and then they are destroyed again as members
    of the array: undefined for every list. *)
Theorem C168_destroy_refuted : forall V (initial : V) size args w,
  0 < length args <= size ->
  exists w' n, i_new initial w size args = Ok (w', n) /\ i_delete false w' n = UB.
Proof.
  intros V initial size args w H. unfold i_new. rewrite new_ok by exact H. cbn [bind].
  do 2 eexists. split; [reflexivity|].
  unfold i_delete, the_list. rewrite nth_error_app2, Nat.sub_diag by lia. cbn [nth_error bind].
  unfold il_destroy. cbn [il_cells il_size].
  assert (E := destroy_prefix args 0 (repeat (Some initial) (size - length args))). cbn [repeat app] in E. rewrite E.
  cbn [bind Nat.add].
  rewrite app_length, !repeat_length.
  destruct (length args) as [|n]; [lia|]. reflexivity.
Qed.
Example C168_destroy_case : 0 < length [5] <= 1 /\ exists w, i_new 0 [] 1 [5] = Ok (w, 0) /\ i_delete false w 0 = UB.
Proof. split; [cbn; lia|]. eexists. split; reflexivity. Qed.

(** The functions begin and end that get a list return pointers into a copy that no longer
    exists. *)
Theorem C168_begin_refuted : forall V (initial : V) trivial size args w,
  0 < length args <= size ->
  exists w' n, i_new initial w size args = Ok (w', n) /\
    (let! r := i_begin_of trivial w' n in il_deref (fst r) (snd r)) = UB.
Proof.
  intros V initial trivial size args w H. destruct trivial.
  - destruct (C168_trivial_partial V initial size args w H) as [w' [n [l [E [N [D _]]]]]].
    exists w', n. split; [exact E|]. unfold i_begin_of, the_list. rewrite N. cbn [bind].
    unfold i_delete, the_list. rewrite app_length. cbn [length]. rewrite Nat.add_sub.
    rewrite nth_error_app2, Nat.sub_diag by lia. cbn [nth_error bind]. unfold il_copy. rewrite D.
    cbn [bind fst snd]. unfold il_deref, il_begin, the_list. cbn [fst snd].
    assert (U : nth_error (upd (w' ++ [Some l]) (length w') None) (length w') = Some None).
    { clear. induction w' as [|o w IH]; cbn; auto. }
    rewrite U. reflexivity.
  - destruct (C168_destroy_refuted V initial size args w H) as [w' [n [E D]]].
    exists w', n. split; [exact E|]. unfold i_begin_of. unfold i_delete in D.
    destruct (the_list w' n) as [l| |] eqn:T; cbn [bind] in *; try reflexivity; try discriminate.
    unfold i_delete, the_list. rewrite app_length. cbn [length]. rewrite Nat.add_sub.
    rewrite nth_error_app2, Nat.sub_diag by lia. cbn [nth_error bind]. unfold il_copy.
    destruct (il_destroy false l); cbn [bind] in *; try reflexivity; discriminate.
Qed.
Example C168_begin_case : exists w, i_new 0 [] 2 [5] = Ok (w, 0) /\ exists w' p, i_begin_of true w 0 = Ok (w', p) /\ il_deref w' p = UB.
Proof. eexists. split; [reflexivity|]. do 2 eexists. split; reflexivity. Qed.

Print Assumptions C166_tuple.
Print Assumptions C166_none_left.
Print Assumptions C167_elements.
Print Assumptions C168_trivial_partial.
Print Assumptions C168_destroy_refuted.
Print Assumptions C168_begin_refuted.
