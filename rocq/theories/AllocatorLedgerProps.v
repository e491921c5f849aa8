(** C121, C122: how every history of constructions and destructions through the allocators goes. *)
From Coq Require Import List Arith Bool ZArith Lia.
From Verif Require Import Base BaseLemmas AllocatorModel AllocatorSpec AllocatorProofs.
From Verif Require Import AllocatorLedgerSpec.
Import ListNotations.

Section Ledger.
  Context {A : Type}.
  Variable moved : A -> A.
  Variable type_size : nat.
  Hypothesis SIZE : 1 <= type_size.

  Lemma passed_array_of n : forall a : argument A, passed moved a n = array_of moved n a.
  Proof.
    intros [x|x]; cbn [array_of]; [apply passed_lvalue|].
    revert x. induction n as [|n IH]; intros x; [reflexivity|].
    cbn [passed seq map]. f_equal. rewrite IH, <- seq_shift, map_map.
    apply map_ext. intros k. clear. induction k as [|k IHk]; [reflexivity|].
    cbn. f_equal. exact IHk.
  Qed.

  (** The world without its count of lost objects satisfies the invariant; the count is [k]. *)
  Definition linv (w : aworld A) (s : @arrays A) (k : nat) : Prop :=
    ainv (AW (h_blocks w) (h_vars w) 0) s /\ h_lost w = k.

  Lemma object_destroy_first (w : aworld A) b x l :
    nth_error (h_blocks w) b = Some (Some (map Some (x :: l))) ->
    object_destroy w (Some b) = Ok (AW (upd (h_blocks w) b None) (h_vars w) (length l + h_lost w)).
  Proof.
    intros B. unfold object_destroy, block_of. rewrite B. cbn [bind map].
    unfold destroy. cbn [nth_error bind upd]. unfold a_free. cbn [h_blocks h_vars h_lost].
    rewrite nth_error_upd_eq by (apply nth_error_Some; congruence).
    rewrite upd_twice. cbn [count_live]. rewrite count_live_map. reflexivity.
  Qed.

  Lemma step_exact w s k c : linv w s k ->
    (defined_call type_size s c = true ->
       exists w', astep moved type_size w c = Ok w'
         /\ linv w' (holdings_step moved s c) (k + forgets s c))
    /\ (defined_call type_size s c = false -> astep moved type_size w c = UB).
  Proof.
    intros [I K]. destruct c as [n a ok|v n|a ok|v];
      cbn [defined_call holdings_step forgets astep].
    - destruct ok; cbn [negb orb].
      + split; intros H.
        * apply Z.ltb_lt in H. rewrite (array_construct_ok moved type_size SIZE w n a H).
          cbn [bind h_blocks h_vars h_lost]. eexists. split; [reflexivity|].
          rewrite passed_array_of. split; cbn [h_blocks h_vars h_lost]; [|lia].
          apply (ainv_new type_size SIZE _ _ _ I).
        * apply Z.ltb_ge in H.
          rewrite (array_construct_overflow moved type_size SIZE w n a); [reflexivity|].
          unfold representable. lia.
      + split; [intros _|discriminate]. cbn. eexists. split; [reflexivity|].
        split; cbn [h_blocks h_vars h_lost]; [|lia]. apply (ainv_null type_size SIZE _ _ I).
    - rewrite set_array_upd. destruct (nth_error s v) as [[l|]|] eqn:E.
      + destruct (I_points _ _ I _ _ E) as (b & E1 & E2). cbn [h_vars h_blocks] in E1, E2.
        unfold read. rewrite E1. cbn [bind]. split; intros H.
        * apply Nat.leb_le in H. rewrite (array_destroy_some type_size SIZE _ _ _ _ E2) by lia.
          cbn [bind h_blocks h_vars h_lost]. eexists. split; [reflexivity|].
          split; cbn [h_blocks h_vars h_lost]; [|lia].
          apply (ainv_drop type_size SIZE _ _ _ _ _ I E1 E2 E).
        * apply Nat.leb_gt in H. rewrite (array_destroy_over type_size SIZE _ _ _ _ E2) by lia.
          reflexivity.
      + pose proof (I_points _ _ I _ _ E) as E1. cbn [points_to h_vars] in E1.
        unfold read. rewrite E1. cbn [bind]. split; intros H.
        * apply Nat.eqb_eq in H. subst n. cbn. eexists. split; [reflexivity|].
          rewrite !upd_same_nth by auto. split; cbn [h_blocks h_vars h_lost]; [exact I|lia].
        * apply Nat.eqb_neq in H. destruct n; [congruence|reflexivity].
      + split; [discriminate|]. intros _. unfold read.
        replace (nth_error (h_vars w) v) with (@None (option nat)); [reflexivity|].
        symmetry. apply nth_error_None. pose proof (I_len _ _ I) as L. cbn [h_vars] in L.
        apply nth_error_None in E. lia.
    - split; [intros _|discriminate]. destruct ok.
      + rewrite (object_construct_ok type_size SIZE). cbn [bind h_blocks h_vars h_lost].
        eexists. split; [reflexivity|]. split; cbn [h_blocks h_vars h_lost]; [|lia].
        apply (ainv_new type_size SIZE _ _ [value_of a] I).
      + cbn. eexists. split; [reflexivity|]. split; cbn [h_blocks h_vars h_lost]; [|lia].
        apply (ainv_null type_size SIZE _ _ I).
    - rewrite set_array_upd. destruct (nth_error s v) as [[l|]|] eqn:E.
      + destruct (I_points _ _ I _ _ E) as (b & E1 & E2). cbn [h_vars h_blocks] in E1, E2.
        unfold read. rewrite E1. cbn [bind]. destruct l as [|x l].
        * split; [discriminate|]. intros _. unfold object_destroy, block_of. rewrite E2. reflexivity.
        * split; [|discriminate]. intros _. rewrite (object_destroy_first _ _ _ _ E2).
          cbn [bind h_blocks h_vars h_lost length]. eexists. split; [reflexivity|].
          split; cbn [h_blocks h_vars h_lost]; [|lia].
          apply (ainv_drop type_size SIZE _ _ _ _ _ I E1 E2 E).
      + pose proof (I_points _ _ I _ _ E) as E1. cbn [points_to h_vars] in E1.
        unfold read. rewrite E1. split; [discriminate|]. reflexivity.
      + split; [discriminate|]. intros _. unfold read.
        replace (nth_error (h_vars w) v) with (@None (option nat)); [reflexivity|].
        symmetry. apply nth_error_None. pose proof (I_len _ _ I) as L. cbn [h_vars] in L.
        apply nth_error_None in E. lia.
  Qed.

  Lemma run_exact h : forall w s k, linv w s k ->
    (defined_history moved type_size s h = true ->
       exists w', arun moved type_size w h = Ok w'
         /\ linv w' (fold_left (holdings_step moved) h s) (k + forgotten moved s h))
    /\ (defined_history moved type_size s h = false -> arun moved type_size w h = UB).
  Proof.
    induction h as [|c h IH]; intros w s k I; cbn [defined_history arun fold_left forgotten].
    - split; [|discriminate]. intros _. exists w. rewrite Nat.add_0_r. auto.
    - destruct (step_exact w s k c I) as [G B].
      destruct (defined_call type_size s c); cbn [andb].
      + destruct (G eq_refl) as (w1 & E & I1). rewrite E. cbn [bind].
        rewrite Nat.add_assoc. apply IH, I1.
      + split; [discriminate|]. intros _. rewrite B by reflexivity. reflexivity.
  Qed.

  (** ** C121: what every variable points to, after every history that is defined *)

  (** Each variable is null or points to its objects, which fill a block of memory of its own. *)
  Theorem C121_ledger_partial : forall h : list (acall A),
    defined_history moved type_size [] h = true ->
    exists w, arun moved type_size a_start h = Ok w
      /\ length (h_vars w) = length (holdings moved h)
      /\ (forall v x, nth_error (holdings moved h) v = Some x -> points_to w v x)
      /\ (forall v v' b, nth_error (h_vars w) v = Some (Some b) ->
            nth_error (h_vars w) v' = Some (Some b) -> v = v').
  Proof.
    intros h H.
    destruct (run_exact h a_start [] 0) as [G _]; [split; [apply ainv_start|reflexivity]|].
    destruct (G H) as (w & E & [L P D _ _ _] & K). exists w. auto.
  Qed.

  (** Every other history is undefined behaviour. *)
  Theorem C121_undefined_partial : forall h : list (acall A),
    defined_history moved type_size [] h = false <-> arun moved type_size a_start h = UB.
  Proof.
    intros h. destruct (run_exact h a_start [] 0) as [G B];
      [split; [apply ainv_start|reflexivity]|].
    split; [exact B|]. intros E. destruct (defined_history moved type_size [] h); [|reflexivity].
    destruct (G eq_refl) as (w & E' & _). congruence.
  Qed.

  (** ** C122: what is lost *)

  (** After every history that is defined as many blocks are allocated as variables are not null;
      the objects whose memory was freed although nobody destroyed them are those that destroy()
      was not told about. *)
  Theorem C122_ledger_partial : forall h : list (acall A),
    defined_history moved type_size [] h = true ->
    exists w, arun moved type_size a_start h = Ok w
      /\ live_blocks w = not_null (holdings moved h)
      /\ h_lost w = forgotten moved [] h.
  Proof.
    intros h H.
    destruct (run_exact h a_start [] 0) as [G _]; [split; [apply ainv_start|reflexivity]|].
    destruct (G H) as (w & E & [_ _ _ _ _ C] & K). exists w. auto.
  Qed.
End Ledger.

(** ** Cases *)

(** Two arrays of temporaries, one of them destroyed as if it were an object. *)
Definition ledger_history : list (acall nat) :=
  [AArray 3 (Rvalue 7) true; AArray 2 (Lvalue 4) true; AObject (Lvalue 9) false;
   AObjectDestroy 0; AArrayDestroy 2 0; AArray 2 (Rvalue 5) true].

Example ledger_case :
  defined_history (fun n => n - 1) 8 [] ledger_history = true
  /\ holdings (fun n => n - 1) ledger_history = [None; Some [4; 4]; None; Some [5; 4]]
  /\ forgotten (fun n => n - 1) [] ledger_history = 2
  /\ holdings (fun n => n - 1) (firstn 1 ledger_history) = [Some [7; 6; 5]].
Proof. vm_compute. auto. Qed.

Example ledger_undefined_case :
  defined_history (fun n => n - 1) 8 [] (ledger_history ++ [AArrayDestroy 1 3]) = false
  /\ defined_history (fun n => n - 1) 8 [] (ledger_history ++ [AObjectDestroy 0]) = false
  /\ arun (fun n => n - 1) 8 a_start (ledger_history ++ [AObjectDestroy 0]) = UB.
Proof. vm_compute. auto. Qed.

Print Assumptions C121_ledger_partial.
Print Assumptions C121_undefined_partial.
Print Assumptions C122_ledger_partial.
