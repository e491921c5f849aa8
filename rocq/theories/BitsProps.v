(** Property C42 (bit constants). *)
From Coq Require Import ZArith List Lia.
From Verif Require Import BitsModel.
Import ListNotations.
Local Open Scope Z_scope.

(** C42 in full: the constant called BITw_n is 2^n. *)
Definition C42_statement : Prop :=
  forall (w : Z) (n : nat) (v : Z),
    In w [8; 16; 32; 64] -> nth_error (bit_constants w) n = Some v -> v = 2 ^ Z.of_nat n.

(** Finding: it is false. BIT64_61 has the value 2^63 (and BIT64_63 the value 2^61). *)
Theorem C42_bit_constants_refuted :
  ~ C42_statement
  /\ nth_error (bit_constants 64) 61 = Some (2 ^ 63)
  /\ nth_error (bit_constants 64) 63 = Some (2 ^ 61).
Proof.
  split; [|split; reflexivity].
  intros H. specialize (H 64 61%nat (2 ^ 63)). 
  assert (2 ^ 63 = 2 ^ Z.of_nat 61) as E.
  { apply H; [simpl; tauto|reflexivity]. }
  vm_compute in E. discriminate.
Qed.

Definition tags (w : Z) : list (nat * Z) :=
  combine (seq 0 (length (bit_constants w))) (bit_constants w).

Definition bad (p : nat * Z) : bool :=
  let (n, v) := p in negb (v =? 2 ^ Z.of_nat n).

Lemma tags_nth w n v :
  nth_error (bit_constants w) n = Some v -> In (n, v) (tags w).
Proof.
  unfold tags. intros H.
  assert (forall l k, nth_error l n = Some v ->
            In ((k + n)%nat, v) (combine (seq k (length l)) l)) as G.
  { clear. induction n as [|n IH]; intros [|a l] k H; try discriminate; simpl in *.
    - injection H as ->. left. f_equal. lia.
    - right. replace (k + S n)%nat with (S k + n)%nat by lia. apply IH; auto. }
  apply (G _ 0%nat H).
Qed.

(** C42, the part that holds: every other constant is right, there are exactly [w] of
    them for each width [w], and the byte masks have the value in their name. *)
Theorem C42_bit_constants_partial :
  (forall (w : Z) (n : nat) (v : Z),
     In w [8; 16; 32; 64] ->
     ~ (w = 64 /\ (n = 61 \/ n = 63)%nat) ->
     nth_error (bit_constants w) n = Some v -> v = 2 ^ Z.of_nat n)
  /\ (forall w, In w [8; 16; 32; 64] -> Z.of_nat (length (bit_constants w)) = w)
  /\ BYTE_0F = 15 /\ BYTE_FF = 255.
Proof.
  split; [|split; [|split; reflexivity]].
  - intros w n v Hw Hn E. apply tags_nth in E.
    assert (filter bad (tags w) = if w =? 64 then [(61%nat, 2 ^ 63); (63%nat, 2 ^ 61)] else [])
      as F by (simpl in Hw; destruct Hw as [<-|[<-|[<-|[<-|[]]]]]; vm_compute; reflexivity).
    destruct (bad (n, v)) eqn:B.
    + assert (In (n, v) (filter bad (tags w))) as I by (apply filter_In; auto).
      rewrite F in I. destruct (Z.eqb_spec w 64) as [->|]; [|contradiction].
      simpl in I. exfalso. apply Hn. split; auto.
      destruct I as [I|[I|[]]]; injection I as <- _; auto.
    + cbn [bad] in B. apply Bool.negb_false_iff, Z.eqb_eq in B. auto.
  - intros w Hw; simpl in Hw; destruct Hw as [<-|[<-|[<-|[<-|[]]]]]; reflexivity.
Qed.

Example C42_case : nth_error (bit_constants 64) 60 = Some (2 ^ 60).
Proof. reflexivity. Qed.

(** C42, MinimalType: the narrowest of the unsigned types that has at least [n] bits. *)
Theorem C42_minimal_type :
  forall n : Z,
    match MinimalType n with
    | Some w => In w [8; 16; 32; 64] /\ n <= w
                /\ (forall w', In w' [8; 16; 32; 64] -> n <= w' -> w <= w')
    | None => forall w', In w' [8; 16; 32; 64] -> w' < n
    end.
Proof.
  intros n. unfold MinimalType.
  destruct (Z.leb_spec n (1 * 8)); [|destruct (Z.leb_spec n (2 * 8));
    [|destruct (Z.leb_spec n (4 * 8)); [|destruct (Z.leb_spec n (8 * 8))]]];
    simpl; repeat split; try tauto; try lia;
    intros w' [<-|[<-|[<-|[<-|[]]]]] ?; lia.
Qed.

Example C42_minimal_case : MinimalType 17 = Some 32 /\ MinimalType 65 = None.
Proof. split; reflexivity. Qed.

Print Assumptions C42_bit_constants_refuted.
Print Assumptions C42_bit_constants_partial.
Print Assumptions C42_minimal_type.
