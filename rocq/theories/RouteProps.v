(** Properties C137 and C138: the exported functions of the software PKCS#11 module. *)
From Coq Require Import String List Arith Bool Lia.
From Verif Require Import RouteModel RouteSpec RouteTable.
From Verif Require StructsTable.
Import ListNotations.
Local Open Scope string_scope.
Local Open Scope list_scope.

(** The values of distinct parameters, in their order, are the arguments. *)
Lemma values_skip {V : Type} a (v : V) env l :
  ~ In a l -> values ((a, v) :: env) l = values env l.
Proof.
  induction l as [|b l IH]; intros H; [reflexivity|]. cbn.
  destruct (String.eqb_spec b a) as [->|N]; [elim H; now left|].
  rewrite IH; [reflexivity|]. intros X. apply H. now right.
Qed.

Lemma values_all {V : Type} ps (vs : list V) :
  NoDup ps -> length vs = length ps -> values (combine ps vs) ps = Some vs.
Proof.
  revert vs. induction ps as [|p ps IH]; intros [|v vs] ND HL; try discriminate; [reflexivity|].
  inversion ND as [|? ? NI ND']; subst. cbn. rewrite String.eqb_refl.
  rewrite values_skip by exact NI. rewrite IH; [reflexivity|exact ND'|now injection HL].
Qed.

Fixpoint distinct (l : list string) : bool :=
  match l with
  | [] => true
  | a :: l => negb (existsb (String.eqb a) l) && distinct l
  end.

Lemma distinct_NoDup l : distinct l = true -> NoDup l.
Proof.
  induction l as [|a l IH]; intros H; [constructor|]. cbn in H.
  rewrite andb_true_iff, negb_true_iff in H. destruct H as [H1 H2].
  constructor; [|now apply IH]. intros HI.
  assert (X : existsb (String.eqb a) l = true).
  { apply existsb_exists. exists a. split; [exact HI|apply String.eqb_refl]. }
  congruence.
Qed.

(** What the tables must satisfy for one function of the standard. *)
Definition routed (e : string * string * nat) : bool :=
  let '(name, op, n) := e in
  match find (fun x => String.eqb (x_name x) name) exported with
  | None => false
  | Some x =>
      Nat.eqb (length (x_params x)) n && distinct (x_params x)
      && same_path (x_args x) (x_params x)
      && match lookup (same_path (x_path x)) callbacks with
         | None => false
         | Some target =>
             String.eqb target op
             && match lookup (String.eqb target) functions with
                | None => false
                | Some k => Nat.eqb (length (k_params k)) n && distinct (k_params k)
                end
         end
  end.

Lemma all_routed : forallb routed standard = true.
Proof. vm_compute. reflexivity. Qed.

Lemma same_path_eq p q : same_path p q = true -> p = q.
Proof.
  revert q. induction p as [|a p IH]; intros [|b q] H; try discriminate; [reflexivity|].
  cbn in H. destruct (String.eqb_spec a b) as [->|]; [|discriminate]. now rewrite (IH q H).
Qed.

(** C137. Each function of the standard, called with any arguments (as many as the standard says),
    reaches the function of the module for its operation, with the same values in the same
    order and one distinct parameter for each. *)
Theorem C137_routes :
  forall (V : Type) name op n, In (name, op, n) standard ->
  forall vs : list V, length vs = n ->
    exists ps, route exported callbacks functions name vs = Some (op, combine ps vs)
      /\ length ps = n /\ NoDup ps.
Proof.
  intros V name op n HI vs HL. pose proof all_routed as T. rewrite forallb_forall in T.
  specialize (T _ HI). unfold routed in T. unfold route.
  destruct (find _ exported) as [x|]; [|discriminate].
  rewrite !andb_true_iff in T. destruct T as [[[A B] C] D].
  apply Nat.eqb_eq in A. apply distinct_NoDup in B. apply same_path_eq in C.
  rewrite HL, A, Nat.eqb_refl, C, values_all by (auto; congruence).
  destruct (lookup _ callbacks) as [t|]; [|discriminate].
  rewrite andb_true_iff in D. destruct D as [D E]. apply String.eqb_eq in D. subst t.
  destruct (lookup _ functions) as [k|]; [|discriminate].
  rewrite andb_true_iff in E. destruct E as [E F]. apply Nat.eqb_eq in E.
  rewrite HL, E, Nat.eqb_refl. exists (k_params k). repeat split; auto.
  now apply distinct_NoDup.
Qed.

(** The functions of the standard are exactly those that the module publishes in its lists. *)
Theorem C137_published :
  forall name, In name (StructsTable.module_functions3) <-> In name (map (fun e => fst (fst e)) standard).
Proof.
  assert (A : forallb (fun n => existsb (String.eqb n) (map (fun e => fst (fst e)) standard))
                StructsTable.module_functions3 = true) by (vm_compute; reflexivity).
  assert (B : forallb (fun n => existsb (String.eqb n) StructsTable.module_functions3)
                (map (fun e => fst (fst e)) standard) = true) by (vm_compute; reflexivity).
  rewrite forallb_forall in A, B. intros name. split; intros H.
  - apply A in H. apply existsb_exists in H. destruct H as (y & H & E).
    apply String.eqb_eq in E. now subst.
  - apply B in H. apply existsb_exists in H. destruct H as (y & H & E).
    apply String.eqb_eq in E. now subst.
Qed.

(** C138. The functions that look at their arguments are these five. *)
Definition implemented : list string :=
  ["C_Initialize"; "C_GetInfo"; "C_GetFunctionList"; "C_GetInterfaceList"; "C_GetInterface"].

(** C138 is false of all others: whatever the arguments and whatever is in memory, they report
    success and write nothing, so no output parameter gets a value... *)
Theorem C138_success_refuted :
  forall (V M : Type) name op n, In (name, op, n) standard -> ~ In name implemented ->
  forall (vs : list V) (memory : M), length vs = n ->
    respond exported callbacks functions name vs memory = Some (0, memory).
Proof.
  intros V M name op n HI HN vs memory HL.
  destruct (C137_routes V name op n HI vs HL) as (ps & R & _ & _).
  unfold respond. rewrite R.
  assert (T : forallb (fun e => let '(name, op, n) := e in
      existsb (String.eqb name) implemented
      || match lookup (String.eqb op) functions with
         | Some k => match k_body k with ReturnOk => true | GeneralPurpose => false end
         | None => false
         end) standard = true) by (vm_compute; reflexivity).
  rewrite forallb_forall in T. specialize (T _ HI). cbn beta iota in T.
  rewrite orb_true_iff in T. destruct T as [T|T].
  - apply existsb_exists in T. destruct T as (y & Hy & E). apply String.eqb_eq in E. now subst.
  - destruct (lookup _ functions) as [k|]; [|discriminate].
    destruct (k_body k); [reflexivity|discriminate].
Qed.

(** ... in particular a verification accepts every signature, and a login every PIN, whichever
    are the right ones. *)
Theorem C138_verify_refuted :
  forall (V M : Type) (genuine : V -> V -> Prop) (right_pin : V -> Prop) (memory : M)
    session data len signature siglen user pin pinlen,
    ~ genuine data signature -> ~ right_pin pin ->
    respond exported callbacks functions "C_Verify" [session; data; len; signature; siglen] memory
      = Some (0, memory)
    /\ respond exported callbacks functions "C_Login" [session; user; pin; pinlen] memory
      = Some (0, memory).
Proof. intros. split; vm_compute; reflexivity. Qed.

(** Cases. *)
Example C137_case :
  In ("C_Encrypt", "encrypt::full", 5) standard
  /\ route exported callbacks functions "C_Encrypt" [1; 2; 3; 4; 5]
     = Some ("encrypt::full", [("session", 1); ("data", 2); ("dataLength", 3); ("encryptedData", 4);
                               ("encryptedDataLength", 5)]).
Proof. split; [unfold standard; cbn; tauto|vm_compute; reflexivity]. Qed.

Example C138_case :
  In ("C_GenerateRandom", "random_generation::generateRandom", 3) standard
  /\ ~ In "C_GenerateRandom" implemented.
Proof.
  split; [unfold standard; cbn; tauto|]. intros H. cbn in H. firstorder discriminate.
Qed.

Print Assumptions C137_routes.
Print Assumptions C137_published.
Print Assumptions C138_success_refuted.
Print Assumptions C138_verify_refuted.
