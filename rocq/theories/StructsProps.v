(** Properties C132 - C136: the PKCS#11 structures. *)
From Coq Require Import String List Arith Bool Lia.
From Verif Require Import Base BaseLemmas StructsModel StructsSpec StructsTable StructsProofs.
Import ListNotations.
Local Open Scope string_scope.
Local Open Scope list_scope.

(** The two classes whose assignment leaves a field out. *)
Definition lossy (c : code) : Prop :=
  c_name c = "FunctionList3" \/ c_name c = "NistSp800Hyphen108KdfParams".

Definition lossyb (c : code) : bool :=
  String.eqb (c_name c) "FunctionList3"
  || String.eqb (c_name c) "NistSp800Hyphen108KdfParams".

Lemma table_copies : forallb (fun c => lossyb c || copies_all c) all_structs = true.
Proof. vm_compute. reflexivity. Qed.

Lemma table_places :
  forallb (fun c => String.eqb (c_name c) "NistSp800Hyphen108KdfParams" || places_all c) all_structs
  = true.
Proof. vm_compute. reflexivity. Qed.

Lemma in_table c : In c all_structs -> ~ lossy c -> copies_all c = true /\ places_all c = true.
Proof.
  intros HI HL. pose proof table_copies as T1. pose proof table_places as T2.
  rewrite forallb_forall in T1, T2. specialize (T1 _ HI). specialize (T2 _ HI).
  rewrite orb_true_iff in T1, T2. unfold lossyb in T1. rewrite orb_true_iff in T1.
  rewrite !String.eqb_eq in *. unfold lossy in HL. tauto.
Qed.

(** C132. For every class but two, every type of values and every history in which nothing is
    copied from an object that was never given values: the objects have, field by field, the
    values they were made of, were assigned or were copied from. *)
Theorem C132_copies_partial :
  forall (V : Type) (zero : V) c, In c all_structs -> ~ lossy c ->
  forall ks, allowed_all zero c [] ks ->
    srun zero c [] ks = Ok (map (seen c) (spec_run zero c [] ks)).
Proof.
  intros V zero c HI HL ks HA. destruct (in_table c HI HL) as [HC HP].
  exact (srun_ok zero c ks [] HC HP (Forall_nil _) HA).
Qed.

(** The statements copy every field but [lost]. *)
Definition copies_but (c : code) (lost : string) : bool :=
  distinct (names c)
  && forallb (fun p => String.eqb (fst p) (snd p)) (c_assign c)
  && forallb (fun p => mem (snd p) (names c)) (c_assign c)
  && forallb (fun f => String.eqb f lost || mem f (map fst (c_assign c))) (names c)
  && negb (mem lost (map fst (c_assign c))) && mem lost (names c).

Lemma copied_but {V : Type} c lost o (vs : list V) i w :
  copies_but c lost = true -> map fst o = names c -> length vs = length (c_fields c) ->
  nth_error w i = Some o ->
  exists o', run_assign c (c_assign c) w i (Theirs (parent_of c vs)) = Ok (upd w i o')
    /\ field_value o' lost = field_value o lost
    /\ forall f, In f (names c) -> f <> lost -> field_value o' f = field_value (parent_of c vs) f.
Proof.
  unfold copies_but. rewrite !andb_true_iff, !forallb_forall.
  intros [[[[[A B] C] D] E] F] HO HL HW.
  assert (EQ : forall d f, In (d, f) (c_assign c) -> d = f /\ In f (names c)).
  { intros d f H. specialize (B _ H). specialize (C _ H). cbn in B, C.
    apply String.eqb_eq in B. apply mem_In in C. auto. }
  destruct (run_theirs c (parent_of c vs) (c_assign c) w i o) as (o' & R & N & Q); auto.
  - intros d f H. now apply EQ in H.
  - intros d f H. apply EQ in H. destruct H as [-> H]. now rewrite HO.
  - intros d f H. apply EQ in H. destruct (parent_value c vs f HL) as (v & ->); [easy|discriminate].
  - exists o'. split; [exact R|]. rewrite negb_true_iff in E. split.
    + now rewrite Q, E.
    + intros f Hf Hn. rewrite Q. specialize (D _ Hf). rewrite orb_true_iff in D.
      destruct D as [D|D]; [apply String.eqb_eq in D; contradiction|]. now rewrite D.
Qed.

(** The field that the class loses. *)
Definition lost_field (c : code) : string :=
  if String.eqb (c_name c) "FunctionList3" then "C_MessageDecryptInit" else "prfType".

Lemma table_loses :
  forallb (fun c => negb (lossyb c) || copies_but c (lost_field c)) all_structs = true.
Proof. vm_compute. reflexivity. Qed.

(** C132 is false of the two other classes: whatever is copied, one field (and no other) of the
    new object is indeterminate, and assignment leaves this field as it was. *)
Theorem C132_copies_refuted :
  forall (V : Type) (zero : V) c, In c all_structs -> lossy c ->
  In (lost_field c) (names c) /\
  forall vs, length vs = length (c_fields c) ->
    (exists o, sstep zero c [] (MakeFrom vs) = Ok [o]
       /\ field_value o (lost_field c) = None
       /\ forall f, In f (names c) -> f <> lost_field c ->
            field_value o f = field_value (parent_of c vs) f)
    /\ (forall old i w, nth_error w i = Some old -> map fst old = names c ->
        exists new, sstep zero c w (AssignFrom i vs) = Ok (upd w i new)
          /\ field_value new (lost_field c) = field_value old (lost_field c)).
Proof.
  intros V zero c HI HL. pose proof table_loses as T. rewrite forallb_forall in T.
  specialize (T _ HI).
  assert (E : lossyb c = true).
  { unfold lossyb. rewrite orb_true_iff, !String.eqb_eq. exact HL. }
  rewrite E in T. cbn [negb orb] in T. split.
  { unfold copies_but in T. rewrite !andb_true_iff in T. apply mem_In. easy. }
  intros vs HV. split.
  - destruct (copied_but c (lost_field c) (blank c) vs 0 [blank c] T) as (o' & R & Q1 & Q2); auto.
    + apply blank_names.
    + exists o'. cbn [sstep length app]. split; [exact R|]. split; [|exact Q2].
      rewrite Q1. clear. unfold blank, field_value.
      induction (names c) as [|n l IH]; cbn; [reflexivity|]. now destruct (String.eqb n _).
  - intros old i w HW HO.
    destruct (copied_but c (lost_field c) old vs i w T) as (o' & R & Q1 & Q2); auto.
    exists o'. split; [exact R|exact Q1].
Qed.

(** C132 is also false of objects that were default-constructed, for every class whose default
    constructor does nothing (they are 67 of 86): copying them reads indeterminate values. *)
Theorem C132_default_copies_refuted :
  forall (V : Type) (zero : V) c, In c all_structs -> c_default c = Uninitialised ->
    srun zero c [] [MakeDefault; MakeCopy 0] = UB.
Proof.
  intros V zero c HI HD.
  assert (T : forallb (fun c => match c_default c with
                      | EmptyParent => true
                      | Uninitialised =>
                          match find (fun p => negb (only_bytes (type_of c (snd p)))) (c_assign c) with
                          | Some _ => true | None => false end
                      end) all_structs = true) by (vm_compute; reflexivity).
  rewrite forallb_forall in T. specialize (T _ HI). cbn beta in T. rewrite HD in T.
  cbn [srun sstep]. rewrite HD. cbn [bind app length].
  assert (G : forall st w, In (Some true) [Some true] ->
    nth_error w 0 = Some (blank (V := V) c) -> 1 < length w ->
    (match find (fun p => negb (only_bytes (type_of c (snd p)))) st with
     | Some _ => true | None => false end) = true ->
    run_assign c st w 1 (Ours 0) = UB).
  { induction st as [|[d f] st IH]; intros w _ HW HL HF; cbn in HF; [discriminate|].
    cbn [run_assign]. unfold copy_field. cbn [operand_value].
    rewrite (read_ok _ _ _ HW). cbn [bind].
    assert (NV : field_value (blank (V := V) c) f = None).
    { clear. unfold blank, field_value.
      induction (names c) as [|n l IH]; cbn; [reflexivity|]. now destruct (String.eqb n _). }
    rewrite NV. destruct (only_bytes (type_of c f)); cbn [negb] in HF; [|reflexivity].
    destruct (nth_error w 1) as [o|] eqn:EO.
    2:{ apply nth_error_None in EO. lia. }
    rewrite (read_ok _ _ _ EO). cbn [bind]. rewrite (write_upd _ _ _ _ EO). cbn [bind].
    apply IH; [now left| |now rewrite upd_length|exact HF].
    rewrite nth_error_upd_neq by lia. exact HW. }
  rewrite G; auto.
  now left.
Qed.

(** C133. Every class but one stores each argument of its constructor in the field it is declared
    for, and has an argument for every field. *)
Theorem C133_values_partial :
  forall (V : Type) (zero : V) c, In c all_structs ->
  c_name c <> "NistSp800Hyphen108KdfParams" ->
  forall args w, length args = length (c_params c) ->
    exists o, sstep zero c w (MakeValues args) = Ok (w ++ [o])
      /\ map fst o = map fst (c_fields c)
      /\ forall f, In f (map fst (c_fields c)) ->
           exists k v, nth_error (map snd (c_params c)) k = Some f
             /\ nth_error args k = Some v /\ field_value o f = Some v.
Proof.
  intros V zero c HI HN args w HL.
  pose proof table_places as T. rewrite forallb_forall in T. specialize (T _ HI).
  rewrite orb_true_iff, String.eqb_eq in T. destruct T as [T|T]; [contradiction|].
  pose proof (placed zero c args T HL) as P.
  cbn [sstep]. rewrite P. cbn [bind]. eexists. split; [reflexivity|]. split.
  { apply seen_names. cbn. unfold names. now rewrite !map_length. }
  intros f Hf. cbn [seen]. fold (names c) in *. rewrite field_of_names by exact Hf.
  destruct (places_facts c T) as (N0 & N1 & N2 & EQ & CO).
  pose proof (CO f Hf) as HV. apply in_map_iff in HV. destruct HV as ([f' a] & E & HV).
  cbn in E. subst f'. apply EQ in HV. destruct HV as [HF _].
  destruct (same_argument _ args a f HL N1 N2 HF) as (v & F1 & F2).
  unfold argument_for. rewrite F2. cbn [option_map snd].
  revert HL F2. generalize (map snd (c_params c)). rewrite <- (map_length snd (c_params c)).
  generalize (map snd (c_params c)) at 1. intros l0 l HL F2. clear -F2.
  revert args F2. induction l as [|g l IH]; intros [|x args] F2; cbn in F2; try discriminate.
  destruct (String.eqb g f) eqn:E.
  - apply String.eqb_eq in E. injection F2 as -> ->. exists 0, v. auto.
  - destruct (IH _ F2) as (k & y & A & B & C). exists (S k), y. auto.
Qed.

(** C133 is false of NistSp800Hyphen108KdfParams: there is no argument for prfType, which is
    indeterminate in every object made of values. *)
Theorem C133_values_refuted :
  forall (V : Type) (zero : V) a b c d,
    exists o, sstep zero s_NistSp800Hyphen108KdfParams [] (MakeValues [a; b; c; d]) = Ok [o]
      /\ field_value o "prfType" = None
      /\ In "prfType" (map fst (c_fields s_NistSp800Hyphen108KdfParams)).
Proof.
  intros. eexists. split; [vm_compute; reflexivity|]. split; [reflexivity|]. cbn. auto.
Qed.

(** C134. For the classes that copy the value-initialised structure (other than FunctionList3) a
    default-constructed object has the value zero in every field... *)
Theorem C134_default_partial :
  forall (V : Type) (zero : V) c, In c all_structs -> ~ lossy c -> c_default c = EmptyParent ->
  forall ws, exists o, sstep zero c ws MakeDefault = Ok (ws ++ [o])
    /\ map fst o = map fst (c_fields c)
    /\ forall f, In f (map fst (c_fields c)) -> field_value o f = Some zero.
Proof.
  intros V zero c HI HL HD ws. destruct (in_table c HI HL) as [HC HP].
  cbn [sstep]. rewrite HD.
  rewrite (copied c (blank c)); auto.
  - rewrite upd_end. eexists. split; [reflexivity|]. split.
    + apply seen_names. cbn. apply map_length.
    + intros f Hf. cbn [seen].
      replace (map (fun _ : string * ftype => zero) (c_fields c))
        with (map (fun _ : string => zero) (map fst (c_fields c))) by now rewrite map_map.
      now apply (field_of_names (fun _ => zero)).
  - apply blank_names.
  - apply map_length.
  - apply nth_end.
Qed.

(** ... and for all other classes but FunctionList3 no field is initialised; in FunctionList3
    one is not. *)
Theorem C134_default_refuted :
  (forall (V : Type) (zero : V) c, c_default c = Uninitialised ->
     forall ws, sstep zero c ws MakeDefault = Ok (ws ++ [map (fun f => (fst f, None)) (c_fields c)]))
  /\ (forall (V : Type) (zero : V), exists o, sstep zero s_FunctionList3 [] MakeDefault = Ok [o]
     /\ field_value o "C_MessageDecryptInit" = None)
  /\ length (filter (fun c => match c_default c with Uninitialised => true | _ => false end)
       all_structs) = 67.
Proof.
  split; [|split].
  - intros V zero c HD ws. cbn [sstep]. rewrite HD. unfold blank, names. now rewrite map_map.
  - intros V zero. eexists. split; [vm_compute; reflexivity|]. reflexivity.
  - vm_compute. reflexivity.
Qed.

(** Layout. *)
Lemma round_same at_ a : a <> 0 -> Nat.divide a at_ -> round_up at_ a = at_.
Proof.
  intros Ha [k ->]. unfold round_up.
  replace (k * a + a - 1) with (a - 1 + k * a) by lia.
  rewrite Nat.div_add by exact Ha. rewrite (Nat.div_small (a - 1)) by lia. lia.
Qed.

Lemma round_div at_ a : Nat.divide a (round_up at_ a).
Proof. unfold round_up. apply Nat.divide_factor_r. Qed.

Lemma tight_packed long ptr : forall t, tight long ptr t ->
  natural_size long ptr t = packed_size long ptr t.
Proof.
  fix IH 1. intros [n| | |n|ts] H; try reflexivity.
  destruct H as [-> H]. cbn [packed_size]. f_equal. revert H.
  induction ts as [|t ts IHts]; intros H; [reflexivity|]. destruct H as [H1 H2]. cbn [map]. f_equal.
  - apply IH. exact H1.
  - apply IHts. exact H2.
Qed.

(** C135, for every structure (also those not in the code) whose nested structures have no holes
    and every size of long and of pointers: the offsets of the fields are those of a C
    compiler if and only if each field is already aligned without holes. *)
Theorem C135_layout_partial :
  forall long ptr fs, long <> 0 -> ptr <> 0 ->
  (forall f t, In (f, t) fs -> tight long ptr t /\ alignment long ptr t <> 0) ->
  forall at_,
  packed_offsets long ptr at_ fs = natural_offsets long ptr at_ fs
  <-> (forall k f t o, nth_error fs k = Some (f, t) ->
         nth_error (packed_offsets long ptr at_ fs) k = Some (f, o) ->
         Nat.divide (alignment long ptr t) o).
Proof.
  intros long ptr fs Hl Hp HT.
  assert (HS : forall f t, In (f, t) fs -> natural_size long ptr t = packed_size long ptr t
                                           /\ alignment long ptr t <> 0).
  { intros f t H. destruct (HT f t H). split; [now apply tight_packed|assumption]. }
  clear HT. revert HS.
  induction fs as [|[f t] fs IH]; intros HS at_; cbn.
  - split; [|reflexivity]. intros _ [|k] f t o H; discriminate.
  - destruct (HS f t (or_introl eq_refl)) as [HZ HA].
    assert (HS' : forall g u, In (g, u) fs -> natural_size long ptr u = packed_size long ptr u
                              /\ alignment long ptr u <> 0)
      by (intros g u H; apply (HS g u); now right).
    split.
    + intros E. injection E as E1 E2.
      assert (D : Nat.divide (alignment long ptr t) at_).
      { rewrite E1. apply round_div. }
      intros [|k] g u o H1 H2; cbn in *.
      * injection H1 as <- <-. injection H2 as <-. exact D.
      * rewrite round_same, HZ in E2 by assumption.
        apply (IH HS' (at_ + packed_size long ptr t)) with (k := k) (f := g); auto.
    + intros H.
      assert (D : Nat.divide (alignment long ptr t) at_) by (apply (H 0 f t at_); reflexivity).
      rewrite round_same, HZ by assumption. f_equal.
      apply IH; [exact HS'|]. intros k g u o H1 H2. exact (H (S k) g u o H1 H2).
Qed.

(** C135 for the classes of the code with 8-byte longs and pointers: all but 14 have the offsets
    of a C compiler; these are the ones in which a byte precedes a longer field. *)
Definition holed : list string :=
  ["DoubleRatchetInitializeParams"; "DoubleRatchetRespondParams"; "EdDsaParams"; "FunctionList";
   "FunctionList3"; "HkdfParams"; "Info"; "KeaDeriveParams"; "KeyWrapSetOaepParams";
   "NistSp800Hyphen108CounterFormat"; "NistSp800Hyphen108DkmLengthFormat"; "Ssl3KeyMatParams";
   "Tls12KeyMatParams"; "WtlsKeyMatParams"].

Theorem C135_layout_table :
  forall c, In c all_structs ->
    (packed_offsets 8 8 0 (c_fields c) = natural_offsets 8 8 0 (c_fields c)
     <-> ~ In (c_name c) holed).
Proof.
  intros c HI.
  assert (T : forallb (fun c => Bool.eqb (mem (c_name c) holed)
     (negb (forallb (fun p => Nat.eqb (snd (fst p)) (snd (snd p)))
        (combine (packed_offsets 8 8 0 (c_fields c)) (natural_offsets 8 8 0 (c_fields c))))))
     all_structs = true) by (vm_compute; reflexivity).
  rewrite forallb_forall in T. specialize (T _ HI). cbn beta in T.
  apply Bool.eqb_prop in T. rewrite <- mem_In, T. clear T.
  assert (NP : forall at_ fs, map fst (packed_offsets 8 8 at_ fs) = map fst fs).
  { intros a fs. revert a. induction fs as [|[g t] fs IH]; intros a; cbn; [reflexivity|].
    now rewrite IH. }
  assert (NN : forall at_ fs, map fst (natural_offsets 8 8 at_ fs) = map fst fs).
  { intros a fs. revert a. induction fs as [|[g t] fs IH]; intros a; cbn -[natural_size];
      [reflexivity|]. now rewrite IH. }
  specialize (NP 0 (c_fields c)). specialize (NN 0 (c_fields c)). rewrite <- NN in NP. clear NN.
  revert NP. generalize (packed_offsets 8 8 0 (c_fields c)), (natural_offsets 8 8 0 (c_fields c)).
  induction l as [|[a x] l IH]; intros [|[b y] m] E; cbn in *; try discriminate.
  - split; [discriminate|reflexivity].
  - injection E as -> E. specialize (IH m E). destruct (Nat.eqb_spec x y) as [->|Hn]; cbn.
    + rewrite <- IH. split; [intros X; now injection X|now intros ->].
    + split; [intros X; injection X; contradiction|]. intros X. now elim X.
Qed.

(** C135 is false of the function lists, for any number of functions: where a module keeps the
    pointer number k, the wrapper reads 6 bytes of it and 2 bytes of the one before. *)
Theorem C135_function_list_refuted :
  forall (fs : list string) k f, nth_error fs k = Some f ->
    let fields := ("version", Struct [Int 1; Int 1]) :: map (fun f => (f, Pointer)) fs in
    nth_error (natural_offsets 8 8 0 fields) (S k) = Some (f, 8 + 8 * k)
    /\ nth_error (packed_offsets 8 8 0 fields) (S k) = Some (f, 2 + 8 * k).
Proof.
  intros fs k f H fields. subst fields. split.
  - change (nth_error (natural_offsets 8 8 2 (map (fun f => (f, Pointer)) fs)) k
            = Some (f, 8 + 8 * k)).
    assert (G : forall fs k at_ m, nth_error fs k = Some f -> round_up at_ 8 = 8 * m ->
      nth_error (natural_offsets 8 8 at_ (map (fun f => (f, Pointer)) fs)) k
      = Some (f, 8 * m + 8 * k)).
    { clear. induction fs as [|g fs IH]; intros [|k] at_ m H E;
        cbn [nth_error map natural_offsets alignment natural_size] in *; try discriminate.
      - injection H as ->. rewrite E. f_equal. f_equal. lia.
      - rewrite E, (IH k _ (m + 1)); auto.
        + f_equal. f_equal. lia.
        + rewrite round_same; [lia|lia|]. exists (m + 1). lia. }
    apply (G fs k 2 1 H). reflexivity.
  - change (nth_error (packed_offsets 8 8 2 (map (fun f => (f, Pointer)) fs)) k
            = Some (f, 2 + 8 * k)).
    assert (G : forall fs k at_, nth_error fs k = Some f ->
      nth_error (packed_offsets 8 8 at_ (map (fun f => (f, Pointer)) fs)) k
      = Some (f, at_ + 8 * k)).
    { clear. induction fs as [|g fs IH]; intros [|k] at_ H;
        cbn [nth_error map packed_offsets packed_size] in *; try discriminate.
      - injection H as ->. f_equal. f_equal. lia.
      - rewrite IH by exact H. f_equal. f_equal. lia. }
    exact (G fs k 2 H).
Qed.

(** ... and the function lists of the code have this form. *)
Lemma C135_function_lists :
  (exists fs, c_fields s_FunctionList
     = ("version", Struct [Int 1; Int 1]) :: map (fun f => (f, Pointer)) fs /\ length fs = 68)
  /\ (exists fs, c_fields s_FunctionList3
     = ("version", Struct [Int 1; Int 1]) :: map (fun f => (f, Pointer)) fs /\ length fs = 92).
Proof.
  split; [exists (tl (map fst (c_fields s_FunctionList)))
         |exists (tl (map fst (c_fields s_FunctionList3)))]; split; reflexivity.
Qed.

(** C136. Each entry of the 2.x function list of the software module is the function of this
    name, whether the results of functions are copied or not; so is each entry of the 3.0 list
    if they are not copied. *)
Definition entries_right (fields : list string) (o : object (V := string)) : Prop :=
  forall f, In f fields -> field_value o f = Some f.

Lemma entries_checked (fields : list string) (o : object (V := string)) :
  forallb (fun f => match field_value o f with Some g => String.eqb f g | None => false end) fields
  = true -> entries_right fields o.
Proof.
  rewrite forallb_forall. intros H f Hf. specialize (H f Hf).
  destruct (field_value o f) as [g|]; [|discriminate]. apply String.eqb_eq in H. now subst.
Qed.

Theorem C136_function_list_partial :
  (forall elided version, exists os o,
     srun "" s_FunctionList [] (module_list_calls elided version module_functions)
       = Ok (os ++ [o])
     /\ entries_right (tl (map fst (c_fields s_FunctionList))) o
     /\ field_value o "version" = Some version)
  /\ (forall version, exists o,
     srun "" s_FunctionList3 [] (module_list_calls true version module_functions3) = Ok [o]
     /\ entries_right (tl (map fst (c_fields s_FunctionList3))) o
     /\ field_value o "version" = Some version).
Proof.
  split.
  - intros [|] version.
    + exists []. eexists. split; [vm_compute; reflexivity|].
      split; [apply entries_checked; vm_compute; reflexivity|reflexivity].
    + eexists (_ :: _ :: []). eexists. split; [vm_compute; reflexivity|].
      split; [apply entries_checked; vm_compute; reflexivity|reflexivity].
  - intros version. eexists. split; [vm_compute; reflexivity|].
    split; [apply entries_checked; vm_compute; reflexivity|reflexivity].
Qed.

(** If they are copied, C_MessageDecryptInit of the 3.0 list is indeterminate. *)
Theorem C136_function_list_refuted :
  forall version, exists os o,
    srun "" s_FunctionList3 [] (module_list_calls false version module_functions3) = Ok (os ++ [o])
    /\ field_value o "C_MessageDecryptInit" = None
    /\ In "C_MessageDecryptInit" module_functions3.
Proof.
  intros version. eexists (_ :: _ :: []). eexists. split; [vm_compute; reflexivity|].
  split; [reflexivity|]. apply mem_In. vm_compute. reflexivity.
Qed.

(** Cases. *)
Example C132_case :
  In s_GcmParams all_structs /\ ~ lossy s_GcmParams
  /\ allowed_all 0 s_GcmParams []
       [MakeFrom [1; 2; 3; 4; 5; 6]; MakeDefault; Assign 1 0; MakeCopy 1; AssignFrom 0 [7; 8; 9; 10; 11; 12]]
  /\ spec_run 0 s_GcmParams []
       [MakeFrom [1; 2; 3; 4; 5; 6]; MakeDefault; Assign 1 0; MakeCopy 1; AssignFrom 0 [7; 8; 9; 10; 11; 12]]
     = [Some [7; 8; 9; 10; 11; 12]; Some [1; 2; 3; 4; 5; 6]; Some [1; 2; 3; 4; 5; 6]].
Proof.
  split; [unfold all_structs; cbn; tauto|]. split; [intros [H|H]; discriminate H|].
  split; [|reflexivity]. cbn. repeat split; auto; try lia; discriminate.
Qed.

Example C132_lossy_case :
  In s_FunctionList3 all_structs /\ lossy s_FunctionList3
  /\ In s_NistSp800Hyphen108KdfParams all_structs /\ lossy s_NistSp800Hyphen108KdfParams
  /\ In s_GcmParams all_structs /\ c_default s_GcmParams = Uninitialised.
Proof.
  split; [unfold all_structs; cbn; tauto|]. split; [left; reflexivity|].
  split; [unfold all_structs; cbn; tauto|]. split; [right; reflexivity|].
  split; [unfold all_structs; cbn; tauto|reflexivity].
Qed.

Example C133_case :
  sstep 0 s_OtpParam [] (MakeValues [5; 6; 7])
  = Ok [[("type", Some 5); ("pValue", Some 6); ("ulValueLen", Some 7)]].
Proof. reflexivity. Qed.

Example C134_case : In s_TokenInfo all_structs /\ ~ lossy s_TokenInfo
  /\ c_default s_TokenInfo = EmptyParent.
Proof.
  split; [unfold all_structs; cbn; tauto|]. split; [intros [H|H]; discriminate H|reflexivity].
Qed.

Example C135_case :
  natural_offsets 8 8 0 (c_fields s_Info)
  = [("cryptokiVersion", 0); ("manufacturerID", 2); ("flags", 40); ("libraryDescription", 48);
     ("libraryVersion", 80)]
  /\ packed_offsets 8 8 0 (c_fields s_Info)
  = [("cryptokiVersion", 0); ("manufacturerID", 2); ("flags", 34); ("libraryDescription", 42);
     ("libraryVersion", 74)].
Proof. split; reflexivity. Qed.

Example C135_tight_case : forall f t, In (f, t) (c_fields s_Info) -> tight 8 8 t /\ alignment 8 8 t <> 0.
Proof. intros f t H. cbn in H. repeat (destruct H as [H|H]; [injection H as <- <-; cbn; split; auto; lia|]). contradiction. Qed.

Print Assumptions C132_copies_partial.
Print Assumptions C132_copies_refuted.
Print Assumptions C132_default_copies_refuted.
Print Assumptions C133_values_partial.
Print Assumptions C133_values_refuted.
Print Assumptions C134_default_partial.
Print Assumptions C134_default_refuted.
Print Assumptions C135_layout_partial.
Print Assumptions C135_layout_table.
Print Assumptions C135_function_list_refuted.
Print Assumptions C136_function_list_partial.
Print Assumptions C136_function_list_refuted.
