(** Lemmas about Ipv4Model.v. *)
From Coq Require Import List Arith ZArith Lia Bool.
From Verif Require Import Base BaseLemmas UtilsModel UtilsProps Ipv4Model Ipv4Spec.
Import ListNotations.
Local Open Scope Z_scope.

Lemma to_short_spec z : to_short z = short_of z.
Proof.
  unfold to_short, short_of. cbv zeta.
  assert (E : (z + 32768) mod 65536 = (z mod 65536 + 32768) mod 65536)
    by (rewrite Zplus_mod_idemp_l; reflexivity).
  rewrite E. pose proof (Z.mod_pos_bound z 65536 ltac:(lia)).
  destruct (Z.ltb_spec (z mod 65536) 32768).
  - rewrite Z.mod_small by lia. lia.
  - replace (z mod 65536 + 32768) with ((z mod 65536 - 32768) + 1 * 65536) by lia.
    rewrite Z.mod_add, Z.mod_small by lia. lia.
Qed.

Lemma to_short_small z : - 32768 <= z < 32768 -> to_short z = z.
Proof. intros. unfold to_short. rewrite Z.mod_small by lia. lia. Qed.

Lemma to_short_cong a k : to_short (a + k * 65536) = to_short a.
Proof.
  unfold to_short. replace (a + k * 65536 + 32768) with (a + 32768 + k * 65536) by lia.
  rewrite Z.mod_add by lia. reflexivity.
Qed.

Lemma to_short_off a : exists k, to_short a = a + k * 65536.
Proof.
  unfold to_short. exists (- ((a + 32768) / 65536)).
  pose proof (Z.div_mod (a + 32768) 65536 ltac:(lia)). lia.
Qed.

Lemma decimal_app ds c : decimal (ds ++ [c]) = 10 * decimal ds + (c - 48).
Proof. unfold decimal. rewrite fold_left_app. reflexivity. Qed.

Lemma string_to_number_ok : forall ds pre post number devider,
  to_short number = number ->
  string_to_number (pre ++ ds ++ post) (length ds) (length pre + length ds) number devider
  = Ok (to_short (number + devider * decimal ds)).
Proof.
  induction ds as [|c ds IH] using rev_ind; intros pre post number devider Hn.
  - cbn. rewrite Z.mul_0_r, Z.add_0_r, Hn. reflexivity.
  - rewrite app_length. cbn [length]. rewrite Nat.add_1_r, Nat.add_succ_r.
    cbn [string_to_number].
    replace (pre ++ (ds ++ [c]) ++ post) with ((pre ++ ds) ++ c :: post)
      by (rewrite <- !app_assoc; reflexivity).
    rewrite <- app_length, read_mid. cbn [bind]. rewrite app_length.
    replace ((pre ++ ds) ++ c :: post) with (pre ++ ds ++ (c :: post))
      by (rewrite app_assoc; reflexivity).
    rewrite IH.
    + f_equal. rewrite decimal_app.
      destruct (to_short_off (number + (c - 48) * devider)) as [k1 ->].
      destruct (to_short_off (devider * 10)) as [k2 ->].
      replace (number + (c - 48) * devider + k1 * 65536
               + (devider * 10 + k2 * 65536) * decimal ds)
        with (number + devider * (10 * decimal ds + (c - 48))
              + (k1 + k2 * decimal ds) * 65536) by ring.
      apply to_short_cong.
    + destruct (to_short_off (number + (c - 48) * devider)) as [k1 E1].
      rewrite E1 at 1. apply to_short_cong.
Qed.

Lemma is_number_digit c : is_number c = true <-> digit c.
Proof.
  unfold is_number, digit. rewrite andb_true_iff, !Z.leb_le. tauto.
Qed.

(** What the loop does, by components of the text. *)
Fixpoint verdict (first : bool) (index : nat) (comps : list (list Z)) (ip : list Z)
  : outcome (bool * list Z) :=
  match comps with
  | [] => Ok (true, ip)
  | c :: rest =>
      if forallb is_number c then
        if (index =? 4)%nat then Ok (false, ip)
        else
          match c, first with
          | [], false => UB
          | _, _ => verdict false (S index) rest (upd ip index (to_short (decimal c)))
          end
      else Ok (false, ip)
  end.

Definition start_after (start : option nat) (p : nat) (ds : list Z) : option nat :=
  match start, ds with
  | Some b, _ => Some b
  | None, [] => None
  | None, _ => Some p
  end.

Lemma convert_digits : forall ds pre post fuel last start index ip,
  forallb is_number ds = true ->
  (length pre + length ds < last)%nat ->
  convert_loop (length ds + fuel) (pre ++ ds ++ post) last (length pre) start index ip
  = convert_loop fuel (pre ++ ds ++ post) last (length pre + length ds)
      (start_after start (length pre) ds) index ip.
Proof.
  induction ds as [|c ds IH]; intros pre post fuel last start index ip D L.
  - cbn. rewrite Nat.add_0_r. destruct start; reflexivity.
  - cbn [forallb] in D. apply andb_prop in D as [D1 D2]. cbn [length] in *.
    cbn [Nat.add convert_loop].
    replace (length pre =? last)%nat with false by (symmetry; apply Nat.eqb_neq; lia).
    cbn [app]. rewrite read_mid. cbn [bind]. rewrite D1.
    replace (pre ++ c :: ds ++ post) with ((pre ++ [c]) ++ ds ++ post)
      by (rewrite <- app_assoc; reflexivity).
    replace (S (length pre)) with (length (pre ++ [c])) by (rewrite app_length; cbn; lia).
    rewrite IH by (auto; rewrite app_length; cbn; lia).
    f_equal.
    + rewrite app_length. cbn. lia.
    + destruct start; cbn; reflexivity.
Qed.

Lemma not_all_digits c : forallb is_number c = false ->
  exists ds b more, c = ds ++ b :: more /\ forallb is_number ds = true /\ is_number b = false.
Proof.
  induction c as [|x c IH]; cbn; [discriminate|].
  destruct (is_number x) eqn:E; cbn; intros H.
  - destruct (IH H) as (ds & b & more & -> & D & B). exists (x :: ds), b, more.
    cbn. rewrite E, D. auto.
  - exists [], x, c. auto.
Qed.

Lemma joined_cons c d rest : joined (c :: d :: rest) = c ++ dot :: joined (d :: rest).
Proof. reflexivity. Qed.

Definition clean_part (c : list Z) : Prop := Forall (fun x => x <> dot /\ x <> 0) c.

Lemma convert_components rest : forall comps pre first index ip fuel,
  comps <> [] -> Forall clean_part comps ->
  (index <= 4)%nat -> length ip = 4%nat -> (first = true -> pre = []) ->
  (length (joined comps) + 1 < fuel)%nat ->
  convert_loop fuel (pre ++ joined comps ++ 0 :: rest)
    (length pre + length (joined comps) + 1) (length pre)
    (if first then Some 0%nat else None) index ip
  = verdict first index comps ip.
Proof.
  induction comps as [|c comps IH]; intros pre first index ip fuel NE CL I LI FP F;
    [congruence|].
  inversion CL as [|? ? Cc Cr]; subst.
  set (sep := match comps with [] => 0 | _ => dot end).
  set (tail := match comps with [] => rest | _ => joined comps ++ 0 :: rest end).
  assert (EM : pre ++ joined (c :: comps) ++ 0 :: rest = pre ++ c ++ sep :: tail).
  { unfold sep, tail. destruct comps as [|d comps]; [reflexivity|].
    rewrite joined_cons, <- app_assoc. reflexivity. }
  assert (EL : (length (joined (c :: comps)) =
                length c + match comps with [] => 0 | _ => 1 + length (joined comps) end)%nat).
  { destruct comps as [|d comps]; [cbn; lia|]. rewrite joined_cons, app_length. cbn [length].
    lia. }
  rewrite EM, EL. set (last := (length pre + _ + 1)%nat).
  assert (Hlast : (length pre + length c < last)%nat) by (unfold last; destruct comps; lia).
  cbn [verdict]. destruct (forallb is_number c) eqn:D.
  - replace fuel with (length c + (fuel - length c))%nat by lia.
    rewrite convert_digits by (auto; lia).
    destruct (fuel - length c)%nat as [|f] eqn:Ef; [lia|]. cbn [convert_loop].
    replace (length pre + length c =? last)%nat with false by (symmetry; apply Nat.eqb_neq; lia).
    rewrite app_assoc, <- app_length, read_mid. cbn [bind].
    assert (Hs : is_number sep = false) by (unfold sep; destruct comps; reflexivity).
    rewrite Hs. unfold COUNT_NUMBERS. destruct (index =? 4)%nat eqn:E4; [reflexivity|].
    assert (Hs2 : negb ((sep =? POINT) || (sep =? CHAR_NULL)) = false)
      by (unfold sep; destruct comps; reflexivity).
    rewrite Hs2. apply Nat.eqb_neq in E4.
    assert (Hstep : forall b, b = length pre ->
      (let! v := string_to_number ((pre ++ c) ++ sep :: tail)
                   (length (pre ++ c) - b) (length (pre ++ c)) 0 1 in
       let! ip0 := write ip index v in
       convert_loop f ((pre ++ c) ++ sep :: tail) last (S (length (pre ++ c))) None (S index) ip0)
      = verdict false (S index) comps (upd ip index (to_short (decimal c)))).
    { intros b ->. rewrite app_length, Nat.add_sub_swap, Nat.sub_diag by lia. cbn [Nat.add].
      rewrite <- app_assoc, string_to_number_ok by reflexivity. cbn [bind].
      rewrite Z.mul_1_l, Z.add_0_l, write_ok by lia. cbn [bind].
      destruct comps as [|d comps].
      - cbn [verdict]. destruct f as [|f]; [lia|]. cbn [convert_loop].
        replace (S (length pre + length c) =? last)%nat with true; [reflexivity|].
        symmetry. apply Nat.eqb_eq. unfold last. lia.
      - specialize (IH (pre ++ c ++ [dot]) false (S index)
          (upd ip index (to_short (decimal c))) f ltac:(discriminate) Cr ltac:(lia)
          ltac:(rewrite upd_length; auto) ltac:(discriminate)).
        cbv iota in IH. rewrite <- IH by (rewrite EL in F; lia).
        unfold sep, tail, last. f_equal.
        + rewrite <- !app_assoc. reflexivity.
        + rewrite !app_length. cbn [length]. lia.
        + rewrite !app_length. cbn [length]. lia. }
    destruct first.
    + rewrite (FP eq_refl) in *. cbn [start_after]. cbn [app length] in *.
      destruct c; apply (Hstep 0%nat eq_refl).
    + destruct c as [|x c].
      * reflexivity.
      * cbn [start_after]. apply (Hstep (length pre) eq_refl).
  - destruct (not_all_digits c D) as (ds & b & more & -> & Dd & Db).
    apply Forall_app in Cc as [_ Cb]. inversion Cb as [|? ? [B1 B2] _]; subst.
    rewrite app_length in *. cbn [length] in *.
    replace fuel with (length ds + (fuel - length ds))%nat by lia.
    replace (pre ++ (ds ++ b :: more) ++ sep :: tail)
      with (pre ++ ds ++ (b :: more ++ sep :: tail))
      by (rewrite <- !app_assoc; reflexivity).
    rewrite convert_digits by (auto; lia).
    destruct (fuel - length ds)%nat as [|f] eqn:Ef; [lia|]. cbn [convert_loop].
    replace (length pre + length ds =? last)%nat with false
      by (symmetry; apply Nat.eqb_neq; lia).
    rewrite app_assoc, <- app_length, read_mid. cbn [bind]. rewrite Db.
    destruct (index =? COUNT_NUMBERS)%nat; [reflexivity|].
    replace (negb ((b =? POINT) || (b =? CHAR_NULL))) with true; [reflexivity|].
    symmetry. apply negb_true_iff, orb_false_iff. split; apply Z.eqb_neq; assumption.
Qed.

(** The number of characters and what is decided from them. *)
Lemma convert_from_text_ok memory comps ip :
  comps <> [] -> Forall clean_part comps -> c_string memory (joined comps) ->
  length ip = 4%nat ->
  convert_from_text memory ip =
  if ((length (joined comps) <? 7) || (15 <? length (joined comps)))%nat
  then Ok (false, ip) else verdict true 0 comps ip.
Proof.
  intros NE CL [NZ [rest ->]] LI. unfold convert_from_text.
  assert (E : length_from (fun c => c =? 0) (S (length (joined comps ++ 0 :: rest)))
    (joined comps ++ 0 :: rest) 0 0 = Ok (length (joined comps))).
  { apply C64_length.
    - intros i x Hi Hx. rewrite Nat.add_0_l, nth_error_app in Hx.
      destruct (Nat.ltb_spec i (length (joined comps))); [|lia].
      apply nth_error_In in Hx. rewrite Forall_forall in NZ. apply Z.eqb_neq, NZ, Hx.
    - exists 0. split; [|reflexivity]. rewrite Nat.add_0_l, nth_error_app.
      rewrite Nat.ltb_irrefl, Nat.sub_diag. reflexivity.
    - rewrite app_length. cbn. lia. }
  rewrite E. cbn [bind]. unfold IP_MIN_STRING_LENGTH, IP_MAX_STRING_LENGTH.
  destruct (_ || _); [reflexivity|].
  pose proof (convert_components rest comps [] true 0 ip (S (S (length (joined comps))))
    NE CL ltac:(lia) LI ltac:(auto) ltac:(lia)) as P.
  cbn [app length Nat.add] in P. rewrite Nat.add_1_r in P. exact P.
Qed.

(** Every text without NUL has components. *)
Fixpoint split_dots (text : list Z) : list (list Z) :=
  match text with
  | [] => [[]]
  | c :: text' =>
      if c =? dot then [] :: split_dots text'
      else match split_dots text' with
           | [] => [[c]]
           | p :: rest => (c :: p) :: rest
           end
  end.

Lemma split_dots_nonempty text : split_dots text <> [].
Proof.
  destruct text as [|c text]; cbn; [discriminate|].
  destruct (c =? dot); [discriminate|]. destruct (split_dots text); discriminate.
Qed.

Lemma joined_split text : joined (split_dots text) = text.
Proof.
  induction text as [|c text IH]; [reflexivity|]. cbn [split_dots].
  destruct (Z.eqb_spec c dot) as [->|N].
  - destruct (split_dots text) as [|p rest] eqn:E; [destruct (split_dots_nonempty _ E)|].
    rewrite joined_cons, IH. reflexivity.
  - destruct (split_dots text) as [|p rest] eqn:E; [destruct (split_dots_nonempty _ E)|].
    rewrite <- IH. destruct rest; reflexivity.
Qed.

Lemma clean_split text : Forall (fun c => c <> 0) text -> Forall clean_part (split_dots text).
Proof.
  induction text as [|c text IH]; intros H.
  - repeat constructor.
  - inversion H; subst. cbn [split_dots]. destruct (Z.eqb_spec c dot) as [->|N].
    + constructor; [constructor|]. auto.
    + destruct (split_dots text) as [|p rest] eqn:E; [destruct (split_dots_nonempty _ E)|].
      specialize (IH ltac:(assumption)). inversion IH; subst. constructor; [|assumption].
      constructor; auto.
Qed.

Lemma split_joined comps : comps <> [] -> Forall clean_part comps ->
  split_dots (joined comps) = comps.
Proof.
  induction comps as [|c comps IH]; intros NE CL; [congruence|]. clear NE.
  inversion CL as [|? ? Cc Cr]; subst. clear CL.
  destruct comps as [|d comps].
  - cbn [joined]. clear IH Cr. induction Cc as [|x c [X1 _] _ IHc]; [reflexivity|].
    cbn [split_dots]. rewrite IHc. destruct (Z.eqb_spec x dot); [congruence|reflexivity].
  - rewrite joined_cons. specialize (IH ltac:(discriminate) Cr).
    induction Cc as [|x c [X1 _] _ IHc].
    + cbn [app split_dots]. rewrite Z.eqb_refl, IH. reflexivity.
    + cbn [app split_dots]. rewrite IHc. destruct (Z.eqb_spec x dot); [congruence|reflexivity].
Qed.

(** ** verdict *)

Definition good_tail (comps : list (list Z)) : Prop := Forall is_decimal comps.

Fixpoint stored (index : nat) (comps : list (list Z)) (ip : list Z) : list Z :=
  match comps with
  | [] => ip
  | c :: rest => stored (S index) rest (upd ip index (to_short (decimal c)))
  end.

Lemma digits_forallb c : forallb is_number c = true <-> Forall digit c.
Proof.
  rewrite forallb_forall, Forall_forall.
  split; intros H x Hx; [apply is_number_digit|apply is_number_digit]; auto.
Qed.

Lemma verdict_good : forall comps first index ip,
  (match comps with
   | [] => True
   | c :: rest => Forall digit c /\ (first = false -> c <> []) /\ good_tail rest
   end) ->
  (index + length comps <= 4)%nat ->
  verdict first index comps ip = Ok (true, stored index comps ip).
Proof.
  induction comps as [|c comps IH]; intros first index ip H L; [reflexivity|].
  destruct H as (D & NE & G). cbn [verdict stored length] in *.
  rewrite (proj2 (digits_forallb c) D).
  replace (index =? 4)%nat with false by (symmetry; apply Nat.eqb_neq; lia).
  assert (V : verdict false (S index) comps (upd ip index (to_short (decimal c))) =
    Ok (true, stored (S index) comps (upd ip index (to_short (decimal c))))).
  { apply IH; [|lia]. destruct comps as [|d comps]; [exact I|].
    inversion G as [|? ? [G1 G2] G3]; subst. auto. }
  destruct c as [|x c]; [|exact V]. destruct first; [exact V|]. destruct (NE eq_refl eq_refl).
Qed.

Lemma verdict_true : forall comps first index ip r,
  verdict first index comps ip = Ok (true, r) -> (index <= 4)%nat ->
  (match comps with
   | [] => True
   | c :: rest => Forall digit c /\ (first = false -> c <> []) /\ good_tail rest
   end) /\ (index + length comps <= 4)%nat.
Proof.
  induction comps as [|c comps IH]; intros first index ip r H I; [cbn in *; lia|].
  cbn [verdict length] in *.
  destruct (forallb is_number c) eqn:D; [|discriminate].
  destruct (Nat.eqb_spec index 4) as [->|N]; [discriminate|].
  assert (K : verdict false (S index) comps (upd ip index (to_short (decimal c))) = Ok (true, r)
              /\ (first = false -> c <> [])).
  { destruct c; [destruct first; [|discriminate]|]; split; auto; discriminate. }
  destruct K as [K NE]. destruct (IH _ _ _ _ K ltac:(lia)) as [G L]. split; [|lia].
  split; [apply digits_forallb; exact D|]. split; [exact NE|].
  destruct comps as [|d comps]; [constructor|].
  destruct G as (G1 & G2 & G3). constructor; [|exact G3]. split; auto.
Qed.

(** Defined whenever every component after the first has a character. *)
Lemma verdict_defined : forall comps first index ip,
  (match comps with
   | [] => True
   | c :: rest => (first = false -> c <> []) /\ Forall (fun c => c <> []) rest
   end) ->
  (index <= 4)%nat ->
  exists b r, verdict first index comps ip = Ok (b, r).
Proof.
  induction comps as [|c comps IH]; intros first index ip H I; [cbn; eauto|].
  destruct H as [NE NR]. cbn [verdict].
  destruct (forallb is_number c); [|eauto].
  destruct (Nat.eqb_spec index 4) as [->|N]; [eauto|].
  assert (V : exists b r, verdict false (S index) comps (upd ip index (to_short (decimal c)))
              = Ok (b, r)).
  { apply IH; [|lia]. destruct comps as [|d comps]; [exact Logic.I|]. inversion NR; subst. auto. }
  destruct c as [|x c]; [|exact V]. destruct first; [exact V|]. destruct (NE eq_refl eq_refl).
Qed.

(** UB: up to three good components, then an empty one. *)
Lemma verdict_ub : forall comps first index ip rest,
  (match comps with
   | [] => first = false
   | c :: comps' => Forall digit c /\ (first = false -> c <> []) /\ good_tail comps'
   end) ->
  (index + length comps < 4)%nat ->
  verdict first index (comps ++ [] :: rest) ip = UB.
Proof.
  induction comps as [|c comps IH]; intros first index ip rest H L.
  - subst first. cbn [app verdict forallb length] in *.
    replace (index =? 4)%nat with false by (symmetry; apply Nat.eqb_neq; lia). reflexivity.
  - destruct H as (D & NE & G). cbn [app verdict length] in *.
    rewrite (proj2 (digits_forallb c) D).
    replace (index =? 4)%nat with false by (symmetry; apply Nat.eqb_neq; lia).
    assert (V : verdict false (S index) (comps ++ [] :: rest)
      (upd ip index (to_short (decimal c))) = UB).
    { apply IH; [|lia]. destruct comps as [|d comps]; [reflexivity|].
      inversion G as [|? ? [G1 G2] G3]; subst. auto. }
    destruct c as [|x c]; [|exact V]. destruct first; [exact V|]. destruct (NE eq_refl eq_refl).
Qed.

Lemma stored_eq comps ip :
  length ip = 4%nat -> (length comps <= 4)%nat ->
  stored 0 comps ip = map (fun c => to_short (decimal c)) comps ++ skipn (length comps) ip.
Proof.
  intros LI LC.
  destruct ip as [|i0 [|i1 [|i2 [|i3 [|]]]]]; try discriminate LI.
  destruct comps as [|c0 [|c1 [|c2 [|c3 [|]]]]]; try (cbn in LC; lia); reflexivity.
Qed.

(** ** Formatting *)

(** The characters written for one number. *)
Definition nonzero_char (v : Z) : list Z := if v =? 0 then [] else [to_char (v + ZERO)].
Definition chunk (v : Z) : list Z :=
  nonzero_char (Z.quot v 100) ++ nonzero_char (Z.quot (Z.rem v 100) 10) ++
  [to_char (Z.rem (Z.rem v 100) 10 + ZERO)].

Lemma put_char_ok w x r c :
  put_char (w ++ x :: r, length w) c = Ok ((w ++ [to_char c]) ++ r, length (w ++ [to_char c])).
Proof.
  unfold put_char. cbn [fst snd].
  rewrite write_ok by (rewrite app_length; cbn; lia). cbn [bind].
  rewrite upd_app_mid, app_length, <- app_assoc. cbn. rewrite Nat.add_1_r. reflexivity.
Qed.

Lemma put_char_if_ok v w r : (1 <= length r)%nat ->
  put_char_if v (w ++ r, length w) =
  Ok ((w ++ nonzero_char v) ++ skipn (length (nonzero_char v)) r, length (w ++ nonzero_char v)).
Proof.
  intros L. unfold put_char_if, nonzero_char. destruct (v =? 0).
  - cbn. rewrite app_nil_r. reflexivity.
  - destruct r as [|x r]; [cbn in L; lia|]. rewrite put_char_ok. reflexivity.
Qed.

Lemma nonzero_char_length v : (length (nonzero_char v) <= 1)%nat.
Proof. unfold nonzero_char. destruct (v =? 0); cbn; lia. Qed.

Lemma chunk_length v : (length (chunk v) <= 3)%nat.
Proof.
  unfold chunk. rewrite !app_length. cbn.
  pose proof (nonzero_char_length (Z.quot v 100)).
  pose proof (nonzero_char_length (Z.quot (Z.rem v 100) 10)). lia.
Qed.

Lemma skipn_add {A} (a b : nat) (l : list A) : skipn a (skipn b l) = skipn (b + a) l.
Proof.
  revert l. induction b as [|b IH]; intros l; [reflexivity|].
  destruct l; [destruct a; reflexivity|]. cbn. apply IH.
Qed.

Lemma put_chunk_ok v w r k : (3 <= length r)%nat ->
  (let! st := put_char_if (Z.quot v 100) (w ++ r, length w) in
   let! st := put_char_if (Z.quot (Z.rem v 100) 10) st in
   let! st := put_char st (Z.rem (Z.rem v 100) 10 + ZERO) in k st)
  = k ((w ++ chunk v) ++ skipn (length (chunk v)) r, length (w ++ chunk v)) :> outcome (list Z * nat).
Proof.
  intros L. rewrite put_char_if_ok by lia. cbn [bind].
  pose proof (nonzero_char_length (Z.quot v 100)) as L1.
  pose proof (nonzero_char_length (Z.quot (Z.rem v 100) 10)) as L2.
  rewrite put_char_if_ok by (rewrite skipn_length; lia). cbn [bind].
  rewrite skipn_add.
  destruct (skipn (length (nonzero_char (Z.quot v 100)) +
                   length (nonzero_char (Z.quot (Z.rem v 100) 10))) r) as [|x q] eqn:E.
  { apply (f_equal (@length _)) in E. rewrite skipn_length in E. cbn in E. lia. }
  rewrite put_char_ok. cbn [bind]. unfold chunk. rewrite !app_assoc. f_equal. f_equal.
  f_equal. rewrite !app_length. cbn [length].
  rewrite <- skipn_add, E. reflexivity.
Qed.

(** The whole text. *)
Lemma format_ok a b c d buf : length buf = 16%nat ->
  exists rest, convert_to_text buf [a; b; c; d] =
    Ok (joined [chunk a; chunk b; chunk c; chunk d] ++ 0 :: rest) /\
    length (joined [chunk a; chunk b; chunk c; chunk d] ++ 0 :: rest) = 16%nat /\
    (length (joined [chunk a; chunk b; chunk c; chunk d]) <= 15)%nat.
Proof.
  intros L. unfold convert_to_text. change (COUNT_NUMBERS - 1)%nat with 3%nat.
  pose proof (chunk_length a) as La. pose proof (chunk_length b) as Lb.
  pose proof (chunk_length c) as Lc. pose proof (chunk_length d) as Ld.
  change (buf, 0%nat) with ([] ++ buf, @length Z []).
  assert (S1 : forall w v r ip p, (4 <= length r)%nat ->
    format_loop (v :: ip) (S p) (w ++ r, length w) =
    format_loop ip p ((w ++ chunk v ++ [dot]) ++ skipn (length (chunk v) + 1) r,
                      length (w ++ chunk v ++ [dot]))).
  { intros w v r ip p Lr. cbn [format_loop]. rewrite put_chunk_ok by lia.
    pose proof (chunk_length v).
    rewrite <- skipn_add.
    destruct (skipn (length (chunk v)) r) as [|x q] eqn:E.
    { apply (f_equal (@length _)) in E. rewrite skipn_length in E. cbn in E. lia. }
    rewrite put_char_ok. cbn [bind skipn]. rewrite (app_assoc w). reflexivity. }
  rewrite S1 by lia. rewrite S1 by (rewrite skipn_length; lia).
  rewrite S1 by (rewrite !skipn_length; lia).
  cbn [format_loop]. rewrite put_chunk_ok by (rewrite !skipn_length; lia).
  cbn [bind fst snd].
  match goal with
  | |- context [write ((?W ++ chunk d) ++ skipn (length (chunk d)) ?R)] =>
      set (w := W); set (r := R)
  end.
  assert (Ew : w ++ chunk d = joined [chunk a; chunk b; chunk c; chunk d]).
  { unfold w. cbn [joined app]. rewrite <- !app_assoc. reflexivity. }
  assert (Lr : length (skipn (length (chunk d)) r) =
               (16 - length (joined [chunk a; chunk b; chunk c; chunk d]))%nat).
  { unfold r. rewrite !skipn_length. cbn [joined]. rewrite !app_length. cbn [length].
    rewrite !app_length. cbn [length]. rewrite !app_length. cbn [length]. lia. }
  assert (LJ : (length (joined [chunk a; chunk b; chunk c; chunk d]) <= 15)%nat).
  { cbn [joined]. rewrite !app_length. cbn [length].
    rewrite !app_length. cbn [length]. rewrite !app_length. cbn [length]. lia. }
  rewrite Ew. destruct (skipn (length (chunk d)) r) as [|x q] eqn:E.
  { change (length (@nil Z)) with 0%nat in Lr. lia. }
  exists q. split; [|split; [|exact LJ]].
  - rewrite write_ok by (rewrite app_length; cbn; lia). rewrite upd_app_mid. reflexivity.
  - rewrite app_length. change (length (x :: q)) with (S (length q)) in Lr.
    change (length (0 :: q)) with (S (length q)). lia.
Qed.

(** What is read back for an octet. *)
Definition loses_zero (n : Z) : Prop := 100 <= n <= 109 \/ 200 <= n <= 209.
Definition squash (n : Z) : Z :=
  if (100 <=? n) && (n <=? 109) then n - 90
  else if (200 <=? n) && (n <=? 209) then n - 180
  else n.

Lemma chunk_octets :
  forallb (fun n => (decimal (chunk n) =? squash n) && forallb is_number (chunk n) &&
                    negb (match chunk n with [] => true | _ => false end))
    (map Z.of_nat (seq 0 256)) = true.
Proof. vm_compute. reflexivity. Qed.

Lemma chunk_octet n : octet n ->
  decimal (chunk n) = squash n /\ Forall digit (chunk n) /\ chunk n <> [].
Proof.
  intros H. pose proof chunk_octets as C. rewrite forallb_forall in C.
  specialize (C n). unfold octet in H.
  assert (I : In n (map Z.of_nat (seq 0 256))).
  { apply in_map_iff. exists (Z.to_nat n). split; [lia|]. apply in_seq. lia. }
  apply C in I. apply andb_prop in I as [I I3]. apply andb_prop in I as [I1 I2].
  split; [apply Z.eqb_eq, I1|]. split; [apply digits_forallb, I2|].
  destruct (chunk n); [discriminate|congruence].
Qed.

Lemma squash_octet n : octet n -> octet (squash n).
Proof.
  unfold octet, squash. intros H.
  destruct (Z.leb_spec 100 n), (Z.leb_spec n 109), (Z.leb_spec 200 n), (Z.leb_spec n 209);
    cbn [andb]; lia.
Qed.

Lemma squash_same n : squash n = n <-> ~ loses_zero n.
Proof.
  unfold squash, loses_zero.
  destruct (Z.leb_spec 100 n), (Z.leb_spec n 109), (Z.leb_spec 200 n), (Z.leb_spec n 209);
    cbn [andb]; lia.
Qed.

Lemma digit_clean c : Forall digit c -> clean_part c.
Proof. apply Forall_impl. unfold digit, dot. intros x. lia. Qed.

Lemma joined_digits_nonzero comps : Forall (Forall digit) comps ->
  Forall (fun c => c <> 0) (joined comps).
Proof.
  induction 1 as [|c comps D _ IH]; [constructor|].
  assert (Dz : Forall (fun c => c <> 0) c) by (revert D; apply Forall_impl; unfold digit; lia).
  destruct comps as [|d comps]; [exact Dz|]. rewrite joined_cons.
  apply Forall_app. split; [exact Dz|]. constructor; [discriminate|exact IH].
Qed.

Lemma round_trip a b c d ip :
  octet a -> octet b -> octet c -> octet d -> length ip = 4%nat ->
  exists buf, convert_to_text address_init [a; b; c; d] = Ok buf /\
    convert_from_text buf ip = Ok (true, [squash a; squash b; squash c; squash d]).
Proof.
  intros Ha Hb Hc Hd LI.
  destruct (format_ok a b c d address_init eq_refl) as (rest & E & _ & L15).
  destruct (chunk_octet a Ha) as (Da & Fa & Na). destruct (chunk_octet b Hb) as (Db & Fb & Nb).
  destruct (chunk_octet c Hc) as (Dc & Fc & Nc). destruct (chunk_octet d Hd) as (Dd & Fd & Nd).
  eexists. split; [exact E|].
  rewrite (convert_from_text_ok _ [chunk a; chunk b; chunk c; chunk d]).
  - replace ((_ <? 7) || _)%nat with false.
    + rewrite verdict_good; [|repeat split; auto; try discriminate; repeat constructor; auto
                              |cbn; lia].
      rewrite stored_eq by (auto; cbn; lia). cbn [map app length].
      rewrite Da, Db, Dc, Dd, skipn_all2 by lia.
      pose proof (squash_octet a Ha). pose proof (squash_octet b Hb).
      pose proof (squash_octet c Hc). pose proof (squash_octet d Hd).
      unfold octet in *. rewrite !to_short_small by lia. reflexivity.
    + symmetry. apply orb_false_iff. split; apply Nat.ltb_ge; [|exact L15].
      cbn [joined]. rewrite !app_length. cbn [length].
      rewrite !app_length. cbn [length]. rewrite !app_length. cbn [length].
      destruct (chunk a), (chunk b), (chunk c), (chunk d); try congruence; cbn; lia.
  - discriminate.
  - repeat constructor; apply digit_clean; auto.
  - split; [|eexists; reflexivity]. apply joined_digits_nonzero. repeat constructor; auto.
  - exact LI.
Qed.
