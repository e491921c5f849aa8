(** Properties C104 - C108 (loaded libraries). *)
From Coq Require Import List Arith Bool Lia ZArith.
From Verif Require Import Base BaseLemmas StringModel StringSpec LibraryModel LibrarySpec LibraryProofs.
Import ListNotations.

(** * C104: the file that is loaded *)

Lemma before_nul_app {A} (is_nul : A -> bool) l k :
  Forall (fun c => is_nul c = false) l -> before_nul is_nul (l ++ k) = l ++ before_nul is_nul k.
Proof. induction 1 as [|c l E _ IH]; cbn; [reflexivity|]. rewrite E, IH. reflexivity. Qed.

Lemma text_no_nul {A} (is_nul : A -> bool) r : Forall (fun c => is_nul c = false) (text is_nul r).
Proof.
  destruct r as [l|]; [|constructor]. cbn. induction l as [|c l IH]; cbn; [constructor|].
  destruct (is_nul c) eqn:E; constructor; auto.
Qed.

(** For every name and directory (or none), every prefix, suffix, slash and size of the buffer
    on the stack: the loader is given a terminated string, and its text is directory, slash,
    prefix, name, suffix. *)
Theorem C104_path :
  forall (A : Type) (nul : A) (is_nul : A -> bool) (maxPathLength : nat)
         (prefix suffix : cstring A) (slash : A) (fuel : nat) (name directory : cstring A),
    is_nul nul = true -> is_nul slash = false ->
    terminated is_nul prefix -> terminated is_nul suffix ->
    terminated is_nul name -> terminated is_nul directory ->
    (Z.of_nat (length (text is_nul name)) < 2 ^ 64)%Z ->
    (Z.of_nat (length (text is_nul prefix)) < 2 ^ 64)%Z ->
    (Z.of_nat (length (text is_nul suffix)) < 2 ^ 64)%Z ->
    4 <= fuel ->
    exists memory,
      getHandle_path nul is_nul maxPathLength prefix suffix slash fuel name directory = Ok memory
      /\ terminated is_nul (Some memory)
      /\ text is_nul (Some memory) = library_path is_nul slash prefix suffix name directory.
Proof.
  intros A nul is_nul max prefix suffix slash fuel name directory Z0 SL TP TS TN TD BN BP BS F.
  eexists. split; [apply path_ok; assumption|]. split.
  - exists nul. split; [apply in_or_app; right; left; reflexivity|exact Z0].
  - cbn [text]. rewrite before_nul_app.
    + cbn. rewrite Z0, app_nil_r. reflexivity.
    + unfold library_path. repeat (apply Forall_app; split); try apply text_no_nul.
      destruct directory; [|constructor]. apply Forall_app. split; [apply text_no_nul|].
      repeat constructor. exact SL.
Qed.

(** "/opt" and "m" on POSIX, with a buffer that is large enough and one that is not; no
    directory. *)
Example C104_case :
  let z := Nat.eqb 0 in
  let get max dir := getHandle_path 0 z max (Some [108; 105; 98; 0]) (Some [46; 115; 111; 0]) 47 4
               (Some [109; 0; 1]) dir in
  get 2048 (Some [47; 111; 112; 116; 0])
    = Ok [47; 111; 112; 116; 47; 108; 105; 98; 109; 46; 115; 111; 0]
  /\ get 13 (Some [47; 111; 112; 116; 0])
    = Ok [47; 111; 112; 116; 47; 108; 105; 98; 109; 46; 115; 111; 0]
  /\ get 14 None = Ok [108; 105; 98; 109; 46; 115; 111; 0].
Proof. vm_compute. repeat split; reflexivity. Qed.

(** * C105: a library stays loaded exactly as long as an object has it *)

(** For all histories of any number of Library objects in which memory is not exhausted and
    objects that were moved from are not asked, searched or destroyed: nothing undefined
    happens, and the loader has a library open as many times as objects have it, plus the times
    an object that had it was assigned to. *)
Theorem C105_open_count_partial : forall symbols global h,
  libs_all_proper libs_start h ->
  exists w, lruns symbols global l_start h = Ok (w, libs_answers symbols global libs_start h) /\
    forall l, l_refs w l = holders l (libs_run libs_start h) + lost l (libs_run libs_start h).
Proof.
  intros symbols global h P.
  destruct (linv_run symbols global h _ _ linv_start P) as (w & E & I).
  exists w. split; [exact E|]. intros l. apply (li_refs _ _ I).
Qed.

(** No assignment to an object that has a library. *)
Fixpoint no_overwrite (a : libs) (h : list lcall) : Prop :=
  match h with
  | [] => True
  | c :: h =>
      match c with
      | LMoveAssign v _ => forall l, lookup v (a_objects a) <> Some (Lib l)
      | _ => True
      end /\ no_overwrite (libs_step a c) h
  end.

Lemma no_overwrite_lost h : forall a, no_overwrite a h -> a_lost (libs_run a h) = a_lost a.
Proof.
  induction h as [|c h IH]; intros a P; [reflexivity|]. destruct P as [P1 P2].
  cbn [libs_run]. rewrite (IH _ P2).
  destruct c as [v m|v m found|v p|v p|v|v name|v]; cbn [libs_step]; try reflexivity.
  - destruct (lookup p (a_objects a)); reflexivity.
  - destruct (lookup p (a_objects a)) as [g|]; [|reflexivity]. cbn [a_lost].
    destruct (lookup v (a_objects a)) as [[|l|]|] eqn:E; try reflexivity.
    exfalso. exact (P1 l eq_refl).
  - destruct (lookup v (a_objects a)) as [[|l|]|]; reflexivity.
Qed.

(** … so, without such assignments, a library is open exactly as long as an object has it, and
    when no object is left nothing is. *)
Theorem C105_unloaded_partial : forall symbols global h,
  libs_all_proper libs_start h -> no_overwrite libs_start h ->
  exists w, lruns symbols global l_start h = Ok (w, libs_answers symbols global libs_start h) /\
    (forall l, l_refs w l = holders l (libs_run libs_start h)) /\
    (a_objects (libs_run libs_start h) = [] -> forall l, l_refs w l = 0).
Proof.
  intros symbols global h P NO.
  destruct (C105_open_count_partial symbols global h P) as (w & E & R).
  exists w. split; [exact E|].
  assert (R' : forall l, l_refs w l = holders l (libs_run libs_start h)).
  { intros l. rewrite R. unfold lost. rewrite (no_overwrite_lost h _ NO). cbn. lia. }
  split; [exact R'|]. intros N l. rewrite R'. unfold holders. rewrite N. reflexivity.
Qed.

(** Three objects, one library twice, one handed on by assignment and one by construction. *)
Example C105_case :
  let h := [LOpen 1 true (Some 7); LOpen 2 true (Some 7); LOpen 3 true None; LMove 4 1; LMoveAssign 3 2;
            LTest 3; LFind 4 5; LDelete 4] in
  libs_all_proper libs_start h /\ no_overwrite libs_start h
  /\ holders 7 (libs_run libs_start h) = 1
  /\ libs_answers (fun l n => Some (l + n)) (fun _ => None) libs_start h
     = [NoAnswer; NoAnswer; NoAnswer; NoAnswer; NoAnswer; Loaded true; Address (Some 12); NoAnswer].
Proof.
  cbn. repeat split; try congruence; try (right; eexists; reflexivity).
Qed.

(** Assignment to an object that has a library: the library is never unloaded, although no
    object has it, then or after the objects are destroyed; for every two libraries. *)
Theorem C105_assign_refuted : forall symbols global a b l k, a <> b ->
  exists w rs, lruns symbols global l_start
      [LOpen a true (Some l); LOpen b true (Some k); LMoveAssign a b; LDelete a] = Ok (w, rs) /\
    l_vars w a = None /\ l_vars w b = Some None /\ 1 <= l_refs w l.
Proof.
  intros symbols global a b l k N.
  assert (N1 : (a =? b) = false) by (apply Nat.eqb_neq; congruence).
  assert (N2 : (b =? a) = false) by (apply Nat.eqb_neq; congruence).
  set (h := [LOpen a true (Some l); LOpen b true (Some k); LMoveAssign a b; LDelete a]).
  assert (P : libs_all_proper libs_start h).
  { unfold h. cbn. rewrite ?Nat.eqb_refl, ?N1, ?N2. cbn. rewrite ?Nat.eqb_refl, ?N1, ?N2. cbn.
    rewrite ?Nat.eqb_refl, ?N1, ?N2. cbn. rewrite ?Nat.eqb_refl, ?N1, ?N2.
    repeat split; try congruence. right. eexists. reflexivity. }
  destruct (linv_run symbols global h _ _ linv_start P) as (w & E & I).
  exists w, (libs_answers symbols global libs_start h). split; [exact E|].
  assert (X : exists bl, libs_run libs_start h = Libs [(b, MovedFrom)] [l] bl).
  { unfold h. cbn. rewrite ?Nat.eqb_refl, ?N1, ?N2. cbn. rewrite ?Nat.eqb_refl, ?N1, ?N2. cbn.
    rewrite ?Nat.eqb_refl, ?N1, ?N2. cbn. rewrite ?Nat.eqb_refl, ?N1, ?N2. cbn.
    rewrite ?Nat.eqb_refl, ?N1, ?N2. cbn. eexists. reflexivity. }
  destruct X as (bl & X). rewrite X in I.
  pose proof (li_shows _ _ I a) as SA. pose proof (li_shows _ _ I b) as SB.
  cbn in SA, SB. rewrite N2 in SA. rewrite Nat.eqb_refl in SB. repeat split; auto.
  rewrite (li_refs _ _ I l). cbn. unfold cnt. cbn. rewrite Nat.eqb_refl. cbn. lia.
Qed.

(** Assigning an object to itself loses the library as well: in every state the code can reach
    in which the object has one. *)
Theorem C105_self_assign_refuted : forall symbols global h v l,
  libs_all_proper libs_start h ->
  lookup v (a_objects (libs_run libs_start h)) = Some (Lib l) ->
  exists w rs w1, lruns symbols global l_start h = Ok (w, rs) /\
    lstep symbols global w (LMoveAssign v v) = Ok (w1, NoAnswer) /\
    l_vars w1 v = Some None /\ l_refs w1 = l_refs w /\ 1 <= l_refs w1 l /\
    lstep symbols global w1 (LTest v) = UB /\ lstep symbols global w1 (LDelete v) = UB.
Proof.
  intros symbols global h v l P L.
  destruct (linv_run symbols global h _ _ linv_start P) as (w & E & I).
  pose proof (li_shows _ _ I v) as S. rewrite L in S. destruct S as (c & V & N).
  exists w, (libs_answers symbols global libs_start h),
    (with_var (with_var w v (Some (Some c))) v (Some None)).
  split; [exact E|]. cbn [lstep]. unfold get_lib. rewrite V. cbn [bind with_var l_vars l_refs].
  rewrite set_var_eq. repeat split.
  rewrite (li_refs _ _ I l). pose proof (cnt_remove (holds_lib l) v _ _ L) as R.
  unfold holds_lib in R at 2. cbn [snd] in R. rewrite Nat.eqb_refl in R. cbn [b2n] in R. lia.
Qed.

(** When there is no memory for the handle the constructors write through a null pointer. *)
Theorem C105_memory_refuted : forall symbols global w v found,
  lstep symbols global w (LNew v false) = UB /\ lstep symbols global w (LOpen v false found) = UB.
Proof.
  intros. cbn [lstep]. unfold no_lib. destruct (l_vars w v); split; reflexivity.
Qed.

(** * C106: the memory of a Library object is released with it *)

(** Exactly which memory is in use after any such history: one block for each object that was
    not moved from, one for each destroyed object that had no library, and one for each
    assignment to an object that was not moved from. *)
Theorem C106_memory_partial : forall symbols global h,
  libs_all_proper libs_start h ->
  exists w rs, lruns symbols global l_start h = Ok (w, rs) /\
    blocks w = owners (libs_run libs_start h) + a_blocks (libs_run libs_start h).
Proof.
  intros symbols global h P.
  destruct (linv_run symbols global h _ _ linv_start P) as (w & E & I).
  exists w. eexists. split; [exact E|]. apply (li_blocks _ _ I).
Qed.

(** … so none is left behind when every destroyed object has a library and only objects that
    were moved from are assigned to. *)
Fixpoint tidy (a : libs) (h : list lcall) : Prop :=
  match h with
  | [] => True
  | c :: h =>
      match c with
      | LMoveAssign v _ => lookup v (a_objects a) = Some MovedFrom
      | LDelete v => exists l, lookup v (a_objects a) = Some (Lib l)
      | _ => True
      end /\ tidy (libs_step a c) h
  end.

Lemma tidy_blocks h : forall a, tidy a h -> a_blocks (libs_run a h) = a_blocks a.
Proof.
  induction h as [|c h IH]; intros a P; [reflexivity|]. destruct P as [P1 P2].
  cbn [libs_run]. rewrite (IH _ P2).
  destruct c as [v m|v m found|v p|v p|v|v name|v]; cbn [libs_step]; try reflexivity.
  - destruct (lookup p (a_objects a)); reflexivity.
  - destruct (lookup p (a_objects a)) as [g|]; [|reflexivity]. cbn [a_blocks].
    rewrite P1. reflexivity.
  - destruct P1 as (l & P1). rewrite P1. reflexivity.
Qed.

Theorem C106_no_leak_partial : forall symbols global h,
  libs_all_proper libs_start h -> tidy libs_start h ->
  a_objects (libs_run libs_start h) = [] ->
  exists w rs, lruns symbols global l_start h = Ok (w, rs) /\ blocks w = 0.
Proof.
  intros symbols global h P T N.
  destruct (C106_memory_partial symbols global h P) as (w & rs & E & B).
  exists w, rs. split; [exact E|]. rewrite B, (tidy_blocks h _ T). unfold owners. rewrite N. reflexivity.
Qed.

Example C106_case :
  let h := [LOpen 1 true (Some 7); LOpen 2 true (Some 8); LDelete 2; LDelete 1] in
  libs_all_proper libs_start h /\ tidy libs_start h /\ a_objects (libs_run libs_start h) = [].
Proof.
  cbn. repeat split; try congruence; try (right; eexists; reflexivity); eexists; reflexivity.
Qed.

(** False for every object without a library, default constructed or not found: after any such
    history, creating and destroying it leaves a block. *)
Theorem C106_leak_refuted : forall symbols global h v,
  libs_all_proper libs_start h -> lookup v (a_objects (libs_run libs_start h)) = None ->
  forall c, c = LNew v true \/ c = LOpen v true None ->
  exists w rs w1 w2, lruns symbols global l_start h = Ok (w, rs) /\
    lstep symbols global w c = Ok (w1, NoAnswer) /\
    lstep symbols global w1 (LDelete v) = Ok (w2, NoAnswer) /\
    l_vars w2 v = None /\ blocks w2 = blocks w + 1.
Proof.
  intros symbols global h v P L c C.
  destruct (linv_run symbols global h _ _ linv_start P) as (w & E & I).
  set (a := libs_run libs_start h) in *.
  assert (P1 : libs_proper a c) by (destruct C as [-> | ->]; split; auto).
  destruct (linv_step symbols global a w c I P1) as (w1 & E1 & I1).
  assert (A1 : libs_step a c = Libs ((v, Nothing) :: a_objects a) (a_lost a) (a_blocks a))
    by (destruct C as [-> | ->]; reflexivity).
  assert (P2 : libs_proper (libs_step a c) (LDelete v)).
  { rewrite A1. left. cbn. rewrite Nat.eqb_refl. reflexivity. }
  destruct (linv_step symbols global _ w1 (LDelete v) I1 P2) as (w2 & E2 & I2).
  exists w, (libs_answers symbols global libs_start h), w1, w2.
  split; [exact E|]. split; [rewrite E1; destruct C as [-> | ->]; reflexivity|].
  split; [exact E2|]. rewrite A1 in I2. cbn in I2. rewrite Nat.eqb_refl in I2.
  split.
  - pose proof (li_shows _ _ I2 v) as S. cbn [a_objects] in S. rewrite L in S. exact S.
  - pose proof (li_blocks _ _ I2) as B2. pose proof (li_blocks _ _ I) as B.
    cbn [a_objects a_blocks] in B2. unfold blocks. unfold cnt in *. lia.
Qed.

(** * C107: an object that was moved from can be used *)

(** It can be moved from again and assigned to, after which it has what was assigned: part of
    C105_open_count_partial. Here for one assignment in any reachable state. *)
Theorem C107_assign_partial : forall symbols global h v p g,
  libs_all_proper libs_start h ->
  lookup v (a_objects (libs_run libs_start h)) = Some MovedFrom ->
  lookup p (a_objects (libs_run libs_start h)) = Some g -> v <> p ->
  exists w rs w1, lruns symbols global l_start h = Ok (w, rs) /\
    lstep symbols global w (LMoveAssign v p) = Ok (w1, NoAnswer) /\
    l_vars w1 v = l_vars w p /\ l_vars w1 p = Some None /\
    l_refs w1 = l_refs w /\ blocks w1 = blocks w /\
    (forall l, g = Lib l -> lstep symbols global w1 (LTest v) = Ok (w1, Loaded true)).
Proof.
  intros symbols global h v p g P LV LP NE.
  destruct (linv_run symbols global h _ _ linv_start P) as (w & E & I).
  set (a := libs_run libs_start h) in *.
  destruct (linv_assign a w v p _ g I LV LP) as (x & V & I1).
  exists w, (libs_answers symbols global libs_start h), (with_var (with_var w v (Some x)) p (Some None)).
  pose proof (li_shows _ _ I v) as SV. rewrite LV in SV. cbn in SV.
  split; [exact E|]. split.
  { cbn [lstep]. unfold get_lib. rewrite SV, V. reflexivity. }
  cbn [with_var l_vars l_refs]. rewrite set_var_eq, set_var_neq, set_var_eq by exact NE.
  repeat split; auto.
  intros l ->. pose proof (li_shows _ _ I1 v) as S1.
  cbn [a_objects] in S1. rewrite lookup_replace in S1.
  destruct (Nat.eqb_spec v p); [contradiction|]. rewrite lookup_replace, Nat.eqb_refl, LV in S1.
  destruct S1 as (c & V1 & N1). unfold with_var, set_var, get_lib, handle_ref in *.
  cbn [lstep get_lib handle_ref l_vars l_cells with_var set_var] in *. unfold get_lib.
  cbn [l_vars]. rewrite V1. cbn [bind handle_ref l_cells]. rewrite N1. reflexivity.
Qed.

(** Everything else is undefined for every object that was moved from: destroying it, asking it,
    searching it. Destroying it is unavoidable, so no program may move a Library and let the
    source go out of scope. *)
Theorem C107_moved_refuted : forall symbols global w v name,
  l_vars w v = Some None ->
  lstep symbols global w (LDelete v) = UB /\ lstep symbols global w (LTest v) = UB
  /\ lstep symbols global w (LFind v name) = UB.
Proof.
  intros symbols global w v name V. cbn [lstep]. unfold get_lib. rewrite V. repeat split.
Qed.

(** … and every object that was moved from, by construction or assignment, is in that state. *)
Theorem C107_scope_refuted : forall symbols global v p found, v <> p ->
  lruns symbols global l_start [LOpen p true found; LMove v p; LDelete p] = UB
  /\ lruns symbols global l_start [LOpen p true found; LNew v true; LMoveAssign v p; LDelete p] = UB.
Proof.
  intros symbols global v p found N.
  assert (N1 : (v =? p) = false) by (apply Nat.eqb_neq; congruence).
  assert (N2 : (p =? v) = false) by (apply Nat.eqb_neq; congruence).
  unfold l_start. cbn. unfold no_lib, get_lib, set_var, handle_ref.
  repeat (cbn; rewrite ?Nat.eqb_refl, ?N1, ?N2; unfold get_lib, no_lib, set_var, handle_ref).
  split; reflexivity.
Qed.

Example C107_case :
  let h := [LOpen 1 true (Some 7); LMove 2 1; LOpen 3 true (Some 8)] in
  libs_all_proper libs_start h
  /\ lookup 1 (a_objects (libs_run libs_start h)) = Some MovedFrom
  /\ lookup 3 (a_objects (libs_run libs_start h)) = Some (Lib 8).
Proof. cbn. repeat split; congruence. Qed.

(** * C108: find gives the symbols of the library, operator bool tells whether there is one *)

(** In every state reached by such a history, for an object that has a library. *)
Theorem C108_find_partial : forall symbols global h v l name,
  libs_all_proper libs_start h ->
  lookup v (a_objects (libs_run libs_start h)) = Some (Lib l) ->
  exists w rs, lruns symbols global l_start h = Ok (w, rs) /\
    lstep symbols global w (LFind v name) = Ok (w, Address (symbols l name)) /\
    lstep symbols global w (LTest v) = Ok (w, Loaded true) /\ 1 <= l_refs w l.
Proof.
  intros symbols global h v l name P L.
  destruct (linv_run symbols global h _ _ linv_start P) as (w & E & I).
  set (a := libs_run libs_start h) in *.
  pose proof (cnt_remove (holds_lib l) v _ _ L) as R.
  unfold holds_lib in R at 2. cbn [snd] in R. rewrite Nat.eqb_refl in R. cbn [b2n] in R.
  pose proof (li_refs _ _ I l) as RL.
  pose proof (li_shows _ _ I v) as S. rewrite L in S. destruct S as (c & V & N).
  exists w. eexists. split; [exact E|]. cbn [lstep]. unfold get_lib. rewrite V. cbn [bind handle_ref].
  rewrite N. cbn [bind]. destruct (Nat.eqb_spec (l_refs w l) 0) as [Z|Z]; [lia|].
  repeat split. lia.
Qed.

(** For an object without a library: operator bool is false, and find gives what the loader
    finds for the null handle. *)
Theorem C108_unloaded_partial : forall symbols global h v name,
  libs_all_proper libs_start h ->
  lookup v (a_objects (libs_run libs_start h)) = Some Nothing ->
  exists w rs, lruns symbols global l_start h = Ok (w, rs) /\
    lstep symbols global w (LFind v name) = Ok (w, Address (global name)) /\
    lstep symbols global w (LTest v) = Ok (w, Loaded false).
Proof.
  intros symbols global h v name P L.
  destruct (linv_run symbols global h _ _ linv_start P) as (w & E & I).
  pose proof (li_shows _ _ I v) as S. rewrite L in S. destruct S as (c & V & N).
  exists w. eexists. split; [exact E|]. cbn [lstep]. unfold get_lib. rewrite V. cbn [bind handle_ref].
  rewrite N. split; reflexivity.
Qed.

(** So it is not null for every symbol of the program itself where the null handle stands for the
    program (POSIX: RTLD_DEFAULT of glibc and musl), whether or not a library was found. *)
Theorem C108_unloaded_refuted : forall symbols global v name address,
  global name = Some address ->
  exists w rs, lruns symbols global l_start [LOpen v true None; LTest v; LFind v name] = Ok (w, rs) /\
    rs = [NoAnswer; Loaded false; Address (Some address)].
Proof.
  intros symbols global v name address G. unfold l_start.
  repeat (cbn; rewrite ?Nat.eqb_refl; unfold get_lib, no_lib, set_var, handle_ref).
  rewrite G. do 2 eexists. split; reflexivity.
Qed.

Example C108_case :
  let h := [LOpen 1 true (Some 7); LNew 2 true] in
  libs_all_proper libs_start h
  /\ lookup 1 (a_objects (libs_run libs_start h)) = Some (Lib 7)
  /\ lookup 2 (a_objects (libs_run libs_start h)) = Some Nothing.
Proof. cbn. repeat split; congruence. Qed.

Print Assumptions C104_path.
Print Assumptions C105_open_count_partial.
Print Assumptions C105_unloaded_partial.
Print Assumptions C105_assign_refuted.
Print Assumptions C105_self_assign_refuted.
Print Assumptions C105_memory_refuted.
Print Assumptions C106_memory_partial.
Print Assumptions C106_no_leak_partial.
Print Assumptions C106_leak_refuted.
Print Assumptions C107_assign_partial.
Print Assumptions C107_moved_refuted.
Print Assumptions C107_scope_refuted.
Print Assumptions C108_find_partial.
Print Assumptions C108_unloaded_partial.
Print Assumptions C108_unloaded_refuted.
