(** Proofs about the List model: the chain of nodes, and what each function does to it. *)
From Coq Require Import List Arith Bool Lia.
From Verif Require Import Base BaseLemmas ListModel ListSpec.
Import ListNotations.

Lemma ptr_eqb_spec : forall p q, reflect (p = q) (ptr_eqb p q).
Proof.
  intros [|a|a|a] [|b|b|b]; cbn; try (constructor; congruence);
  destruct (Nat.eqb_spec a b); constructor; congruence.
Qed.

Lemma ptr_eqb_refl : forall p, ptr_eqb p p = true.
Proof. intros p. destruct (ptr_eqb_spec p p); congruence. Qed.

Lemma ptr_eqb_neq : forall p q, p <> q -> ptr_eqb p q = false.
Proof. intros p q H. destruct (ptr_eqb_spec p q); congruence. Qed.

Definition ptr_dec (p q : ptr) : {p = q} + {p <> q}.
Proof. destruct (ptr_eqb_spec p q); [left|right]; assumption. Defined.

Section Chain.
  Context {A : Type}.
  Implicit Types h : heap A.

  Definition nxt h p : option ptr := option_map n_next (hp_cell h p).
  Definition prv h p : option ptr := option_map n_prev (hp_cell h p).
  Definition obj h p : option A := option_map n_obj (hp_cell h p).

  Lemma cell_of_obj : forall h p v, obj h p = Some v ->
    exists a b, hp_cell h p = Some (Node a b v).
  Proof.
    intros h p v H. unfold obj in H. destruct (hp_cell h p) as [[a b w]|]; [|discriminate].
    cbn in H. inversion H; subst. eauto.
  Qed.

  Lemma get_spec : forall h p, obj h p <> None ->
    exists n, get h p = Ok n /\ nxt h p = Some (n_next n) /\ prv h p = Some (n_prev n)
      /\ obj h p = Some (n_obj n).
  Proof.
    intros h p H. unfold get, nxt, prv, obj in *. destruct (hp_cell h p) as [n|]; [|cbn in H; congruence].
    exists n. auto.
  Qed.

  Lemma get_none : forall h p, obj h p = None -> get h p = UB.
  Proof. intros h p H. unfold get, obj in *. destruct (hp_cell h p); [discriminate|reflexivity]. Qed.

  Lemma set_next_spec : forall h p q, obj h p <> None ->
    exists h', set_next h p q = Ok h'
      /\ (forall r, nxt h' r = if ptr_dec p r then Some q else nxt h r)
      /\ (forall r, prv h' r = prv h r)
      /\ (forall r, obj h' r = obj h r)
      /\ hp_fresh h' = hp_fresh h
      /\ (forall r, p <> r -> hp_cell h' r = hp_cell h r).
  Proof.
    intros h p q H. unfold set_next, get, obj in *.
    destruct (hp_cell h p) as [[a b v]|] eqn:E; [|cbn in H; congruence]. cbn [bind].
    eexists. split; [reflexivity|]. unfold nxt, prv, obj, put. cbn [hp_cell hp_fresh].
    split; [|split; [|split; [|split]]]; intros; auto;
    try (destruct (ptr_eqb_spec p r); subst; cbn; rewrite ?E; cbn;
         try destruct (ptr_dec r r); try destruct (ptr_dec p r); congruence).
  Qed.

  Lemma set_prev_spec : forall h p q, obj h p <> None ->
    exists h', set_prev h p q = Ok h'
      /\ (forall r, nxt h' r = nxt h r)
      /\ (forall r, prv h' r = if ptr_dec p r then Some q else prv h r)
      /\ (forall r, obj h' r = obj h r)
      /\ hp_fresh h' = hp_fresh h
      /\ (forall r, p <> r -> hp_cell h' r = hp_cell h r).
  Proof.
    intros h p q H. unfold set_prev, get, obj in *.
    destruct (hp_cell h p) as [[a b v]|] eqn:E; [|cbn in H; congruence]. cbn [bind].
    eexists. split; [reflexivity|]. unfold nxt, prv, obj, put. cbn [hp_cell hp_fresh].
    split; [|split; [|split; [|split]]]; intros; auto;
    try (destruct (ptr_eqb_spec p r); subst; cbn; rewrite ?E; cbn;
         try destruct (ptr_dec r r); try destruct (ptr_dec p r); congruence).
  Qed.

  Lemma new_node_spec : forall h x,
    exists h', new_node h x = (h', Heap (hp_fresh h))
      /\ (forall r, nxt h' r = if ptr_dec (Heap (hp_fresh h)) r then Some Null else nxt h r)
      /\ (forall r, prv h' r = if ptr_dec (Heap (hp_fresh h)) r then Some Null else prv h r)
      /\ (forall r, obj h' r = if ptr_dec (Heap (hp_fresh h)) r then Some x else obj h r)
      /\ hp_fresh h' = S (hp_fresh h)
      /\ (forall r, Heap (hp_fresh h) <> r -> hp_cell h' r = hp_cell h r).
  Proof.
    intros h x. unfold new_node. eexists. split; [reflexivity|].
    unfold nxt, prv, obj. cbn [hp_cell hp_fresh].
    split; [|split; [|split; [|split]]]; intros; auto;
    try (destruct (ptr_eqb_spec (Heap (hp_fresh h)) r) as [E|E];
         destruct (ptr_dec (Heap (hp_fresh h)) r); cbn; congruence).
  Qed.

  Lemma delete_spec : forall h n, obj h (Heap n) <> None ->
    exists h', delete h (Heap n) = Ok h'
      /\ (forall r, nxt h' r = if ptr_dec (Heap n) r then None else nxt h r)
      /\ (forall r, prv h' r = if ptr_dec (Heap n) r then None else prv h r)
      /\ (forall r, obj h' r = if ptr_dec (Heap n) r then None else obj h r)
      /\ hp_fresh h' = hp_fresh h
      /\ (forall r, Heap n <> r -> hp_cell h' r = hp_cell h r).
  Proof.
    intros h n H. unfold delete, get, obj in *.
    destruct (hp_cell h (Heap n)) as [c|] eqn:E; [|cbn in H; congruence]. cbn [bind].
    eexists. split; [reflexivity|]. unfold nxt, prv, obj, put. cbn [hp_cell hp_fresh].
    split; [|split; [|split; [|split]]]; intros; auto;
    try (destruct (ptr_eqb_spec (Heap n) r) as [F|F];
         destruct (ptr_dec (Heap n) r); cbn; congruence).
  Qed.

  Lemma delete_none : forall h p, obj h p = None -> delete h p = UB.
  Proof.
    intros h [| | |n] H; try reflexivity. unfold delete. rewrite get_none; auto.
  Qed.

  (** [a] is linked to [b] through the nodes [l], in both directions. *)
  Fixpoint seg h (a : ptr) (l : list ptr) (b : ptr) : Prop :=
    match l with
    | [] => nxt h a = Some b /\ prv h b = Some a
    | x :: t => nxt h a = Some x /\ prv h x = Some a /\ seg h x t b
    end.

  Lemma seg_app : forall h l1 a x l2 b,
    seg h a (l1 ++ x :: l2) b <-> seg h a l1 x /\ seg h x l2 b.
  Proof.
    intros h. induction l1 as [|y l1 IH]; intros a x l2 b; cbn; [tauto|].
    rewrite IH. tauto.
  Qed.

  Lemma seg_frame : forall h h' l a b,
    (forall p, In p (a :: l) -> nxt h' p = nxt h p) ->
    (forall p, In p (l ++ [b]) -> prv h' p = prv h p) ->
    seg h a l b -> seg h' a l b.
  Proof.
    intros h h'. induction l as [|x l IH]; intros a b HN HP H; cbn in *.
    - rewrite HN, HP by auto. exact H.
    - destruct H as (H1 & H2 & H3).
      rewrite HN, HP by auto. split; [exact H1|]. split; [exact H2|].
      apply IH; auto.
  Qed.

  (** Everything outside the list object [o] with nodes [ns] keeps its contents. *)
  Definition outside (o : nat) (ns : list nat) (p : ptr) : Prop :=
    p <> PostFirst o /\ p <> PostLast o /\ (forall n, p = Heap n -> ~ In n ns).
  Definition frame h (o : nat) (ns : list nat) h' : Prop :=
    forall p, outside o ns p -> hp_cell h p <> None -> hp_cell h' p = hp_cell h p.

  Definition head_of (o : nat) (ns : list nat) : ptr :=
    match ns with [] => PostLast o | n :: _ => Heap n end.

  Definition chain h o ns : Prop := seg h (PostFirst o) (map Heap ns) (PostLast o).

  (** The list object [l] holds the values [vals] in the nodes [ns]; the other nodes that
      exist are [ext]. *)
  Record inv h (l : dlist) (s : shape) (ns : list nat) (vals : list A) (ext : list nat) : Prop := {
    i_first : obj h (PostFirst (dl_id l)) <> None;
    i_last : obj h (PostLast (dl_id l)) <> None;
    i_null : obj h Null = None;
    i_nodup : NoDup ns;
    i_ext : forall n, In n ns -> ~ In n ext;
    i_live : forall n, obj h (Heap n) <> None <-> In n ns \/ In n ext;
    i_fresh : forall n, obj h (Heap n) <> None -> n < hp_fresh h;
    i_vals : Forall2 (fun n v => obj h (Heap n) = Some v) ns vals;
    i_shape : match s with
              | Untouched => ns = [] /\ dl_head l = Null /\ dl_tail l = Null
              | Whole => (exists ns0 t, ns = ns0 ++ [t] /\ dl_tail l = Heap t)
                         /\ chain h (dl_id l) ns /\ dl_head l = head_of (dl_id l) ns
              | FrontOnly => chain h (dl_id l) ns /\ dl_head l = head_of (dl_id l) ns
              end }.

  Definition post h (l : dlist) (ns ext : list nat) (r : outcome (heap A * dlist))
      (s' : shape) (ns' : list nat) (vals' : list A) : Prop :=
    exists h' l', r = Ok (h', l') /\ dl_id l' = dl_id l /\ inv h' l' s' ns' vals' ext
      /\ frame h (dl_id l) ns h'.

  (** The shape part of the invariant of a list that has links. *)
  Definition tail_ok (s : shape) (l : dlist) (ns : list nat) : Prop :=
    s = Whole -> exists ns0 t, ns = ns0 ++ [t] /\ dl_tail l = Heap t.

  Lemma shape_split : forall h l s ns vals ext, inv h l s ns vals ext -> s <> Untouched ->
    tail_ok s l ns /\ chain h (dl_id l) ns /\ dl_head l = head_of (dl_id l) ns.
  Proof.
    intros h l s ns vals ext [? ? ? ? ? ? ? ? H] Hs. unfold tail_ok.
    destruct s; [congruence|tauto|]. split; [congruence|exact H].
  Qed.

  Lemma shape_join : forall h l s ns, s <> Untouched ->
    tail_ok s l ns -> chain h (dl_id l) ns -> dl_head l = head_of (dl_id l) ns ->
    match s with
    | Untouched => ns = [] /\ dl_head l = Null /\ dl_tail l = Null
    | Whole => (exists ns0 t, ns = ns0 ++ [t] /\ dl_tail l = Heap t)
               /\ chain h (dl_id l) ns /\ dl_head l = head_of (dl_id l) ns
    | FrontOnly => chain h (dl_id l) ns /\ dl_head l = head_of (dl_id l) ns
    end.
  Proof.
    intros h l [] ns Hs T C H; [congruence| |auto]. split; [apply T; reflexivity|auto].
  Qed.

  Lemma inv_len : forall h l s ns vals ext, inv h l s ns vals ext -> length ns = length vals.
  Proof.
    intros h l s ns vals ext I. pose proof (i_vals _ _ _ _ _ _ I) as V.
    clear I. induction V; cbn; congruence.
  Qed.

  Lemma inv_in_live : forall h l s ns vals ext n, inv h l s ns vals ext -> In n ns ->
    obj h (Heap n) <> None.
  Proof. intros. apply (i_live _ _ _ _ _ _ H). auto. Qed.

  Lemma fresh_dead : forall h l s ns vals ext, inv h l s ns vals ext ->
    obj h (Heap (hp_fresh h)) = None /\ ~ In (hp_fresh h) ns /\ ~ In (hp_fresh h) ext
    /\ hp_cell h (Heap (hp_fresh h)) = None.
  Proof.
    intros h l s ns vals ext I.
    assert (D : obj h (Heap (hp_fresh h)) = None).
    { destruct (obj h (Heap (hp_fresh h))) eqn:E; auto.
      assert (hp_fresh h < hp_fresh h); [|lia].
      apply (i_fresh _ _ _ _ _ _ I). congruence. }
    split; [exact D|].
    split; [|split]; [intro H; apply (i_live _ _ _ _ _ _ I (hp_fresh h)); auto ..|].
    unfold obj in D. destruct (hp_cell h (Heap (hp_fresh h))); [discriminate|reflexivity].
  Qed.
End Chain.

(** Run one primitive. *)
Ltac run lem :=
  let h := fresh "h" in let E := fresh "E" in let N := fresh "N" in let P := fresh "P" in
  let O := fresh "O" in let F := fresh "F" in let C := fresh "C" in
  destruct lem as (h & E & N & P & O & F & C); [|rewrite E; clear E; cbn [bind fst snd]].
Ltac alloc lem :=
  let h := fresh "h" in let E := fresh "E" in let N := fresh "N" in let P := fresh "P" in
  let O := fresh "O" in let F := fresh "F" in let C := fresh "C" in
  destruct lem as (h & E & N & P & O & F & C); rewrite E; clear E.
Ltac peek lem :=
  let n := fresh "c" in let E := fresh "E" in let N := fresh "GN" in let P := fresh "GP" in
  let O := fresh "GO" in
  destruct lem as (n & E & N & P & O); [|rewrite E; clear E; cbn [bind fst snd]].

(** Look a field up in the memory before the last writes. *)
Ltac back1 :=
  match goal with
  | H : forall r, obj ?h r = _ |- context [obj ?h ?q] => rewrite (H q)
  | H : forall r, nxt ?h r = _ |- context [nxt ?h ?q] => rewrite (H q)
  | H : forall r, prv ?h r = _ |- context [prv ?h ?q] => rewrite (H q)
  | H : hp_fresh ?h = _ |- context [hp_fresh ?h] => rewrite H
  end.
Ltac back := repeat back1.
Ltac dec1 :=
  match goal with
  | |- context [ptr_dec ?a ?b] => destruct (ptr_dec a b)
  | H : context [ptr_dec ?a ?b] |- _ => destruct (ptr_dec a b)
  end.
Ltac mem :=
  repeat match goal with
         | H : _ \/ _ |- _ => destruct H
         | H : ~ ?X |- _ =>
             match X with context [In _ (_ ++ _)] => rewrite !in_app_iff in H; cbn [In] in H end
         | H : ~ In _ (_ :: _) |- _ => cbn [In] in H
         | H : In _ (map Heap _) |- _ =>
             let x := fresh "x" in let E := fresh "E" in let M := fresh "M" in
             apply in_map_iff in H; destruct H as (x & E & M)
         | H : In _ (_ ++ _) |- _ => apply in_app_iff in H
         | H : In _ (_ :: _) |- _ => destruct H
         | H : In _ [] |- _ => destruct H
         | H : Heap _ = Heap _ |- _ => injection H as H
         | H : PostFirst _ = PostFirst _ |- _ => injection H as H
         | H : PostLast _ = PostLast _ |- _ => injection H as H
         end.
Ltac kill := solve [ congruence | exfalso; mem; subst; mem; subst; (congruence || contradiction || tauto) ].
Ltac decs := repeat (dec1; try kill); try assumption.

Ltac framed :=
  let p := fresh "p" in let O1 := fresh "O1" in let O2 := fresh "O2" in
  let O3 := fresh "O3" in let L := fresh "L" in
  intros p (O1 & O2 & O3) L;
  repeat match goal with
         | H : forall r, _ <> r -> hp_cell ?h r = _ |- context [hp_cell ?h p] =>
             rewrite (H p) by (intro; subst p; first
               [ congruence
               | eapply O3; [reflexivity|]; rewrite ?in_app_iff; cbn; tauto ])
         end;
  reflexivity.

Section Steps.
  Context {A : Type}.
  Implicit Types h : heap A.

  Lemma vals_frame : forall h h' ns (vals : list A),
    (forall n, In n ns -> obj h' (Heap n) = obj h (Heap n)) ->
    Forall2 (fun n v => obj h (Heap n) = Some v) ns vals ->
    Forall2 (fun n v => obj h' (Heap n) = Some v) ns vals.
  Proof.
    intros h h' ns vals HO H. induction H; constructor.
    - rewrite HO by (left; reflexivity). exact H.
    - apply IHForall2. intros n Hn. apply HO. right. exact Hn.
  Qed.

  Lemma nodup_snoc : forall (l : list nat) x, NoDup l -> ~ In x l -> NoDup (l ++ [x]).
  Proof.
    intros l x N H.
    induction l as [|y l IH]; cbn.
    - constructor; [intros []|constructor].
    - inversion N; subst. constructor.
      + intros M. apply in_app_iff in M. destruct M as [M|[M|[]]]; [tauto|].
        subst. apply H. left; reflexivity.
      + apply IH; auto. intro M. apply H. right; exact M.
  Qed.

  Lemma nodup_snoc_inv : forall (l : list nat) x, NoDup (l ++ [x]) -> NoDup l /\ ~ In x l.
  Proof.
    intros l x N. apply NoDup_remove in N. rewrite app_nil_r in N. exact N.
  Qed.

  Lemma head_of_app : forall o ns ms, ns <> [] -> head_of o (ns ++ ms) = head_of o ns.
  Proof. intros o [|n ns] ms H; [congruence|reflexivity]. Qed.

  Lemma push_back_ok : forall h l s ns vals ext x,
    inv h l s ns vals ext -> s <> FrontOnly ->
    post h l ns ext (list_push_back h l x) Whole (ns ++ [hp_fresh h]) (vals ++ [x]).
  Proof.
    intros h l s ns vals ext x I Hs. unfold list_push_back.
    destruct (fresh_dead _ _ _ _ _ _ I) as (D & Dn & De & Dc).
    destruct I as [If Il Inull Ind Ie Ilive Ifr Iv Ish].
    alloc (new_node_spec h x).
    destruct s; [| |congruence].
    - (* first element *)
      destruct Ish as (-> & Hh & Ht). rewrite Hh. cbn [ptr_eqb].
      unfold update_links, update_head_links, update_tail_links. cbn [dl_id dl_head dl_tail].
      run (set_next_spec h0 (PostFirst (dl_id l)) (Heap (hp_fresh h))).
      { back. decs. }
      run (set_prev_spec h1 (Heap (hp_fresh h)) (PostFirst (dl_id l))).
      { back. decs. }
      run (set_prev_spec h2 (PostLast (dl_id l)) (Heap (hp_fresh h))).
      { back. decs. }
      run (set_next_spec h3 (Heap (hp_fresh h)) (PostLast (dl_id l))).
      { back. decs. }
      exists h4, (DL (dl_id l) (Heap (hp_fresh h)) (Heap (hp_fresh h))).
      split; [reflexivity|]. split; [reflexivity|].
      inversion Iv; subst. cbn [app].
      split.
      + constructor; cbn [dl_id dl_head dl_tail].
        * back; decs.
        * back; decs.
        * back; decs.
        * repeat constructor. intros [].
        * intros n [<-|[]]. exact De.
        * intros n. back. dec1.
          -- injection e as e. subst. cbn. split; [auto|congruence].
          -- rewrite Ilive. cbn. split; [tauto|]. intros [[H|[]]|H]; [congruence|tauto].
        * intros n. back. dec1; [injection e as e; lia|]. intros H. apply Ifr in H. lia.
        * constructor; [|constructor]. back. decs.
        * split; [exists [], (hp_fresh h); auto|]. split; [|reflexivity].
          unfold chain. cbn. back. decs. auto.
      + framed.
    - destruct Ish as ((ns0 & t & -> & Ht) & Ch & Hh).
      rewrite Hh. replace (ptr_eqb (head_of (dl_id l) (ns0 ++ [t])) Null) with false
        by (destruct ns0; reflexivity).
      rewrite Ht. apply nodup_snoc_inv in Ind as K. destruct K as (Kn & Kt).
      assert (Lt : obj h (Heap t) <> None) by (apply Ilive; left; apply in_app_iff; cbn; auto).
      assert (Ft : t <> hp_fresh h) by (intro; subst; congruence).
      run (set_prev_spec h0 (Heap (hp_fresh h)) (Heap t)).
      { back. decs. }
      run (set_next_spec h1 (Heap t) (Heap (hp_fresh h))).
      { back. decs. }
      peek (get_spec h2 (Heap t)).
      { back. decs. }
      revert GN. back. destruct (ptr_dec (Heap t) (Heap t)); [|congruence].
      intros GN. injection GN as GN. rewrite <- GN.
      unfold update_tail_links. cbn [dl_id dl_head dl_tail].
      run (set_prev_spec h2 (PostLast (dl_id l)) (Heap (hp_fresh h))).
      { back. decs. }
      run (set_next_spec h3 (Heap (hp_fresh h)) (PostLast (dl_id l))).
      { back. decs. }
      eexists h4, _.
      split; [reflexivity|]. split; [reflexivity|].
      split.
      + constructor; cbn [dl_id dl_head dl_tail].
        * back; decs.
        * back; decs.
        * back; decs.
        * apply nodup_snoc; auto.
        * intros n H. apply in_app_iff in H. destruct H as [H|[<-|[]]]; auto.
        * intros n. back. dec1.
          -- injection e0 as e0. subst. rewrite in_app_iff. cbn. split; [auto|congruence].
          -- rewrite Ilive, (in_app_iff _ [hp_fresh h]). cbn. split; [tauto|].
             intros [[H|[H|[]]]|H]; [tauto|congruence|tauto].
        * intros n. back. dec1; [injection e0 as e0; lia|]. intros H. apply Ifr in H. lia.
        * apply Forall2_app.
          -- apply vals_frame with (h := h); auto. intros n Hn. back. decs.
          -- constructor; [|constructor]. back. decs.
        * split; [exists (ns0 ++ [t]), (hp_fresh h); auto|]. split.
          -- unfold chain in *. rewrite !map_app in *. cbn [map] in *.
             rewrite <- app_assoc. cbn [app]. apply seg_app in Ch. destruct Ch as (Ch1 & Ch2).
             apply seg_app. split.
             ++ apply seg_frame with (h := h); auto.
                ** intros p Hp. back. decs.
                ** intros p Hp. back. decs.
             ++ cbn. back. decs. auto.
          -- symmetry. apply head_of_app. destruct ns0; discriminate.
      + framed.
  Qed.

  Lemma push_front_ok : forall h l s ns vals ext x,
    inv h l s ns vals ext ->
    post h l ns ext (list_push_front h l x)
      (match s with Untouched => Whole | _ => s end) (hp_fresh h :: ns) (x :: vals).
  Proof.
    intros h l s ns vals ext x I.
    destruct s eqn:Es.
    { pose proof I as I'. destruct I' as [_ _ _ _ _ _ _ Iv (-> & Hh & Ht)].
      inversion Iv; subst.
      replace (list_push_front h l x) with (list_push_back h l x).
      - apply (push_back_ok _ _ _ _ _ _ x I). discriminate.
      - unfold list_push_front, list_push_back. rewrite Hh. reflexivity. }
    all: rewrite <- Es in *.
    all: assert (Hs : s <> Untouched) by congruence.
    all: destruct (shape_split _ _ _ _ _ _ I Hs) as (T & Ch & Hh).
    all: destruct (fresh_dead _ _ _ _ _ _ I) as (D & Dn & De & Dc).
    all: destruct I as [If Il Inull Ind Ie Ilive Ifr Iv _].
    all: unfold list_push_front; alloc (new_node_spec h x).
    all: rewrite Hh; replace (ptr_eqb (head_of (dl_id l) ns) Null) with false
        by (destruct ns; reflexivity).
    all: assert (Lh : obj h (head_of (dl_id l) ns) <> None)
      by (destruct ns; cbn; auto; apply Ilive; left; left; reflexivity).
    all: assert (Fh : head_of (dl_id l) ns <> Heap (hp_fresh h))
      by (destruct ns; cbn; [discriminate|]; intros Q; injection Q as ->; apply Dn; left; reflexivity).
    all: assert (Gh : head_of (dl_id l) ns <> PostFirst (dl_id l))
      by (destruct ns; discriminate).
    all: run (set_prev_spec h0 (head_of (dl_id l) ns) (Heap (hp_fresh h))); [back; decs|].
    all: run (set_next_spec h1 (Heap (hp_fresh h)) (head_of (dl_id l) ns)); [back; decs|].
    all: peek (get_spec h2 (head_of (dl_id l) ns)); [back; decs|].
    all: revert GP; back; destruct (ptr_dec (head_of (dl_id l) ns) (head_of (dl_id l) ns));
      [|congruence].
    all: intros GP; injection GP as GP; rewrite <- GP.
    all: unfold update_head_links; cbn [dl_id dl_head dl_tail].
    all: run (set_next_spec h2 (PostFirst (dl_id l)) (Heap (hp_fresh h))); [back; decs|].
    all: run (set_prev_spec h3 (Heap (hp_fresh h)) (PostFirst (dl_id l))); [back; decs|].
    all: eexists h4, _.
    all: split; [reflexivity|]; split; [reflexivity|].
    all: split; [|destruct ns; cbn [head_of] in *; framed].
    all: constructor; cbn [dl_id dl_head dl_tail].
    all: try (back; decs; fail).
    all: try (constructor; auto; fail).
    all: try (intros n [<-|H]; auto; fail).
    all: try (intros n; back; dec1; [injection e0 as e0; subst; cbn; split; [auto|congruence]|];
      rewrite Ilive; cbn; split; [tauto|]; intros [[H|H]|H]; [congruence|tauto|tauto]).
    all: try (intros n; back; dec1; [injection e0 as e0; lia|]; intros H; apply Ifr in H; lia).
    all: try (constructor; [back; decs|];
      apply vals_frame with (h := h); auto; intros n Hn; back; decs).
    all: apply (shape_join _ (DL _ _ _)); auto; cbn [dl_id dl_head dl_tail].
    1,3: intros Hw; destruct (T Hw) as (ns0 & t & -> & Ht); exists (hp_fresh h :: ns0), t; auto.
    all: unfold chain in *; cbn [map seg]; back; decs.
    all: split; [reflexivity|]; split; [reflexivity|].
    all: destruct ns as [|n ns1]; cbn [map seg head_of] in *; [back; decs; auto|].
    all: split; [back; decs|]; split; [back; decs|].
    all: inversion Ind; subst.
    all: apply seg_frame with (h := h); [intros p Hp; back; decs|intros p Hp; back; decs|tauto].
  Qed.

  Lemma head_of_live : forall h l s ns vals ext, inv h l s ns vals ext ->
    obj h (head_of (dl_id l) ns) <> None.
  Proof.
    intros h l s ns vals ext I. destruct ns as [|n ns]; cbn.
    - apply (i_last _ _ _ _ _ _ I).
    - apply (inv_in_live _ _ _ _ _ _ _ I). left; reflexivity.
  Qed.

  Lemma pop_front_ok : forall h l s n ns v vals ext,
    inv h l s (n :: ns) (v :: vals) ext -> s <> Untouched ->
    post h l (n :: ns) ext (list_pop_front h l)
      (match ns with [] => FrontOnly | _ => s end) ns vals.
  Proof.
    intros h l s n ns v vals ext I Hs.
    destruct (shape_split _ _ _ _ _ _ I Hs) as (T & Ch & Hh).
    destruct I as [If Il Inull Ind Ie Ilive Ifr Iv _].
    unfold list_pop_front. rewrite Hh. cbn [head_of].
    assert (Ln : obj h (Heap n) <> None) by (apply Ilive; left; left; reflexivity).
    inversion Ind as [|? ? Hn Ind']; subst.
    assert (L2 : obj h (head_of (dl_id l) ns) <> None)
      by (destruct ns; cbn; auto; apply Ilive; left; right; left; reflexivity).
    assert (F2 : head_of (dl_id l) ns <> Heap n)
      by (destruct ns; cbn; [discriminate|]; intros Q; injection Q as ->; apply Hn; left; reflexivity).
    assert (G2 : head_of (dl_id l) ns <> PostFirst (dl_id l)) by (destruct ns; discriminate).
    peek (get_spec h (Heap n)); [exact Ln|].
    assert (Ec : n_next c = head_of (dl_id l) ns).
    { unfold chain in Ch. cbn [map seg] in Ch. destruct ns; cbn in *; intuition congruence. }
    rewrite Ec. replace (ptr_eqb (head_of (dl_id l) ns) Null) with false
      by (destruct ns; reflexivity).
    cbn [dl_head dl_id dl_tail].
    run (set_prev_spec h (head_of (dl_id l) ns) Null); [exact L2|].
    run (delete_spec h0 n); [back; decs|].
    unfold update_head_links; cbn [dl_id dl_head dl_tail].
    run (set_next_spec h1 (PostFirst (dl_id l)) (head_of (dl_id l) ns)); [back; decs|].
    run (set_prev_spec h2 (head_of (dl_id l) ns) (PostFirst (dl_id l))); [back; decs|].
    eexists h3, _. split; [reflexivity|]. split; [reflexivity|].
    split; [|destruct ns; cbn [head_of] in *; framed].
    constructor; cbn [dl_id dl_head dl_tail].
    - back; decs.
    - back; decs.
    - back; decs.
    - exact Ind'.
    - intros k Hk. apply Ie. right; exact Hk.
    - intros k. back. dec1.
      + injection e as ->. split; [congruence|]. intros [H|H]; [contradiction|].
        exfalso. apply (Ie k); [left; reflexivity|exact H].
      + rewrite Ilive. cbn. split; [|tauto]. intros [[H|H]|H]; [congruence|tauto|tauto].
    - intros k. back. dec1; [congruence|]. apply Ifr.
    - inversion Iv; subst. apply vals_frame with (h := h); auto. intros k Hk. back; decs.
    - assert (Hch : chain h3 (dl_id l) ns).
      { unfold chain in *. cbn [map seg] in Ch. destruct Ch as (C1' & C2' & C3').
        destruct ns as [|k ns]; cbn [map seg head_of] in *.
        - back; decs; auto.
        - back; decs. split; [reflexivity|]. split; [reflexivity|].
          inversion Ind'; subst.
          apply seg_frame with (h := h); [intros p Hp; back; decs|intros p Hp; back; decs|tauto]. }
      destruct ns as [|k ns].
      + auto.
      + apply (shape_join _ (DL _ _ _)); auto; cbn [dl_id dl_head dl_tail].
        intros Hw. destruct (T Hw) as (ns0 & t & E & Ht). destruct ns0 as [|z ns0].
        * discriminate.
        * injection E as -> E. exists ns0, t. auto.
  Qed.

  Lemma app_snoc_inj : forall (B : Type) (l1 l2 : list B) x y,
    l1 ++ [x] = l2 ++ [y] -> l1 = l2 /\ x = y.
  Proof. intros. apply app_inj_tail. assumption. Qed.

  Lemma pop_back_ok : forall h l ns u t vals v ext,
    inv h l Whole (ns ++ [u; t]) (vals ++ [v]) ext ->
    post h l (ns ++ [u; t]) ext (list_pop_back h l) Whole (ns ++ [u]) vals.
  Proof.
    intros h l ns u t vals v ext I.
    destruct (shape_split _ _ _ _ _ _ I) as (T & Ch & Hh); [discriminate|].
    destruct I as [If Il Inull Ind Ie Ilive Ifr Iv _].
    destruct (T eq_refl) as (ns0 & t0 & E & Ht).
    replace (ns ++ [u; t]) with ((ns ++ [u]) ++ [t]) in * by (rewrite <- app_assoc; reflexivity).
    apply app_snoc_inj in E. destruct E as (<- & <-).
    apply nodup_snoc_inv in Ind as K. destruct K as (Kn & Kt).
    apply nodup_snoc_inv in Kn as K. destruct K as (Ku & Kv).
    assert (Lt : obj h (Heap t) <> None) by (apply Ilive; left; rewrite in_app_iff; cbn; auto).
    assert (Lu : obj h (Heap u) <> None) by (apply Ilive; left; rewrite !in_app_iff; cbn; auto).
    assert (Eut : u <> t) by (intros ->; apply Kt; rewrite in_app_iff; cbn; auto).
    assert (Kt' : ~ In t ns) by (intro; apply Kt; rewrite in_app_iff; cbn; auto).
    unfold chain in Ch. rewrite !map_app in Ch. cbn [map] in Ch.
    rewrite <- app_assoc in Ch. cbn [app] in Ch.
    apply seg_app in Ch. destruct Ch as (Ch1 & Ch2). cbn [seg] in Ch2.
    unfold list_pop_back. rewrite Ht.
    peek (get_spec h (Heap t)); [exact Lt|].
    assert (Ec : n_prev c = Heap u) by intuition congruence.
    rewrite Ec. cbn [ptr_eqb dl_id dl_head dl_tail].
    run (set_next_spec h (Heap u) Null); [exact Lu|].
    run (delete_spec h0 t); [back; decs|].
    unfold update_tail_links; cbn [dl_id dl_head dl_tail].
    run (set_prev_spec h1 (PostLast (dl_id l)) (Heap u)); [back; decs|].
    run (set_next_spec h2 (Heap u) (PostLast (dl_id l))); [back; decs|].
    eexists h3, _. split; [reflexivity|]. split; [reflexivity|].
    split; [|framed].
    constructor; cbn [dl_id dl_head dl_tail].
    - back; decs.
    - back; decs.
    - back; decs.
    - exact Kn.
    - intros k Hk. apply Ie. rewrite in_app_iff; auto.
    - intros k. back. dec1.
      + injection e as ->. split; [congruence|]. intros [H|H]; [contradiction|].
        exfalso. apply (Ie k); [rewrite in_app_iff; cbn; auto|exact H].
      + rewrite Ilive, (in_app_iff _ [t]). cbn. split; [|tauto].
        intros [[H|[H|[]]]|H]; [tauto|congruence|tauto].
    - intros k. back. dec1; [congruence|]. apply Ifr.
    - apply Forall2_app_inv_l in Iv. destruct Iv as (v1 & v2 & V1 & V2 & V3).
      inversion V2 as [|? ? ? ? ? V4]; subst. inversion V4; subst.
      apply app_snoc_inj in V3. destruct V3 as (-> & ->).
      apply vals_frame with (h := h); auto. intros k Hk. back; decs.
    - split; [exists ns, u; auto|]. split.
      + unfold chain. rewrite map_app. cbn [map]. apply seg_app. split.
        * apply seg_frame with (h := h); [intros p Hp; back; decs|intros p Hp; back; decs|auto].
        * cbn. back. decs. auto.
      + rewrite Hh. rewrite <- app_assoc. destruct ns; reflexivity.
  Qed.

  (** Lists of pointers linked in both directions. *)
  Fixpoint links h (l : list ptr) : Prop :=
    match l with
    | [] => True
    | x :: t =>
        match t with
        | [] => True
        | y :: _ => nxt h x = Some y /\ prv h y = Some x /\ links h t
        end
    end.

  Lemma links_cons : forall h x y t,
    links h (x :: y :: t) <-> nxt h x = Some y /\ prv h y = Some x /\ links h (y :: t).
  Proof. intros. cbn. tauto. Qed.

  Lemma chain_links : forall h o ns,
    chain h o ns <-> links h (PostFirst o :: map Heap ns ++ [PostLast o]).
  Proof.
    intros h o ns. unfold chain. generalize (PostFirst o). induction ns as [|n ns IH]; intros a.
    - cbn. tauto.
    - cbn [map app seg]. rewrite links_cons. rewrite (IH (Heap n)). tauto.
  Qed.

  Lemma links_cut : forall h p d q e, p <> [] -> q <> [] ->
    links h (p ++ q) <->
    links h p /\ links h q /\ nxt h (last p d) = Some (hd e q)
      /\ prv h (hd e q) = Some (last p d).
  Proof.
    intros h p d q e Hp Hq. induction p as [|x p IH]; [congruence|].
    destruct p as [|y p].
    - destruct q as [|z q]; [congruence|]. cbn [app]. rewrite links_cons. cbn. tauto.
    - change ((x :: y :: p) ++ q) with (x :: y :: (p ++ q)). rewrite !links_cons.
      change (y :: p ++ q) with ((y :: p) ++ q). rewrite IH by discriminate.
      change (last (x :: y :: p) d) with (last (y :: p) d). tauto.
  Qed.

  Lemma links_frame : forall h h' p,
    (forall r, In r (removelast p) -> nxt h' r = nxt h r) ->
    (forall r, In r (tl p) -> prv h' r = prv h r) ->
    links h p -> links h' p.
  Proof.
    intros h h' p. induction p as [|x p IH]; intros HN HP H; [exact I|].
    destruct p as [|y p]; [exact I|].
    rewrite links_cons in *. destruct H as (H1 & H2 & H3).
    change (removelast (x :: y :: p)) with (x :: removelast (y :: p)) in HN.
    cbn [tl] in HP.
    rewrite HN, HP by (left; reflexivity). split; [exact H1|]. split; [exact H2|].
    apply IH; auto.
    - intros r Hr. apply HN. right; exact Hr.
    - intros r Hr. apply HP. right. destruct p; [destruct Hr|exact Hr].
  Qed.

  Lemma in_removelast : forall (l : list ptr) d x, NoDup l -> In x (removelast l) ->
    In x l /\ x <> last l d.
  Proof.
    intros l d x. induction l as [|y l IH]; intros N H; [destruct H|].
    destruct l as [|z l]; [destruct H|].
    change (removelast (y :: z :: l)) with (y :: removelast (z :: l)) in H.
    change (last (y :: z :: l) d) with (last (z :: l) d).
    inversion N as [|? ? N1 N2]; subst. destruct H as [<-|H].
    - split; [left; reflexivity|]. intros E. apply N1. rewrite E.
      destruct (exists_last (l := z :: l)) as (l' & w & ->); [discriminate|].
      rewrite last_last, in_app_iff. cbn; auto.
    - destruct (IH N2 H) as (H1 & H2). split; [right; exact H1|exact H2].
  Qed.

  Lemma in_tl : forall (l : list ptr) d x, NoDup l -> In x (tl l) -> In x l /\ x <> hd d l.
  Proof.
    intros [|y l] d x N H; [destruct H|]. inversion N; subst. cbn in *.
    split; [right; exact H|]. intros ->. contradiction.
  Qed.

  Lemma last_in : forall (l : list ptr) d, l <> [] -> In (last l d) l.
  Proof.
    intros l d H. destruct (exists_last H) as (l' & x & ->). rewrite last_last, in_app_iff.
    cbn; auto.
  Qed.
  Lemma hd_in : forall (l : list ptr) d, l <> [] -> In (hd d l) l.
  Proof. intros [|x l] d H; [congruence|left; reflexivity]. Qed.

  (** The node before position |ns1| and the node at it. *)
  Definition left_of (o : nat) (ns1 : list nat) : ptr := last (PostFirst o :: map Heap ns1) Null.

  Lemma head_of_hd : forall o ns d, head_of o ns = hd d (map Heap ns ++ [PostLast o]).
  Proof. intros o [|n ns] d; reflexivity. Qed.

  Lemma nodup_app : forall (B : Type) (l1 l2 : list B),
    NoDup (l1 ++ l2) <-> NoDup l1 /\ NoDup l2 /\ (forall x, In x l1 -> ~ In x l2).
  Proof.
    intros B l1 l2. induction l1 as [|x l1 IH]; cbn.
    - split; [intro H; repeat split; auto; constructor|tauto].
    - split.
      + intros H. inversion H as [|? ? H1 H2]; subst. apply IH in H2.
        destruct H2 as (H2 & H3 & H4). rewrite in_app_iff in H1.
        split; [constructor; tauto|]. split; [exact H3|].
        intros y [<-|Hy]; [tauto|apply H4; exact Hy].
      + intros (H1 & H2 & H3). inversion H1; subst. constructor.
        * rewrite in_app_iff. intros [H|H]; [tauto|]. apply (H3 x); auto.
        * apply IH. split; [assumption|]. split; [assumption|]. intros y Hy. apply H3. auto.
  Qed.

  Lemma nodup_heap : forall ns, NoDup ns -> NoDup (map Heap ns).
  Proof.
    intros ns H. induction H; cbn; constructor; auto.
    intros M. apply in_map_iff in M. destruct M as (y & E & M). injection E as ->. contradiction.
  Qed.

  Lemma nodup_path : forall o ns, NoDup ns -> NoDup (PostFirst o :: map Heap ns ++ [PostLast o]).
  Proof.
    intros o ns H. constructor.
    - intros M. mem; congruence.
    - apply nodup_app. split; [apply nodup_heap; exact H|]. split.
      + repeat constructor. intros [].
      + intros x Hx M. mem; congruence.
  Qed.

  (** Putting the linked nodes [cs] between [ns1] and [ns2]. *)
  Lemma splice : forall h h2 o ns1 ns2 cs,
    NoDup (ns1 ++ cs ++ ns2) -> cs <> [] ->
    chain h o (ns1 ++ ns2) -> links h (map Heap cs) ->
    (forall r, r <> left_of o ns1 -> r <> last (map Heap cs) Null -> nxt h2 r = nxt h r) ->
    (forall r, r <> head_of o ns2 -> r <> hd Null (map Heap cs) -> prv h2 r = prv h r) ->
    nxt h2 (left_of o ns1) = Some (hd Null (map Heap cs)) ->
    prv h2 (hd Null (map Heap cs)) = Some (left_of o ns1) ->
    nxt h2 (last (map Heap cs) Null) = Some (head_of o ns2) ->
    prv h2 (head_of o ns2) = Some (last (map Heap cs) Null) ->
    chain h2 o (ns1 ++ cs ++ ns2).
  Proof.
    intros h h2 o ns1 ns2 cs ND Hc Ch Lc HN HP J1 J2 J3 J4.
    apply chain_links in Ch. rewrite map_app in Ch.
    pose proof (nodup_path o _ ND) as NP.
    apply chain_links. rewrite !map_app in *.
    rewrite <- !app_assoc in *.
    change (PostFirst o :: map Heap ns1 ++ map Heap ns2 ++ [PostLast o])
      with ((PostFirst o :: map Heap ns1) ++ (map Heap ns2 ++ [PostLast o])) in Ch.
    change (PostFirst o :: map Heap ns1 ++ map Heap cs ++ map Heap ns2 ++ [PostLast o])
      with ((PostFirst o :: map Heap ns1) ++ (map Heap cs ++ (map Heap ns2 ++ [PostLast o])))
      in *.
    rewrite (head_of_hd _ _ Null) in *.
    set (L := PostFirst o :: map Heap ns1) in *. set (R := map Heap ns2 ++ [PostLast o]) in *.
    set (M := map Heap cs) in *.
    assert (HL : L <> []) by discriminate.
    assert (HR : R <> []) by (unfold R; destruct ns2; discriminate).
    assert (HM : M <> []) by (unfold M; destruct cs; [congruence|discriminate]).
    assert (HMR : M ++ R <> []) by (destruct M; [congruence|discriminate]).
    rewrite (links_cut h L Null R Null HL HR) in Ch. destruct Ch as (C1 & C2 & C3 & C4).
    rewrite (links_cut h2 L Null (M ++ R) Null HL HMR).
    rewrite (links_cut h2 M Null R Null HM HR).
    replace (hd Null (M ++ R)) with (hd Null M) by (destruct M; [congruence|reflexivity]).
    apply nodup_app in NP. destruct NP as (N1 & N2 & N3).
    apply nodup_app in N2. destruct N2 as (N4 & N5 & N6).
    assert (Lin : In (last L Null) L) by (apply last_in; exact HL).
    assert (Rin : In (hd Null R) R) by (apply hd_in; exact HR).
    assert (Min1 : In (hd Null M) M) by (apply hd_in; exact HM).
    assert (Min2 : In (last M Null) M) by (apply last_in; exact HM).
    assert (LM : forall x, In x L -> ~ In x M) by (intros x H1 H2; apply (N3 x H1), in_app_iff; auto).
    assert (LR : forall x, In x L -> ~ In x R) by (intros x H1 H2; apply (N3 x H1), in_app_iff; auto).
    unfold left_of in *. fold L in HN, HP, J1, J2, J3, J4.
    split; [|split; [split; [|split; [|split]]|split]]; auto.
    - apply links_frame with (h := h); auto.
      + intros r Hr. apply (in_removelast _ Null) in Hr; auto. destruct Hr as (Hr1 & Hr2).
        apply HN; auto. intros ->. apply (LM _ Hr1 Min2).
      + intros r Hr. apply (in_tl _ Null) in Hr; auto. destruct Hr as (Hr1 & Hr2).
        apply HP; auto; intros ->; [apply (LR _ Hr1 Rin)|apply (LM _ Hr1 Min1)].
    - apply links_frame with (h := h); auto.
      + intros r Hr. apply (in_removelast _ Null) in Hr; auto. destruct Hr as (Hr1 & Hr2).
        apply HN; auto. intros ->. apply (LM _ Lin Hr1).
      + intros r Hr. apply (in_tl _ Null) in Hr; auto. destruct Hr as (Hr1 & Hr2).
        apply HP; auto. intros ->. apply (N6 _ Hr1 Rin).
    - apply links_frame with (h := h); auto.
      + intros r Hr. apply (in_removelast _ Null) in Hr; auto. destruct Hr as (Hr1 & Hr2).
        apply HN; intros ->; [apply (LR _ Lin Hr1)|apply (N6 _ Min2 Hr1)].
      + intros r Hr. apply (in_tl _ Null) in Hr; auto. destruct Hr as (Hr1 & Hr2).
        apply HP; auto. intros ->. apply (N6 _ Min1 Hr1).
  Qed.

  (** Taking the nodes [mid] out. *)
  Lemma unlink : forall h h2 o ns1 mid ns2,
    NoDup (ns1 ++ mid ++ ns2) ->
    chain h o (ns1 ++ mid ++ ns2) ->
    (forall r, r <> left_of o ns1 -> ~ In r (map Heap mid) -> nxt h2 r = nxt h r) ->
    (forall r, r <> head_of o ns2 -> ~ In r (map Heap mid) -> prv h2 r = prv h r) ->
    nxt h2 (left_of o ns1) = Some (head_of o ns2) ->
    prv h2 (head_of o ns2) = Some (left_of o ns1) ->
    chain h2 o (ns1 ++ ns2).
  Proof.
    intros h h2 o ns1 mid ns2 ND Ch HN HP J1 J2.
    apply chain_links in Ch. pose proof (nodup_path o _ ND) as NP.
    apply chain_links. rewrite !map_app in *. rewrite <- !app_assoc in *.
    change (PostFirst o :: map Heap ns1 ++ map Heap ns2 ++ [PostLast o])
      with ((PostFirst o :: map Heap ns1) ++ (map Heap ns2 ++ [PostLast o])).
    change (PostFirst o :: map Heap ns1 ++ map Heap mid ++ map Heap ns2 ++ [PostLast o])
      with ((PostFirst o :: map Heap ns1) ++ (map Heap mid ++ (map Heap ns2 ++ [PostLast o])))
      in *.
    rewrite (head_of_hd _ _ Null) in *.
    set (L := PostFirst o :: map Heap ns1) in *. set (R := map Heap ns2 ++ [PostLast o]) in *.
    set (M := map Heap mid) in *.
    assert (HL : L <> []) by discriminate.
    assert (HR : R <> []) by (unfold R; destruct ns2; discriminate).
    assert (HMR : M ++ R <> []) by (destruct M; [exact HR|discriminate]).
    rewrite (links_cut h L Null (M ++ R) Null HL HMR) in Ch. destruct Ch as (C1 & C2 & C3 & C4).
    assert (CR : links h R).
    { clear - C2 HR. destruct M as [|x M']; [exact C2|].
      apply (links_cut h (x :: M') Null R Null) in C2; [tauto|discriminate|exact HR]. }
    apply nodup_app in NP. destruct NP as (N1 & N2 & N3).
    apply nodup_app in N2. destruct N2 as (N4 & N5 & N6).
    assert (Lin : In (last L Null) L) by (apply last_in; exact HL).
    assert (Rin : In (hd Null R) R) by (apply hd_in; exact HR).
    assert (LM : forall x, In x L -> ~ In x M) by (intros x H1 H2; apply (N3 x H1), in_app_iff; auto).
    assert (LR : forall x, In x L -> ~ In x R) by (intros x H1 H2; apply (N3 x H1), in_app_iff; auto).
    assert (RM : forall x, In x R -> ~ In x M) by (intros x H1 H2; apply (N6 x H2 H1)).
    unfold left_of in *. fold L in HN, HP, J1, J2.
    rewrite (links_cut h2 L Null R Null HL HR).
    split; [|split; [|split]]; auto.
    - apply links_frame with (h := h); auto.
      + intros r Hr. apply (in_removelast _ Null) in Hr; auto. destruct Hr as (Hr1 & Hr2).
        apply HN; auto.
      + intros r Hr. apply (in_tl _ Null) in Hr; auto. destruct Hr as (Hr1 & Hr2).
        apply HP; auto. intros ->. apply (LR _ Hr1 Rin).
    - apply links_frame with (h := h); auto.
      + intros r Hr. apply (in_removelast _ Null) in Hr; auto. destruct Hr as (Hr1 & Hr2).
        apply HN; auto. intros ->. apply (LR _ Lin Hr1).
      + intros r Hr. apply (in_tl _ Null) in Hr; auto. destruct Hr as (Hr1 & Hr2).
        apply HP; auto.
  Qed.
End Steps.
