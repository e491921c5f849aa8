(** What visiting a sequence backwards should do, on mathematical lists. *)
From Coq Require Import List Arith.
From Verif Require Import Base Store StaticVectorModel VectorModel StringModel BackwardModel.
Import ListNotations.

(** The body of a loop run once for each element of [l], in that order: the final state of the
    caller, and the list with every element replaced by what the body made of it. *)
Fixpoint each {A St} (body : St -> A -> St * A) (s : St) (l : list A) : St * list A :=
  match l with
  | [] => (s, [])
  | x :: t =>
      let s1 := fst (body s x) in
      let r := each body s1 t in
      (fst r, snd (body s x) :: snd r)
  end.

(** The same from the last element to the first. *)
Definition each_back {A St} (body : St -> A -> St * A) (s : St) (l : list A) : St * list A :=
  let r := each body s (rev l) in (fst r, rev (snd r)).

(** The elements of a container, from begin() to end(). *)
Definition contents {A} (b : buffer A) : outcome (list A) :=
  match b with
  | BArray a => load_range (length a) 0 (St a 0)
  | BStatic v => sv_elements v
  | BVector v => vec_elements v
  | BString s => str_chars s
  end.

(** Nothing but the values of elements differs. *)
Definition same_shape {A} (b c : buffer A) : Prop :=
  match b, c with
  | BArray a, BArray a' => length a' = length a
  | BStatic v, BStatic v' => sv_tail v' = sv_tail v /\ sv_capacity v' = sv_capacity v
      /\ skipn (sv_tail v) (st_cells (sv_store v')) = skipn (sv_tail v) (st_cells (sv_store v))
  | BVector v, BVector v' => vc_tail v' = vc_tail v /\ vc_capacity v' = vc_capacity v
      /\ skipn (vc_tail v) (st_cells (vc_store v')) = skipn (vc_tail v) (st_cells (vc_store v))
  | BString s, BString s' => s_tail s' = s_tail s /\ s_cap s' = s_cap s
      /\ (s_buf s = None -> s_buf s' = None)
      /\ (forall b, s_buf s = Some b -> exists b', s_buf s' = Some b'
            /\ skipn (s_tail s) b' = skipn (s_tail s) b)
  | _, _ => False
  end.
