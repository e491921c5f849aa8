(** What byte ranges and a byte stream are, on mathematical lists. *)
From Coq Require Import List Arith ZArith.
From Verif Require Import StreamModel.
Import ListNotations.

(** The places a range consists of, in order. [n] is the size of the memory (the ring). A
    circular range from [b] to [e] goes around the ring; it is empty when [b = e]. *)
Definition places (n : nat) (r : brange) : list nat :=
  match r with
  | Linear b e => seq b (e - b)
  | Circular b e => map (fun i => (b + i) mod n) (seq 0 ((e + n - b) mod n))
  end.

Definition in_memory (n : nat) (r : brange) : Prop :=
  match r with
  | Linear b e => b <= e <= n
  | Circular b e => b < n /\ e < n
  end.

(** The bytes of a range. *)
Definition bytes_of (memory : list Z) (r : brange) : list Z :=
  map (fun i => nth i memory 0%Z) (places (length memory) r).

(** [memory'] is [memory] with the first bytes of the range replaced by [xs]. *)
Definition filled (memory : list Z) (r : brange) (xs memory' : list Z) : Prop :=
  length memory' = length memory
  /\ (forall i p x, nth_error (places (length memory) r) i = Some p ->
        nth_error xs i = Some x -> nth_error memory' p = Some x)
  /\ (forall p, ~ In p (firstn (length xs) (places (length memory) r)) ->
        nth_error memory' p = nth_error memory p).

(** One call on a stream holding [q]: what it leaves in the stream, and what it shows. *)
Definition stream_step (q : list Z) (c : ram_call) (q' : list Z) (shown : list Z * nat) : Prop :=
  match c with
  | RWrite src r => q' = q ++ bytes_of src r /\ shown = (src, length (bytes_of src r))
  | RRead out r =>
      let k := Nat.min (length (places (length out) r)) (length q) in
      q' = skipn k q /\ snd shown = k /\ filled out r (firstn k q) (fst shown)
  | RFlush => q' = q
  end.

Fixpoint stream_run (q : list Z) (h : list ram_call) (shown : list (list Z * nat)) : Prop :=
  match h, shown with
  | [], [] => True
  | c :: h, r :: shown => exists q', stream_step q c q' r /\ stream_run q' h shown
  | _, _ => False
  end.

(** All bytes handed to the stream by a history, and all it gave back. *)
Fixpoint all_written (h : list ram_call) : list Z :=
  match h with
  | [] => []
  | RWrite src r :: h => bytes_of src r ++ all_written h
  | _ :: h => all_written h
  end.
Fixpoint all_read (h : list ram_call) (shown : list (list Z * nat)) : list Z :=
  match h, shown with
  | RRead out r :: h, (out', k) :: shown => firstn k (bytes_of out' r) ++ all_read h shown
  | _ :: h, _ :: shown => all_read h shown
  | _, _ => []
  end.

Definition call_in_memory (c : ram_call) : Prop :=
  match c with
  | RWrite m r | RRead m r => in_memory (length m) r
  | RFlush => True
  end.
