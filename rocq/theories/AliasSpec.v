(** Specification for C217: what adding an element or a part of a container to the container
    itself means on sequences, and the states the theorems are about. *)
From Coq Require Import List Arith Bool.
From Verif Require Import Base Store StaticVectorModel StaticVectorSpec VectorModel VectorSpec
  StringModel StringSpec CircularArrayModel CircularArraySpec.
Import ListNotations.

(** The elements from position [b] up to position [e]. *)
Definition part {A} (b e : nat) (l : list A) : list A := firstn (e - b) (skipn b l).

(** A StaticVector of capacity [cap] that some calls of a user have brought to the sequence [l].
    With element types that have lifetimes an inner range erase is not among them. *)
Definition sv_reached {A} (m : mode) (moved : A -> A) (dflt : A) (cap : nat) (v : svec A)
    (l : list A) : Prop :=
  exists ops, valid cap [] ops /\ (m = Trivial \/ along tail_range cap [] ops)
    /\ sv_run m moved dflt (sv_new cap) ops = Ok v /\ l = spec_run cap ops.

(** The same for a Vector: memory is there when it is asked for. *)
Definition vec_reached {A} (m : mode) (moved : A -> A) (dflt : A) (mem : memory) (v : vec A)
    (l : list A) : Prop :=
  mem <> NoMemory
  /\ exists ops fuel, vec_along dflt vec_valid 0 [] ops
    /\ (m = Trivial \/ vec_along dflt (fun _ => vec_tail_range) 0 [] ops)
    /\ depth ops <= fuel
    /\ vec_run m moved dflt mem fuel vec_new ops = Ok v /\ l = seq_run dflt ops.

(** The same for a CircularArray. *)
Definition ca_reached {A} (m : mode) (cap : nat) (c : circ A) (q : list A) : Prop :=
  exists ops, (m = Trivial \/ cleans_empty cap [] ops)
    /\ ca_run m (ca_new cap) ops = Ok c /\ q = q_run cap ops.

(** The same for a String: [l] its characters, [c] its capacity. *)
Definition str_reached {A} (nul : A) (is_nul : A -> bool) (s : str A) (l : list A) (c : nat) : Prop :=
  exists ctor os fuel, ctor_documented is_nul ctor
    /\ str_documented_run is_nul (str_seq_ctor is_nul ctor) os
    /\ str_cap_run is_nul (str_seq_ctor is_nul ctor) (str_cap_ctor is_nul ctor) os = Some c
    /\ 4 <= fuel
    /\ str_history nul is_nul fuel ctor os = Ok s
    /\ l = str_seq_run is_nul (str_seq_ctor is_nul ctor) os.

(** The characters from position [k] on, up to a terminator if there is one among them: what the C
    string data() + k is. *)
Definition tail_text {A} (is_nul : A -> bool) (k : nat) (l : list A) : list A :=
  before_nul is_nul (skipn k l).
