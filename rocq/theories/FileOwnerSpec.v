(** Who is responsible for a descriptor, as a user of file streams sees it. *)
From Coq Require Import List Arith ZArith Bool.
From Verif Require Import Base FileOwnerModel.
Import ListNotations.
Local Open Scope Z_scope.

(** A descriptor is closed, or the rest of the program is responsible for it, or the stream
    object [v], or it is open and nobody is. *)
Inductive holder := Closed | User | Stream (v : nat) | Lost.
Record duty := Duty { d_who : Z -> holder; d_alive : nat -> bool }.

Definition holds_fd (d : duty) (v : nat) (fd : Z) : Prop := d_who d fd = Stream v.

(** What [v] is responsible for becomes [x]. *)
Definition pass (who : Z -> holder) (v : nat) (x : holder) : Z -> holder :=
  fun fd => match who fd with
            | Stream u => if Nat.eqb u v then x else Stream u
            | y => y
            end.
Definition give (who : Z -> holder) (fd : Z) (owner : bool) (v : nat) : Z -> holder :=
  if owner && (0 <=? fd) then setz who fd (Stream v) else who.

Definition duty_step (d : duty) (c : fcall) : duty :=
  match c with
  | FDefault v => Duty (d_who d) (setv (d_alive d) v true)
  | FFrom v fd owner => Duty (give (d_who d) fd owner v) (setv (d_alive d) v true)
  | FMove v p => Duty (pass (d_who d) p (Stream v)) (setv (d_alive d) v true)
  | FMoveAssign v p =>
      Duty (if Nat.eqb v p then pass (d_who d) v Lost
            else pass (pass (d_who d) v Lost) p (Stream v)) (d_alive d)
  | FSet v fd owner => Duty (give (pass (d_who d) v Closed) fd owner v) (d_alive d)
  | FGet v continueOwning =>
      Duty (if continueOwning then d_who d else pass (d_who d) v User) (d_alive d)
  | FDestroy v => Duty (pass (d_who d) v Closed) (setv (d_alive d) v false)
  | UOpen fd => Duty (setz (d_who d) fd User) (d_alive d)
  | UClose fd => Duty (setz (d_who d) fd Closed) (d_alive d)
  end.

(** Calls for which responsibility is respected: only a descriptor the program is responsible
    for is handed to a stream as its own; a stream that does not own its descriptor is not told
    to continue owning it. *)
Definition duty_proper (d : duty) (c : fcall) : Prop :=
  match c with
  | FDefault v => d_alive d v = false
  | FFrom v fd owner =>
      d_alive d v = false /\ (owner = true -> fd = -1 \/ d_who d fd = User)
  | FMove v p => d_alive d v = false /\ d_alive d p = true
  | FMoveAssign v p => d_alive d v = true /\ d_alive d p = true
  | FSet v fd owner => d_alive d v = true /\ (owner = true -> fd = -1 \/ d_who d fd = User)
  | FGet v continueOwning =>
      d_alive d v = true /\ (continueOwning = true -> exists fd, holds_fd d v fd)
  | FDestroy v => d_alive d v = true
  | UOpen fd => 0 <= fd /\ d_who d fd = Closed
  | UClose fd => d_who d fd = User \/ d_who d fd = Lost
  end.

(** Nothing is assigned to a stream that owns a descriptor. *)
Definition spares_owners (d : duty) (c : fcall) : Prop :=
  match c with FMoveAssign v p => forall fd, ~ holds_fd d v fd | _ => True end.

Definition duty_start : duty := Duty (fun _ => Closed) (fun _ => false).

Fixpoint duties (d : duty) (h : list fcall) : duty :=
  match h with
  | [] => d
  | c :: h => duties (duty_step d c) h
  end.
Fixpoint all_proper (d : duty) (h : list fcall) : Prop :=
  match h with
  | [] => True
  | c :: h => duty_proper d c /\ all_proper (duty_step d c) h
  end.

Fixpoint all_spare (d : duty) (h : list fcall) : Prop :=
  match h with
  | [] => True
  | c :: h => spares_owners d c /\ all_spare (duty_step d c) h
  end.

(** * Files of named pipes *)

(** The writers that exist, with the file each made and whether it is to delete it; and the
    files that exist. *)
Record pduty := PDuty { pd_writers : nat -> option (list Z * bool); pd_files : list Z -> bool }.

Definition pduty_step (d : pduty) (c : pcall) : pduty :=
  match c with
  | PNamed v name del _ =>
      PDuty (setv (pd_writers d) v (Some (name, del))) (setf (pd_files d) name true)
  | PDestroy v =>
      PDuty (setv (pd_writers d) v None)
        (match pd_writers d v with
         | Some (name, true) => setf (pd_files d) name false
         | _ => pd_files d
         end)
  | _ => d
  end.

(** Only constructions from a name, and destructions. *)
Definition pduty_proper (d : pduty) (c : pcall) : Prop :=
  match c with
  | PNamed v _ _ fd => pd_writers d v = None
  | PDestroy v => pd_writers d v <> None
  | _ => False
  end.

Fixpoint pduties (d : pduty) (h : list pcall) : pduty :=
  match h with
  | [] => d
  | c :: h => pduties (pduty_step d c) h
  end.
Fixpoint all_pproper (d : pduty) (h : list pcall) : Prop :=
  match h with
  | [] => True
  | c :: h => pduty_proper d c /\ all_pproper (pduty_step d c) h
  end.
