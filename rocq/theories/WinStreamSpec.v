(** Who is responsible for a handle, as a user of pipes sees it. (For file streams this is said
    in [FileOwnerSpec].) *)
From Coq Require Import List Arith ZArith Bool.
From Verif Require Import Base FileOwnerModel FileOwnerSpec WinStreamModel.
Import ListNotations.
Local Open Scope Z_scope.

(** * PipeStream *)

(** A descriptor is closed, or the rest of the program is responsible for it, or the pipe [v],
    as its reading or its writing end, or it is open and nobody is. *)
Inductive qholder := QClosed | QUser | QReading (v : nat) | QWriting (v : nat) | QLost.
Definition qholder_eqb (a b : qholder) : bool :=
  match a, b with
  | QClosed, QClosed | QUser, QUser | QLost, QLost => true
  | QReading v, QReading u | QWriting v, QWriting u => Nat.eqb v u
  | _, _ => false
  end.
(** [qd_told v]: getStatus() may be asked. *)
Record qduty := QDuty { qd_who : Z -> qholder; qd_alive : nat -> bool; qd_told : nat -> bool }.

(** Whatever [x] was responsible for, [y] is now. *)
Definition qpass (who : Z -> qholder) (x y : qholder) : Z -> qholder :=
  fun fd => if qholder_eqb (who fd) x then y else who fd.
Definition qgive (who : Z -> qholder) (fd : Z) (owner : bool) (x : qholder) : Z -> qholder :=
  if owner && (0 <=? fd) then setz who fd x else who.

Definition qduty_step (d : qduty) (c : qcall) : qduty :=
  let who := qd_who d in
  let alive := qd_alive d in
  let told := qd_told d in
  match c with
  | QDefault v None => QDuty who (setv alive v true) (setv told v true)
  | QDefault v (Some (a, b)) =>
      QDuty (setz (setz who a (QReading v)) b (QWriting v)) (setv alive v true) (setv told v true)
  | QFrom v r rown wr wown =>
      QDuty (qgive (qgive who r rown (QReading v)) wr wown (QWriting v)) (setv alive v true) (setv told v true)
  | QMove v p =>
      QDuty (qpass (qpass who (QReading p) (QReading v)) (QWriting p) (QWriting v)) (setv alive v true) (setv told v false)
  | QAssign v p =>
      let lost := qpass (qpass who (QReading v) QLost) (QWriting v) QLost in
      QDuty (if Nat.eqb v p then lost
             else qpass (qpass lost (QReading p) (QReading v)) (QWriting p) (QWriting v)) alive (setv told v true)
  | QSetReader v fd owner => QDuty (qgive (qpass who (QReading v) QClosed) fd owner (QReading v)) alive told
  | QSetWriter v fd owner => QDuty (qgive (qpass who (QWriting v) QClosed) fd owner (QWriting v)) alive told
  | QGetReader v co => QDuty (if co then who else qpass who (QReading v) QUser) alive told
  | QGetWriter v co => QDuty (if co then who else qpass who (QWriting v) QUser) alive told
  | QStatus v => d
  | QDestroy v => QDuty (qpass (qpass who (QReading v) QClosed) (QWriting v) QClosed) (setv alive v false) told
  | QUserOpen fd => QDuty (setz who fd QUser) alive told
  | QUserClose fd => QDuty (setz who fd QClosed) alive told
  end.

(** As for file streams: a pipe is given what the program is responsible for; a pipe that was
    constructed by moving is not asked for its status. The system makes a pipe of two descriptors that were closed. *)
Definition qduty_proper (d : qduty) (c : qcall) : Prop :=
  match c with
  | QDefault v made =>
      qd_alive d v = false
      /\ match made with
         | Some (a, b) => a <> b /\ 0 <= a /\ 0 <= b /\ qd_who d a = QClosed /\ qd_who d b = QClosed
         | None => True
         end
  | QFrom v r rown wr wown =>
      qd_alive d v = false /\ (rown = true -> r = -1 \/ qd_who d r = QUser)
      /\ (wown = true -> wr = -1 \/ qd_who d wr = QUser) /\ r <> wr
  | QMove v p => qd_alive d v = false /\ qd_alive d p = true
  | QAssign v p => qd_alive d v = true /\ qd_alive d p = true
  | QSetReader v fd owner | QSetWriter v fd owner =>
      qd_alive d v = true /\ (owner = true -> fd = -1 \/ qd_who d fd = QUser)
  | QGetReader v co => qd_alive d v = true /\ (co = true -> exists fd, qd_who d fd = QReading v)
  | QGetWriter v co => qd_alive d v = true /\ (co = true -> exists fd, qd_who d fd = QWriting v)
  | QStatus v => qd_alive d v = true /\ qd_told d v = true
  | QDestroy v => qd_alive d v = true
  | QUserOpen fd => 0 <= fd /\ qd_who d fd = QClosed
  | QUserClose fd => qd_who d fd = QUser \/ qd_who d fd = QLost
  end.

(** Nothing is assigned to a pipe that has ends of its own. *)
Definition spares_pipes (d : qduty) (c : qcall) : Prop :=
  match c with QAssign v p => forall fd, qd_who d fd <> QReading v /\ qd_who d fd <> QWriting v | _ => True end.

Definition qduty_start : qduty := QDuty (fun _ => QClosed) (fun _ => false) (fun _ => false).
Fixpoint qduties (d : qduty) (h : list qcall) : qduty :=
  match h with
  | [] => d
  | c :: h => qduties (qduty_step d c) h
  end.
Fixpoint all_qproper (d : qduty) (h : list qcall) : Prop :=
  match h with
  | [] => True
  | c :: h => qduty_proper d c /\ all_qproper (qduty_step d c) h
  end.

Fixpoint all_qspare (d : qduty) (h : list qcall) : Prop :=
  match h with
  | [] => True
  | c :: h => spares_pipes d c /\ all_qspare (qduty_step d c) h
  end.

(** * Named pipes *)

(** What a call means for the responsibility, in terms of file streams: an object that makes a
    handle is given it as its owner. *)
Definition as_file_calls (c : ncall) : list fcall :=
  match c with
  | NDefault v _ => [FDefault v]
  | NNamed v _ _ fd => if fd =? -1 then [FDefault v] else [UOpen fd; FFrom v fd true]
  | NMove v p => [FMove v p]
  | NAssign v p => [FMoveAssign v p]
  | NOpen v _ fd _ => FSet v (-1) false :: (if fd =? -1 then [] else [UOpen fd; FSet v fd true])
  | NSet v fd owner => [FSet v fd owner]
  | NGet v co => [FGet v co]
  | NDestroy v => [FDestroy v]
  | NUserOpen fd _ => [UOpen fd]
  | NUserClose fd => [UClose fd]
  end.

(** The variables have types, [kind]. Only construction from a name, moving, open, destruction,
    and what the rest of the program does. *)
Definition plain (kind : nat -> nkind) (c : ncall) : Prop :=
  match c with
  | NNamed v k _ fd => k = kind v /\ -1 <= fd
  | NMove v p | NAssign v p => kind v = kind p
  | NOpen v _ fd _ => -1 <= fd
  | NDestroy _ | NUserOpen _ _ | NUserClose _ => True
  | NDefault _ _ | NSet _ _ _ | NGet _ _ => False
  end.
