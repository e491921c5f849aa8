(** What a user of the software PKCS#11 module may expect, independently of the code. *)
From Coq Require Import List Arith Bool.
From Verif Require Import Base SoftPkcs11Model.
Import ListNotations.

(** An object has a context. *)
Definition has_context (w : sworld) (v k : nat) : Prop :=
  exists m, s_vars w v = Some m /\ m_context m = Some k.

Definition created (k : nat) (log : list event) : Prop := In (ECreate k) log.

(** How often a context was destroyed. *)
Fixpoint destroyed (k : nat) (log : list event) : nat :=
  match log with
  | [] => 0
  | EDestroy (Some j) :: log => (if j =? k then 1 else 0) + destroyed k log
  | _ :: log => destroyed k log
  end.

(** The context a call is about. *)
Definition about (e : event) : option nat :=
  match e with
  | ECreate k => Some k
  | EDestroy c | ELock c | EUnlock c => c
  end.

(** Every context that is used exists: it was created before and not destroyed before (the
    newest call is at the head). *)
Fixpoint used_while_alive (log : list event) : Prop :=
  match log with
  | [] => True
  | ECreate k :: log => ~ created k log /\ used_while_alive log
  | e :: log =>
      match about e with
      | Some k => created k log /\ destroyed k log = 0
      | None => True
      end /\ used_while_alive log
  end.

(** No move assignments in a history. *)
Definition no_assign (h : list scall) : Prop :=
  Forall (fun c => match c with SAssign _ _ => False | _ => True end) h.

(** PKCS#11, 5.2: functions that return a variable number of values: with no buffer the count
    is stored; with a buffer that is too small, CKR_BUFFER_TOO_SMALL and the count; otherwise
    the values and the count. [n]: how many elements the caller said the buffer has. *)
Definition CKR_BUFFER_TOO_SMALL : status := 336.
Definition list_convention {I : Type} (all : list I) (buffer : option (list I)) (n : nat)
  : status * option (list I) * nat :=
  match buffer with
  | None => (CKR_OK, None, length all)
  | Some b =>
      if n <? length all then (CKR_BUFFER_TOO_SMALL, buffer, length all)
      else (CKR_OK, Some (all ++ skipn (length all) b), length all)
  end.

(** A text field of PKCS#11 ("blank padded" in pkcs11t.h): the text, then blanks. *)
Definition blank_padded (n : nat) (text field : list nat) : Prop :=
  field = text ++ repeat 32 (n - length text).

(** The life cycle of a module in PKCS#11: whether it is initialised, and what a call is to
    return. *)
Definition CKR_CRYPTOKI_NOT_INITIALIZED : status := 400.
Definition CKR_CRYPTOKI_ALREADY_INITIALIZED : status := 401.
Definition life (initialised : bool) (c : gcall) : bool :=
  match c with GInitialize _ => true | GFinalize => false | GGetInfo => initialised end.
Definition life_answer (initialised : bool) (c : gcall) : status :=
  match c, initialised with
  | GInitialize _, false => CKR_OK
  | GInitialize _, true => CKR_CRYPTOKI_ALREADY_INITIALIZED
  | _, true => CKR_OK
  | _, false => CKR_CRYPTOKI_NOT_INITIALIZED
  end.
Fixpoint life_answers (initialised : bool) (cs : list gcall) : list status :=
  match cs with
  | [] => []
  | c :: cs => life_answer initialised c :: life_answers (life initialised c) cs
  end.
(** The application makes no mistake: no call is to fail. *)
Definition proper (cs : list gcall) : Prop := Forall (fun r => r = CKR_OK) (life_answers false cs).
