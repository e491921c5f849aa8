(** What PKCS#11 asks of a program that uses a module, and what a user of the wrapper expects,
    independently of the code. *)
From Coq Require Import List Arith Bool.
From Verif Require Import Pkcs11Model.
Import ListNotations.

(** Whether the module is initialised after these calls. *)
Definition after (b : bool) (e : event) : bool :=
  match e with
  | CInitialize _ ROk => true
  | CFinalize ROk => false
  | _ => b
  end.
Definition initialized (log : list event) : bool := fold_left after log false.

(** Every call but C_Initialize is made while the module is initialised. *)
Fixpoint disciplined (b : bool) (log : list event) : Prop :=
  match log with
  | [] => True
  | e :: log => match e with CInitialize _ _ => True | _ => b = true end
                /\ disciplined (after b e) log
  end.

Definition is_finalize (e : event) : bool := match e with CFinalize _ => true | _ => false end.
Definition is_initialize (e : event) : bool := match e with CInitialize _ _ => true | _ => false end.

(** The value a call returned tells of an error. *)
Definition holds_error (v : presult) : Prop :=
  match v with
  | VInfo (EError _) | VFunctions (EError _) | VIfaces (EError _) | VCount (EError _)
  | VSlots (EError _) | VSlotInfo (EError _) => True
  | _ => False
  end.

(** The module keeps to the sizes it announced. *)
Definition answers_fit (c : pcall) : Prop :=
  match c with
  | PInit _ a =>
      match ia_ifaces a with
      | Some (_, count, (_, stored)) => length stored <= count
      | None => True
      end
  | _ => True
  end.

(** The number of Slot objects a history makes, and that it uses only those. *)
Fixpoint slots_exist (n : nat) (cs : list pcall) : Prop :=
  match cs with
  | [] => True
  | c :: cs =>
      match c with PSlotInfo k _ _ | PWait k _ _ => k < n | _ => True end
      /\ slots_exist (match c with PSlot _ => S n | _ => n end) cs
  end.

(** The ids the Slot objects were made with. *)
Definition made_ids (cs : list pcall) : list nat :=
  flat_map (fun c => match c with PSlot id => [id] | _ => [] end) cs.

(** No event came from another slot than the one the object stands for. *)
Fixpoint own_events (ids : list nat) (cs : list pcall) : Prop :=
  match cs with
  | [] => True
  | c :: cs =>
      match c with
      | PWait k ROk i => nth_error ids k = Some i
      | _ => True
      end
      /\ own_events (match c with PSlot id => ids ++ [id] | _ => ids end) cs
  end.

(** * InitializeArgs: values; after a move the value of the source is not specified. *)
Definition gspec_step (w : list (option iargs)) (c : gcall) : list (option iargs) :=
  let at_ k := match nth_error w k with Some a => a | None => None end in
  let put k a := firstn k w ++ a :: skipn (S k) w in
  match c with
  | GNew a => w ++ [Some a]
  | GCopy p => w ++ [at_ p]
  | GMove p => put p None ++ [at_ p]
  | GAssign v p => put v (at_ p)
  | GMoveAssign v p => if v =? p then w
                       else let w' := firstn v w ++ at_ p :: skipn (S v) w in
                            firstn p w' ++ None :: skipn (S p) w'
  | GSetCallbacks v cs =>
      put v (match at_ v with Some a => Some (IArgs cs (g_flags a) (g_reserved a)) | None => None end)
  end.
Definition gspec (cs : list gcall) : list (option iargs) := fold_left gspec_step cs [].

(** The objects a call names exist, and no object is moved into itself. *)
Definition g_valid (n : nat) (c : gcall) : Prop :=
  match c with
  | GNew _ => True
  | GCopy p | GMove p => p < n
  | GAssign v p => v < n /\ p < n
  | GMoveAssign v p => v < n /\ p < n /\ v <> p
  | GSetCallbacks v _ => v < n
  end.
Fixpoint g_ok (n : nat) (cs : list gcall) : Prop :=
  match cs with
  | [] => True
  | c :: cs => g_valid n c
               /\ g_ok (match c with GNew _ | GCopy _ | GMove _ => S n | _ => n end) cs
  end.

(** A library was created and these calls were made on it; there is memory, and the module keeps
    to the sizes it announced. *)
Definition history (mem : VectorModel.memory) (fuel : nat) (cs : list pcall) (w : pworld)
    (vs : list presult) : Prop :=
  mem <> VectorModel.NoMemory /\ Forall answers_fit cs /\ slots_exist 0 cs
  /\ prun mem (S fuel) pw_start cs = Base.Ok (w, vs).

(** The library hands out its function list: an initialisation has succeeded. *)
Definition usable (w : pworld) : Prop := get_functions (w_lib w) = EResult tt.

(** The calls that are for the module itself, C_Initialize apart: finalize, and what is asked of
    slots.  The others only hand out what the library holds. *)
Definition asks_module (c : pcall) : bool :=
  match c with
  | PFinalize _ | PSlotCount _ _ | PSlotList _ _ _ _ | PSlotInfo _ _ _ | PWait _ _ _ => true
  | PInit _ _ | PInfo | PFunctions | PIfaces | PSlot _ => false
  end.

(** How many calls of C_Finalize a history with these results asks for, [works]: an initialisation
    has already succeeded.  Each finalize after the first successful initialize is one. *)
Fixpoint finalizes (works : bool) (cs : list pcall) (vs : list presult) : nat * bool :=
  match cs, vs with
  | PInit _ _ :: cs, VRv r :: vs => finalizes (match r with ROk => true | _ => works end) cs vs
  | PFinalize _ :: cs, _ :: vs =>
      let '(n, b) := finalizes works cs vs in (if works then S n else n, b)
  | _ :: cs, _ :: vs => finalizes works cs vs
  | _, _ => (0, works)
  end.

(** The slots that the Slot objects stand for: the one each was made for, or the one in which an
    event occurred that the object waited for, with success and after an initialize that succeeded. *)
Fixpoint stand_for (works : bool) (ids : list nat) (cs : list pcall) (vs : list presult) : list nat :=
  match cs, vs with
  | PInit _ _ :: cs, VRv r :: vs => stand_for (match r with ROk => true | _ => works end) ids cs vs
  | PSlot id :: cs, _ :: vs => stand_for works (ids ++ [id]) cs vs
  | PWait k ROk i :: cs, _ :: vs =>
      stand_for works (if works then firstn k ids ++ i :: skipn (S k) ids else ids) cs vs
  | _ :: cs, _ :: vs => stand_for works ids cs vs
  | _, _ => ids
  end.
