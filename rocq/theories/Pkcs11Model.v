(** Model of the PKCS#11 wrapper: Pkcs11Library and Slot
    (/repo/src/Crypto/Pkcs11/Pkcs11.cpp, /repo/src/Crypto/Pkcs11/Slot.cpp, declared in
    /repo/include/FlameIDE/Crypto/Pkcs11/Pkcs11.hpp 63-200) and the initialisation arguments
    (/repo/src/Crypto/Pkcs11/InitializeArgs.cpp).

    The token library the wrapper drives (the "module") is not part of the code: each call below
    carries what the module answers, and the theorems quantify over all answers. The calls the
    wrapper makes into the module are recorded in [p_log].

    Simplifications. One library object is modelled, from construction to destruction (the shared
    pointer that owns it is modelled in PointersModel, its base class os::Library in
    LibraryModel); whether a symbol is found is part of the module's answer. Structures filled in
    by the module (CK_INFO, CK_SLOT_INFO, CK_INTERFACE) are single numbers, 0 is the
    default-constructed one. A module that answers CKR_OK to C_GetFunctionList gives a valid
    list. *)
From Coq Require Import List Arith Bool.
From Verif Require Import Base Store StaticVectorModel VectorModel.
Import ListNotations.

(** pkcs11::enums::ReturnType, the values the wrapper itself uses and any other. *)
Inductive rv := ROk | RNotInitialized | RNotSupported | RTooSmall | ROther (code : nat).
(** The comparison with enums::ReturnType::OK, as in Pkcs11.cpp 38-70. *)
Definition is_ok (r : rv) : bool := match r with ROk => true | _ => false end.
(** The comparison with enums::ReturnType::FUNCTION_NOT_SUPPORTED, as in Pkcs11.cpp 253-288. *)
Definition is_not_supported (r : rv) : bool := match r with RNotSupported => true | _ => false end.

(** * Pkcs11Expected: templates::Expected<Struct, ReturnType>

    The contents of the variant in it: nothing, a result or an error
    (/repo/include/FlameIDE/Templates/Expected.hpp, modelled in ExpectedModel). *)
Inductive expected (A : Type) := ENone | EResult (a : A) | EError (r : rv).
Arguments ENone {A}.
Arguments EResult {A}.
Arguments EError {A}.

(** operator=(const Result &) and operator=(Result &&), Expected.hpp 99-113. *)
Definition assign_result {A} (e : expected A) (a : A) : expected A := EResult a.
(** operator=(const Error &), Expected.hpp 115-121: the overload chosen for every error the
    wrapper assigns, as each is a named object. It moves a const error into the variant, which
    looks for the type [const Error] among its types, does not find it and is left empty
    ([te_set_const_error] in ExpectedModel; C62_assign_const_error_refuted proves that no
    handler is called afterwards). *)
Definition assign_error {A} (e : expected A) (r : rv) : expected A := ENone.

(** createPkcs11Expected, Pkcs11.hpp 68-82. *)
Definition create_expected {A} (value : A) (error : rv) : expected A :=
  if is_ok error then assign_result ENone value else assign_error ENone error.

(** ifResult(f).ifError(g), Expected.hpp 132-181: at most one of the handlers runs; [none] is the
    value when neither does. *)
Definition handle {A B} (e : expected A) (f : A -> B) (g : rv -> B) (none : B) : B :=
  match e with
  | EResult a => f a
  | EError r => g r
  | ENone => none
  end.

(** * The module *)

(** The calls the wrapper makes through the function list, with what was passed that matters and
    what the module returned. As in Pkcs11.cpp 38-304, Slot.cpp 39-86. *)
Inductive event :=
| CInitialize (args : list nat) (r : rv)
| CGetInfo (r : rv)
| CFinalize (r : rv)
| CGetSlotList (r : rv)
| CGetSlotInfo (id : nat) (r : rv)
| CWaitForSlotEvent (r : rv).

(** What the module answers while initialize() runs. [ia_functions], [ia_ifaces]: [None] if the
    library does not export C_GetFunctionList, C_GetInterfaceList. [ia_ifaces]: the answer to the
    first call and the count it stored, the answer to the second call and the interfaces it
    stored. For Pkcs11.cpp 228-304. *)
Record init_answers := IA {
  ia_functions : option rv;
  ia_ifaces : option (rv * nat * (rv * list nat));
  ia_init : rv;
  ia_info : rv * nat
}.

(** C_GetSlotList with a null buffer, as PKCS#11 (5.5.1) defines it: the number of slots. [r] is
    the module's answer if it fails for a reason of its own. *)
Definition c_slot_count (r : rv) (slots : list nat) : rv * nat :=
  if is_ok r then (ROk, length slots) else (r, 0).

(** C_GetSlotList with a buffer ([None]: null) that has room for [room] ids: what is stored in the
    buffer. For Pkcs11.cpp 183-224. *)
Definition c_slot_list (r : rv) (slots : list nat) (buffer : option nat) : rv * list nat :=
  if is_ok r then
    match buffer with
    | Some room => if room <? length slots then (RTooSmall, []) else (ROk, slots)
    | None => (ROk, [])
    end
  else (r, []).

(** * Pkcs11Library *)

(** The members (Pkcs11.hpp 157-161). [p_functions]: the function list has been copied (before
    that all its pointers are null). [p_ifaces]: the vector of interfaces, with a number that
    tells the vectors that were ever stored there apart. [p_next]: the next such number. *)
Record plib := PLib {
  p_status : rv;
  p_functions : bool;
  p_ifaces : expected (nat * vec nat);
  p_info : nat;
  p_next : nat;
  p_log : list event
}.

Section Pkcs11.
  (** What malloc and realloc do (see VectorModel). *)
  Variable mem : memory.

  (** The constructor, Pkcs11.cpp 14-16, and the member initialisers,
      Pkcs11.hpp 157-161. *)
  Definition plib_new : plib := PLib RNotInitialized false ENone 0 0 [].

  (** Of the model: one more call is recorded. *)
  Definition set_log (l : plib) (e : event) : plib :=
    PLib (p_status l) (p_functions l) (p_ifaces l) (p_info l) (p_next l) (p_log l ++ [e]).
  (** Of the model: an assignment to the member. *)
  Definition set_ifaces (l : plib) (e : expected (nat * vec nat)) (next : nat) : plib :=
    PLib (p_status l) (p_functions l) e (p_info l) next (p_log l).

  (** A call through the function list: undefined while its pointers are null. As in Pkcs11.cpp
      38-304. *)
  Definition call (l : plib) (e : event) : outcome plib :=
    if p_functions l then Ok (set_log l e) else UB.

  (** Writing to the buffer of a vector through data() (Vector.hpp 526-536): the cells are
      written whether or not the vector counts them as elements. *)
  Fixpoint write_cells (c : cells nat) (xs : list nat) : outcome (cells nat) :=
    match xs, c with
    | [], _ => Ok c
    | x :: xs, _ :: c => let! c := write_cells c xs in Ok (Some x :: c)
    | _ :: _, [] => UB
    end.
  (** As in Pkcs11.cpp 253-288. *)
  Definition fill (v : vec nat) (xs : list nat) : outcome (vec nat) :=
    let! c := write_cells (st_cells (vc_store v)) xs in
    Ok (Vec (SVec (St c (st_leaks (vc_store v))) (vc_tail v)) (vc_capacity v)).

  (** initializeFunctionList, Pkcs11.cpp 228-251. *)
  Definition initialize_functions (l : plib) (a : option rv) : plib * rv :=
    match a with
    | None => (l, p_status l)
    | Some r =>
        if is_ok r then
          (PLib (p_status l) true (p_ifaces l) (p_info l) (p_next l) (p_log l), r)
        else (l, r)
    end.

  (** initializeInterfaceList, Pkcs11.cpp 253-288. *)
  Definition initialize_ifaces (l : plib) (a : option (rv * nat * (rv * list nat)))
    : outcome (plib * rv) :=
    match a with
    | None => Ok (l, RNotSupported)
    | Some (r1, count, (r2, stored)) =>
        if is_ok r1 then
          if count =? 0 then Ok (l, r1)
          else
            let! list := vec_reserve Trivial mem vec_new count in
            let! list := fill list stored in
            if is_ok r2 then
              Ok (set_ifaces l (assign_result (p_ifaces l) (p_next l, list)) (S (p_next l)), r2)
            else Ok (set_ifaces l (assign_error (p_ifaces l) r2) (p_next l), r2)
        else Ok (l, r1)
    end.

  (** initialize, Pkcs11.cpp 38-70, with initializeMain, 290-296, and initializeInfo, 298-304. *)
  Definition initialize (l : plib) (args : list nat) (a : init_answers) : outcome (plib * rv) :=
    let '(l, r) := initialize_functions l (ia_functions a) in
    if negb (is_ok r) then Ok (l, r)
    else
      let! (l, r) := initialize_ifaces l (ia_ifaces a) in
      if negb (is_ok r) && negb (is_not_supported r) then Ok (l, r)
      else
        let! l := call l (CInitialize args (ia_init a)) in
        if negb (is_ok (ia_init a)) then Ok (l, ia_init a)
        else
          let '(r, info) := ia_info a in
          let! l := call l (CGetInfo r) in
          let l := PLib (p_status l) (p_functions l) (p_ifaces l) info (p_next l) (p_log l) in
          if negb (is_ok r) then Ok (l, r)
          else Ok (PLib ROk (p_functions l) (p_ifaces l) (p_info l) (p_next l) (p_log l), ROk).

  (** getFunctionList, Pkcs11.cpp 96-100. The list is a member: a reference to it is [tt]. *)
  Definition get_functions (l : plib) : expected unit := create_expected tt (p_status l).

  (** finalize, Pkcs11.cpp 72-88. *)
  Definition finalize (l : plib) (r : rv) : outcome (plib * rv) :=
    handle (get_functions l)
      (fun _ => let! l := call l (CFinalize r) in Ok (l, r))
      (fun error => Ok (l, error))
      (Ok (l, ROk)).

  (** ~Pkcs11Library, Pkcs11.cpp 18-21. *)
  Definition plib_delete (l : plib) (r : rv) : outcome plib :=
    let! (l, _) := finalize l r in Ok l.

  (** getInfo, Pkcs11.cpp 90-94. *)
  Definition get_info (l : plib) : expected nat := create_expected (p_info l) (p_status l).

  (** getInterfaceList, Pkcs11.cpp 102-128, and getInterface, 130-158: the pointer is taken from
      the stored vector, then [done()] (Expected.hpp 183-187) empties the variant, which is
      mutable, and so destroys that vector. The pointer is given by the number of the vector it
      points to or into. [returnError] is never read: the assignment of 125 and 155 looks only
      at its type. *)
  Definition get_ifaces (l : plib) : plib * expected nat :=
    let ptr := handle (p_ifaces l) (fun i => Some (fst i)) (fun _ => None) None in
    let l := set_ifaces l ENone (p_next l) in
    match ptr with
    | Some i => (l, assign_result ENone i)
    | None => (l, assign_error ENone (ROther 0))
    end.

  (** Whether the vector with this number still exists. Of the model. *)
  Definition alive (l : plib) (i : nat) : bool :=
    handle (p_ifaces l) (fun j => fst j =? i) (fun _ => false) false.

  (** getSlotIdCount, Pkcs11.cpp 160-181. *)
  Definition slot_count (l : plib) (r : rv) (slots : list nat) : outcome (plib * expected nat) :=
    let '(r, n) := c_slot_count r slots in
    let! (l, count, result) :=
      handle (get_functions l)
        (fun _ => let! l := call l (CGetSlotList r) in Ok (l, n, r))
        (fun error => Ok (l, 0, error))
        (Ok (l, 0, ROk)) in
    Ok (l, create_expected count result).

  (** getSlotIdList, Pkcs11.cpp 183-224. [slots1] are the slots when the count is asked for,
      [slots2] when the ids are. The recursion in Vector::resize is fuelled. *)
  Definition slot_list (fuel : nat) (l : plib) (r1 : rv) (slots1 : list nat)
      (r2 : rv) (slots2 : list nat) : outcome (plib * expected (list nat)) :=
    let! (l, expected_count) := slot_count l r1 slots1 in
    let! (l, ids, result) :=
      handle expected_count
        (fun count =>
           let! ids := vec_reserve Trivial mem vec_new count in
           let! ids := vec_resize Trivial 0 mem fuel ids count in
           let buffer := if vc_capacity ids =? 0 then None else Some count in
           let '(r, stored) := c_slot_list r2 slots2 buffer in
           handle (get_functions l)
             (fun _ =>
                let! l := call l (CGetSlotList r) in
                let! ids := fill ids stored in
                Ok (l, ids, r))
             (fun _ => Ok (l, ids, ROk))
             (Ok (l, ids, ROk)))
        (fun error => Ok (l, vec_new, error))
        (Ok (l, vec_new, ROk)) in
    if is_ok result then
      let! xs := vec_elements ids in
      Ok (l, assign_result ENone xs)
    else Ok (l, assign_error ENone result).

  (** * Slot *)

  (** getSlotInfo, Slot.cpp 39-65: [r], [info] are the module's answer. *)
  Definition slot_info (l : plib) (id : nat) (r : rv) (info : nat) : outcome (plib * expected nat) :=
    handle (get_functions l)
      (fun _ =>
         let! l := call l (CGetSlotInfo id r) in
         if negb (is_ok r) then Ok (l, assign_error ENone r) else Ok (l, assign_result ENone info))
      (fun error => Ok (l, assign_error ENone error))
      (Ok (l, ENone)).

  (** waitForSlotEvent, Slot.cpp 67-86: the address of the member [id] is where the module stores
      the slot in which the event occurred. *)
  Definition wait_event (l : plib) (id : nat) (r : rv) (where_ : nat) : outcome (plib * nat * rv) :=
    handle (get_functions l)
      (fun _ =>
         let! l := call l (CWaitForSlotEvent r) in
         Ok (l, (if is_ok r then where_ else id), r))
      (fun error => Ok (l, id, error))
      (Ok (l, id, ROk)).

  (** * Histories *)

  (** The calls, Pkcs11.hpp 63-200 and Slot.cpp. *)
  Inductive pcall :=
  | PInit (args : list nat) (a : init_answers)
  | PFinalize (r : rv)
  | PInfo
  | PFunctions
  | PIfaces
  | PSlotCount (r : rv) (slots : list nat)
  | PSlotList (r1 : rv) (slots1 : list nat) (r2 : rv) (slots2 : list nat)
  | PSlot (id : nat)
  | PSlotInfo (k : nat) (r : rv) (info : nat)
  | PWait (k : nat) (r : rv) (where_ : nat).

  (** What a call returns. Pkcs11.hpp 63-200. *)
  Inductive presult :=
  | VRv (r : rv)
  | VInfo (e : expected nat)
  | VFunctions (e : expected unit)
  | VIfaces (e : expected nat)
  | VCount (e : expected nat)
  | VSlots (e : expected (list nat))
  | VSlotInfo (e : expected nat)
  | VNothing.

  (** The library and the Slot objects made for it (Slot.cpp 12-23: each keeps its id). *)
  Record pworld := PW { w_lib : plib; w_slots : list nat }.
  (** Of the model: the library was constructed, there are no slots. *)
  Definition pw_start : pworld := PW plib_new [].

  (** One call, by the functions above. *)
  Definition pstep (fuel : nat) (w : pworld) (c : pcall) : outcome (pworld * presult) :=
    let l := w_lib w in
    match c with
    | PInit args a => let! (l, r) := initialize l args a in Ok (PW l (w_slots w), VRv r)
    | PFinalize r => let! (l, r) := finalize l r in Ok (PW l (w_slots w), VRv r)
    | PInfo => Ok (w, VInfo (get_info l))
    | PFunctions => Ok (w, VFunctions (get_functions l))
    | PIfaces => let '(l, e) := get_ifaces l in Ok (PW l (w_slots w), VIfaces e)
    | PSlotCount r slots => let! (l, e) := slot_count l r slots in Ok (PW l (w_slots w), VCount e)
    | PSlotList r1 s1 r2 s2 =>
        let! (l, e) := slot_list fuel l r1 s1 r2 s2 in Ok (PW l (w_slots w), VSlots e)
    | PSlot id => Ok (PW l (w_slots w ++ [id]), VNothing)
    | PSlotInfo k r info =>
        let! id := read (w_slots w) k in
        let! (l, e) := slot_info l id r info in Ok (PW l (w_slots w), VSlotInfo e)
    | PWait k r where_ =>
        let! id := read (w_slots w) k in
        let! (l, id, r) := wait_event l id r where_ in
        Ok (PW l (upd (w_slots w) k id), VRv r)
    end.

  (** Of the model: the calls of a history one after the other. *)
  Fixpoint prun (fuel : nat) (w : pworld) (cs : list pcall) : outcome (pworld * list presult) :=
    match cs with
    | [] => Ok (w, [])
    | c :: cs =>
        let! (w, v) := pstep fuel w c in
        let! (w, vs) := prun fuel w cs in
        Ok (w, v :: vs)
    end.
End Pkcs11.

(** * wrapper::InitializeArgs *)

(** The members of CK_C_INITIALIZE_ARGS: the four callbacks ([None] = null), flags, reserved.
    InitializeArgs.hpp 27-33; pkcs11t.h. *)
Record iargs := IArgs {
  g_callbacks : list (option nat);
  g_flags : nat;
  g_reserved : option nat
}.
(** Callbacks{} (InitializeArgs.hpp 27-33). *)
Definition no_callbacks : list (option nat) := [None; None; None; None].
(** CKF_OS_LOCKING_OK, pkcs11t.h. *)
Definition os_locking_ok : nat := 2.

(** InitializeArgs(InitializeArgs &&), InitializeArgs.cpp 27-37: the new object and what is left. *)
Definition iargs_move (a : iargs) : iargs * iargs :=
  (IArgs (g_callbacks a) (g_flags a) (g_reserved a), IArgs no_callbacks os_locking_ok None).
(** InitializeArgs(const InitializeArgs &), InitializeArgs.cpp 19-25. *)
Definition iargs_copy (a : iargs) : iargs := IArgs (g_callbacks a) (g_flags a) (g_reserved a).
(** operator=(const InitializeArgs &), InitializeArgs.cpp 53-63. *)
Definition iargs_assign (target source : iargs) : iargs :=
  IArgs (g_callbacks source) (g_flags source) (g_reserved source).

(** A program's InitializeArgs objects. InitializeArgs.cpp 12-80. *)
Inductive gcall :=
| GNew (a : iargs)
| GCopy (p : nat)
| GMove (p : nat)
| GAssign (v p : nat)
| GMoveAssign (v p : nat)
| GSetCallbacks (v : nat) (cs : list (option nat)).

(** The members of InitializeArgs, InitializeArgs.cpp, by the functions above or as cited at the
    case. *)
Definition gstep (w : list iargs) (c : gcall) : outcome (list iargs) :=
  match c with
  | GNew a => Ok (w ++ [a])
  | GCopy p => let! a := read w p in Ok (w ++ [iargs_copy a])
  | GMove p =>
      let! a := read w p in
      let '(b, a) := iargs_move a in
      let! w := write w p a in Ok (w ++ [b])
  | GAssign v p =>
      let! a := read w p in
      let! b := read w v in write w v (iargs_assign b a)
  | GMoveAssign v p =>
      (* operator=(InitializeArgs &&), 65-73: the copy assignment, then the source is emptied but
         for its flags. *)
      let! a := read w p in
      let! b := read w v in
      let! w := write w v (iargs_assign b a) in
      let! a := read w p in
      write w p (IArgs no_callbacks (g_flags a) None)
  | GSetCallbacks v cs =>
      (* setCallbacks, 75-81. *)
      let! b := read w v in write w v (IArgs cs (g_flags b) (g_reserved b))
  end.

(** Of the model: the calls of a history, one after the other. *)
Fixpoint grun (w : list iargs) (cs : list gcall) : outcome (list iargs) :=
  match cs with
  | [] => Ok w
  | c :: cs => let! w := gstep w c in grun w cs
  end.
