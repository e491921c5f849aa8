(** Model of the software PKCS#11 module: the mutex it makes of the application's callbacks, and
    its general purpose functions.

    Source: /repo/src/Crypto/SoftPkcs11/Mutex.cpp, Mutex.hpp, GlobalContext.cpp,
    Functions/GeneralPurposeFunctions.cpp. *)
From Coq Require Import List Arith Bool.
From Verif Require Import Base.
Import ListNotations.

(** * Mutex *)

(** A pointer to one of the four functions: null, Stub (Mutex.cpp 12-16: answers OK and does
    nothing) or a function of the application. *)
Inductive cb := CbNull | CbStub | CbApp.

(** The calls the application's functions get; None: the null pointer. As called in Mutex.cpp
    34-82. *)
Inductive event :=
| ECreate (k : nat)
| EDestroy (c : option nat)
| ELock (c : option nat)
| EUnlock (c : option nat).

(** enums::ReturnType, by its value. As in Mutex.cpp. *)
Definition status := nat.
(** enums::ReturnType::OK, pkcs11t.h. *)
Definition CKR_OK : status := 0.
(** enums::ReturnType::ARGUMENTS_BAD, pkcs11t.h. *)
Definition CKR_ARGUMENTS_BAD : status := 7.

(** Mutex.hpp 44-51. *)
Record smutex := SM {
  m_destroy : cb; m_lock : cb; m_unlock : cb;
  m_context : option nat; m_status : status
}.

(** The objects by their number, the contexts the application has made so far (numbered), which of
    them are locked, and the log of the application, newest first. Simplification: one thread uses
    the objects, so a lock that is held is never released by someone else. Of the model. *)
Record sworld := SW {
  s_vars : nat -> option smutex; s_next : nat; s_held : nat -> bool; s_log : list event
}.

(** Of the model: no objects. *)
Definition s_start : sworld := SW (fun _ => None) 0 (fun _ => false) [].

(** Of the model. *)
Definition sset {A} (f : nat -> A) (v : nat) (x : A) (u : nat) : A :=
  if u =? v then x else f u.

(** Of the model. *)
Definition set_var (w : sworld) (v : nat) (m : option smutex) : sworld :=
  SW (sset (s_vars w) v m) (s_next w) (s_held w) (s_log w).

(** What the application's functions do; [answer] is what they return. Locking a locked mutex does
    not return. Of the application. *)
Definition app_destroy (w : sworld) (c : option nat) : sworld :=
  SW (s_vars w) (s_next w) (s_held w) (EDestroy c :: s_log w).
(** Of the application. *)
Definition app_lock (w : sworld) (c : option nat) : outcome sworld :=
  match c with
  | None => Ok (SW (s_vars w) (s_next w) (s_held w) (ELock None :: s_log w))
  | Some k =>
      if s_held w k then Diverge
      else Ok (SW (s_vars w) (s_next w) (sset (s_held w) k true) (ELock c :: s_log w))
  end.
(** Of the application. *)
Definition app_unlock (w : sworld) (c : option nat) : outcome sworld :=
  match c with
  | None => Ok (SW (s_vars w) (s_next w) (s_held w) (EUnlock None :: s_log w))
  | Some k => Ok (SW (s_vars w) (s_next w) (sset (s_held w) k false) (EUnlock c :: s_log w))
  end.

(** A call through a pointer: a call of a null pointer is undefined. destroyMutex(context), as in
    Mutex.cpp 78-82. *)
Definition call_destroy (f : cb) (w : sworld) (c : option nat) (answer : status)
  : outcome (sworld * status) :=
  match f with
  | CbNull => UB
  | CbStub => Ok (w, CKR_OK)
  | CbApp => Ok (app_destroy w c, answer)
  end.
(** lockMutex(context), as in Mutex.cpp 68-76. *)
Definition call_lock (f : cb) (w : sworld) (c : option nat) (answer : status)
  : outcome (sworld * status) :=
  match f with
  | CbNull => UB
  | CbStub => Ok (w, CKR_OK)
  | CbApp => let! w := app_lock w c in Ok (w, answer)
  end.

(** Calls of a user. [create], [destroy], [lock], [unlock]: is the function given, or null.
    [made]: does the application's createMutex store a context. Mutex.hpp 15-42. *)
Inductive scall :=
| SNewDefault (v : nat)
| SNew (v : nat) (create destroy lock unlock made : bool) (answer : status)
| SMove (v p : nat)
| SAssign (v p : nat)
| SLock (v : nat) (answer : status)
| SUnlock (v : nat) (answer : status)
| SDestroy (v : nat) (answer : status)
| SDelete (v : nat) (answer : status).

(** Of the model: the pointer of a function that is given, or null. *)
Definition given (b : bool) : cb := if b then CbApp else CbNull.

(** Mutex.cpp 34-48. *)
Definition mutex_new (w : sworld) (v : nat) (create destroy lock unlock made : bool)
    (answer : status) : sworld :=
  if negb create || negb destroy || negb lock || negb unlock then
    set_var w v (Some (SM (given destroy) (given lock) (given unlock) None CKR_ARGUMENTS_BAD))
  else if made then
    set_var (SW (s_vars w) (S (s_next w)) (s_held w) (ECreate (s_next w) :: s_log w)) v
      (Some (SM CbApp CbApp CbApp (Some (s_next w)) answer))
  else set_var w v (Some (SM CbApp CbApp CbApp None answer)).

(** Mutex.cpp 20-22. *)
Definition mutex_default (w : sworld) (v : nat) : sworld :=
  set_var w v (Some (SM CbStub CbStub CbStub None CKR_OK)).

(** Mutex.cpp 24-32: the constructor; [q] is the source. *)
Definition mutex_move (w : sworld) (v p : nat) (q : smutex) : sworld :=
  set_var (set_var w v (Some q)) p
    (Some (SM (m_destroy q) (m_lock q) (m_unlock q) None (m_status q))).

(** Mutex.cpp 55-66: the object may be the source. *)
Definition mutex_assign (w : sworld) (v p : nat) (q : smutex) : outcome sworld :=
  let w := set_var w v (Some q) in
  match s_vars w p with
  | None => UB
  | Some q => Ok (set_var w p (Some (SM (m_destroy q) (m_lock q) (m_unlock q) None (m_status q))))
  end.

(** Mutex.cpp 78-82. *)
Definition mutex_destroy (w : sworld) (v : nat) (m : smutex) (answer : status) : outcome sworld :=
  let! (w, r) := call_destroy (m_destroy m) w (m_context m) answer in
  Ok (set_var w v (Some (SM (m_destroy m) (m_lock m) (m_unlock m) None r))).

(** Mutex.cpp 68-71. *)
Definition mutex_lock (w : sworld) (v : nat) (m : smutex) (answer : status) : outcome sworld :=
  let! (w, r) := call_lock (m_lock m) w (m_context m) answer in
  Ok (set_var w v (Some (SM (m_destroy m) (m_lock m) (m_unlock m) (m_context m) r))).

(** Mutex.cpp 73-76: unlock calls lockMutex. *)
Definition mutex_unlock (w : sworld) (v : nat) (m : smutex) (answer : status) : outcome sworld :=
  let! (w, r) := call_lock (m_lock m) w (m_context m) answer in
  Ok (set_var w v (Some (SM (m_destroy m) (m_lock m) (m_unlock m) (m_context m) r))).

(** A use of an object that does not exist is undefined, and so is a construction where one
    is. The destructor, Mutex.cpp 50-53, calls destroy. *)
Definition sstep (w : sworld) (c : scall) : outcome sworld :=
  let fresh v k := match s_vars w v with None => k | Some _ => UB end in
  let on v (k : smutex -> outcome sworld) := match s_vars w v with Some m => k m | None => UB end in
  match c with
  | SNewDefault v => fresh v (Ok (mutex_default w v))
  | SNew v c d l u made answer => fresh v (Ok (mutex_new w v c d l u made answer))
  | SMove v p => fresh v (on p (fun q => Ok (mutex_move w v p q)))
  | SAssign v p => on v (fun _ => on p (fun q => mutex_assign w v p q))
  | SLock v answer => on v (fun m => mutex_lock w v m answer)
  | SUnlock v answer => on v (fun m => mutex_unlock w v m answer)
  | SDestroy v answer => on v (fun m => mutex_destroy w v m answer)
  | SDelete v answer =>
      on v (fun m => let! w := mutex_destroy w v m answer in Ok (set_var w v None))
  end.

(** Of the model: the calls of a history one after the other. *)
Fixpoint srun (w : sworld) (h : list scall) : outcome sworld :=
  match h with
  | [] => Ok w
  | c :: h => let! w := sstep w c in srun w h
  end.

(** getLastStatus, Mutex.cpp 84-87. *)
Definition last_status (w : sworld) (v : nat) : option status := option_map m_status (s_vars w v).

(** * General purpose functions *)

(** A pointer to one object of the caller: null or the value there. What the function returns
    comes with what is there afterwards. *)

(** C_Initialize, GeneralPurposeFunctions.cpp 16-39. The arguments are only tested for null;
    GlobalContext::getStatus, GlobalContext.cpp 73-76, is the initial OK (GlobalContext.hpp 73):
    nothing writes it. *)
Definition soft_initialize (args : option nat) : status :=
  match args with None => CKR_ARGUMENTS_BAD | Some _ => CKR_OK end.

(** C_GetInfo, GeneralPurposeFunctions.cpp 47-63; [info]: the structure that is copied out. *)
Definition soft_getInfo {I : Type} (the_info : I) (info : option I) : status * option I :=
  match info with
  | None => (CKR_ARGUMENTS_BAD, None)
  | Some _ => (CKR_OK, Some the_info)
  end.

(** C_GetFunctionList, GeneralPurposeFunctions.cpp 65-76: the value for the null pointer is computed but not returned. *)
Definition soft_getFunctionList {F : Type} (the_list : F) (out : option F)
  : outcome (status * option F) :=
  match out with
  | None => UB
  | Some _ => Ok (CKR_OK, Some the_list)
  end.

(** C_GetInterfaceList, GeneralPurposeFunctions.cpp 78-94: [interfaces] is the caller's array. *)
Definition soft_getInterfaceList {I : Type} (the_interface : I) (interfaces : option (list I))
    (count : option nat) : outcome (status * option (list I) * option nat) :=
  match count with
  | None => Ok (CKR_ARGUMENTS_BAD, interfaces, None)
  | Some n =>
      match interfaces with
      | None => Ok (CKR_OK, None, Some 1)
      | Some l => let! l := write l 0 the_interface in Ok (CKR_OK, Some l, Some n)
      end
  end.

(** What C_GetInfo gives: CK_INFO, pkcs11t.h 84-90. The texts are arrays of 32 bytes. *)
Record soft_info := SoftInfo {
  i_cryptoki : nat * nat; i_manufacturer : list nat; i_flags : nat;
  i_description : list nat; i_version : nat * nat
}.
(** C++ itself: an array that is initialised with a shorter string literal is filled up with
    zeros; with a longer one the program is refused. *)
Definition char_array (n : nat) (literal : list nat) : list nat :=
  literal ++ repeat 0 (n - length literal).
(** "NONE", GeneralPurposeFunctions.cpp 56, by the codes of the characters. *)
Definition text_manufacturer : list nat := [78; 79; 78; 69].
(** "Flame Soft PKCS#11", GeneralPurposeFunctions.cpp 58. *)
Definition text_description : list nat :=
  [70; 108; 97; 109; 101; 32; 83; 111; 102; 116; 32; 80; 75; 67; 83; 35; 49; 49].
(** tmpInfo, GeneralPurposeFunctions.cpp 54-60: Version{} is 0.0 (Version.cpp), the flags are 0. *)
Definition the_soft_info : soft_info :=
  SoftInfo (0, 0) (char_array 32 text_manufacturer) 0 (char_array 32 text_description) (0, 0).

(** C_Finalize, GeneralPurposeFunctions.cpp 41-45. *)
Definition soft_finalize (reserved : option nat) : status := CKR_OK.

(** rawStringLength of the name, String.hpp 798-808: the memory from the pointer on. *)
Fixpoint name_length (memory : list nat) : outcome nat :=
  match memory with
  | [] => UB
  | c :: rest => if c =? 0 then Ok 0 else let! n := name_length rest in Ok (S n)
  end.
(** C_GetInterface, GeneralPurposeFunctions.cpp 96-115: the length of the name is computed and
    compared, the answer does not depend on it. [out]: what the pointer to the interface holds. *)
Definition soft_getInterface {I : Type} (name : option (list nat)) (version : option (nat * nat))
    (out : option I) (flags : nat) : outcome (status * option I) :=
  let! n := match name with None => Ok 0 | Some m => name_length m end in
  Ok (CKR_ARGUMENTS_BAD, out).

(** The general purpose calls an application makes, one after the other, with valid pointers. *)
Inductive gcall := GInitialize (args : nat) | GFinalize | GGetInfo.
(** Of the model: the module has no state; what each call returns. *)
Definition gstep (c : gcall) : status :=
  match c with
  | GInitialize a => soft_initialize (Some a)
  | GFinalize => soft_finalize None
  | GGetInfo => fst (soft_getInfo the_soft_info (Some the_soft_info))
  end.
