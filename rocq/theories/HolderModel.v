(** Model of four small templates that hold or view an object:
    /repo/include/FlameIDE/Templates/ObjectViewer.hpp, AlignObject.hpp, RaiiCaller.hpp and the
    class Substep of Builder.hpp. *)
From Coq Require Import List Arith Bool ZArith.
From Verif Require Import Base.
Import ListNotations.

(** ** ObjectViewer.hpp *)

(** clean, ObjectViewer.hpp 54-60. [mem]: the bytes of the memory the object lies in, the object starts at [p]
    and has [SIZE] bytes. The loop steps the index and the pointer: in round i the pointer is
    [iterator] = p + i, and the byte written is iterator[i]. *)
Fixpoint clean_loop (mem : list Z) (iterator i rounds : nat) : outcome (list Z) :=
  match rounds with
  | 0 => Ok mem
  | S rounds =>
      let! mem := write mem (iterator + i) 0%Z in clean_loop mem (S iterator) (S i) rounds
  end.
(** clean, ObjectViewer.hpp 54-60: the whole call. *)
Definition viewer_clean (mem : list Z) (p SIZE : nat) : outcome (list Z) := clean_loop mem p 0 SIZE.

(** ** AlignObject.hpp *)

(** The admitted values of ALIGN, AlignObject.hpp 34-42. *)
Definition align_admitted (ALIGN : Z) : bool :=
  existsb (Z.eqb ALIGN) [1; 2; 4; 8; 16; 32; 64; 128; 256; 512; 1024]%Z.

(** alignas(ALIGN) on the array, 69: the compiler may put an AlignedObject at every multiple of
    ALIGN; emplaceNew of a T there, AlignObject.hpp 108-110, is undefined if the address is not a multiple of
    alignof(T). The static_assert does not relate the two. *)
Definition emplace_at (ALIGN alignof_T address : Z) : outcome unit :=
  if (address mod alignof_T =? 0)%Z then Ok tt else UB.

Section Aligned.
  Context {T : Type}.

  (** What the array holds: zero bytes, an object constructed in it, or the bytes of an object that
      was constructed elsewhere. AlignObject.hpp 69. *)
  Inductive content := Zeros | Held (x : T) | Image (x : T).

  (** Of the model: the calls of the constructor and the destructor of T. *)
  Inductive lifetime := Constructed (x : T) | Destroyed (x : T).

  (** All AlignedObjects of a program (None: ended) and the constructor and destructor calls of T
      made so far. Of the model. *)
  Record dworld := DW { d_objects : list (option content); d_calls : list lifetime }.
  (** Of the model: no objects. *)
  Definition d_start : dworld := DW [] [].

  (** The members of AlignedObject, AlignObject.hpp, as cited beside each. *)
  Inductive dcall :=
  | DDefault                    (* AlignedObject(), 94-100 *)
  | DWith (x : T)               (* AlignedObject(arg, args...), 104-111 *)
  | DCopy (i : nat)             (* the implicit copy constructor, for a const source; for others
                                   104-111 is the better match and makes the T from the
                                   AlignedObject, which mostly does not compile *)
  | DAssign (i j : nat)         (* the implicit copy assignment, object i = object j *)
  | DEnd (i : nat).             (* ~AlignedObject(), 114-117: the call of ~T is commented out *)

  (** The implicit copy constructor and assignment copy the member [array], AlignObject.hpp 69,
      byte by byte; no constructor of T is called. *)
  Definition image (c : content) : content :=
    match c with Zeros => Zeros | Held x | Image x => Image x end.

  (** AlignObject.hpp 94-117: the members, as cited above. *)
  Definition dstep (w : dworld) (c : dcall) : outcome dworld :=
    match c with
    | DDefault => Ok (DW (d_objects w ++ [Some Zeros]) (d_calls w))
    | DWith x => Ok (DW (d_objects w ++ [Some (Held x)]) (d_calls w ++ [Constructed x]))
    | DCopy i =>
        match nth_error (d_objects w) i with
        | Some (Some c) => Ok (DW (d_objects w ++ [Some (image c)]) (d_calls w))
        | _ => UB
        end
    | DAssign i j =>
        match nth_error (d_objects w) i, nth_error (d_objects w) j with
        | Some (Some _), Some (Some c) =>
            Ok (DW (if i =? j then d_objects w else upd (d_objects w) i (Some (image c))) (d_calls w))
        | _, _ => UB
        end
    | DEnd i =>
        match nth_error (d_objects w) i with
        | Some (Some _) => Ok (DW (upd (d_objects w) i None) (d_calls w))
        | _ => UB
        end
    end.
  (** Of the model: the calls of a history one after the other. *)
  Fixpoint drun (w : dworld) (h : list dcall) : outcome dworld :=
    match h with
    | [] => Ok w
    | c :: h => let! w := dstep w c in drun w h
    end.

  (** getAddress() and a read of the object there, AlignObject.hpp 119-133. [trivial]: T is
      trivially copyable, so that its bytes are an object wherever they are; otherwise there is an
      object only where one was constructed. *)
  Definition held (trivial : bool) (w : dworld) (i : nat) : outcome T :=
    match nth_error (d_objects w) i with
    | Some (Some (Held x)) => Ok x
    | Some (Some (Image x)) => if trivial then Ok x else UB
    | _ => UB
    end.
End Aligned.
Arguments content : clear implicits.
Arguments lifetime : clear implicits.
Arguments dworld : clear implicits.
Arguments dcall : clear implicits.

(** ** RaiiCaller.hpp *)

(** The calls made: of the first and of the second functor of pair number [k]. *)
Inductive paircall := Enter (k : nat) | Leave (k : nat).

(** All RaiiCallers of a program (None: ended), with the pair whose second functor they hold, the
    number of pairs, and the calls made. Of the model. *)
Record rworld := RW { r_objects : list (option nat); r_pairs : nat; r_calls : list paircall }.
(** Of the model: no objects. *)
Definition r_start : rworld := RW [] 0 [].

(** The destructor, RaiiCaller.hpp 25-28. *)
Definition r_end (w : rworld) (i : nat) : outcome rworld :=
  match nth_error (r_objects w) i with
  | Some (Some k) => Ok (RW (upd (r_objects w) i None) (r_pairs w) (r_calls w ++ [Leave k]))
  | _ => UB
  end.

(** The implicit copy constructor: the user-declared destructor leaves the class copyable, and
    without a move constructor; the functor is copied. RaiiCaller.hpp. *)
Definition r_copy (w : rworld) (i : nat) : outcome rworld :=
  match nth_error (r_objects w) i with
  | Some (Some k) => Ok (RW (r_objects w ++ [Some k]) (r_pairs w) (r_calls w))
  | _ => UB
  end.

(** The constructors, RaiiCaller.hpp 15-25: RaiiCaller(ctorCall, dtorCall) with [enter], RaiiCaller(dtorCall)
    without. *)
Definition r_make (w : rworld) (enter : bool) : rworld :=
  RW (r_objects w ++ [Some (r_pairs w)]) (S (r_pairs w))
     (r_calls w ++ (if enter then [Enter (r_pairs w)] else [])).

(** The members of RaiiCaller and makeRaiiCaller, RaiiCaller.hpp, as cited beside each. *)
Inductive rcall :=
| RNew (enter : bool)                 (* a constructor *)
| RMake (enter elided : bool)         (* makeRaiiCaller, 36-48 *)
| RCopy (i : nat)
| REnd (i : nat).

(** makeRaiiCaller returns by value: C++14 lets the compiler elide the copy of the temporary
    ([elided]) or not; then the temporary is copied and ended. *)
Definition rstep (w : rworld) (c : rcall) : outcome rworld :=
  match c with
  | RNew enter => Ok (r_make w enter)
  | RMake enter elided =>
      let w := r_make w enter in
      if elided then Ok w
      else let temporary := length (r_objects w) - 1 in
           let! w := r_copy w temporary in r_end w temporary
  | RCopy i => r_copy w i
  | REnd i => r_end w i
  end.
(** Of the model: the calls of a history, one after the other. *)
Fixpoint rrun (w : rworld) (h : list rcall) : outcome rworld :=
  match h with
  | [] => Ok w
  | c :: h => let! w := rstep w c in rrun w h
  end.

(** ** Builder.hpp: Substep *)

Section Substep.
  Context {P : Type}.              (* what initImpl keeps in a member of the derived step *)
  Context {R : Type}.              (* the result *)
  (** doImpl of the derived step: the result and the error for the kept arguments. *)
  Variable action : P -> R * Z.
  Variable default_result : R.
  Variable SUCCESS_VALUE : Z.
  (** The type of the member has a trivial default constructor. *)
  Variable trivial_member : bool.

  (** resultValue, error (None: indeterminate), and the member of the derived step. *)
  Record substep := SS { s_result : R; s_error : option Z; s_member : option P }.

  (** Substep() and the derived constructor, 25: error has no initialiser. *)
  Definition substep_default : substep := SS default_result None None.

  (** Substep(arg, args...), Builder.hpp 104-115: initImpl assigns to the member before the constructor of
      the derived class has made it. For a class with a constructor this is an assignment
      outside the lifetime; otherwise the member is made afterwards without a value. *)
  Definition substep_with (p : P) : outcome substep :=
    if trivial_member then Ok (SS default_result None None) else UB.

  (** initImpl of the complete object (not called by Substep again). Builder.hpp. *)
  Definition substep_init (s : substep) (p : P) : substep := SS (s_result s) (s_error s) (Some p).

  (** operator(), Builder.hpp 117-127: doImpl reads the member; it may set error or leave it
      ([sets_error]). *)
  Definition substep_call (s : substep) (sets_error : bool) : outcome substep :=
    match s_member s with
    | None => UB
    | Some p =>
        let '(r, e) := action p in
        Ok (SS r (if sets_error then Some e else s_error s) (Some p))
    end.

  (** operator bool, Builder.hpp 129-139. *)
  Definition substep_bool (s : substep) : outcome bool :=
    match s_error s with
    | None => UB
    | Some e => Ok (negb (e =? SUCCESS_VALUE)%Z)
    end.

  (** getResult, Builder.hpp 141-163. *)
  Definition substep_result (s : substep) : R := s_result s.
End Substep.
Arguments substep : clear implicits.
