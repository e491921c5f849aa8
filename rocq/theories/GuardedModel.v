(** Model of a Vector that threads share and use only inside the scope of a Locker of one lock.

    Source: /repo/include/FlameIDE/Templates/Vector.hpp, by way of VectorModel, with the Locker of
    /repo/src/Os/Threads/Utils.cpp 54-64 and 228-231, by way of ConcModel's [Acquire] and [Release].
    The functions of the application are those one writes with the two classes; each is quoted. One
    call of a member function of Vector is one access (C229_no_race says that no other access is
    possible meanwhile). *)
From Coq Require Import List Arith Bool.
From Verif Require Import Base Store StaticVectorModel VectorModel ConcModel.
Import ListNotations.
Local Open Scope outcome_scope.

Section Guarded.
  Context {A : Type}.
  Variable m : mode.
  Variable moved : A -> A.
  Variable mem : memory.
  Variable fuel : nat.

  (** Of the application: what its threads do with the vector. *)
  Inductive gop := GPush (x : A) | GTakeLast | GTakeFirst | GCount | GRead (i : nat).
  (** Of the application: what its functions return; [GNone] if there is no such element. *)
  Inductive gres := GDone | GNone | GElement (x : A) | GSize (n : nat).

  (** Of the application: [Locker l{lock}; v.pushBack(x);]; Vector.hpp 698-711. *)
  Definition push_code (x : A) : prog (vec A) gres :=
    Acquire (Set_ (fun v => vec_pushBack m mem fuel v x) (Release (Done GDone))).

  (** Of the application: [Locker l{lock}; if (!v.size()) return none; T x = v[v.size() - 1];
      v.popBack(); return x;]; Vector.hpp 538-542, 510-524, 738-743. *)
  Definition take_last_code : prog (vec A) gres :=
    Acquire (Get (fun v => Ok (vec_size v)) (fun n =>
      if n =? 0 then Release (Done GNone)
      else Get (fun v => vec_index v (n - 1)) (fun x =>
        Set_ (fun v => vec_popBack m v) (Release (Done (GElement x)))))).

  (** Of the application: [Locker l{lock}; if (!v.size()) return none; T x = v[0];
      v.erase(v.begin()); return x;]; Vector.hpp 538-542, 510-524, 880-896. *)
  Definition take_first_code : prog (vec A) gres :=
    Acquire (Get (fun v => Ok (vec_size v)) (fun n =>
      if n =? 0 then Release (Done GNone)
      else Get (fun v => vec_index v 0) (fun x =>
        Set_ (fun v => vec_erase m moved v 0) (Release (Done (GElement x)))))).

  (** Of the application: [Locker l{lock}; return v.size();]; Vector.hpp 538-542. *)
  Definition count_code : prog (vec A) gres :=
    Acquire (Get (fun v => Ok (vec_size v)) (fun n => Release (Done (GSize n)))).

  (** Of the application: [Locker l{lock}; if (i < v.size()) return v[i]; return none;];
      Vector.hpp 538-542, 510-524. *)
  Definition read_code (i : nat) : prog (vec A) gres :=
    Acquire (Get (fun v => Ok (vec_size v)) (fun n =>
      if i <? n then Get (fun v => vec_index v i) (fun x => Release (Done (GElement x)))
      else Release (Done GNone))).

  (** Of the application: the functions above. *)
  Definition guarded_code (o : gop) : prog (vec A) gres :=
    match o with
    | GPush x => push_code x
    | GTakeLast => take_last_code
    | GTakeFirst => take_first_code
    | GCount => count_code
    | GRead i => read_code i
    end.

  (** Of the application: the mistake of testing in one scope and taking in another:
      [{ Locker l{lock}; n = v.size(); } if (!n) return none; Locker l{lock}; T x = v[n - 1];
      v.popBack(); return x;]. *)
  Definition two_scopes_code (o : gop) : prog (vec A) gres :=
    match o with
    | GTakeLast =>
        Acquire (Get (fun v => Ok (vec_size v)) (fun n => Release (
          if n =? 0 then Done GNone
          else Acquire (Get (fun v => vec_index v (n - 1)) (fun x =>
            Set_ (fun v => vec_popBack m v) (Release (Done (GElement x))))))))
    | _ => guarded_code o
    end.
End Guarded.
Arguments gop : clear implicits.
Arguments gres : clear implicits.
