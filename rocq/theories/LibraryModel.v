(** Model of os::Library.

    Source: /repo/src/Os/Library.cpp, /repo/include/FlameIDE/Os/Library.hpp,
    /repo/src/Os/Posix/LibraryFunctions.cpp, /repo/src/Os/Windows/LibraryFunctions.cpp. The
    loader of the system is a parameter. *)
From Coq Require Import List Arith Bool.
From Verif Require Import Base Store StaticVectorModel StringModel.
Import ListNotations.

(** * The path given to the loader *)
Section Path.
  Context {A : Type}.
  Variable nul : A.
  Variable is_nul : A -> bool.
  (** Constants::MAX_STATIC_STRING_SIZE, Common/Constants.hpp 18-30: 2 * 1024 unless the build
      sets it. *)
  Variable maxPathLength : nat.
  (** os::LIBRARY_PREFIX, os::LIBRARY_SUFFIX_SHARED, os::DIRECTORY_SLASH:
      Os/Posix/Constants.hpp 47-50, Os/Windows/Constants.hpp 65-72. *)
  Variables libraryPrefix librarySuffixShared : cstring A.
  Variable slash : A.

  (** The characters [first, first + length) of a C string. *)
  Definition chars_of (r : cstring A) (n : nat) : outcome (list A) := raw_read r n.

  (** The array that is filled on the stack, Library.cpp 98-118. *)
  Definition path_static_ops (directory prefix name suffix : list A) (dir : bool)
    : list (sv_op A) :=
    let at0 := length directory + 1 in
    let start := if dir then at0 else 0 in
    (if dir then [InsertRange 0 directory; PushBack slash] else [])
    ++ [InsertRange start prefix;
        InsertRange (start + length prefix) name;
        InsertRange (start + length prefix + length name) suffix;
        InsertMove (start + length prefix + length name + length suffix) nul].

  (** The string that is filled otherwise, Library.cpp 123-132. The position end() is the length. *)
  Definition path_string_ops (directory : cstring A) (name : cstring A)
      (directoryLength prefixLength nameLength fullPathLength : nat) : list (str_op A) :=
    let start := match directory with Some _ => directoryLength + 1 | None => 0 end in
    [SReserve (fullPathLength + 1)]
    ++ (match directory with Some _ => [SPushRaw directory; SPush slash] | None => [] end)
    ++ [SInsertRaw start libraryPrefix;
        SInsertRaw (start + prefixLength) name;
        SInsertRaw (start + prefixLength + nameLength) librarySuffixShared].

  (** getHandle, Library.cpp 81-136: the memory at the pointer given to library::open. [dflt], [fuel]: not
      used when the element type is trivial; enough for the recursion of String. *)
  Definition getHandle_path (fuel : nat) (name directory : cstring A) : outcome (list A) :=
    let! directoryLength := raw_length is_nul directory in
    let! nameLength := raw_length is_nul name in
    let! prefixLength := raw_length is_nul libraryPrefix in
    let! suffixLength := raw_length is_nul librarySuffixShared in
    let nameFullLength := prefixLength + nameLength + suffixLength + 1 in
    let fullPathLength := directoryLength + 1 + nameFullLength in
    if fullPathLength <? maxPathLength then
      let! d := chars_of directory directoryLength in
      let! p := chars_of libraryPrefix prefixLength in
      let! n := chars_of name nameLength in
      let! s := chars_of librarySuffixShared suffixLength in
      let! v := sv_run Trivial (fun c => c) nul (sv_new maxPathLength)
                  (path_static_ops d p n s match directory with Some _ => true | None => false end) in
      sv_elements v
    else
      let! s := str_history nul is_nul fuel CDefault
                  (path_string_ops directory name directoryLength prefixLength nameLength
                     fullPathLength) in
      let! cs := str_chars s in
      let! z := str_at s (str_length s) in
      Ok (cs ++ [z]).
End Path.

(** * Objects and what they own *)

Section Objects.
  (** What the loader finds: the symbols of a library, and those it finds for the null handle:
      on POSIX the null pointer is RTLD_DEFAULT (glibc, musl), the whole program; on Windows
      GetProcAddress finds nothing for it. *)
  Variable symbols : nat -> nat -> option nat.
  Variable global : nat -> option nat.

  (** A LibraryHandle that was allocated, Os/Posix/Types.hpp 139-146: its address; [None] =
      LIBRARY_HANDLE_INVALID. *)
  Inductive cell := Freed | Cell (address : option nat).

  (** [l_vars]: the Library objects and their member handle ([None] = nullptr). [l_cells]: the
      blocks of memory. [l_refs]: how many times the loader has each library open (dlopen and
      LoadLibrary count, dlclose and FreeLibrary count back). Of the model. *)
  Record lworld := LWorld {
    l_vars : nat -> option (option nat);
    l_cells : list cell;
    l_refs : nat -> nat }.

  (** Of the model. *)
  Definition set_var (f : nat -> option (option nat)) (v : nat) (x : option (option nat)) :=
    fun u => if u =? v then x else f u.
  (** Of the model. *)
  Definition set_refs (f : nat -> nat) (l n : nat) := fun u => if u =? l then n else f u.
  (** Of the model: a change of one variable. *)
  Definition with_var (w : lworld) (v : nat) (x : option (option nat)) : lworld :=
    LWorld (set_var (l_vars w) v x) (l_cells w) (l_refs w).

  (** Of the model: access to a variable; one without an object: undefined. *)
  Definition get_lib (w : lworld) (v : nat) : outcome (option nat) :=
    match l_vars w v with Some h => Ok h | None => UB end.
  (** Of the model: a variable is constructed when it has no object. *)
  Definition no_lib (w : lworld) (v : nat) : outcome unit :=
    match l_vars w v with None => Ok tt | Some _ => UB end.

  (** handleRef, Library.cpp 138-141, and the access to what it refers to. *)
  Definition handle_ref (w : lworld) (h : option nat) : outcome (option nat) :=
    match h with
    | None => UB
    | Some c => match nth_error (l_cells w) c with Some (Cell a) => Ok a | _ => UB end
    end.

  (** The calls, Library.hpp and Library.cpp 27-79. *)
  Inductive lcall :=
  | LNew (v : nat) (memory : bool)                        (* Library() *)
  | LOpen (v : nat) (memory : bool) (found : option nat)  (* Library(name, directory) *)
  | LMove (v p : nat)
  | LMoveAssign (v p : nat)
  | LTest (v : nat)                                       (* operator bool *)
  | LFind (v : nat) (name : nat)
  | LDelete (v : nat).

  (** What they return, Library.cpp 27-79. *)
  Inductive lanswer := NoAnswer | Loaded (b : bool) | Address (a : option nat).

  (** Library(), Library.cpp 27-31; ObjectAllocator::construct, ObjectAllocator.hpp 78-89: null
      when there is no memory, which is then dereferenced. *)
  Definition lib_new (w : lworld) (memory : bool) : outcome (lworld * option nat) :=
    if memory
    then Ok (LWorld (l_vars w) (l_cells w ++ [Cell None]) (l_refs w), Some (length (l_cells w)))
    else UB.

  (** library::close, LibraryFunctions.cpp 22-26: a library that is not open must not be
      closed. *)
  Definition lib_close (w : lworld) (c : nat) (address : option nat) : outcome lworld :=
    match address with
    | None => UB
    | Some l =>
        match l_refs w l with
        | 0 => UB
        | S n => Ok (LWorld (l_vars w) (upd (l_cells w) c (Cell None)) (set_refs (l_refs w) l n))
        end
    end.

  (** The members of Library, Library.cpp, each cited at its case or at its constructor in
      [lcall]. *)
  Definition lstep (w : lworld) (c : lcall) : outcome (lworld * lanswer) :=
    match c with
    | LNew v memory =>
        let! _ := no_lib w v in
        let! r := lib_new w memory in
        Ok (with_var (fst r) v (Some (snd r)), NoAnswer)
    | LOpen v memory found =>                             (* 38-42, 81-136 *)
        let! _ := no_lib w v in
        let! r := lib_new w memory in
        let! _ := handle_ref (fst r) (snd r) in
        let w1 := fst r in
        let c := length (l_cells w) in
        let refs := match found with
                    | Some l => set_refs (l_refs w1) l (l_refs w1 l + 1)
                    | None => l_refs w1
                    end in
        Ok (with_var (LWorld (l_vars w1) (upd (l_cells w1) c (Cell found)) refs) v (Some (snd r)),
            NoAnswer)
    | LMove v p =>                                        (* 33-36 *)
        let! _ := no_lib w v in
        let! h := get_lib w p in
        Ok (with_var (with_var w v (Some h)) p (Some None), NoAnswer)
    | LMoveAssign v p =>                                  (* 54-59 *)
        let! _ := get_lib w v in
        let! h := get_lib w p in
        Ok (with_var (with_var w v (Some h)) p (Some None), NoAnswer)
    | LTest v =>                                          (* 61-64 *)
        let! h := get_lib w v in
        let! a := handle_ref w h in
        Ok (w, Loaded match a with Some _ => true | None => false end)
    | LFind v name =>                                     (* 66-71 *)
        let! h := get_lib w v in
        let! a := handle_ref w h in
        match a with
        | None => Ok (w, Address (global name))
        | Some l => if l_refs w l =? 0 then UB else Ok (w, Address (symbols l name))
        end
    | LDelete v =>                                        (* 44-52 *)
        let! h := get_lib w v in
        let! a := handle_ref w h in
        match a, h with
        | Some _, Some c =>
            let! w1 := lib_close w c a in
            Ok (with_var (LWorld (l_vars w1) (upd (l_cells w1) c Freed) (l_refs w1)) v None, NoAnswer)
        | _, _ => Ok (with_var w v None, NoAnswer)
        end
    end.

  (** Of the model: the calls of a history, one after the other. *)
  Fixpoint lruns (w : lworld) (h : list lcall) : outcome (lworld * list lanswer) :=
    match h with
    | [] => Ok (w, [])
    | c :: h =>
        let! r := lstep w c in
        let! r' := lruns (fst r) h in
        Ok (fst r', snd r :: snd r')
    end.

  (** No object, no memory, nothing open by this program. Of the model. *)
  Definition l_start : lworld := LWorld (fun _ => None) [] (fun _ => 0).
End Objects.
