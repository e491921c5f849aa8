(** What an application that derives mechanisms expects: that its callbacks are called. *)
From Coq Require Import List NArith.
From Verif Require Import MechanismModel.
Import ListNotations.

(** An application that records who was asked what: its callbacks are tagged with numbers. The
    state is the list of the calls so far. *)
Section Recording.
  Context {Object Param : Type}.

  (** The name of a question, and its parameter. *)
  Definition name (q : question Param) : N :=
    match q with
    | AskType => 1 | AskInfo => 2 | AskEncryptor => 3 | AskDecryptor => 4 | AskSigner => 5
    | AskVerifier => 6 | AskParameter _ => 7
    end.
  Definition given (q : question Param) : list Param :=
    match q with AskParameter p => [p] | _ => [] end.

  Definition call := (N * Object * list Param)%type.

  (** The mechanism of an application: for every question a callback of its own, with an answer
      of its own, which notes the call. *)
  Variables (t : Object -> mtype) (i : Object -> minfo) (e d s v : Object -> expected)
            (r : Object -> Param -> ret).
  Definition noting : callbacks (list call) Object Param :=
    mechanism
      (fun o w => (t o, w ++ [(1%N, o, [])])) (fun o w => (i o, w ++ [(2%N, o, [])]))
      (fun o w => (e o, w ++ [(3%N, o, [])])) (fun o w => (d o, w ++ [(4%N, o, [])]))
      (fun o w => (s o, w ++ [(5%N, o, [])])) (fun o w => (v o, w ++ [(6%N, o, [])]))
      (fun o p w => (r o p, w ++ [(7%N, o, [p])])).

  (** The answer that the application means. *)
  Definition meant (o : Object) (q : question Param) : answer :=
    match q with
    | AskType => ATypeIs (t o) | AskInfo => AInfoIs (i o)
    | AskEncryptor => AExpected (e o) | AskDecryptor => AExpected (d o)
    | AskSigner => AExpected (s o) | AskVerifier => AExpected (v o)
    | AskParameter p => ARet (r o p)
    end.
End Recording.
