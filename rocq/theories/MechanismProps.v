(** C222: a mechanism is asked and its own callback answers. *)
From Coq Require Import List NArith Lia.
From Verif Require Import MechanismModel MechanismSpec.
Import ListNotations.

(** Whatever is asked of whichever objects, in whatever order: every question is answered by the
    callback for that question, called once, with that object and that parameter. *)
Theorem C222_own_callback :
  forall (Object Param : Type) (t : Object -> mtype) (i : Object -> minfo)
         (e d s v : Object -> expected) (r : Object -> Param -> ret)
         (qs : list (Object * question Param)) (before : list call),
  let m := noting t i e d s v r in
  ask_all (map (fun oq => (m, fst oq, snd oq)) qs) before
  = (map (fun oq => meant t i e d s v r (fst oq) (snd oq)) qs,
     before ++ map (fun oq => (name (snd oq), fst oq, given (snd oq))) qs).
Proof.
  intros Object Param t i e d s v r qs. cbn zeta.
  induction qs as [|[o q] qs IH]; intros w; cbn [map ask_all fst snd].
  - now rewrite app_nil_r.
  - destruct q; cbn [ask noting mechanism getTypeCallback getInfoCallback getEncryptorCallback
      getDecryptorCallback getSignerCallback getVerifierCallback processParameterCallback];
      rewrite IH, <- app_assoc; reflexivity.
Qed.

(** A mechanism that is only that can do nothing, says so to every question, and changes nothing;
    its answers come between those of others. *)
Theorem C222_plain :
  forall (W Object Param : Type) (o : Object) (q : question Param) (w : W),
  ask plain o q w
  = (match q with
     | AskType => ATypeIs VENDOR_DEFINED
     | AskInfo => AInfoIs (MInfo 0 0 0)
     | AskParameter _ => ARet ARGUMENTS_BAD
     | _ => AExpected (Error MECHANISM_INVALID)
     end, w).
Proof. intros W Object Param o q w. destruct q; reflexivity. Qed.

Example C222_case :
  let m := noting (fun _ => OtherType 4) (fun _ => MInfo 8 16 1) (fun o => Value o)
             (fun _ => Error MECHANISM_INVALID) (fun o => Value (o + 1))
             (fun o => Value (o + 2)) (fun _ p => OtherRet p) in
  ask_all [(m, 10%N, AskSigner); (m, 20%N, AskParameter 3%N)] []
  = ([AExpected (Value 11); ARet (OtherRet 3)], [(5%N, 10%N, []); (7%N, 20%N, [3%N])]).
Proof. reflexivity. Qed.

Print Assumptions C222_own_callback.
Print Assumptions C222_plain.
