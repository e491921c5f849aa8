(** Model of the base class of the mechanisms of the software PKCS#11 module
    (/repo/src/Crypto/SoftPkcs11/Mechanisms/Base/Mechanism.hpp 20-158, Mechanism.cpp). The
    callbacks are functions of the application: they may read and change the state [W] of the
    program. Encryptor, Decryptor, Signer, Verifier and Digister have no defined functions
    besides constructors and are known by their addresses only. *)
From Coq Require Import List NArith.
Import ListNotations.

(** pkcs11::enums::ReturnType (Crypto/Pkcs11/Types/Enums.hpp 1211, 1252): the constants used
    here, and all others. *)
Inductive ret := ARGUMENTS_BAD | MECHANISM_INVALID | OtherRet (code : N).

(** pkcs11::enums::Mechanism: the constant used here, Mechanism.cpp 96, and all others. *)
Inductive mtype := VENDOR_DEFINED | OtherType (code : N).

(** pkcs11::structs::MechanismInfo, Mechanism.cpp 101-105: both key sizes and the flags. *)
Record minfo := MInfo { minKeySize : N; maxKeySize : N; mflags : N }.

(** Expected<T *, ReturnType>, Mechanism.hpp 23-34. *)
Inductive expected := Value (address : N) | Error (r : ret).

Section Mechanism.
  (** The state of the program, the addresses of mechanisms, the parameters (Mechanism.hpp
      36-104). *)
  Context {W : Type} {Object Param : Type}.

  (** The callbacks, Mechanism.hpp 106-115 and 150-157. *)
  Record callbacks := Callbacks {
    getTypeCallback : Object -> W -> mtype * W;
    getInfoCallback : Object -> W -> minfo * W;
    getEncryptorCallback : Object -> W -> expected * W;
    getDecryptorCallback : Object -> W -> expected * W;
    getSignerCallback : Object -> W -> expected * W;
    getVerifierCallback : Object -> W -> expected * W;
    processParameterCallback : Object -> Param -> W -> ret * W
  }.

  (** Mechanism(GetTypeCallback, ...), Mechanism.cpp 73-90. *)
  Definition mechanism (a1 : Object -> W -> mtype * W) (a2 : Object -> W -> minfo * W)
    (a3 a4 a5 a6 : Object -> W -> expected * W) (a7 : Object -> Param -> W -> ret * W)
    : callbacks := Callbacks a1 a2 a3 a4 a5 a6 a7.

  (** getType, getInfo, Mechanism.cpp 94-106, of a plain mechanism. *)
  Definition plain_type (_ : Object) (w : W) : mtype * W := (VENDOR_DEFINED, w).
  (** getInfo, Mechanism.cpp 99-106. *)
  Definition plain_info (_ : Object) (w : W) : minfo * W := (MInfo 0 0 0, w).
  (** getEncryptor, Mechanism.cpp 108-113. *)
  Definition plain_encryptor (_ : Object) (w : W) : expected * W := (Error MECHANISM_INVALID, w).
  (** getDecryptor, Mechanism.cpp 115-120. *)
  Definition plain_decryptor (_ : Object) (w : W) : expected * W := (Error MECHANISM_INVALID, w).
  (** getSigner, Mechanism.cpp 122-127. *)
  Definition plain_signer (_ : Object) (w : W) : expected * W := (Error MECHANISM_INVALID, w).
  (** getVerifier, Mechanism.cpp 129-134. *)
  Definition plain_verifier (_ : Object) (w : W) : expected * W := (Error MECHANISM_INVALID, w).
  (** processParameter, Mechanism.cpp 136-140. *)
  Definition plain_parameter (_ : Object) (_ : Param) (w : W) : ret * W := (ARGUMENTS_BAD, w).

  (** Mechanism(), Mechanism.cpp 21-31. *)
  Definition plain : callbacks :=
    mechanism plain_type plain_info plain_encryptor plain_decryptor plain_signer plain_verifier
              plain_parameter.

  (** getType() and the others, Mechanism.hpp 122-138. *)
  Inductive question :=
  | AskType | AskInfo | AskEncryptor | AskDecryptor | AskSigner | AskVerifier
  | AskParameter (p : Param).

  (** What the member functions return, Mechanism.hpp 122-138. *)
  Inductive answer := ATypeIs (t : mtype) | AInfoIs (i : minfo) | AExpected (e : expected)
                    | ARet (r : ret).

  (** The member functions, Mechanism.cpp 36-69, on the object [this]. *)
  Definition ask (m : callbacks) (this : Object) (q : question) (w : W) : answer * W :=
    match q with
    | AskType => let (t, w) := getTypeCallback m this w in (ATypeIs t, w)
    | AskInfo => let (i, w) := getInfoCallback m this w in (AInfoIs i, w)
    | AskEncryptor => let (e, w) := getEncryptorCallback m this w in (AExpected e, w)
    | AskDecryptor => let (e, w) := getDecryptorCallback m this w in (AExpected e, w)
    | AskSigner => let (e, w) := getSignerCallback m this w in (AExpected e, w)
    | AskVerifier => let (e, w) := getVerifierCallback m this w in (AExpected e, w)
    | AskParameter p => let (r, w) := processParameterCallback m this p w in (ARet r, w)
    end.

  (** Of the model: questions in a row, to several objects. *)
  Fixpoint ask_all (qs : list (callbacks * Object * question)) (w : W) : list answer * W :=
    match qs with
    | [] => ([], w)
    | (m, o, q) :: qs =>
        let (a, w) := ask m o q w in
        let (as_, w) := ask_all qs w in (a :: as_, w)
    end.
End Mechanism.
Arguments callbacks : clear implicits.
Arguments question : clear implicits.
