(** Which constant of the standard an enumerator is meant to be. *)
From Coq Require Import List ZArith String Bool.
Import ListNotations.
Local Open Scope string_scope.

(** The constants of an enumeration begin with these letters, and go on with the name of the
    enumerator. *)
Definition prefixes : list (string * string) := [
  ("Version", "CRYPTOKI_VERSION_"); ("Bool", "CK_"); ("SpecialValue", "CK_");
  ("Notification", "CKN_"); ("SlotFlags", "CKF_"); ("TokenInfoFlags", "CKF_"); ("User", "CKU_");
  ("State", "CKS_"); ("SessionFlags", "CKF_"); ("ObjectClass", "CKO_"); ("ProfileId", "CKP_");
  ("HardwareFeature", "CKH_"); ("Key", "CKK_");
  ("CertificateCategory", "CK_CERTIFICATE_CATEGORY_"); ("SecurityDomain", "CK_SECURITY_DOMAIN_");
  ("Certificate", "CKC_"); ("AttributeFlags", "CKF_"); ("OtpFormat", "CK_OTP_FORMAT_");
  ("OtpParamAttributes", "CK_OTP_"); ("Attribute", "CKA_"); ("Mechanism", "CKM_");
  ("MechanismFlags", "CKF_"); ("ReturnType", "CKR_"); ("InterfaceFlags", "CKF_");
  ("FunctionListFlags", "CKF_INTERFACE_"); ("InitializeArgsFlags", "CKF_");
  ("WaitForSlotEventFlags", "CKF_"); ("RsaMessageGenerationFunction", "CKG_MGF1_");
  ("RsaPkcsOaepSource", "CKZ_"); ("EcKdf", "CKD_");
  ("Pkcs5Pbkd2PseudoRandomFunction", "CKP_PKCS5_PBKD2_HMAC_");
  ("Pkcs5Pbkdf2SaltSource", "CKZ_SALT_"); ("OtpParam", "CK_OTP_"); ("OtpParamFlags", "CKF_");
  ("GeneratorFunction", "CKG_"); ("NistSp800dot108", "CK_SP800_108_"); ("HkdfSalt", "CKF_HKDF_")
].

(** Enumerators with a name of their own. *)
Definition renamed : list (string * string * string) := [
  ("Bool", "OASIS_TRUE", "TRUE"); ("Bool", "OASIS_FALSE", "FALSE");
  ("User", "SECURITY_OFFICER", "SO"); ("Mechanism", "MECHANISM_NULL", "NULL");
  ("EcKdf", "NONE", "NULL"); ("EcKdf", "SHA1", "SHA1_KDF"); ("EcKdf", "SHA1_ASN1", "SHA1_KDF_ASN1");
  ("EcKdf", "SHA1_CONCATENATE", "SHA1_KDF_CONCATENATE"); ("EcKdf", "SHA224", "SHA224_KDF");
  ("EcKdf", "SHA256", "SHA256_KDF"); ("EcKdf", "SHA384", "SHA384_KDF");
  ("EcKdf", "SHA512", "SHA512_KDF"); ("EcKdf", "CPDIVERSIFY", "CPDIVERSIFY_KDF")
].
(** Enumerators that stand for no flag at all: zero. *)
Definition no_flags : list (string * string) := [
  ("InterfaceFlags", "NONE"); ("FunctionListFlags", "NULL_VALUE"); ("WaitForSlotEventFlags", "DO_BLOCK")
].

Definition same (a b : string * string) : bool := String.eqb (fst a) (fst b) && String.eqb (snd a) (snd b).
Fixpoint new_name (l : list (string * string * string)) (e n : string) : string :=
  match l with
  | [] => n
  | (x, y) :: l => if same x (e, n) then y else new_name l e n
  end.
Fixpoint prefix_in (l : list (string * string)) (e : string) : option string :=
  match l with
  | [] => None
  | (d, p) :: l => if String.eqb d e then Some p else prefix_in l e
  end.
Definition prefix_of : string -> option string := prefix_in prefixes.
(** The name of the constant for the enumerator [n] of the enumeration [e]. *)
Definition meant (e n : string) : option string :=
  match prefix_of e with
  | Some p => Some (p ++ new_name renamed e n)
  | None => None
  end.
Definition stands_for_nothing (e n : string) : bool := existsb (same (e, n)) no_flags.
