(** The statements of the classes of /repo/src/Crypto/Pkcs11/Types/Structs (paths below are
    relative to /repo), transcribed one by one. In [Code]: name, structure of OASIS, its fields
    with their types, what the default constructor does, the parameters of the constructor from
    values with the fields named in their types, the statements of that constructor, and the
    statements of operator=(const Parent &). In all classes the constructors from the structure
    and from an object and operator=(const Me &) only call operator=(const Parent &). *)
From Coq Require Import List String.
From Verif Require Import StructsModel.
Import ListNotations.
Local Open Scope string_scope.

(** src/Crypto/Pkcs11/Types/Structs/AesCbcEncryptDataParams.cpp: default constructor 9-10, copies 12-17, from the
    structure 19-22, from values 24-33, assignment 35-40 and 42-49. Fields:
    include/FlameIDE/Crypto/Oasis/pkcs11t.h 1668-1672. *)
Definition s_AesCbcEncryptDataParams : code := Code "AesCbcEncryptDataParams" "CK_AES_CBC_ENCRYPT_DATA_PARAMS"
    [("iv", (Bytes 16)); ("pData", Pointer); ("length", Long)]
    Uninitialised
    [("iv", "iv"); ("data", "pData"); ("dataLength", "length")]
    [("iv", "iv"); ("pData", "data"); ("length", "dataLength")]
    [("iv", "iv"); ("pData", "pData"); ("length", "length")].

(** src/Crypto/Pkcs11/Types/Structs/AesCtrParams.cpp: default constructor 9-10, copies 12-15, from the
    structure 17-20, from values 22-29, assignment 31-34 and 36-42. Fields:
    include/FlameIDE/Crypto/Oasis/pkcs11t.h 1991-1994. *)
Definition s_AesCtrParams : code := Code "AesCtrParams" "CK_AES_CTR_PARAMS"
    [("ulCounterBits", Long); ("cb", (Bytes 16))]
    Uninitialised
    [("counterBits", "ulCounterBits"); ("counterBlock", "cb")]
    [("ulCounterBits", "counterBits"); ("cb", "counterBlock")]
    [("ulCounterBits", "ulCounterBits"); ("cb", "cb")].

(** src/Crypto/Pkcs11/Types/Structs/AriaCbcEncryptDataParams.cpp: default constructor 9-10, copies 12-17, from the
    structure 19-22, from values 24-33, assignment 35-38 and 40-47. Fields:
    include/FlameIDE/Crypto/Oasis/pkcs11t.h 2089-2093. *)
Definition s_AriaCbcEncryptDataParams : code := Code "AriaCbcEncryptDataParams" "CK_ARIA_CBC_ENCRYPT_DATA_PARAMS"
    [("iv", (Bytes 16)); ("pData", Pointer); ("length", Long)]
    Uninitialised
    [("iv", "iv"); ("data", "pData"); ("dataLength", "length")]
    [("iv", "iv"); ("pData", "data"); ("length", "dataLength")]
    [("iv", "iv"); ("pData", "pData"); ("length", "length")].

(** src/Crypto/Pkcs11/Types/Structs/Attribute.cpp: default constructor 10-12, copies 14-16, from the
    structure 27-30, from values 18-25, assignment 32-35 and 37-43. Fields:
    include/FlameIDE/Crypto/Oasis/pkcs11t.h 589-593. *)
Definition s_Attribute : code := Code "Attribute" "CK_ATTRIBUTE"
    [("type", Long); ("pValue", Pointer); ("ulValueLen", Long)]
    EmptyParent
    [("type", "type"); ("value", "pValue"); ("valueLength", "ulValueLen")]
    [("type", "type"); ("pValue", "value"); ("ulValueLen", "valueLength")]
    [("type", "type"); ("pValue", "pValue"); ("ulValueLen", "ulValueLen")].

(** src/Crypto/Pkcs11/Types/Structs/CamelliaCbcEncryptDataParams.cpp: default constructor 9-10, copies 12-17, from the
    structure 19-22, from values 24-33, assignment 36-39 and 42-49. Fields:
    include/FlameIDE/Crypto/Oasis/pkcs11t.h 2080-2084. *)
Definition s_CamelliaCbcEncryptDataParams : code := Code "CamelliaCbcEncryptDataParams" "CK_CAMELLIA_CBC_ENCRYPT_DATA_PARAMS"
    [("iv", (Bytes 16)); ("pData", Pointer); ("length", Long)]
    Uninitialised
    [("iv", "iv"); ("data", "pData"); ("dataLength", "length")]
    [("iv", "iv"); ("pData", "data"); ("length", "dataLength")]
    [("iv", "iv"); ("pData", "pData"); ("length", "length")].

(** src/Crypto/Pkcs11/Types/Structs/CamelliaCtrParams.cpp: default constructor 9-10, copies 12-15, from the
    structure 17-20, from values 22-29, assignment 31-34 and 36-42. Fields:
    include/FlameIDE/Crypto/Oasis/pkcs11t.h 2073-2076. *)
Definition s_CamelliaCtrParams : code := Code "CamelliaCtrParams" "CK_CAMELLIA_CTR_PARAMS"
    [("ulCounterBits", Long); ("cb", (Bytes 16))]
    Uninitialised
    [("counterBits", "ulCounterBits"); ("counterBlock", "cb")]
    [("ulCounterBits", "counterBits"); ("cb", "counterBlock")]
    [("ulCounterBits", "ulCounterBits"); ("cb", "cb")].

(** src/Crypto/Pkcs11/Types/Structs/CcmMessageParams.cpp: default constructor 8-9, copies 11-14, from the
    structure 16-19, from values 21-38, assignment 40-43 and 45-56. Fields:
    include/FlameIDE/Crypto/Oasis/pkcs11t.h 2037-2045. *)
Definition s_CcmMessageParams : code := Code "CcmMessageParams" "CK_CCM_MESSAGE_PARAMS"
    [("ulDataLen", Long); ("pNonce", Pointer); ("ulNonceLen", Long);
      ("ulNonceFixedBits", Long); ("nonceGenerator", Long); ("pMAC", Pointer);
      ("ulMACLen", Long)]
    Uninitialised
    [("dataLength", "ulDataLen"); ("nonce", "pNonce"); ("nonceLength", "ulNonceLen");
      ("nonceFixedBits", "ulNonceFixedBits"); ("nonceGenerator", "nonceGenerator");
      ("mac", "pMAC"); ("macLength", "ulMACLen")]
    [("ulDataLen", "dataLength"); ("pNonce", "nonce"); ("ulNonceLen", "nonceLength");
      ("ulNonceFixedBits", "nonceFixedBits"); ("nonceGenerator", "nonceGenerator");
      ("pMAC", "mac"); ("ulMACLen", "macLength")]
    [("ulDataLen", "ulDataLen"); ("pNonce", "pNonce"); ("ulNonceLen", "ulNonceLen");
      ("ulNonceFixedBits", "ulNonceFixedBits"); ("nonceGenerator", "nonceGenerator");
      ("pMAC", "pMAC"); ("ulMACLen", "ulMACLen")].

(** src/Crypto/Pkcs11/Types/Structs/CcmParams.cpp: default constructor 8-9, copies 11-14, from the
    structure 16-19, from values 21-36, assignment 38-41 and 43-53. Fields:
    include/FlameIDE/Crypto/Oasis/pkcs11t.h 2026-2033. *)
Definition s_CcmParams : code := Code "CcmParams" "CK_CCM_PARAMS"
    [("ulDataLen", Long); ("pNonce", Pointer); ("ulNonceLen", Long); ("pAAD", Pointer);
      ("ulAADLen", Long); ("ulMACLen", Long)]
    Uninitialised
    [("dataLength", "ulDataLen"); ("nonce", "pNonce"); ("nonceLength", "ulNonceLen");
      ("aad", "pAAD"); ("aadLength", "ulAADLen"); ("macLength", "ulMACLen")]
    [("ulDataLen", "dataLength"); ("pNonce", "nonce"); ("ulNonceLen", "nonceLength");
      ("pAAD", "aad"); ("ulAADLen", "aadLength"); ("ulMACLen", "macLength")]
    [("ulDataLen", "ulDataLen"); ("pNonce", "pNonce"); ("ulNonceLen", "ulNonceLen");
      ("pAAD", "pAAD"); ("ulAADLen", "ulAADLen"); ("ulMACLen", "ulMACLen")].

(** src/Crypto/Pkcs11/Types/Structs/ChaCha20Params.cpp: default constructor 8-9, copies 11-14, from the
    structure 16-19, from values 21-32, assignment 34-37 and 39-47. Fields:
    include/FlameIDE/Crypto/Oasis/pkcs11t.h 2284-2289. *)
Definition s_ChaCha20Params : code := Code "ChaCha20Params" "CK_CHACHA20_PARAMS"
    [("pBlockCounter", Pointer); ("blockCounterBits", Long); ("pNonce", Pointer);
      ("ulNonceBits", Long)]
    Uninitialised
    [("blockCounter", "pBlockCounter"); ("blockCounterBits", "blockCounterBits");
      ("nonce", "pNonce"); ("nonceBits", "ulNonceBits")]
    [("pBlockCounter", "blockCounter"); ("blockCounterBits", "blockCounterBits");
      ("pNonce", "nonce"); ("ulNonceBits", "nonceBits")]
    [("pBlockCounter", "pBlockCounter"); ("blockCounterBits", "blockCounterBits");
      ("pNonce", "pNonce"); ("ulNonceBits", "ulNonceBits")].

(** src/Crypto/Pkcs11/Types/Structs/CmsSigParams.cpp: default constructor 8-9, copies 11-14, from the
    structure 16-19, from values 21-40, assignment 42-45 and 47-59. Fields:
    include/FlameIDE/Crypto/Oasis/pkcs11t.h 1845-1854. *)
Definition s_CmsSigParams : code := Code "CmsSigParams" "CK_CMS_SIG_PARAMS"
    [("certificateHandle", Long); ("pSigningMechanism", Pointer);
      ("pDigestMechanism", Pointer); ("pContentType", Pointer);
      ("pRequestedAttributes", Pointer); ("ulRequestedAttributesLen", Long);
      ("pRequiredAttributes", Pointer); ("ulRequiredAttributesLen", Long)]
    Uninitialised
    [("certificateHandle", "certificateHandle");
      ("signingMechanism", "pSigningMechanism"); ("digestMechanism", "pDigestMechanism");
      ("contentType", "pContentType"); ("requestedAttributes", "pRequestedAttributes");
      ("requestedAttributesLength", "ulRequestedAttributesLen");
      ("requiredAttributes", "pRequiredAttributes");
      ("requiredAttributesLength", "ulRequiredAttributesLen")]
    [("certificateHandle", "certificateHandle");
      ("pSigningMechanism", "signingMechanism"); ("pDigestMechanism", "digestMechanism");
      ("pContentType", "contentType"); ("pRequestedAttributes", "requestedAttributes");
      ("ulRequestedAttributesLen", "requestedAttributesLength");
      ("pRequiredAttributes", "requiredAttributes");
      ("ulRequiredAttributesLen", "requiredAttributesLength")]
    [("certificateHandle", "certificateHandle");
      ("pSigningMechanism", "pSigningMechanism"); ("pDigestMechanism", "pDigestMechanism");
      ("pContentType", "pContentType"); ("pRequestedAttributes", "pRequestedAttributes");
      ("ulRequestedAttributesLen", "ulRequestedAttributesLen");
      ("pRequiredAttributes", "pRequiredAttributes");
      ("ulRequiredAttributesLen", "ulRequiredAttributesLen")].

(** src/Crypto/Pkcs11/Types/Structs/Date.cpp: default constructor 11-13, copies 15-17, from the
    structure 28-31, from values 19-26, assignment 33-36 and 38-44. Fields:
    include/FlameIDE/Crypto/Oasis/pkcs11t.h 598-602. *)
Definition s_Date : code := Code "Date" "CK_DATE"
    [("year", (Bytes 4)); ("month", (Bytes 2)); ("day", (Bytes 2))]
    EmptyParent
    [("year", "year"); ("month", "month"); ("day", "day")]
    [("year", "year"); ("month", "month"); ("day", "day")]
    [("year", "year"); ("month", "month"); ("day", "day")].

(** src/Crypto/Pkcs11/Types/Structs/DerivedKey.cpp: default constructor 8-9, copies 11-14, from the
    structure 16-19, from values 21-30, assignment 32-35 and 37-44. Fields:
    include/FlameIDE/Crypto/Oasis/pkcs11t.h 2240-2245. *)
Definition s_DerivedKey : code := Code "DerivedKey" "CK_DERIVED_KEY"
    [("pTemplate", Pointer); ("ulAttributeCount", Long); ("phKey", Pointer)]
    Uninitialised
    [("attribute", "pTemplate"); ("attributeCount", "ulAttributeCount");
      ("keyHandle", "phKey")]
    [("pTemplate", "attribute"); ("ulAttributeCount", "attributeCount");
      ("phKey", "keyHandle")]
    [("pTemplate", "pTemplate"); ("ulAttributeCount", "ulAttributeCount");
      ("phKey", "phKey")].

(** src/Crypto/Pkcs11/Types/Structs/DesCbcEncryptDataParams.cpp: default constructor 9-10, copies 12-17, from the
    structure 19-22, from values 24-33, assignment 35-40 and 42-49. Fields:
    include/FlameIDE/Crypto/Oasis/pkcs11t.h 1660-1664. *)
Definition s_DesCbcEncryptDataParams : code := Code "DesCbcEncryptDataParams" "CK_DES_CBC_ENCRYPT_DATA_PARAMS"
    [("iv", (Bytes 8)); ("pData", Pointer); ("length", Long)]
    Uninitialised
    [("iv", "iv"); ("data", "pData"); ("dataLength", "length")]
    [("iv", "iv"); ("pData", "data"); ("length", "dataLength")]
    [("iv", "iv"); ("pData", "pData"); ("length", "length")].

(** src/Crypto/Pkcs11/Types/Structs/DoubleRatchetInitializeParams.cpp: default constructor 8-9, copies 11-16, from the
    structure 18-21, from values 23-42, assignment 44-49 and 51-65. Fields:
    include/FlameIDE/Crypto/Oasis/pkcs11t.h 2346-2355. *)
Definition s_DoubleRatchetInitializeParams : code := Code "DoubleRatchetInitializeParams" "CK_X2RATCHET_INITIALIZE_PARAMS"
    [("sk", Pointer); ("peer_public_prekey", Long); ("peer_public_identity", Long);
      ("own_public_identity", Long); ("bEncryptedHeader", (Int 1)); ("eCurve", Long);
      ("aeadMechanism", Long); ("kdfMechanism", Long)]
    Uninitialised
    [("sk", "sk"); ("peerPublicPrekey", "peer_public_prekey");
      ("peerPublicIdentity", "peer_public_identity");
      ("ownPublicIdentity", "own_public_identity");
      ("encryptedHeader", "bEncryptedHeader"); ("curve", "eCurve");
      ("aeadMechanism", "aeadMechanism"); ("kdfMechanism", "kdfMechanism")]
    [("sk", "sk"); ("peer_public_prekey", "peerPublicPrekey");
      ("peer_public_identity", "peerPublicIdentity");
      ("own_public_identity", "ownPublicIdentity");
      ("bEncryptedHeader", "encryptedHeader"); ("eCurve", "curve");
      ("aeadMechanism", "aeadMechanism"); ("kdfMechanism", "kdfMechanism")]
    [("sk", "sk"); ("peer_public_prekey", "peer_public_prekey");
      ("peer_public_identity", "peer_public_identity");
      ("own_public_identity", "own_public_identity");
      ("bEncryptedHeader", "bEncryptedHeader"); ("eCurve", "eCurve");
      ("aeadMechanism", "aeadMechanism"); ("kdfMechanism", "kdfMechanism")].

(** src/Crypto/Pkcs11/Types/Structs/DoubleRatchetRespondParams.cpp: default constructor 8-9, copies 11-16, from the
    structure 18-21, from values 23-42, assignment 44-49 and 51-63. Fields:
    include/FlameIDE/Crypto/Oasis/pkcs11t.h 2360-2369. *)
Definition s_DoubleRatchetRespondParams : code := Code "DoubleRatchetRespondParams" "CK_X2RATCHET_RESPOND_PARAMS"
    [("sk", Pointer); ("own_prekey", Long); ("initiator_identity", Long);
      ("own_public_identity", Long); ("bEncryptedHeader", (Int 1)); ("eCurve", Long);
      ("aeadMechanism", Long); ("kdfMechanism", Long)]
    Uninitialised
    [("sk", "sk"); ("ownPrekey", "own_prekey");
      ("initiatorIdentity", "initiator_identity");
      ("ownPublicIdentity", "own_public_identity");
      ("encryptedHeader", "bEncryptedHeader"); ("curve", "eCurve");
      ("aeadMechanism", "aeadMechanism"); ("kdfMechanism", "kdfMechanism")]
    [("sk", "sk"); ("own_prekey", "ownPrekey");
      ("initiator_identity", "initiatorIdentity");
      ("own_public_identity", "ownPublicIdentity");
      ("bEncryptedHeader", "encryptedHeader"); ("eCurve", "curve");
      ("aeadMechanism", "aeadMechanism"); ("kdfMechanism", "kdfMechanism")]
    [("sk", "sk"); ("own_prekey", "own_prekey");
      ("initiator_identity", "initiator_identity");
      ("own_public_identity", "own_public_identity");
      ("bEncryptedHeader", "bEncryptedHeader"); ("eCurve", "eCurve");
      ("aeadMechanism", "aeadMechanism"); ("kdfMechanism", "kdfMechanism")].

(** src/Crypto/Pkcs11/Types/Structs/DsaParameterGenParam.cpp: default constructor 8-9, copies 11-14, from the
    structure 16-19, from values 21-32, assignment 34-39 and 41-49. Fields:
    include/FlameIDE/Crypto/Oasis/pkcs11t.h 2098-2103. *)
Definition s_DsaParameterGenParam : code := Code "DsaParameterGenParam" "CK_DSA_PARAMETER_GEN_PARAM"
    [("hash", Long); ("pSeed", Pointer); ("ulSeedLen", Long); ("ulIndex", Long)]
    Uninitialised
    [("hash", "hash"); ("seed", "pSeed"); ("seedLength", "ulSeedLen");
      ("index", "ulIndex")]
    [("hash", "hash"); ("pSeed", "seed"); ("ulSeedLen", "seedLength");
      ("ulIndex", "index")]
    [("hash", "hash"); ("pSeed", "pSeed"); ("ulSeedLen", "ulSeedLen");
      ("ulIndex", "ulIndex")].

(** src/Crypto/Pkcs11/Types/Structs/EcDh1DeriveParams.cpp: default constructor 10-12, copies 14-16, from the
    structure 18-21, from values 23-36, assignment 38-41 and 43-51. Fields:
    include/FlameIDE/Crypto/Oasis/pkcs11t.h 1473-1479. *)
Definition s_EcDh1DeriveParams : code := Code "ElipticCurveDiffieHellman1DeriveParams" "CK_ECDH1_DERIVE_PARAMS"
    [("kdf", Long); ("ulSharedDataLen", Long); ("pSharedData", Pointer);
      ("ulPublicDataLen", Long); ("pPublicData", Pointer)]
    EmptyParent
    [("kdf", "kdf"); ("sharedDataLength", "ulSharedDataLen");
      ("sharedData", "pSharedData"); ("publicDataLength", "ulPublicDataLen");
      ("publicData", "pPublicData")]
    [("kdf", "kdf"); ("ulSharedDataLen", "sharedDataLength");
      ("pSharedData", "sharedData"); ("ulPublicDataLen", "publicDataLength");
      ("pPublicData", "publicData")]
    [("kdf", "kdf"); ("ulSharedDataLen", "ulSharedDataLen");
      ("pSharedData", "pSharedData"); ("ulPublicDataLen", "ulPublicDataLen");
      ("pPublicData", "pPublicData")].

(** src/Crypto/Pkcs11/Types/Structs/EcDh2DeriveParams.cpp: default constructor 10-12, copies 14-18, from the
    structure 20-25, from values 27-48, assignment 50-55 and 57-71. Fields:
    include/FlameIDE/Crypto/Oasis/pkcs11t.h 1487-1497. *)
Definition s_EcDh2DeriveParams : code := Code "ElipticCurveDiffieHellman2DeriveParams" "CK_ECDH2_DERIVE_PARAMS"
    [("kdf", Long); ("ulSharedDataLen", Long); ("pSharedData", Pointer);
      ("ulPublicDataLen", Long); ("pPublicData", Pointer); ("ulPrivateDataLen", Long);
      ("hPrivateData", Long); ("ulPublicDataLen2", Long); ("pPublicData2", Pointer)]
    EmptyParent
    [("kdf", "kdf"); ("sharedDataLength", "ulSharedDataLen");
      ("sharedData", "pSharedData"); ("publicDataLength", "ulPublicDataLen");
      ("publicData", "pPublicData"); ("privateDataLength", "ulPrivateDataLen");
      ("privateData", "hPrivateData"); ("publicDataLength2", "ulPublicDataLen2");
      ("publicData2", "pPublicData2")]
    [("kdf", "kdf"); ("ulSharedDataLen", "sharedDataLength");
      ("pSharedData", "sharedData"); ("ulPublicDataLen", "publicDataLength");
      ("pPublicData", "publicData"); ("ulPrivateDataLen", "privateDataLength");
      ("hPrivateData", "privateData"); ("ulPublicDataLen2", "publicDataLength2");
      ("pPublicData2", "publicData2")]
    [("kdf", "kdf"); ("ulSharedDataLen", "ulSharedDataLen");
      ("pSharedData", "pSharedData"); ("ulPublicDataLen", "ulPublicDataLen");
      ("pPublicData", "pPublicData"); ("ulPrivateDataLen", "ulPrivateDataLen");
      ("hPrivateData", "hPrivateData"); ("ulPublicDataLen2", "ulPublicDataLen2");
      ("pPublicData2", "pPublicData2")].

(** src/Crypto/Pkcs11/Types/Structs/EcMqvDeriveParams.cpp: default constructor 10-12, copies 14-16, from the
    structure 18-21, from values 23-46, assignment 48-51 and 53-66. Fields:
    include/FlameIDE/Crypto/Oasis/pkcs11t.h 1501-1512. *)
Definition s_EcMqvDeriveParams : code := Code "EcMqvDeriveParams" "CK_ECMQV_DERIVE_PARAMS"
    [("kdf", Long); ("ulSharedDataLen", Long); ("pSharedData", Pointer);
      ("ulPublicDataLen", Long); ("pPublicData", Pointer); ("ulPrivateDataLen", Long);
      ("hPrivateData", Long); ("ulPublicDataLen2", Long); ("pPublicData2", Pointer);
      ("publicKey", Long)]
    EmptyParent
    [("kdf", "kdf"); ("sharedDataLength", "ulSharedDataLen");
      ("sharedData", "pSharedData"); ("publicDataLength", "ulPublicDataLen");
      ("publicData", "pPublicData"); ("privateDataLength", "ulPrivateDataLen");
      ("privateData", "hPrivateData"); ("publicDataLength2", "ulPublicDataLen2");
      ("publicData2", "pPublicData2"); ("publicKey", "publicKey")]
    [("kdf", "kdf"); ("ulSharedDataLen", "sharedDataLength");
      ("pSharedData", "sharedData"); ("ulPublicDataLen", "publicDataLength");
      ("pPublicData", "publicData"); ("ulPrivateDataLen", "privateDataLength");
      ("hPrivateData", "privateData"); ("ulPublicDataLen2", "publicDataLength2");
      ("pPublicData2", "publicData2"); ("publicKey", "publicKey")]
    [("kdf", "kdf"); ("ulSharedDataLen", "ulSharedDataLen");
      ("pSharedData", "pSharedData"); ("ulPublicDataLen", "ulPublicDataLen");
      ("pPublicData", "pPublicData"); ("ulPrivateDataLen", "ulPrivateDataLen");
      ("hPrivateData", "hPrivateData"); ("ulPublicDataLen2", "ulPublicDataLen2");
      ("pPublicData2", "pPublicData2"); ("publicKey", "publicKey")].

(** src/Crypto/Pkcs11/Types/Structs/EcdhAesKeyWrapParams.cpp: default constructor 8-9, copies 11-14, from the
    structure 16-19, from values 21-32, assignment 34-39 and 41-49. Fields:
    include/FlameIDE/Crypto/Oasis/pkcs11t.h 2107-2112. *)
Definition s_EcdhAesKeyWrapParams : code := Code "EcdhAesKeyWrapParams" "CK_ECDH_AES_KEY_WRAP_PARAMS"
    [("ulAESKeyBits", Long); ("kdf", Long); ("ulSharedDataLen", Long);
      ("pSharedData", Pointer)]
    Uninitialised
    [("aesKeyBits", "ulAESKeyBits"); ("kdf", "kdf");
      ("sharedDataLength", "ulSharedDataLen"); ("sharedData", "pSharedData")]
    [("ulAESKeyBits", "aesKeyBits"); ("kdf", "kdf");
      ("ulSharedDataLen", "sharedDataLength"); ("pSharedData", "sharedData")]
    [("ulAESKeyBits", "ulAESKeyBits"); ("kdf", "kdf");
      ("ulSharedDataLen", "ulSharedDataLen"); ("pSharedData", "pSharedData")].

(** src/Crypto/Pkcs11/Types/Structs/EdDsaParams.cpp: default constructor 8-9, copies 11-14, from the
    structure 16-19, from values 21-30, assignment 32-35 and 37-44. Fields:
    include/FlameIDE/Crypto/Oasis/pkcs11t.h 2275-2279. *)
Definition s_EdDsaParams : code := Code "EdDsaParams" "CK_EDDSA_PARAMS"
    [("phFlag", (Int 1)); ("ulContextDataLen", Long); ("pContextData", Pointer)]
    Uninitialised
    [("flag", "phFlag"); ("contextDataLength", "ulContextDataLen");
      ("contextData", "pContextData")]
    [("phFlag", "flag"); ("ulContextDataLen", "contextDataLength");
      ("pContextData", "contextData")]
    [("phFlag", "phFlag"); ("ulContextDataLen", "ulContextDataLen");
      ("pContextData", "pContextData")].

(** src/Crypto/Pkcs11/Types/Structs/ExtendedEdDsaParams.cpp: default constructor 8-9, copies 11-14, from the
    structure 16-19, from values 21-26, assignment 28-31 and 33-38. Fields:
    include/FlameIDE/Crypto/Oasis/pkcs11t.h 2377-2379. *)
Definition s_ExtendedEdDsaParams : code := Code "ExtendedEdDsaParams" "CK_XEDDSA_PARAMS"
    [("hash", Long)]
    Uninitialised
    [("hash", "hash")]
    [("hash", "hash")]
    [("hash", "hash")].

(** src/Crypto/Pkcs11/Types/Structs/ExtendedTripleDiffieHellmanInitiateParams.cpp: default constructor 8-9, copies 11-16, from the
    structure 18-21, from values 23-40, assignment 42-47 and 49-62. Fields:
    include/FlameIDE/Crypto/Oasis/pkcs11t.h 2324-2332. *)
Definition s_ExtendedTripleDiffieHellmanInitiateParams : code := Code "ExtendedTripleDiffieHellmanInitiateParams" "CK_X3DH_INITIATE_PARAMS"
    [("kdf", Long); ("pPeer_identity", Long); ("pPeer_prekey", Long);
      ("pPrekey_signature", Pointer); ("pOnetime_key", Pointer); ("pOwn_identity", Long);
      ("pOwn_ephemeral", Long)]
    Uninitialised
    [("kdf", "kdf"); ("peerIdentity", "pPeer_identity"); ("peerPrekey", "pPeer_prekey");
      ("prekeySignature", "pPrekey_signature"); ("onetimeKey", "pOnetime_key");
      ("ownIdentity", "pOwn_identity"); ("ownEphemeral", "pOwn_ephemeral")]
    [("kdf", "kdf"); ("pPeer_identity", "peerIdentity"); ("pPeer_prekey", "peerPrekey");
      ("pPrekey_signature", "prekeySignature"); ("pOnetime_key", "onetimeKey");
      ("pOwn_identity", "ownIdentity"); ("pOwn_ephemeral", "ownEphemeral")]
    [("kdf", "kdf"); ("pPeer_identity", "pPeer_identity");
      ("pPeer_prekey", "pPeer_prekey"); ("pPrekey_signature", "pPrekey_signature");
      ("pOnetime_key", "pOnetime_key"); ("pOwn_identity", "pOwn_identity");
      ("pOwn_ephemeral", "pOwn_ephemeral")].

(** src/Crypto/Pkcs11/Types/Structs/ExtendedTripleDiffieHellmanRespondParams.cpp: default constructor 8-9, copies 11-16, from the
    structure 18-23, from values 25-40, assignment 42-47 and 49-61. Fields:
    include/FlameIDE/Crypto/Oasis/pkcs11t.h 2334-2341. *)
Definition s_ExtendedTripleDiffieHellmanRespondParams : code := Code "ExtendedTripleDiffieHellmanRespondParams" "CK_X3DH_RESPOND_PARAMS"
    [("kdf", Long); ("pIdentity_id", Pointer); ("pPrekey_id", Pointer);
      ("pOnetime_id", Pointer); ("pInitiator_identity", Long);
      ("pInitiator_ephemeral", Pointer)]
    Uninitialised
    [("kdf", "kdf"); ("identityId", "pIdentity_id"); ("prekeyId", "pPrekey_id");
      ("onetimeId", "pOnetime_id"); ("initiatorIdentity", "pInitiator_identity");
      ("initiatorEphemeral", "pInitiator_ephemeral")]
    [("kdf", "kdf"); ("pIdentity_id", "identityId"); ("pPrekey_id", "prekeyId");
      ("pOnetime_id", "onetimeId"); ("pInitiator_identity", "initiatorIdentity");
      ("pInitiator_ephemeral", "initiatorEphemeral")]
    [("kdf", "kdf"); ("pIdentity_id", "pIdentity_id"); ("pPrekey_id", "pPrekey_id");
      ("pOnetime_id", "pOnetime_id"); ("pInitiator_identity", "pInitiator_identity");
      ("pInitiator_ephemeral", "pInitiator_ephemeral")].

(** src/Crypto/Pkcs11/Types/Structs/FunctionList.cpp: default constructor 10-12, copies 14-16, from the
    structure 18-21, from values 28-169, assignment 23-26 and 171-243. Fields:
    include/FlameIDE/Crypto/Oasis/pkcs11.h 200-229 and pkcs11f.h. *)
Definition s_FunctionList : code := Code "FunctionList" "CK_FUNCTION_LIST"
    [("version", (Struct [(Int 1);(Int 1)])); ("C_Initialize", Pointer);
      ("C_Finalize", Pointer); ("C_GetInfo", Pointer); ("C_GetFunctionList", Pointer);
      ("C_GetSlotList", Pointer); ("C_GetSlotInfo", Pointer); ("C_GetTokenInfo", Pointer);
      ("C_GetMechanismList", Pointer); ("C_GetMechanismInfo", Pointer);
      ("C_InitToken", Pointer); ("C_InitPIN", Pointer); ("C_SetPIN", Pointer);
      ("C_OpenSession", Pointer); ("C_CloseSession", Pointer);
      ("C_CloseAllSessions", Pointer); ("C_GetSessionInfo", Pointer);
      ("C_GetOperationState", Pointer); ("C_SetOperationState", Pointer);
      ("C_Login", Pointer); ("C_Logout", Pointer); ("C_CreateObject", Pointer);
      ("C_CopyObject", Pointer); ("C_DestroyObject", Pointer);
      ("C_GetObjectSize", Pointer); ("C_GetAttributeValue", Pointer);
      ("C_SetAttributeValue", Pointer); ("C_FindObjectsInit", Pointer);
      ("C_FindObjects", Pointer); ("C_FindObjectsFinal", Pointer);
      ("C_EncryptInit", Pointer); ("C_Encrypt", Pointer); ("C_EncryptUpdate", Pointer);
      ("C_EncryptFinal", Pointer); ("C_DecryptInit", Pointer); ("C_Decrypt", Pointer);
      ("C_DecryptUpdate", Pointer); ("C_DecryptFinal", Pointer); ("C_DigestInit", Pointer);
      ("C_Digest", Pointer); ("C_DigestUpdate", Pointer); ("C_DigestKey", Pointer);
      ("C_DigestFinal", Pointer); ("C_SignInit", Pointer); ("C_Sign", Pointer);
      ("C_SignUpdate", Pointer); ("C_SignFinal", Pointer); ("C_SignRecoverInit", Pointer);
      ("C_SignRecover", Pointer); ("C_VerifyInit", Pointer); ("C_Verify", Pointer);
      ("C_VerifyUpdate", Pointer); ("C_VerifyFinal", Pointer);
      ("C_VerifyRecoverInit", Pointer); ("C_VerifyRecover", Pointer);
      ("C_DigestEncryptUpdate", Pointer); ("C_DecryptDigestUpdate", Pointer);
      ("C_SignEncryptUpdate", Pointer); ("C_DecryptVerifyUpdate", Pointer);
      ("C_GenerateKey", Pointer); ("C_GenerateKeyPair", Pointer); ("C_WrapKey", Pointer);
      ("C_UnwrapKey", Pointer); ("C_DeriveKey", Pointer); ("C_SeedRandom", Pointer);
      ("C_GenerateRandom", Pointer); ("C_GetFunctionStatus", Pointer);
      ("C_CancelFunction", Pointer); ("C_WaitForSlotEvent", Pointer)]
    EmptyParent
    [("version", "version"); ("initializeCallback", "C_Initialize");
      ("finalizeCallback", "C_Finalize"); ("getInfoCallback", "C_GetInfo");
      ("getFunctionListCallback", "C_GetFunctionList");
      ("getSlotListCallback", "C_GetSlotList"); ("getSlotInfoCallback", "C_GetSlotInfo");
      ("getTokenInfoCallback", "C_GetTokenInfo");
      ("getMechanismListCallback", "C_GetMechanismList");
      ("getMechanismInfoCallback", "C_GetMechanismInfo");
      ("initTokenCallback", "C_InitToken"); ("initPinCallback", "C_InitPIN");
      ("setPinCallback", "C_SetPIN"); ("openSessionCallback", "C_OpenSession");
      ("closeSessionCallback", "C_CloseSession");
      ("closeAllSessionsCallback", "C_CloseAllSessions");
      ("getSessionInfoCallback", "C_GetSessionInfo");
      ("getOperationStateCallback", "C_GetOperationState");
      ("setOperationStateCallback", "C_SetOperationState"); ("loginCallback", "C_Login");
      ("logoutCallback", "C_Logout"); ("createObjectCallback", "C_CreateObject");
      ("copyObjectCallback", "C_CopyObject"); ("destroyObjectCallback", "C_DestroyObject");
      ("getObjectSizeCallback", "C_GetObjectSize");
      ("getAttributeValueCallback", "C_GetAttributeValue");
      ("setAttributeValueCallback", "C_SetAttributeValue");
      ("findObjectsInitCallback", "C_FindObjectsInit");
      ("findObjectsCallback", "C_FindObjects");
      ("findObjectsFinalCallback", "C_FindObjectsFinal");
      ("encryptInitCallback", "C_EncryptInit"); ("encryptCallback", "C_Encrypt");
      ("encryptUpdateCallback", "C_EncryptUpdate");
      ("encryptFinalCallback", "C_EncryptFinal"); ("decryptInitCallback", "C_DecryptInit");
      ("decryptCallback", "C_Decrypt"); ("decryptUpdateCallback", "C_DecryptUpdate");
      ("decryptFinalCallback", "C_DecryptFinal"); ("digestInitCallback", "C_DigestInit");
      ("digestCallback", "C_Digest"); ("digestUpdateCallback", "C_DigestUpdate");
      ("digestKeyCallback", "C_DigestKey"); ("digestFinalCallback", "C_DigestFinal");
      ("signInitCallback", "C_SignInit"); ("signCallback", "C_Sign");
      ("signUpdateCallback", "C_SignUpdate"); ("signFinalCallback", "C_SignFinal");
      ("signRecoverInitCallback", "C_SignRecoverInit");
      ("signRecoverCallback", "C_SignRecover"); ("verifyInitCallback", "C_VerifyInit");
      ("verifyCallback", "C_Verify"); ("verifyUpdateCallback", "C_VerifyUpdate");
      ("verifyFinalCallback", "C_VerifyFinal");
      ("verifyRecoverInitCallback", "C_VerifyRecoverInit");
      ("verifyRecoverCallback", "C_VerifyRecover");
      ("digestEncryptUpdateCallback", "C_DigestEncryptUpdate");
      ("decryptDigestUpdateCallback", "C_DecryptDigestUpdate");
      ("signEncryptUpdateCallback", "C_SignEncryptUpdate");
      ("decryptVerifyUpdateCallback", "C_DecryptVerifyUpdate");
      ("generateKeyCallback", "C_GenerateKey");
      ("generateKeyPairCallback", "C_GenerateKeyPair"); ("wrapKeyCallback", "C_WrapKey");
      ("unwrapKeyCallback", "C_UnwrapKey"); ("deriveKeyCallback", "C_DeriveKey");
      ("seedRandomCallback", "C_SeedRandom");
      ("generateRandomCallback", "C_GenerateRandom");
      ("getFunctionStatusCallback", "C_GetFunctionStatus");
      ("cancelFunctionCallback", "C_CancelFunction");
      ("waitForSlotEventCallback", "C_WaitForSlotEvent")]
    [("version", "version"); ("C_Initialize", "initializeCallback");
      ("C_Finalize", "finalizeCallback"); ("C_GetInfo", "getInfoCallback");
      ("C_GetFunctionList", "getFunctionListCallback");
      ("C_GetSlotList", "getSlotListCallback"); ("C_GetSlotInfo", "getSlotInfoCallback");
      ("C_GetTokenInfo", "getTokenInfoCallback");
      ("C_GetMechanismList", "getMechanismListCallback");
      ("C_GetMechanismInfo", "getMechanismInfoCallback");
      ("C_InitToken", "initTokenCallback"); ("C_InitPIN", "initPinCallback");
      ("C_SetPIN", "setPinCallback"); ("C_OpenSession", "openSessionCallback");
      ("C_CloseSession", "closeSessionCallback");
      ("C_CloseAllSessions", "closeAllSessionsCallback");
      ("C_GetSessionInfo", "getSessionInfoCallback");
      ("C_GetOperationState", "getOperationStateCallback");
      ("C_SetOperationState", "setOperationStateCallback"); ("C_Login", "loginCallback");
      ("C_Logout", "logoutCallback"); ("C_CreateObject", "createObjectCallback");
      ("C_CopyObject", "copyObjectCallback"); ("C_DestroyObject", "destroyObjectCallback");
      ("C_GetObjectSize", "getObjectSizeCallback");
      ("C_GetAttributeValue", "getAttributeValueCallback");
      ("C_SetAttributeValue", "setAttributeValueCallback");
      ("C_FindObjectsInit", "findObjectsInitCallback");
      ("C_FindObjects", "findObjectsCallback");
      ("C_FindObjectsFinal", "findObjectsFinalCallback");
      ("C_EncryptInit", "encryptInitCallback"); ("C_Encrypt", "encryptCallback");
      ("C_EncryptUpdate", "encryptUpdateCallback");
      ("C_EncryptFinal", "encryptFinalCallback"); ("C_DecryptInit", "decryptInitCallback");
      ("C_Decrypt", "decryptCallback"); ("C_DecryptUpdate", "decryptUpdateCallback");
      ("C_DecryptFinal", "decryptFinalCallback"); ("C_DigestInit", "digestInitCallback");
      ("C_Digest", "digestCallback"); ("C_DigestUpdate", "digestUpdateCallback");
      ("C_DigestKey", "digestKeyCallback"); ("C_DigestFinal", "digestFinalCallback");
      ("C_SignInit", "signInitCallback"); ("C_Sign", "signCallback");
      ("C_SignUpdate", "signUpdateCallback"); ("C_SignFinal", "signFinalCallback");
      ("C_SignRecoverInit", "signRecoverInitCallback");
      ("C_SignRecover", "signRecoverCallback"); ("C_VerifyInit", "verifyInitCallback");
      ("C_Verify", "verifyCallback"); ("C_VerifyUpdate", "verifyUpdateCallback");
      ("C_VerifyFinal", "verifyFinalCallback");
      ("C_VerifyRecoverInit", "verifyRecoverInitCallback");
      ("C_VerifyRecover", "verifyRecoverCallback");
      ("C_DigestEncryptUpdate", "digestEncryptUpdateCallback");
      ("C_DecryptDigestUpdate", "decryptDigestUpdateCallback");
      ("C_SignEncryptUpdate", "signEncryptUpdateCallback");
      ("C_DecryptVerifyUpdate", "decryptVerifyUpdateCallback");
      ("C_GenerateKey", "generateKeyCallback");
      ("C_GenerateKeyPair", "generateKeyPairCallback"); ("C_WrapKey", "wrapKeyCallback");
      ("C_UnwrapKey", "unwrapKeyCallback"); ("C_DeriveKey", "deriveKeyCallback");
      ("C_SeedRandom", "seedRandomCallback");
      ("C_GenerateRandom", "generateRandomCallback");
      ("C_GetFunctionStatus", "getFunctionStatusCallback");
      ("C_CancelFunction", "cancelFunctionCallback");
      ("C_WaitForSlotEvent", "waitForSlotEventCallback")]
    [("version", "version"); ("C_Initialize", "C_Initialize");
      ("C_Finalize", "C_Finalize"); ("C_GetInfo", "C_GetInfo");
      ("C_GetFunctionList", "C_GetFunctionList"); ("C_GetSlotList", "C_GetSlotList");
      ("C_GetSlotInfo", "C_GetSlotInfo"); ("C_GetTokenInfo", "C_GetTokenInfo");
      ("C_GetMechanismList", "C_GetMechanismList");
      ("C_GetMechanismInfo", "C_GetMechanismInfo"); ("C_InitToken", "C_InitToken");
      ("C_InitPIN", "C_InitPIN"); ("C_SetPIN", "C_SetPIN");
      ("C_OpenSession", "C_OpenSession"); ("C_CloseSession", "C_CloseSession");
      ("C_CloseAllSessions", "C_CloseAllSessions");
      ("C_GetSessionInfo", "C_GetSessionInfo");
      ("C_GetOperationState", "C_GetOperationState");
      ("C_SetOperationState", "C_SetOperationState"); ("C_Login", "C_Login");
      ("C_Logout", "C_Logout"); ("C_CreateObject", "C_CreateObject");
      ("C_CopyObject", "C_CopyObject"); ("C_DestroyObject", "C_DestroyObject");
      ("C_GetObjectSize", "C_GetObjectSize");
      ("C_GetAttributeValue", "C_GetAttributeValue");
      ("C_SetAttributeValue", "C_SetAttributeValue");
      ("C_FindObjectsInit", "C_FindObjectsInit"); ("C_FindObjects", "C_FindObjects");
      ("C_FindObjectsFinal", "C_FindObjectsFinal"); ("C_EncryptInit", "C_EncryptInit");
      ("C_Encrypt", "C_Encrypt"); ("C_EncryptUpdate", "C_EncryptUpdate");
      ("C_EncryptFinal", "C_EncryptFinal"); ("C_DecryptInit", "C_DecryptInit");
      ("C_Decrypt", "C_Decrypt"); ("C_DecryptUpdate", "C_DecryptUpdate");
      ("C_DecryptFinal", "C_DecryptFinal"); ("C_DigestInit", "C_DigestInit");
      ("C_Digest", "C_Digest"); ("C_DigestUpdate", "C_DigestUpdate");
      ("C_DigestKey", "C_DigestKey"); ("C_DigestFinal", "C_DigestFinal");
      ("C_SignInit", "C_SignInit"); ("C_Sign", "C_Sign"); ("C_SignUpdate", "C_SignUpdate");
      ("C_SignFinal", "C_SignFinal"); ("C_SignRecoverInit", "C_SignRecoverInit");
      ("C_SignRecover", "C_SignRecover"); ("C_VerifyInit", "C_VerifyInit");
      ("C_Verify", "C_Verify"); ("C_VerifyUpdate", "C_VerifyUpdate");
      ("C_VerifyFinal", "C_VerifyFinal"); ("C_VerifyRecoverInit", "C_VerifyRecoverInit");
      ("C_VerifyRecover", "C_VerifyRecover");
      ("C_DigestEncryptUpdate", "C_DigestEncryptUpdate");
      ("C_DecryptDigestUpdate", "C_DecryptDigestUpdate");
      ("C_SignEncryptUpdate", "C_SignEncryptUpdate");
      ("C_DecryptVerifyUpdate", "C_DecryptVerifyUpdate");
      ("C_GenerateKey", "C_GenerateKey"); ("C_GenerateKeyPair", "C_GenerateKeyPair");
      ("C_WrapKey", "C_WrapKey"); ("C_UnwrapKey", "C_UnwrapKey");
      ("C_DeriveKey", "C_DeriveKey"); ("C_SeedRandom", "C_SeedRandom");
      ("C_GenerateRandom", "C_GenerateRandom");
      ("C_GetFunctionStatus", "C_GetFunctionStatus");
      ("C_CancelFunction", "C_CancelFunction");
      ("C_WaitForSlotEvent", "C_WaitForSlotEvent")].

(** src/Crypto/Pkcs11/Types/Structs/FunctionList3.cpp: default constructor 8-10, copies 12-14, from the
    structure 16-19, from values 21-212, assignment 214-217 and 219-316. Fields:
    include/FlameIDE/Crypto/Oasis/pkcs11.h 200-229 and pkcs11f.h. *)
Definition s_FunctionList3 : code := Code "FunctionList3" "CK_FUNCTION_LIST_3_0"
    [("version", (Struct [(Int 1);(Int 1)])); ("C_Initialize", Pointer);
      ("C_Finalize", Pointer); ("C_GetInfo", Pointer); ("C_GetFunctionList", Pointer);
      ("C_GetSlotList", Pointer); ("C_GetSlotInfo", Pointer); ("C_GetTokenInfo", Pointer);
      ("C_GetMechanismList", Pointer); ("C_GetMechanismInfo", Pointer);
      ("C_InitToken", Pointer); ("C_InitPIN", Pointer); ("C_SetPIN", Pointer);
      ("C_OpenSession", Pointer); ("C_CloseSession", Pointer);
      ("C_CloseAllSessions", Pointer); ("C_GetSessionInfo", Pointer);
      ("C_GetOperationState", Pointer); ("C_SetOperationState", Pointer);
      ("C_Login", Pointer); ("C_Logout", Pointer); ("C_CreateObject", Pointer);
      ("C_CopyObject", Pointer); ("C_DestroyObject", Pointer);
      ("C_GetObjectSize", Pointer); ("C_GetAttributeValue", Pointer);
      ("C_SetAttributeValue", Pointer); ("C_FindObjectsInit", Pointer);
      ("C_FindObjects", Pointer); ("C_FindObjectsFinal", Pointer);
      ("C_EncryptInit", Pointer); ("C_Encrypt", Pointer); ("C_EncryptUpdate", Pointer);
      ("C_EncryptFinal", Pointer); ("C_DecryptInit", Pointer); ("C_Decrypt", Pointer);
      ("C_DecryptUpdate", Pointer); ("C_DecryptFinal", Pointer); ("C_DigestInit", Pointer);
      ("C_Digest", Pointer); ("C_DigestUpdate", Pointer); ("C_DigestKey", Pointer);
      ("C_DigestFinal", Pointer); ("C_SignInit", Pointer); ("C_Sign", Pointer);
      ("C_SignUpdate", Pointer); ("C_SignFinal", Pointer); ("C_SignRecoverInit", Pointer);
      ("C_SignRecover", Pointer); ("C_VerifyInit", Pointer); ("C_Verify", Pointer);
      ("C_VerifyUpdate", Pointer); ("C_VerifyFinal", Pointer);
      ("C_VerifyRecoverInit", Pointer); ("C_VerifyRecover", Pointer);
      ("C_DigestEncryptUpdate", Pointer); ("C_DecryptDigestUpdate", Pointer);
      ("C_SignEncryptUpdate", Pointer); ("C_DecryptVerifyUpdate", Pointer);
      ("C_GenerateKey", Pointer); ("C_GenerateKeyPair", Pointer); ("C_WrapKey", Pointer);
      ("C_UnwrapKey", Pointer); ("C_DeriveKey", Pointer); ("C_SeedRandom", Pointer);
      ("C_GenerateRandom", Pointer); ("C_GetFunctionStatus", Pointer);
      ("C_CancelFunction", Pointer); ("C_WaitForSlotEvent", Pointer);
      ("C_GetInterfaceList", Pointer); ("C_GetInterface", Pointer);
      ("C_LoginUser", Pointer); ("C_SessionCancel", Pointer);
      ("C_MessageEncryptInit", Pointer); ("C_EncryptMessage", Pointer);
      ("C_EncryptMessageBegin", Pointer); ("C_EncryptMessageNext", Pointer);
      ("C_MessageEncryptFinal", Pointer); ("C_MessageDecryptInit", Pointer);
      ("C_DecryptMessage", Pointer); ("C_DecryptMessageBegin", Pointer);
      ("C_DecryptMessageNext", Pointer); ("C_MessageDecryptFinal", Pointer);
      ("C_MessageSignInit", Pointer); ("C_SignMessage", Pointer);
      ("C_SignMessageBegin", Pointer); ("C_SignMessageNext", Pointer);
      ("C_MessageSignFinal", Pointer); ("C_MessageVerifyInit", Pointer);
      ("C_VerifyMessage", Pointer); ("C_VerifyMessageBegin", Pointer);
      ("C_VerifyMessageNext", Pointer); ("C_MessageVerifyFinal", Pointer)]
    EmptyParent
    [("version", "version"); ("initializeCallback", "C_Initialize");
      ("finalizeCallback", "C_Finalize"); ("getInfoCallback", "C_GetInfo");
      ("getFunctionListCallback", "C_GetFunctionList");
      ("getSlotListCallback", "C_GetSlotList"); ("getSlotInfoCallback", "C_GetSlotInfo");
      ("getTokenInfoCallback", "C_GetTokenInfo");
      ("getMechanismListCallback", "C_GetMechanismList");
      ("getMechanismInfoCallback", "C_GetMechanismInfo");
      ("initTokenCallback", "C_InitToken"); ("initPinCallback", "C_InitPIN");
      ("setPinCallback", "C_SetPIN"); ("openSessionCallback", "C_OpenSession");
      ("closeSessionCallback", "C_CloseSession");
      ("closeAllSessionsCallback", "C_CloseAllSessions");
      ("getSessionInfoCallback", "C_GetSessionInfo");
      ("getOperationStateCallback", "C_GetOperationState");
      ("setOperationStateCallback", "C_SetOperationState"); ("loginCallback", "C_Login");
      ("logoutCallback", "C_Logout"); ("createObjectCallback", "C_CreateObject");
      ("copyObjectCallback", "C_CopyObject"); ("destroyObjectCallback", "C_DestroyObject");
      ("getObjectSizeCallback", "C_GetObjectSize");
      ("getAttributeValueCallback", "C_GetAttributeValue");
      ("setAttributeValueCallback", "C_SetAttributeValue");
      ("findObjectsInitCallback", "C_FindObjectsInit");
      ("findObjectsCallback", "C_FindObjects");
      ("findObjectsFinalCallback", "C_FindObjectsFinal");
      ("encryptInitCallback", "C_EncryptInit"); ("encryptCallback", "C_Encrypt");
      ("encryptUpdateCallback", "C_EncryptUpdate");
      ("encryptFinalCallback", "C_EncryptFinal"); ("decryptInitCallback", "C_DecryptInit");
      ("decryptCallback", "C_Decrypt"); ("decryptUpdateCallback", "C_DecryptUpdate");
      ("decryptFinalCallback", "C_DecryptFinal"); ("digestInitCallback", "C_DigestInit");
      ("digestCallback", "C_Digest"); ("digestUpdateCallback", "C_DigestUpdate");
      ("digestKeyCallback", "C_DigestKey"); ("digestFinalCallback", "C_DigestFinal");
      ("signInitCallback", "C_SignInit"); ("signCallback", "C_Sign");
      ("signUpdateCallback", "C_SignUpdate"); ("signFinalCallback", "C_SignFinal");
      ("signRecoverInitCallback", "C_SignRecoverInit");
      ("signRecoverCallback", "C_SignRecover"); ("verifyInitCallback", "C_VerifyInit");
      ("verifyCallback", "C_Verify"); ("verifyUpdateCallback", "C_VerifyUpdate");
      ("verifyFinalCallback", "C_VerifyFinal");
      ("verifyRecoverInitCallback", "C_VerifyRecoverInit");
      ("verifyRecoverCallback", "C_VerifyRecover");
      ("digestEncryptUpdateCallback", "C_DigestEncryptUpdate");
      ("decryptDigestUpdateCallback", "C_DecryptDigestUpdate");
      ("signEncryptUpdateCallback", "C_SignEncryptUpdate");
      ("decryptVerifyUpdateCallback", "C_DecryptVerifyUpdate");
      ("generateKeyCallback", "C_GenerateKey");
      ("generateKeyPairCallback", "C_GenerateKeyPair"); ("wrapKeyCallback", "C_WrapKey");
      ("unwrapKeyCallback", "C_UnwrapKey"); ("deriveKeyCallback", "C_DeriveKey");
      ("seedRandomCallback", "C_SeedRandom");
      ("generateRandomCallback", "C_GenerateRandom");
      ("getFunctionStatusCallback", "C_GetFunctionStatus");
      ("cancelFunctionCallback", "C_CancelFunction");
      ("waitForSlotEventCallback", "C_WaitForSlotEvent");
      ("getInterfaceListCallback", "C_GetInterfaceList");
      ("getInterfaceCallback", "C_GetInterface"); ("loginUserCallback", "C_LoginUser");
      ("sessionCancelCallback", "C_SessionCancel");
      ("messageEncryptInitCallback", "C_MessageEncryptInit");
      ("encryptMessageCallback", "C_EncryptMessage");
      ("encryptMessageBeginCallback", "C_EncryptMessageBegin");
      ("encryptMessageNextCallback", "C_EncryptMessageNext");
      ("messageEncryptFinalCallback", "C_MessageEncryptFinal");
      ("messageDecryptInitCallback", "C_MessageDecryptInit");
      ("decryptMessageCallback", "C_DecryptMessage");
      ("decryptMessageBeginCallback", "C_DecryptMessageBegin");
      ("decryptMessageNextCallback", "C_DecryptMessageNext");
      ("messageDecryptFinalCallback", "C_MessageDecryptFinal");
      ("messageSignInitCallback", "C_MessageSignInit");
      ("signMessageCallback", "C_SignMessage");
      ("signMessageBeginCallback", "C_SignMessageBegin");
      ("signMessageNextCallback", "C_SignMessageNext");
      ("messageSignFinalCallback", "C_MessageSignFinal");
      ("messageVerifyInitCallback", "C_MessageVerifyInit");
      ("verifyMessageCallback", "C_VerifyMessage");
      ("verifyMessageBeginCallback", "C_VerifyMessageBegin");
      ("verifyMessageNextCallback", "C_VerifyMessageNext");
      ("messageVerifyFinalCallback", "C_MessageVerifyFinal")]
    [("version", "version"); ("C_Initialize", "initializeCallback");
      ("C_Finalize", "finalizeCallback"); ("C_GetInfo", "getInfoCallback");
      ("C_GetFunctionList", "getFunctionListCallback");
      ("C_GetSlotList", "getSlotListCallback"); ("C_GetSlotInfo", "getSlotInfoCallback");
      ("C_GetTokenInfo", "getTokenInfoCallback");
      ("C_GetMechanismList", "getMechanismListCallback");
      ("C_GetMechanismInfo", "getMechanismInfoCallback");
      ("C_InitToken", "initTokenCallback"); ("C_InitPIN", "initPinCallback");
      ("C_SetPIN", "setPinCallback"); ("C_OpenSession", "openSessionCallback");
      ("C_CloseSession", "closeSessionCallback");
      ("C_CloseAllSessions", "closeAllSessionsCallback");
      ("C_GetSessionInfo", "getSessionInfoCallback");
      ("C_GetOperationState", "getOperationStateCallback");
      ("C_SetOperationState", "setOperationStateCallback"); ("C_Login", "loginCallback");
      ("C_Logout", "logoutCallback"); ("C_CreateObject", "createObjectCallback");
      ("C_CopyObject", "copyObjectCallback"); ("C_DestroyObject", "destroyObjectCallback");
      ("C_GetObjectSize", "getObjectSizeCallback");
      ("C_GetAttributeValue", "getAttributeValueCallback");
      ("C_SetAttributeValue", "setAttributeValueCallback");
      ("C_FindObjectsInit", "findObjectsInitCallback");
      ("C_FindObjects", "findObjectsCallback");
      ("C_FindObjectsFinal", "findObjectsFinalCallback");
      ("C_EncryptInit", "encryptInitCallback"); ("C_Encrypt", "encryptCallback");
      ("C_EncryptUpdate", "encryptUpdateCallback");
      ("C_EncryptFinal", "encryptFinalCallback"); ("C_DecryptInit", "decryptInitCallback");
      ("C_Decrypt", "decryptCallback"); ("C_DecryptUpdate", "decryptUpdateCallback");
      ("C_DecryptFinal", "decryptFinalCallback"); ("C_DigestInit", "digestInitCallback");
      ("C_Digest", "digestCallback"); ("C_DigestUpdate", "digestUpdateCallback");
      ("C_DigestKey", "digestKeyCallback"); ("C_DigestFinal", "digestFinalCallback");
      ("C_SignInit", "signInitCallback"); ("C_Sign", "signCallback");
      ("C_SignUpdate", "signUpdateCallback"); ("C_SignFinal", "signFinalCallback");
      ("C_SignRecoverInit", "signRecoverInitCallback");
      ("C_SignRecover", "signRecoverCallback"); ("C_VerifyInit", "verifyInitCallback");
      ("C_Verify", "verifyCallback"); ("C_VerifyUpdate", "verifyUpdateCallback");
      ("C_VerifyFinal", "verifyFinalCallback");
      ("C_VerifyRecoverInit", "verifyRecoverInitCallback");
      ("C_VerifyRecover", "verifyRecoverCallback");
      ("C_DigestEncryptUpdate", "digestEncryptUpdateCallback");
      ("C_DecryptDigestUpdate", "decryptDigestUpdateCallback");
      ("C_SignEncryptUpdate", "signEncryptUpdateCallback");
      ("C_DecryptVerifyUpdate", "decryptVerifyUpdateCallback");
      ("C_GenerateKey", "generateKeyCallback");
      ("C_GenerateKeyPair", "generateKeyPairCallback"); ("C_WrapKey", "wrapKeyCallback");
      ("C_UnwrapKey", "unwrapKeyCallback"); ("C_DeriveKey", "deriveKeyCallback");
      ("C_SeedRandom", "seedRandomCallback");
      ("C_GenerateRandom", "generateRandomCallback");
      ("C_GetFunctionStatus", "getFunctionStatusCallback");
      ("C_CancelFunction", "cancelFunctionCallback");
      ("C_WaitForSlotEvent", "waitForSlotEventCallback");
      ("C_GetInterfaceList", "getInterfaceListCallback");
      ("C_GetInterface", "getInterfaceCallback"); ("C_LoginUser", "loginUserCallback");
      ("C_SessionCancel", "sessionCancelCallback");
      ("C_MessageEncryptInit", "messageEncryptInitCallback");
      ("C_EncryptMessage", "encryptMessageCallback");
      ("C_EncryptMessageBegin", "encryptMessageBeginCallback");
      ("C_EncryptMessageNext", "encryptMessageNextCallback");
      ("C_MessageEncryptFinal", "messageEncryptFinalCallback");
      ("C_MessageDecryptInit", "messageDecryptInitCallback");
      ("C_DecryptMessage", "decryptMessageCallback");
      ("C_DecryptMessageBegin", "decryptMessageBeginCallback");
      ("C_DecryptMessageNext", "decryptMessageNextCallback");
      ("C_MessageDecryptFinal", "messageDecryptFinalCallback");
      ("C_MessageSignInit", "messageSignInitCallback");
      ("C_SignMessage", "signMessageCallback");
      ("C_SignMessageBegin", "signMessageBeginCallback");
      ("C_SignMessageNext", "signMessageNextCallback");
      ("C_MessageSignFinal", "messageSignFinalCallback");
      ("C_MessageVerifyInit", "messageVerifyInitCallback");
      ("C_VerifyMessage", "verifyMessageCallback");
      ("C_VerifyMessageBegin", "verifyMessageBeginCallback");
      ("C_VerifyMessageNext", "verifyMessageNextCallback");
      ("C_MessageVerifyFinal", "messageVerifyFinalCallback")]
    [("version", "version"); ("C_Initialize", "C_Initialize");
      ("C_Finalize", "C_Finalize"); ("C_GetInfo", "C_GetInfo");
      ("C_GetFunctionList", "C_GetFunctionList"); ("C_GetSlotList", "C_GetSlotList");
      ("C_GetSlotInfo", "C_GetSlotInfo"); ("C_GetTokenInfo", "C_GetTokenInfo");
      ("C_GetMechanismList", "C_GetMechanismList");
      ("C_GetMechanismInfo", "C_GetMechanismInfo"); ("C_InitToken", "C_InitToken");
      ("C_InitPIN", "C_InitPIN"); ("C_SetPIN", "C_SetPIN");
      ("C_OpenSession", "C_OpenSession"); ("C_CloseSession", "C_CloseSession");
      ("C_CloseAllSessions", "C_CloseAllSessions");
      ("C_GetSessionInfo", "C_GetSessionInfo");
      ("C_GetOperationState", "C_GetOperationState");
      ("C_SetOperationState", "C_SetOperationState"); ("C_Login", "C_Login");
      ("C_Logout", "C_Logout"); ("C_CreateObject", "C_CreateObject");
      ("C_CopyObject", "C_CopyObject"); ("C_DestroyObject", "C_DestroyObject");
      ("C_GetObjectSize", "C_GetObjectSize");
      ("C_GetAttributeValue", "C_GetAttributeValue");
      ("C_SetAttributeValue", "C_SetAttributeValue");
      ("C_FindObjectsInit", "C_FindObjectsInit"); ("C_FindObjects", "C_FindObjects");
      ("C_FindObjectsFinal", "C_FindObjectsFinal"); ("C_EncryptInit", "C_EncryptInit");
      ("C_Encrypt", "C_Encrypt"); ("C_EncryptUpdate", "C_EncryptUpdate");
      ("C_EncryptFinal", "C_EncryptFinal"); ("C_DecryptInit", "C_DecryptInit");
      ("C_Decrypt", "C_Decrypt"); ("C_DecryptUpdate", "C_DecryptUpdate");
      ("C_DecryptFinal", "C_DecryptFinal"); ("C_DigestInit", "C_DigestInit");
      ("C_Digest", "C_Digest"); ("C_DigestUpdate", "C_DigestUpdate");
      ("C_DigestKey", "C_DigestKey"); ("C_DigestFinal", "C_DigestFinal");
      ("C_SignInit", "C_SignInit"); ("C_Sign", "C_Sign"); ("C_SignUpdate", "C_SignUpdate");
      ("C_SignFinal", "C_SignFinal"); ("C_SignRecoverInit", "C_SignRecoverInit");
      ("C_SignRecover", "C_SignRecover"); ("C_VerifyInit", "C_VerifyInit");
      ("C_Verify", "C_Verify"); ("C_VerifyUpdate", "C_VerifyUpdate");
      ("C_VerifyFinal", "C_VerifyFinal"); ("C_VerifyRecoverInit", "C_VerifyRecoverInit");
      ("C_VerifyRecover", "C_VerifyRecover");
      ("C_DigestEncryptUpdate", "C_DigestEncryptUpdate");
      ("C_DecryptDigestUpdate", "C_DecryptDigestUpdate");
      ("C_SignEncryptUpdate", "C_SignEncryptUpdate");
      ("C_DecryptVerifyUpdate", "C_DecryptVerifyUpdate");
      ("C_GenerateKey", "C_GenerateKey"); ("C_GenerateKeyPair", "C_GenerateKeyPair");
      ("C_WrapKey", "C_WrapKey"); ("C_UnwrapKey", "C_UnwrapKey");
      ("C_DeriveKey", "C_DeriveKey"); ("C_SeedRandom", "C_SeedRandom");
      ("C_GenerateRandom", "C_GenerateRandom");
      ("C_GetFunctionStatus", "C_GetFunctionStatus");
      ("C_CancelFunction", "C_CancelFunction");
      ("C_WaitForSlotEvent", "C_WaitForSlotEvent");
      ("C_GetInterfaceList", "C_GetInterfaceList"); ("C_GetInterface", "C_GetInterface");
      ("C_LoginUser", "C_LoginUser"); ("C_SessionCancel", "C_SessionCancel");
      ("C_MessageEncryptInit", "C_MessageEncryptInit");
      ("C_EncryptMessage", "C_EncryptMessage");
      ("C_EncryptMessageBegin", "C_EncryptMessageBegin");
      ("C_EncryptMessageNext", "C_EncryptMessageNext");
      ("C_MessageEncryptFinal", "C_MessageEncryptFinal");
      ("C_DecryptMessage", "C_DecryptMessage");
      ("C_DecryptMessageBegin", "C_DecryptMessageBegin");
      ("C_DecryptMessageNext", "C_DecryptMessageNext");
      ("C_MessageDecryptFinal", "C_MessageDecryptFinal");
      ("C_MessageSignInit", "C_MessageSignInit"); ("C_SignMessage", "C_SignMessage");
      ("C_SignMessageBegin", "C_SignMessageBegin");
      ("C_SignMessageNext", "C_SignMessageNext");
      ("C_MessageSignFinal", "C_MessageSignFinal");
      ("C_MessageVerifyInit", "C_MessageVerifyInit");
      ("C_VerifyMessage", "C_VerifyMessage");
      ("C_VerifyMessageBegin", "C_VerifyMessageBegin");
      ("C_VerifyMessageNext", "C_VerifyMessageNext");
      ("C_MessageVerifyFinal", "C_MessageVerifyFinal")].

(** src/Crypto/Pkcs11/Types/Structs/GcmMessageParams.cpp: default constructor 8-9, copies 11-14, from the
    structure 16-19, from values 21-36, assignment 38-41 and 43-53. Fields:
    include/FlameIDE/Crypto/Oasis/pkcs11t.h 2015-2022. *)
Definition s_GcmMessageParams : code := Code "GcmMessageParams" "CK_GCM_MESSAGE_PARAMS"
    [("pIv", Pointer); ("ulIvLen", Long); ("ulIvFixedBits", Long); ("ivGenerator", Long);
      ("pTag", Pointer); ("ulTagBits", Long)]
    Uninitialised
    [("iv", "pIv"); ("ivLength", "ulIvLen"); ("ivFixedBits", "ulIvFixedBits");
      ("ivGenerator", "ivGenerator"); ("tag", "pTag"); ("tagBits", "ulTagBits")]
    [("pIv", "iv"); ("ulIvLen", "ivLength"); ("ulIvFixedBits", "ivFixedBits");
      ("ivGenerator", "ivGenerator"); ("pTag", "tag"); ("ulTagBits", "tagBits")]
    [("pIv", "pIv"); ("ulIvLen", "ulIvLen"); ("ulIvFixedBits", "ulIvFixedBits");
      ("ivGenerator", "ivGenerator"); ("pTag", "pTag"); ("ulTagBits", "ulTagBits")].

(** src/Crypto/Pkcs11/Types/Structs/GcmParams.cpp: default constructor 8-9, copies 11-14, from the
    structure 16-19, from values 21-36, assignment 38-41 and 43-53. Fields:
    include/FlameIDE/Crypto/Oasis/pkcs11t.h 1998-2005. *)
Definition s_GcmParams : code := Code "GcmParams" "CK_GCM_PARAMS"
    [("pIv", Pointer); ("ulIvLen", Long); ("ulIvBits", Long); ("pAAD", Pointer);
      ("ulAADLen", Long); ("ulTagBits", Long)]
    Uninitialised
    [("iv", "pIv"); ("ivLength", "ulIvLen"); ("ibBits", "ulIvBits"); ("aad", "pAAD");
      ("aadLength", "ulAADLen"); ("tagBits", "ulTagBits")]
    [("pIv", "iv"); ("ulIvLen", "ivLength"); ("ulIvBits", "ibBits"); ("pAAD", "aad");
      ("ulAADLen", "aadLength"); ("ulTagBits", "tagBits")]
    [("pIv", "pIv"); ("ulIvLen", "ulIvLen"); ("ulIvBits", "ulIvBits"); ("pAAD", "pAAD");
      ("ulAADLen", "ulAADLen"); ("ulTagBits", "ulTagBits")].

(** src/Crypto/Pkcs11/Types/Structs/Gostr3410DeriveParams.cpp: default constructor 8-9, copies 11-14, from the
    structure 16-19, from values 21-34, assignment 36-41 and 43-52. Fields:
    include/FlameIDE/Crypto/Oasis/pkcs11t.h 2167-2173. *)
Definition s_Gostr3410DeriveParams : code := Code "Gostr3410DeriveParams" "CK_GOSTR3410_DERIVE_PARAMS"
    [("kdf", Long); ("pPublicData", Pointer); ("ulPublicDataLen", Long);
      ("pUKM", Pointer); ("ulUKMLen", Long)]
    Uninitialised
    [("kdf", "kdf"); ("publicData", "pPublicData");
      ("publicDataLength", "ulPublicDataLen"); ("ukm", "pUKM"); ("ukmLength", "ulUKMLen")]
    [("kdf", "kdf"); ("pPublicData", "publicData");
      ("ulPublicDataLen", "publicDataLength"); ("pUKM", "ukm"); ("ulUKMLen", "ukmLength")]
    [("kdf", "kdf"); ("pPublicData", "pPublicData");
      ("ulPublicDataLen", "ulPublicDataLen"); ("pUKM", "pUKM"); ("ulUKMLen", "ulUKMLen")].

(** src/Crypto/Pkcs11/Types/Structs/Gostr3410KeyWrapParams.cpp: default constructor 8-9, copies 11-14, from the
    structure 16-19, from values 21-34, assignment 36-41 and 43-52. Fields:
    include/FlameIDE/Crypto/Oasis/pkcs11t.h 2177-2183. *)
Definition s_Gostr3410KeyWrapParams : code := Code "Gostr3410KeyWrapParams" "CK_GOSTR3410_KEY_WRAP_PARAMS"
    [("pWrapOID", Pointer); ("ulWrapOIDLen", Long); ("pUKM", Pointer);
      ("ulUKMLen", Long); ("hKey", Long)]
    Uninitialised
    [("wrapOid", "pWrapOID"); ("wrapOidLength", "ulWrapOIDLen"); ("ukm", "pUKM");
      ("ukmLength", "ulUKMLen"); ("keyHandle", "hKey")]
    [("pWrapOID", "wrapOid"); ("ulWrapOIDLen", "wrapOidLength"); ("pUKM", "ukm");
      ("ulUKMLen", "ukmLength"); ("hKey", "keyHandle")]
    [("pWrapOID", "pWrapOID"); ("ulWrapOIDLen", "ulWrapOIDLen"); ("pUKM", "pUKM");
      ("ulUKMLen", "ulUKMLen"); ("hKey", "hKey")].

(** src/Crypto/Pkcs11/Types/Structs/HkdfParams.cpp: default constructor 8-9, copies 11-14, from the
    structure 16-19, from values 21-42, assignment 44-47 and 49-62. Fields:
    include/FlameIDE/Crypto/Oasis/pkcs11t.h 2382-2392. *)
Definition s_HkdfParams : code := Code "HkdfParams" "CK_HKDF_PARAMS"
    [("bExtract", (Int 1)); ("bExpand", (Int 1)); ("prfHashMechanism", Long);
      ("ulSaltType", Long); ("pSalt", Pointer); ("ulSaltLen", Long); ("hSaltKey", Long);
      ("pInfo", Pointer); ("ulInfoLen", Long)]
    Uninitialised
    [("extract", "bExtract"); ("expand", "bExpand");
      ("prfHashMechanism", "prfHashMechanism"); ("saltType", "ulSaltType");
      ("salt", "pSalt"); ("saltLength", "ulSaltLen"); ("saltKey", "hSaltKey");
      ("info", "pInfo"); ("infoLength", "ulInfoLen")]
    [("bExtract", "extract"); ("bExpand", "expand");
      ("prfHashMechanism", "prfHashMechanism"); ("ulSaltType", "saltType");
      ("pSalt", "salt"); ("ulSaltLen", "saltLength"); ("hSaltKey", "saltKey");
      ("pInfo", "info"); ("ulInfoLen", "infoLength")]
    [("bExtract", "bExtract"); ("bExpand", "bExpand");
      ("prfHashMechanism", "prfHashMechanism"); ("ulSaltType", "ulSaltType");
      ("pSalt", "pSalt"); ("ulSaltLen", "ulSaltLen"); ("hSaltKey", "hSaltKey");
      ("pInfo", "pInfo"); ("ulInfoLen", "ulInfoLen")].

(** src/Crypto/Pkcs11/Types/Structs/Info.cpp: default constructor 11-13, copies 15-17, from the
    structure 19-22, from values 24-35, assignment 37-40 and 42-50. Fields:
    include/FlameIDE/Crypto/Oasis/pkcs11t.h 84-90. *)
Definition s_Info : code := Code "Info" "CK_INFO"
    [("cryptokiVersion", (Struct [(Int 1);(Int 1)])); ("manufacturerID", (Bytes 32));
      ("flags", Long); ("libraryDescription", (Bytes 32));
      ("libraryVersion", (Struct [(Int 1);(Int 1)]))]
    EmptyParent
    [("cryptokiVersion", "cryptokiVersion"); ("manufacturerId", "manufacturerID");
      ("flags", "flags"); ("libraryDescription", "libraryDescription");
      ("libraryVersion", "libraryVersion")]
    [("cryptokiVersion", "cryptokiVersion"); ("manufacturerID", "manufacturerId");
      ("flags", "flags"); ("libraryDescription", "libraryDescription");
      ("libraryVersion", "libraryVersion")]
    [("cryptokiVersion", "cryptokiVersion"); ("manufacturerID", "manufacturerID");
      ("flags", "flags"); ("libraryDescription", "libraryDescription");
      ("libraryVersion", "libraryVersion")].

(** src/Crypto/Pkcs11/Types/Structs/InitializeArgs.cpp: default constructor 10-12, copies 14-16, from the
    structure 18-21, from values 23-37, assignment 39-42 and 44-55. Fields:
    include/FlameIDE/Crypto/Oasis/pkcs11t.h 1362-1369. *)
Definition s_InitializeArgs : code := Code "InitializeArgs" "CK_C_INITIALIZE_ARGS"
    [("CreateMutex", Pointer); ("DestroyMutex", Pointer); ("LockMutex", Pointer);
      ("UnlockMutex", Pointer); ("flags", Long); ("pReserved", Pointer)]
    EmptyParent
    [("createMutexCallback", "CreateMutex"); ("destroyMutexCallback", "DestroyMutex");
      ("lockMutexCallback", "LockMutex"); ("unlockMutexCallback", "UnlockMutex");
      ("flags", "flags"); ("reserved", "pReserved")]
    [("CreateMutex", "createMutexCallback"); ("DestroyMutex", "destroyMutexCallback");
      ("LockMutex", "lockMutexCallback"); ("UnlockMutex", "unlockMutexCallback");
      ("flags", "flags"); ("pReserved", "reserved")]
    [("CreateMutex", "CreateMutex"); ("DestroyMutex", "DestroyMutex");
      ("LockMutex", "LockMutex"); ("UnlockMutex", "UnlockMutex"); ("flags", "flags");
      ("pReserved", "pReserved")].

(** src/Crypto/Pkcs11/Types/Structs/Interface.cpp: default constructor 8-10, copies 12-15, from the
    structure 17-20, from values 22-31, assignment 33-36 and 38-45. Fields:
    include/FlameIDE/Crypto/Oasis/pkcs11t.h 1315-1319. *)
Definition s_Interface : code := Code "Interface" "CK_INTERFACE"
    [("pInterfaceName", Pointer); ("pFunctionList", Pointer); ("flags", Long)]
    EmptyParent
    [("interfaceName", "pInterfaceName"); ("functionList", "pFunctionList");
      ("flags", "flags")]
    [("pInterfaceName", "interfaceName"); ("pFunctionList", "functionList");
      ("flags", "flags")]
    [("pInterfaceName", "pInterfaceName"); ("pFunctionList", "pFunctionList");
      ("flags", "flags")].

(** src/Crypto/Pkcs11/Types/Structs/KeaDeriveParams.cpp: default constructor 10-11, copies 13-15, from the
    structure 17-20, from values 22-37, assignment 39-42 and 44-54. Fields:
    include/FlameIDE/Crypto/Oasis/pkcs11t.h 1572-1579. *)
Definition s_KeaDeriveParams : code := Code "KeaDeriveParams" "CK_KEA_DERIVE_PARAMS"
    [("isSender", (Int 1)); ("ulRandomLen", Long); ("pRandomA", Pointer);
      ("pRandomB", Pointer); ("ulPublicDataLen", Long); ("pPublicData", Pointer)]
    Uninitialised
    [("isSender", "isSender"); ("randomLength", "ulRandomLen"); ("randomA", "pRandomA");
      ("randomB", "pRandomB"); ("publicDataLength", "ulPublicDataLen");
      ("publicData", "pPublicData")]
    [("isSender", "isSender"); ("ulRandomLen", "randomLength"); ("pRandomA", "randomA");
      ("pRandomB", "randomB"); ("ulPublicDataLen", "publicDataLength");
      ("pPublicData", "publicData")]
    [("isSender", "isSender"); ("ulRandomLen", "ulRandomLen"); ("pRandomA", "pRandomA");
      ("pRandomB", "pRandomB"); ("ulPublicDataLen", "ulPublicDataLen");
      ("pPublicData", "pPublicData")].

(** src/Crypto/Pkcs11/Types/Structs/KeyDerivationStringData.cpp: default constructor 8-9, copies 11-16, from the
    structure 18-21, from values 23-30, assignment 32-37 and 39-45. Fields:
    include/FlameIDE/Crypto/Oasis/pkcs11t.h 1858-1861. *)
Definition s_KeyDerivationStringData : code := Code "KeyDerivationStringData" "CK_KEY_DERIVATION_STRING_DATA"
    [("pData", Pointer); ("ulLen", Long)]
    Uninitialised
    [("data", "pData"); ("length", "ulLen")]
    [("pData", "data"); ("ulLen", "length")]
    [("pData", "pData"); ("ulLen", "ulLen")].

(** src/Crypto/Pkcs11/Types/Structs/KeyWrapSetOaepParams.cpp: default constructor 8-9, copies 11-14, from the
    structure 16-19, from values 21-30, assignment 32-35 and 37-44. Fields:
    include/FlameIDE/Crypto/Oasis/pkcs11t.h 1736-1740. *)
Definition s_KeyWrapSetOaepParams : code := Code "KeyWrapSetOaepParams" "CK_KEY_WRAP_SET_OAEP_PARAMS"
    [("bBC", (Int 1)); ("pX", Pointer); ("ulXLen", Long)]
    Uninitialised
    [("block", "bBC"); ("extraData", "pX"); ("extraDataLength", "ulXLen")]
    [("bBC", "block"); ("pX", "extraData"); ("ulXLen", "extraDataLength")]
    [("bBC", "bBC"); ("pX", "pX"); ("ulXLen", "ulXLen")].

(** src/Crypto/Pkcs11/Types/Structs/KipParams.cpp: default constructor 8-9, copies 11-14, from the
    structure 16-19, from values 21-32, assignment 34-37 and 39-47. Fields:
    include/FlameIDE/Crypto/Oasis/pkcs11t.h 1982-1987. *)
Definition s_KipParams : code := Code "KipParams" "CK_KIP_PARAMS"
    [("pMechanism", Pointer); ("hKey", Long); ("pSeed", Pointer); ("ulSeedLen", Long)]
    Uninitialised
    [("mechanism", "pMechanism"); ("key", "hKey"); ("seed", "pSeed");
      ("seedLength", "ulSeedLen")]
    [("pMechanism", "mechanism"); ("hKey", "key"); ("pSeed", "seed");
      ("ulSeedLen", "seedLength")]
    [("pMechanism", "pMechanism"); ("hKey", "hKey"); ("pSeed", "pSeed");
      ("ulSeedLen", "ulSeedLen")].

(** src/Crypto/Pkcs11/Types/Structs/Mechanism.cpp: default constructor 10-12, copies 14-16, from the
    structure 18-21, from values 23-30, assignment 32-35 and 37-43. Fields:
    include/FlameIDE/Crypto/Oasis/pkcs11t.h 1105-1109. *)
Definition s_Mechanism : code := Code "Mechanism" "CK_MECHANISM"
    [("mechanism", Long); ("pParameter", Pointer); ("ulParameterLen", Long)]
    EmptyParent
    [("mechanismInit", "mechanism"); ("parameter", "pParameter");
      ("parameterLength", "ulParameterLen")]
    [("mechanism", "mechanismInit"); ("pParameter", "parameter");
      ("ulParameterLen", "parameterLength")]
    [("mechanism", "mechanism"); ("pParameter", "pParameter");
      ("ulParameterLen", "ulParameterLen")].

(** src/Crypto/Pkcs11/Types/Structs/MechanismInfo.cpp: default constructor 10-12, copies 14-16, from the
    structure 18-21, from values 23-30, assignment 32-35 and 37-43. Fields:
    include/FlameIDE/Crypto/Oasis/pkcs11t.h 1117-1121. *)
Definition s_MechanismInfo : code := Code "MechanismInfo" "CK_MECHANISM_INFO"
    [("ulMinKeySize", Long); ("ulMaxKeySize", Long); ("flags", Long)]
    EmptyParent
    [("minKeySize", "ulMinKeySize"); ("maxKeySize", "ulMaxKeySize"); ("flags", "flags")]
    [("ulMinKeySize", "minKeySize"); ("ulMaxKeySize", "maxKeySize"); ("flags", "flags")]
    [("ulMinKeySize", "ulMinKeySize"); ("ulMaxKeySize", "ulMaxKeySize");
      ("flags", "flags")].

(** src/Crypto/Pkcs11/Types/Structs/NistSp800Hyphen108CounterFormat.cpp: default constructor 8-9, copies 11-16, from the
    structure 18-21, from values 23-30, assignment 32-37 and 39-45. Fields:
    include/FlameIDE/Crypto/Oasis/pkcs11t.h 2220-2224. *)
Definition s_NistSp800Hyphen108CounterFormat : code := Code "NistSp800Hyphen108CounterFormat" "CK_SP800_108_COUNTER_FORMAT"
    [("bLittleEndian", (Int 1)); ("ulWidthInBits", Long)]
    Uninitialised
    [("isLittleEndian", "bLittleEndian"); ("widthInBits", "ulWidthInBits")]
    [("bLittleEndian", "isLittleEndian"); ("ulWidthInBits", "widthInBits")]
    [("bLittleEndian", "bLittleEndian"); ("ulWidthInBits", "ulWidthInBits")].

(** src/Crypto/Pkcs11/Types/Structs/NistSp800Hyphen108DkmLengthFormat.cpp: default constructor 8-9, copies 11-16, from the
    structure 18-23, from values 25-34, assignment 36-41 and 43-52. Fields:
    include/FlameIDE/Crypto/Oasis/pkcs11t.h 2230-2235. *)
Definition s_NistSp800Hyphen108DkmLengthFormat : code := Code "NistSp800Hyphen108DkmLengthFormat" "CK_SP800_108_DKM_LENGTH_FORMAT"
    [("dkmLengthMethod", Long); ("bLittleEndian", (Int 1)); ("ulWidthInBits", Long)]
    Uninitialised
    [("widthInBits", "ulWidthInBits"); ("isLittleEndian", "bLittleEndian");
      ("dkmLengthMethod", "dkmLengthMethod")]
    [("ulWidthInBits", "widthInBits"); ("bLittleEndian", "isLittleEndian");
      ("dkmLengthMethod", "dkmLengthMethod")]
    [("dkmLengthMethod", "dkmLengthMethod"); ("bLittleEndian", "bLittleEndian");
      ("ulWidthInBits", "ulWidthInBits")].

(** src/Crypto/Pkcs11/Types/Structs/NistSp800Hyphen108FeedbackKdfParams.cpp: default constructor 8-9, copies 11-16, from the
    structure 18-23, from values 25-42, assignment 44-49 and 51-64. Fields:
    include/FlameIDE/Crypto/Oasis/pkcs11t.h 2260-2269. *)
Definition s_NistSp800Hyphen108FeedbackKdfParams : code := Code "NistSp800Hyphen108FeedbackKdfParams" "CK_SP800_108_FEEDBACK_KDF_PARAMS"
    [("prfType", Long); ("ulNumberOfDataParams", Long); ("pDataParams", Pointer);
      ("ulIVLen", Long); ("pIV", Pointer); ("ulAdditionalDerivedKeys", Long);
      ("pAdditionalDerivedKeys", (Struct [Pointer;Long;Pointer]))]
    Uninitialised
    [("prfType", "prfType"); ("dataParamsCount", "ulNumberOfDataParams");
      ("dataParams", "pDataParams"); ("ivLength", "ulIVLen"); ("iv", "pIV");
      ("additionalDerivedKeysCount", "ulAdditionalDerivedKeys");
      ("additionalDerivedKeys", "pAdditionalDerivedKeys")]
    [("prfType", "prfType"); ("ulNumberOfDataParams", "dataParamsCount");
      ("pDataParams", "dataParams"); ("ulIVLen", "ivLength"); ("pIV", "iv");
      ("ulAdditionalDerivedKeys", "additionalDerivedKeysCount");
      ("pAdditionalDerivedKeys", "additionalDerivedKeys")]
    [("prfType", "prfType"); ("ulNumberOfDataParams", "ulNumberOfDataParams");
      ("pDataParams", "pDataParams"); ("ulIVLen", "ulIVLen"); ("pIV", "pIV");
      ("ulAdditionalDerivedKeys", "ulAdditionalDerivedKeys");
      ("pAdditionalDerivedKeys", "pAdditionalDerivedKeys")].

(** src/Crypto/Pkcs11/Types/Structs/NistSp800Hyphen108KdfParams.cpp: default constructor 8-9, copies 11-16, from the
    structure 18-21, from values 23-34, assignment 36-41 and 43-53. Fields:
    include/FlameIDE/Crypto/Oasis/pkcs11t.h 2249-2256. *)
Definition s_NistSp800Hyphen108KdfParams : code := Code "NistSp800Hyphen108KdfParams" "CK_SP800_108_KDF_PARAMS"
    [("prfType", Long); ("ulNumberOfDataParams", Long); ("pDataParams", Pointer);
      ("ulAdditionalDerivedKeys", Long);
      ("pAdditionalDerivedKeys", (Struct [Pointer;Long;Pointer]))]
    Uninitialised
    [("additionalDerivedKeys", "pAdditionalDerivedKeys");
      ("additionalDerivedKeysCount", "ulAdditionalDerivedKeys");
      ("dataParams", "pDataParams"); ("dataParamsCount", "ulNumberOfDataParams")]
    [("pAdditionalDerivedKeys", "additionalDerivedKeys");
      ("ulAdditionalDerivedKeys", "additionalDerivedKeysCount");
      ("pDataParams", "dataParams"); ("ulNumberOfDataParams", "dataParamsCount")]
    [("ulNumberOfDataParams", "ulNumberOfDataParams"); ("pDataParams", "pDataParams");
      ("ulAdditionalDerivedKeys", "ulAdditionalDerivedKeys");
      ("pAdditionalDerivedKeys", "pAdditionalDerivedKeys")].

(** src/Crypto/Pkcs11/Types/Structs/OtpParam.cpp: default constructor 8-9, copies 11-14, from the
    structure 16-19, from values 21-30, assignment 32-35 and 37-44. Fields:
    include/FlameIDE/Crypto/Oasis/pkcs11t.h 1944-1948. *)
Definition s_OtpParam : code := Code "OtpParam" "CK_OTP_PARAM"
    [("type", Long); ("pValue", Pointer); ("ulValueLen", Long)]
    Uninitialised
    [("type", "type"); ("value", "pValue"); ("valueLength", "ulValueLen")]
    [("type", "type"); ("pValue", "value"); ("ulValueLen", "valueLength")]
    [("type", "type"); ("pValue", "pValue"); ("ulValueLen", "ulValueLen")].

(** src/Crypto/Pkcs11/Types/Structs/OtpParams.cpp: default constructor 8-9, copies 11-14, from the
    structure 16-19, from values 21-28, assignment 30-33 and 35-41. Fields:
    include/FlameIDE/Crypto/Oasis/pkcs11t.h 1952-1955. *)
Definition s_OtpParams : code := Code "OtpParams" "CK_OTP_PARAMS"
    [("pParams", Pointer); ("ulCount", Long)]
    Uninitialised
    [("params", "pParams"); ("count", "ulCount")]
    [("pParams", "params"); ("ulCount", "count")]
    [("pParams", "pParams"); ("ulCount", "ulCount")].

(** src/Crypto/Pkcs11/Types/Structs/OtpSignatureInfo.cpp: default constructor 8-9, copies 11-14, from the
    structure 16-19, from values 21-28, assignment 30-33 and 35-41. Fields:
    include/FlameIDE/Crypto/Oasis/pkcs11t.h 1959-1962. *)
Definition s_OtpSignatureInfo : code := Code "OtpSignatureInfo" "CK_OTP_SIGNATURE_INFO"
    [("pParams", Pointer); ("ulCount", Long)]
    Uninitialised
    [("params", "pParams"); ("count", "ulCount")]
    [("pParams", "params"); ("ulCount", "count")]
    [("pParams", "pParams"); ("ulCount", "ulCount")].

(** src/Crypto/Pkcs11/Types/Structs/PbeParams.cpp: default constructor 8-9, copies 11-14, from the
    structure 16-19, from values 21-36, assignment 38-41 and 43-53. Fields:
    include/FlameIDE/Crypto/Oasis/pkcs11t.h 1721-1728. *)
Definition s_PbeParams : code := Code "PbeParams" "CK_PBE_PARAMS"
    [("pInitVector", Pointer); ("pPassword", Pointer); ("ulPasswordLen", Long);
      ("pSalt", Pointer); ("ulSaltLen", Long); ("ulIteration", Long)]
    Uninitialised
    [("initVector", "pInitVector"); ("password", "pPassword");
      ("passwordLength", "ulPasswordLen"); ("salt", "pSalt"); ("saltLength", "ulSaltLen");
      ("iteration", "ulIteration")]
    [("pInitVector", "initVector"); ("pPassword", "password");
      ("ulPasswordLen", "passwordLength"); ("pSalt", "salt"); ("ulSaltLen", "saltLength");
      ("ulIteration", "iteration")]
    [("pInitVector", "pInitVector"); ("pPassword", "pPassword");
      ("ulPasswordLen", "ulPasswordLen"); ("pSalt", "pSalt"); ("ulSaltLen", "ulSaltLen");
      ("ulIteration", "ulIteration")].

(** src/Crypto/Pkcs11/Types/Structs/Pkcs5Pbkd2Params.cpp: default constructor 8-9, copies 11-14, from the
    structure 16-19, from values 21-42, assignment 44-47 and 49-62. Fields:
    include/FlameIDE/Crypto/Oasis/pkcs11t.h 1909-1919. *)
Definition s_Pkcs5Pbkd2Params : code := Code "Pkcs5Pbkd2Params" "CK_PKCS5_PBKD2_PARAMS"
    [("saltSource", Long); ("pSaltSourceData", Pointer); ("ulSaltSourceDataLen", Long);
      ("iterations", Long); ("prf", Long); ("pPrfData", Pointer); ("ulPrfDataLen", Long);
      ("pPassword", Pointer); ("ulPasswordLen", Pointer)]
    Uninitialised
    [("saltSource", "saltSource"); ("saltSourceData", "pSaltSourceData");
      ("saltSourceDataLength", "ulSaltSourceDataLen"); ("iterations", "iterations");
      ("prf", "prf"); ("prfData", "pPrfData"); ("prfDataLen", "ulPrfDataLen");
      ("password", "pPassword"); ("passwordLength", "ulPasswordLen")]
    [("saltSource", "saltSource"); ("pSaltSourceData", "saltSourceData");
      ("ulSaltSourceDataLen", "saltSourceDataLength"); ("iterations", "iterations");
      ("prf", "prf"); ("pPrfData", "prfData"); ("ulPrfDataLen", "prfDataLen");
      ("pPassword", "password"); ("ulPasswordLen", "passwordLength")]
    [("saltSource", "saltSource"); ("pSaltSourceData", "pSaltSourceData");
      ("ulSaltSourceDataLen", "ulSaltSourceDataLen"); ("iterations", "iterations");
      ("prf", "prf"); ("pPrfData", "pPrfData"); ("ulPrfDataLen", "ulPrfDataLen");
      ("pPassword", "pPassword"); ("ulPasswordLen", "ulPasswordLen")].

(** src/Crypto/Pkcs11/Types/Structs/Pkcs5Pbkd2Params2.cpp: default constructor 8-9, copies 11-14, from the
    structure 16-19, from values 21-42, assignment 44-47 and 49-62. Fields:
    include/FlameIDE/Crypto/Oasis/pkcs11t.h 1927-1937. *)
Definition s_Pkcs5Pbkd2Params2 : code := Code "Pkcs5Pbkd2Params2" "CK_PKCS5_PBKD2_PARAMS2"
    [("saltSource", Long); ("pSaltSourceData", Pointer); ("ulSaltSourceDataLen", Long);
      ("iterations", Long); ("prf", Long); ("pPrfData", Pointer); ("ulPrfDataLen", Long);
      ("pPassword", Pointer); ("ulPasswordLen", Long)]
    Uninitialised
    [("saltSource", "saltSource"); ("saltSourceData", "pSaltSourceData");
      ("saltSourceDataLength", "ulSaltSourceDataLen"); ("iterations", "iterations");
      ("prf", "prf"); ("prfData", "pPrfData"); ("prfDataLength", "ulPrfDataLen");
      ("password", "pPassword"); ("passwordLength", "ulPasswordLen")]
    [("saltSource", "saltSource"); ("pSaltSourceData", "saltSourceData");
      ("ulSaltSourceDataLen", "saltSourceDataLength"); ("iterations", "iterations");
      ("prf", "prf"); ("pPrfData", "prfData"); ("ulPrfDataLen", "prfDataLength");
      ("pPassword", "password"); ("ulPasswordLen", "passwordLength")]
    [("saltSource", "saltSource"); ("pSaltSourceData", "pSaltSourceData");
      ("ulSaltSourceDataLen", "ulSaltSourceDataLen"); ("iterations", "iterations");
      ("prf", "prf"); ("pPrfData", "pPrfData"); ("ulPrfDataLen", "ulPrfDataLen");
      ("pPassword", "pPassword"); ("ulPasswordLen", "ulPasswordLen")].

(** src/Crypto/Pkcs11/Types/Structs/PrfDataParam.cpp: default constructor 8-9, copies 11-14, from the
    structure 16-19, from values 21-30, assignment 32-35 and 37-44. Fields:
    include/FlameIDE/Crypto/Oasis/pkcs11t.h 2210-2215. *)
Definition s_PrfDataParam : code := Code "PrfDataParam" "CK_PRF_DATA_PARAM"
    [("type", Long); ("pValue", Pointer); ("ulValueLen", Long)]
    Uninitialised
    [("type", "type"); ("value", "pValue"); ("valueLength", "ulValueLen")]
    [("type", "type"); ("pValue", "value"); ("ulValueLen", "valueLength")]
    [("type", "type"); ("pValue", "pValue"); ("ulValueLen", "ulValueLen")].

(** src/Crypto/Pkcs11/Types/Structs/Rc2CbcParams.cpp: default constructor 9-10, copies 12-15, from the
    structure 17-20, from values 22-29, assignment 31-34 and 36-42. Fields:
    include/FlameIDE/Crypto/Oasis/pkcs11t.h 1596-1599. *)
Definition s_Rc2CbcParams : code := Code "Rc2CbcParams" "CK_RC2_CBC_PARAMS"
    [("ulEffectiveBits", Long); ("iv", (Bytes 8))]
    Uninitialised
    [("effectiveBits", "ulEffectiveBits"); ("iv", "iv")]
    [("ulEffectiveBits", "effectiveBits"); ("iv", "iv")]
    [("ulEffectiveBits", "ulEffectiveBits"); ("iv", "iv")].

(** src/Crypto/Pkcs11/Types/Structs/Rc2MacGeneralParams.cpp: default constructor 8-9, copies 11-14, from the
    structure 16-19, from values 21-28, assignment 30-33 and 35-41. Fields:
    include/FlameIDE/Crypto/Oasis/pkcs11t.h 1607-1610. *)
Definition s_Rc2MacGeneralParams : code := Code "Rc2MacGeneralParams" "CK_RC2_MAC_GENERAL_PARAMS"
    [("ulEffectiveBits", Long); ("ulMacLength", Long)]
    Uninitialised
    [("effectiveBits", "ulEffectiveBits"); ("maxLength", "ulMacLength")]
    [("ulEffectiveBits", "effectiveBits"); ("ulMacLength", "maxLength")]
    [("ulEffectiveBits", "ulEffectiveBits"); ("ulMacLength", "ulMacLength")].

(** src/Crypto/Pkcs11/Types/Structs/Rc5CbcParams.cpp: default constructor 8-9, copies 11-14, from the
    structure 16-19, from values 21-32, assignment 34-37 and 39-47. Fields:
    include/FlameIDE/Crypto/Oasis/pkcs11t.h 1630-1635. *)
Definition s_Rc5CbcParams : code := Code "Rc5CbcParams" "CK_RC5_CBC_PARAMS"
    [("ulWordsize", Long); ("ulRounds", Long); ("pIv", Pointer); ("ulIvLen", Long)]
    Uninitialised
    [("wordSize", "ulWordsize"); ("rounds", "ulRounds"); ("iv", "pIv");
      ("ivLength", "ulIvLen")]
    [("ulWordsize", "wordSize"); ("ulRounds", "rounds"); ("pIv", "iv");
      ("ulIvLen", "ivLength")]
    [("ulWordsize", "ulWordsize"); ("ulRounds", "ulRounds"); ("pIv", "pIv");
      ("ulIvLen", "ulIvLen")].

(** src/Crypto/Pkcs11/Types/Structs/Rc5MacGeneralParams.cpp: default constructor 8-9, copies 11-14, from the
    structure 16-19, from values 21-30, assignment 32-35 and 37-44. Fields:
    include/FlameIDE/Crypto/Oasis/pkcs11t.h 1643-1647. *)
Definition s_Rc5MacGeneralParams : code := Code "Rc5MacGeneralParams" "CK_RC5_MAC_GENERAL_PARAMS"
    [("ulWordsize", Long); ("ulRounds", Long); ("ulMacLength", Long)]
    Uninitialised
    [("wordSize", "ulWordsize"); ("rounds", "ulRounds"); ("macLength", "ulMacLength")]
    [("ulWordsize", "wordSize"); ("ulRounds", "rounds"); ("ulMacLength", "macLength")]
    [("ulWordsize", "ulWordsize"); ("ulRounds", "ulRounds");
      ("ulMacLength", "ulMacLength")].

(** src/Crypto/Pkcs11/Types/Structs/Rc5Params.cpp: default constructor 8-9, copies 11-14, from the
    structure 16-19, from values 21-28, assignment 30-33 and 35-41. Fields:
    include/FlameIDE/Crypto/Oasis/pkcs11t.h 1619-1622. *)
Definition s_Rc5Params : code := Code "Rc5Params" "CK_RC5_PARAMS"
    [("ulWordsize", Long); ("ulRounds", Long)]
    Uninitialised
    [("wordSize", "ulWordsize"); ("rounds", "ulRounds")]
    [("ulWordsize", "wordSize"); ("ulRounds", "rounds")]
    [("ulWordsize", "ulWordsize"); ("ulRounds", "ulRounds")].

(** src/Crypto/Pkcs11/Types/Structs/RsaAesKeyWrapParams.cpp: default constructor 8-9, copies 11-14, from the
    structure 16-19, from values 21-28, assignment 30-33 and 35-41. Fields:
    include/FlameIDE/Crypto/Oasis/pkcs11t.h 2120-2123. *)
Definition s_RsaAesKeyWrapParams : code := Code "RsaAesKeyWrapParams" "CK_RSA_AES_KEY_WRAP_PARAMS"
    [("ulAESKeyBits", Long); ("pOAEPParams", Pointer)]
    Uninitialised
    [("aesKeyBits", "ulAESKeyBits"); ("oaepParams", "pOAEPParams")]
    [("ulAESKeyBits", "aesKeyBits"); ("pOAEPParams", "oaepParams")]
    [("ulAESKeyBits", "ulAESKeyBits"); ("pOAEPParams", "pOAEPParams")].

(** src/Crypto/Pkcs11/Types/Structs/RsaPkcsOaepParams.cpp: default constructor 10-12, copies 14-16, from the
    structure 18-21, from values 23-36, assignment 38-41 and 43-52. Fields:
    include/FlameIDE/Crypto/Oasis/pkcs11t.h 1416-1422. *)
Definition s_RsaPkcsOaepParams : code := Code "RsaPkcsOaepParams" "CK_RSA_PKCS_OAEP_PARAMS"
    [("hashAlg", Long); ("mgf", Long); ("source", Long); ("pSourceData", Pointer);
      ("ulSourceDataLen", Long)]
    EmptyParent
    [("hashAlg", "hashAlg"); ("mgf", "mgf"); ("source", "source");
      ("sourceData", "pSourceData"); ("sourceDataLength", "ulSourceDataLen")]
    [("hashAlg", "hashAlg"); ("mgf", "mgf"); ("source", "source");
      ("pSourceData", "sourceData"); ("ulSourceDataLen", "sourceDataLength")]
    [("hashAlg", "hashAlg"); ("mgf", "mgf"); ("source", "source");
      ("pSourceData", "pSourceData"); ("ulSourceDataLen", "ulSourceDataLen")].

(** src/Crypto/Pkcs11/Types/Structs/RsaPkcsPssParams.cpp: default constructor 10-12, copies 14-16, from the
    structure 18-21, from values 23-32, assignment 34-37 and 39-46. Fields:
    include/FlameIDE/Crypto/Oasis/pkcs11t.h 1429-1433. *)
Definition s_RsaPkcsPssParams : code := Code "RsaPkcsPssParams" "CK_RSA_PKCS_PSS_PARAMS"
    [("hashAlg", Long); ("mgf", Long); ("sLen", Long)]
    EmptyParent
    [("hashAlg", "hashAlg"); ("mgf", "mgf"); ("length", "sLen")]
    [("hashAlg", "hashAlg"); ("mgf", "mgf"); ("sLen", "length")]
    [("hashAlg", "hashAlg"); ("mgf", "mgf"); ("sLen", "sLen")].

(** src/Crypto/Pkcs11/Types/Structs/Salsa20ChaCha20Poly1305MessageParams.cpp: default constructor 8-9, copies 11-16, from the
    structure 18-21, from values 23-32, assignment 34-39 and 41-50. Fields:
    include/FlameIDE/Crypto/Oasis/pkcs11t.h 2311-2315. *)
Definition s_Salsa20ChaCha20Poly1305MessageParams : code := Code "Salsa20ChaCha20Poly1305MessageParams" "CK_SALSA20_CHACHA20_POLY1305_MSG_PARAMS"
    [("pNonce", Pointer); ("ulNonceLen", Long); ("pTag", Pointer)]
    Uninitialised
    [("nonce", "pNonce"); ("nonceLength", "ulNonceLen"); ("tag", "pTag")]
    [("pNonce", "nonce"); ("ulNonceLen", "nonceLength"); ("pTag", "tag")]
    [("pNonce", "pNonce"); ("ulNonceLen", "ulNonceLen"); ("pTag", "pTag")].

(** src/Crypto/Pkcs11/Types/Structs/Salsa20ChaCha20Poly1305Params.cpp: default constructor 8-9, copies 11-16, from the
    structure 18-21, from values 23-34, assignment 36-41 and 43-53. Fields:
    include/FlameIDE/Crypto/Oasis/pkcs11t.h 2301-2306. *)
Definition s_Salsa20ChaCha20Poly1305Params : code := Code "Salsa20ChaCha20Poly1305Params" "CK_SALSA20_CHACHA20_POLY1305_PARAMS"
    [("pNonce", Pointer); ("ulNonceLen", Long); ("pAAD", Pointer); ("ulAADLen", Long)]
    Uninitialised
    [("nonce", "pNonce"); ("nonceLength", "ulNonceLen"); ("aad", "pAAD");
      ("aadLength", "ulAADLen")]
    [("pNonce", "nonce"); ("ulNonceLen", "nonceLength"); ("pAAD", "aad");
      ("ulAADLen", "aadLength")]
    [("pNonce", "pNonce"); ("ulNonceLen", "ulNonceLen"); ("pAAD", "pAAD");
      ("ulAADLen", "ulAADLen")].

(** src/Crypto/Pkcs11/Types/Structs/Salsa20Params.cpp: default constructor 8-9, copies 11-14, from the
    structure 16-19, from values 21-30, assignment 32-35 and 37-44. Fields:
    include/FlameIDE/Crypto/Oasis/pkcs11t.h 2293-2297. *)
Definition s_Salsa20Params : code := Code "Salsa20Params" "CK_SALSA20_PARAMS"
    [("pBlockCounter", Pointer); ("pNonce", Pointer); ("ulNonceBits", Long)]
    Uninitialised
    [("blockCounter", "pBlockCounter"); ("nonce", "pNonce"); ("nonceBits", "ulNonceBits")]
    [("pBlockCounter", "blockCounter"); ("pNonce", "nonce"); ("ulNonceBits", "nonceBits")]
    [("pBlockCounter", "pBlockCounter"); ("pNonce", "pNonce");
      ("ulNonceBits", "ulNonceBits")].

(** src/Crypto/Pkcs11/Types/Structs/SeedCbcEncryptDataParams.cpp: default constructor 9-10, copies 12-17, from the
    structure 19-22, from values 24-33, assignment 35-40 and 42-49. Fields:
    include/FlameIDE/Crypto/Oasis/pkcs11t.h 2187-2191. *)
Definition s_SeedCbcEncryptDataParams : code := Code "SeedCbcEncryptDataParams" "CK_SEED_CBC_ENCRYPT_DATA_PARAMS"
    [("iv", (Bytes 16)); ("pData", Pointer); ("length", Long)]
    Uninitialised
    [("iv", "iv"); ("data", "pData"); ("dataLength", "length")]
    [("iv", "iv"); ("pData", "data"); ("length", "dataLength")]
    [("iv", "iv"); ("pData", "pData"); ("length", "length")].

(** src/Crypto/Pkcs11/Types/Structs/SessionInfo.cpp: default constructor 10-12, copies 14-16, from the
    structure 18-21, from values 23-32, assignment 34-37 and 39-46. Fields:
    include/FlameIDE/Crypto/Oasis/pkcs11t.h 277-282. *)
Definition s_SessionInfo : code := Code "SessionInfo" "CK_SESSION_INFO"
    [("slotID", Long); ("state", Long); ("flags", Long); ("ulDeviceError", Long)]
    EmptyParent
    [("slotId", "slotID"); ("state", "state"); ("flags", "flags");
      ("deviceError", "ulDeviceError")]
    [("slotID", "slotId"); ("state", "state"); ("flags", "flags");
      ("ulDeviceError", "deviceError")]
    [("slotID", "slotID"); ("state", "state"); ("flags", "flags");
      ("ulDeviceError", "ulDeviceError")].

(** src/Crypto/Pkcs11/Types/Structs/SkipjackPrivateWrapParams.cpp: default constructor 8-9, copies 11-16, from the
    structure 18-21, from values 23-48, assignment 50-55 and 57-72. Fields:
    include/FlameIDE/Crypto/Oasis/pkcs11t.h 1679-1691. *)
Definition s_SkipjackPrivateWrapParams : code := Code "SkipjackPrivateWrapParams" "CK_SKIPJACK_PRIVATE_WRAP_PARAMS"
    [("ulPasswordLen", Long); ("pPassword", Pointer); ("ulPublicDataLen", Long);
      ("pPublicData", Pointer); ("ulPAndGLen", Long); ("ulQLen", Long);
      ("ulRandomLen", Long); ("pRandomA", Pointer); ("pPrimeP", Pointer);
      ("pBaseG", Pointer); ("pSubprimeQ", Pointer)]
    Uninitialised
    [("passwordLength", "ulPasswordLen"); ("password", "pPassword");
      ("publicDataLength", "ulPublicDataLen"); ("publicData", "pPublicData");
      ("pAndGLength", "ulPAndGLen"); ("qLen", "ulQLen"); ("randomLength", "ulRandomLen");
      ("randomA", "pRandomA"); ("primeP", "pPrimeP"); ("baseG", "pBaseG");
      ("subprimeQ", "pSubprimeQ")]
    [("ulPasswordLen", "passwordLength"); ("pPassword", "password");
      ("ulPublicDataLen", "publicDataLength"); ("pPublicData", "publicData");
      ("ulPAndGLen", "pAndGLength"); ("ulQLen", "qLen"); ("ulRandomLen", "randomLength");
      ("pRandomA", "randomA"); ("pPrimeP", "primeP"); ("pBaseG", "baseG");
      ("pSubprimeQ", "subprimeQ")]
    [("ulPasswordLen", "ulPasswordLen"); ("pPassword", "pPassword");
      ("ulPublicDataLen", "ulPublicDataLen"); ("pPublicData", "pPublicData");
      ("ulPAndGLen", "ulPAndGLen"); ("ulQLen", "ulQLen"); ("ulRandomLen", "ulRandomLen");
      ("pRandomA", "pRandomA"); ("pPrimeP", "pPrimeP"); ("pBaseG", "pBaseG");
      ("pSubprimeQ", "pSubprimeQ")].

(** src/Crypto/Pkcs11/Types/Structs/SkipjackRelayxParams.cpp: default constructor 8-9, copies 11-14, from the
    structure 16-19, from values 21-52, assignment 54-57 and 59-77. Fields:
    include/FlameIDE/Crypto/Oasis/pkcs11t.h 1700-1715. *)
Definition s_SkipjackRelayxParams : code := Code "SkipjackRelayxParams" "CK_SKIPJACK_RELAYX_PARAMS"
    [("ulOldWrappedXLen", Long); ("pOldWrappedX", Pointer); ("ulOldPasswordLen", Long);
      ("pOldPassword", Pointer); ("ulOldPublicDataLen", Long); ("pOldPublicData", Pointer);
      ("ulOldRandomLen", Long); ("pOldRandomA", Pointer); ("ulNewPasswordLen", Long);
      ("pNewPassword", Pointer); ("ulNewPublicDataLen", Long); ("pNewPublicData", Pointer);
      ("ulNewRandomLen", Long); ("pNewRandomA", Pointer)]
    Uninitialised
    [("oldWrappedLength", "ulOldWrappedXLen"); ("oldWrapped", "pOldWrappedX");
      ("oldPasswordLength", "ulOldPasswordLen"); ("oldPassword", "pOldPassword");
      ("oldPublicDataLength", "ulOldPublicDataLen"); ("oldPublicData", "pOldPublicData");
      ("oldRandomLength", "ulOldRandomLen"); ("oldRandomA", "pOldRandomA");
      ("NewPasswordLength", "ulNewPasswordLen"); ("newPassword", "pNewPassword");
      ("newPublicDataLength", "ulNewPublicDataLen"); ("newPublicData", "pNewPublicData");
      ("newRandomLength", "ulNewRandomLen"); ("newRandomA", "pNewRandomA")]
    [("ulOldWrappedXLen", "oldWrappedLength"); ("pOldWrappedX", "oldWrapped");
      ("ulOldPasswordLen", "oldPasswordLength"); ("pOldPassword", "oldPassword");
      ("ulOldPublicDataLen", "oldPublicDataLength"); ("pOldPublicData", "oldPublicData");
      ("ulOldRandomLen", "oldRandomLength"); ("pOldRandomA", "oldRandomA");
      ("ulNewPasswordLen", "NewPasswordLength"); ("pNewPassword", "newPassword");
      ("ulNewPublicDataLen", "newPublicDataLength"); ("pNewPublicData", "newPublicData");
      ("ulNewRandomLen", "newRandomLength"); ("pNewRandomA", "newRandomA")]
    [("ulOldWrappedXLen", "ulOldWrappedXLen"); ("pOldWrappedX", "pOldWrappedX");
      ("ulOldPasswordLen", "ulOldPasswordLen"); ("pOldPassword", "pOldPassword");
      ("ulOldPublicDataLen", "ulOldPublicDataLen"); ("pOldPublicData", "pOldPublicData");
      ("ulOldRandomLen", "ulOldRandomLen"); ("pOldRandomA", "pOldRandomA");
      ("ulNewPasswordLen", "ulNewPasswordLen"); ("pNewPassword", "pNewPassword");
      ("ulNewPublicDataLen", "ulNewPublicDataLen"); ("pNewPublicData", "pNewPublicData");
      ("ulNewRandomLen", "ulNewRandomLen"); ("pNewRandomA", "pNewRandomA")].

(** src/Crypto/Pkcs11/Types/Structs/SlotInfo.cpp: default constructor 11-12, copies 14-16, from the
    structure 18-21, from values 23-35, assignment 37-40 and 42-52. Fields:
    include/FlameIDE/Crypto/Oasis/pkcs11t.h 108-115. *)
Definition s_SlotInfo : code := Code "SlotInfo" "CK_SLOT_INFO"
    [("slotDescription", (Bytes 64)); ("manufacturerID", (Bytes 32)); ("flags", Long);
      ("hardwareVersion", (Struct [(Int 1);(Int 1)]));
      ("firmwareVersion", (Struct [(Int 1);(Int 1)]))]
    Uninitialised
    [("slotDescription", "slotDescription"); ("manufacturerId", "manufacturerID");
      ("flags", "flags"); ("hardwareVersion", "hardwareVersion");
      ("firmwareVersion", "firmwareVersion")]
    [("slotDescription", "slotDescription"); ("manufacturerID", "manufacturerId");
      ("flags", "flags"); ("hardwareVersion", "hardwareVersion");
      ("firmwareVersion", "firmwareVersion")]
    [("slotDescription", "slotDescription"); ("manufacturerID", "manufacturerID");
      ("flags", "flags"); ("hardwareVersion", "hardwareVersion");
      ("firmwareVersion", "firmwareVersion")].

(** src/Crypto/Pkcs11/Types/Structs/Ssl3KeyMatOut.cpp: default constructor 8-9, copies 11-14, from the
    structure 16-19, from values 21-36, assignment 38-41 and 43-53. Fields:
    include/FlameIDE/Crypto/Oasis/pkcs11t.h 1760-1767. *)
Definition s_Ssl3KeyMatOut : code := Code "Ssl3KeyMatOut" "CK_SSL3_KEY_MAT_OUT"
    [("hClientMacSecret", Long); ("hServerMacSecret", Long); ("hClientKey", Long);
      ("hServerKey", Long); ("pIVClient", Pointer); ("pIVServer", Pointer)]
    Uninitialised
    [("clientMacSecret", "hClientMacSecret"); ("serverMacSecret", "hServerMacSecret");
      ("clientKey", "hClientKey"); ("serverKey", "hServerKey"); ("ivClient", "pIVClient");
      ("ivServer", "pIVServer")]
    [("hClientMacSecret", "clientMacSecret"); ("hServerMacSecret", "serverMacSecret");
      ("hClientKey", "clientKey"); ("hServerKey", "serverKey"); ("pIVClient", "ivClient");
      ("pIVServer", "ivServer")]
    [("hClientMacSecret", "hClientMacSecret"); ("hServerMacSecret", "hServerMacSecret");
      ("hClientKey", "hClientKey"); ("hServerKey", "hServerKey");
      ("pIVClient", "pIVClient"); ("pIVServer", "pIVServer")].

(** src/Crypto/Pkcs11/Types/Structs/Ssl3KeyMatParams.cpp: default constructor 8-9, copies 11-14, from the
    structure 16-19, from values 21-36, assignment 38-41 and 43-53. Fields:
    include/FlameIDE/Crypto/Oasis/pkcs11t.h 1772-1779. *)
Definition s_Ssl3KeyMatParams : code := Code "Ssl3KeyMatParams" "CK_SSL3_KEY_MAT_PARAMS"
    [("ulMacSizeInBits", Long); ("ulKeySizeInBits", Long); ("ulIVSizeInBits", Long);
      ("bIsExport", (Int 1)); ("RandomInfo", (Struct [Pointer;Long;Pointer;Long]));
      ("pReturnedKeyMaterial", Pointer)]
    Uninitialised
    [("macSizeInBits", "ulMacSizeInBits"); ("keySizeInBits", "ulKeySizeInBits");
      ("ivSizeInBits", "ulIVSizeInBits"); ("isExport", "bIsExport");
      ("randomInfo", "RandomInfo"); ("returnedKeyMaterial", "pReturnedKeyMaterial")]
    [("ulMacSizeInBits", "macSizeInBits"); ("ulKeySizeInBits", "keySizeInBits");
      ("ulIVSizeInBits", "ivSizeInBits"); ("bIsExport", "isExport");
      ("RandomInfo", "randomInfo"); ("pReturnedKeyMaterial", "returnedKeyMaterial")]
    [("ulMacSizeInBits", "ulMacSizeInBits"); ("ulKeySizeInBits", "ulKeySizeInBits");
      ("ulIVSizeInBits", "ulIVSizeInBits"); ("bIsExport", "bIsExport");
      ("RandomInfo", "RandomInfo"); ("pReturnedKeyMaterial", "pReturnedKeyMaterial")].

(** src/Crypto/Pkcs11/Types/Structs/Ssl3MasterKeyDeriveParams.cpp: default constructor 8-9, copies 11-14, from the
    structure 16-19, from values 21-28, assignment 30-35 and 37-45. Fields:
    include/FlameIDE/Crypto/Oasis/pkcs11t.h 1752-1755. *)
Definition s_Ssl3MasterKeyDeriveParams : code := Code "Ssl3MasterKeyDeriveParams" "CK_SSL3_MASTER_KEY_DERIVE_PARAMS"
    [("RandomInfo", (Struct [Pointer;Long;Pointer;Long])); ("pVersion", Pointer)]
    Uninitialised
    [("randomInfo", "RandomInfo"); ("version", "pVersion")]
    [("RandomInfo", "randomInfo"); ("pVersion", "version")]
    [("RandomInfo", "RandomInfo"); ("pVersion", "pVersion")].

(** src/Crypto/Pkcs11/Types/Structs/Ssl3RandomData.cpp: default constructor 8-9, copies 11-14, from the
    structure 16-19, from values 21-32, assignment 34-37 and 39-47. Fields:
    include/FlameIDE/Crypto/Oasis/pkcs11t.h 1744-1749. *)
Definition s_Ssl3RandomData : code := Code "Ssl3RandomData" "CK_SSL3_RANDOM_DATA"
    [("pClientRandom", Pointer); ("ulClientRandomLen", Long); ("pServerRandom", Pointer);
      ("ulServerRandomLen", Long)]
    Uninitialised
    [("serverRandomLength", "ulServerRandomLen"); ("serverRandom", "pServerRandom");
      ("clientRandomLength", "ulClientRandomLen"); ("clientRandom", "pClientRandom")]
    [("ulServerRandomLen", "serverRandomLength"); ("pServerRandom", "serverRandom");
      ("ulClientRandomLen", "clientRandomLength"); ("pClientRandom", "clientRandom")]
    [("pClientRandom", "pClientRandom"); ("ulClientRandomLen", "ulClientRandomLen");
      ("pServerRandom", "pServerRandom"); ("ulServerRandomLen", "ulServerRandomLen")].

(** src/Crypto/Pkcs11/Types/Structs/Tls12KeyMatParams.cpp: default constructor 8-9, copies 11-14, from the
    structure 16-19, from values 21-38, assignment 40-43 and 45-56. Fields:
    include/FlameIDE/Crypto/Oasis/pkcs11t.h 2136-2144. *)
Definition s_Tls12KeyMatParams : code := Code "Tls12KeyMatParams" "CK_TLS12_KEY_MAT_PARAMS"
    [("ulMacSizeInBits", Long); ("ulKeySizeInBits", Long); ("ulIVSizeInBits", Long);
      ("bIsExport", (Int 1)); ("RandomInfo", (Struct [Pointer;Long;Pointer;Long]));
      ("pReturnedKeyMaterial", Pointer); ("prfHashMechanism", Long)]
    Uninitialised
    [("macSizeInBits", "ulMacSizeInBits"); ("keySizeInBits", "ulKeySizeInBits");
      ("ivSizeInBits", "ulIVSizeInBits"); ("isExport", "bIsExport");
      ("randomInfo", "RandomInfo"); ("returnedKeyMaterial", "pReturnedKeyMaterial");
      ("prfHashMechanism", "prfHashMechanism")]
    [("ulMacSizeInBits", "macSizeInBits"); ("ulKeySizeInBits", "keySizeInBits");
      ("ulIVSizeInBits", "ivSizeInBits"); ("bIsExport", "isExport");
      ("RandomInfo", "randomInfo"); ("pReturnedKeyMaterial", "returnedKeyMaterial");
      ("prfHashMechanism", "prfHashMechanism")]
    [("ulMacSizeInBits", "ulMacSizeInBits"); ("ulKeySizeInBits", "ulKeySizeInBits");
      ("ulIVSizeInBits", "ulIVSizeInBits"); ("bIsExport", "bIsExport");
      ("RandomInfo", "RandomInfo"); ("pReturnedKeyMaterial", "pReturnedKeyMaterial");
      ("prfHashMechanism", "prfHashMechanism")].

(** src/Crypto/Pkcs11/Types/Structs/Tls12MasterKeyDeriveParams.cpp: default constructor 8-9, copies 11-16, from the
    structure 18-21, from values 23-32, assignment 34-39 and 41-50. Fields:
    include/FlameIDE/Crypto/Oasis/pkcs11t.h 2127-2131. *)
Definition s_Tls12MasterKeyDeriveParams : code := Code "Tls12MasterKeyDeriveParams" "CK_TLS12_MASTER_KEY_DERIVE_PARAMS"
    [("RandomInfo", (Struct [Pointer;Long;Pointer;Long])); ("pVersion", Pointer);
      ("prfHashMechanism", Long)]
    Uninitialised
    [("randomInfo", "RandomInfo"); ("version", "pVersion");
      ("prfHashMechanism", "prfHashMechanism")]
    [("RandomInfo", "randomInfo"); ("pVersion", "version");
      ("prfHashMechanism", "prfHashMechanism")]
    [("RandomInfo", "RandomInfo"); ("pVersion", "pVersion");
      ("prfHashMechanism", "prfHashMechanism")].

(** src/Crypto/Pkcs11/Types/Structs/TlsKdfParams.cpp: default constructor 8-9, copies 11-14, from the
    structure 16-19, from values 21-36, assignment 38-41 and 43-53. Fields:
    include/FlameIDE/Crypto/Oasis/pkcs11t.h 2148-2155. *)
Definition s_TlsKdfParams : code := Code "TlsKdfParams" "CK_TLS_KDF_PARAMS"
    [("prfMechanism", Long); ("pLabel", Pointer); ("ulLabelLength", Long);
      ("RandomInfo", (Struct [Pointer;Long;Pointer;Long])); ("pContextData", Pointer);
      ("ulContextDataLength", Long)]
    Uninitialised
    [("prfMechanism", "prfMechanism"); ("label", "pLabel");
      ("labelLength", "ulLabelLength"); ("randomInfo", "RandomInfo");
      ("contextData", "pContextData"); ("contextDataLength", "ulContextDataLength")]
    [("prfMechanism", "prfMechanism"); ("pLabel", "label");
      ("ulLabelLength", "labelLength"); ("RandomInfo", "randomInfo");
      ("pContextData", "contextData"); ("ulContextDataLength", "contextDataLength")]
    [("prfMechanism", "prfMechanism"); ("pLabel", "pLabel");
      ("ulLabelLength", "ulLabelLength"); ("RandomInfo", "RandomInfo");
      ("pContextData", "pContextData"); ("ulContextDataLength", "ulContextDataLength")].

(** src/Crypto/Pkcs11/Types/Structs/TlsMacParams.cpp: default constructor 8-9, copies 11-14, from the
    structure 16-19, from values 21-30, assignment 32-35 and 37-44. Fields:
    include/FlameIDE/Crypto/Oasis/pkcs11t.h 2159-2163. *)
Definition s_TlsMacParams : code := Code "TlsMacParams" "CK_TLS_MAC_PARAMS"
    [("prfHashMechanism", Long); ("ulMacLength", Long); ("ulServerOrClient", Long)]
    Uninitialised
    [("prfHashMechanism", "prfHashMechanism"); ("macLength", "ulMacLength");
      ("serverOrClient", "ulServerOrClient")]
    [("prfHashMechanism", "prfHashMechanism"); ("ulMacLength", "macLength");
      ("ulServerOrClient", "serverOrClient")]
    [("prfHashMechanism", "prfHashMechanism"); ("ulMacLength", "ulMacLength");
      ("ulServerOrClient", "ulServerOrClient")].

(** src/Crypto/Pkcs11/Types/Structs/TlsPrfParams.cpp: default constructor 8-9, copies 11-14, from the
    structure 16-19, from values 21-36, assignment 38-41 and 43-53. Fields:
    include/FlameIDE/Crypto/Oasis/pkcs11t.h 1783-1790. *)
Definition s_TlsPrfParams : code := Code "TlsPrfParams" "CK_TLS_PRF_PARAMS"
    [("pSeed", Pointer); ("ulSeedLen", Long); ("pLabel", Pointer); ("ulLabelLen", Long);
      ("pOutput", Pointer); ("pulOutputLen", Pointer)]
    Uninitialised
    [("seed", "pSeed"); ("seedLength", "ulSeedLen"); ("label", "pLabel");
      ("labelLength", "ulLabelLen"); ("output", "pOutput");
      ("outputLength", "pulOutputLen")]
    [("pSeed", "seed"); ("ulSeedLen", "seedLength"); ("pLabel", "label");
      ("ulLabelLen", "labelLength"); ("pOutput", "output");
      ("pulOutputLen", "outputLength")]
    [("pSeed", "pSeed"); ("ulSeedLen", "ulSeedLen"); ("pLabel", "pLabel");
      ("ulLabelLen", "ulLabelLen"); ("pOutput", "pOutput");
      ("pulOutputLen", "pulOutputLen")].

(** src/Crypto/Pkcs11/Types/Structs/TokenInfo.cpp: default constructor 11-13, copies 15-17, from the
    structure 19-22, from values 24-62, assignment 64-67 and 69-92. Fields:
    include/FlameIDE/Crypto/Oasis/pkcs11t.h 128-148. *)
Definition s_TokenInfo : code := Code "TokenInfo" "CK_TOKEN_INFO"
    [("label", (Bytes 32)); ("manufacturerID", (Bytes 32)); ("model", (Bytes 16));
      ("serialNumber", (Bytes 16)); ("flags", Long); ("ulMaxSessionCount", Long);
      ("ulSessionCount", Long); ("ulMaxRwSessionCount", Long); ("ulRwSessionCount", Long);
      ("ulMaxPinLen", Long); ("ulMinPinLen", Long); ("ulTotalPublicMemory", Long);
      ("ulFreePublicMemory", Long); ("ulTotalPrivateMemory", Long);
      ("ulFreePrivateMemory", Long); ("hardwareVersion", (Struct [(Int 1);(Int 1)]));
      ("firmwareVersion", (Struct [(Int 1);(Int 1)])); ("utcTime", (Bytes 16))]
    EmptyParent
    [("label", "label"); ("manufacturerId", "manufacturerID"); ("model", "model");
      ("serialNumber", "serialNumber"); ("flags", "flags");
      ("maxSessionCount", "ulMaxSessionCount"); ("sessionCount", "ulSessionCount");
      ("maxRwSessionCount", "ulMaxRwSessionCount"); ("rwSessionCount", "ulRwSessionCount");
      ("maxPinLen", "ulMaxPinLen"); ("minPinLen", "ulMinPinLen");
      ("totalPublicMemory", "ulTotalPublicMemory");
      ("freePublicMemory", "ulFreePublicMemory");
      ("totalPrivateMemory", "ulTotalPrivateMemory");
      ("freePrivateMemory", "ulFreePrivateMemory"); ("hardwareVersion", "hardwareVersion");
      ("firmwareVersion", "firmwareVersion"); ("utcTime", "utcTime")]
    [("label", "label"); ("manufacturerID", "manufacturerId"); ("model", "model");
      ("serialNumber", "serialNumber"); ("flags", "flags");
      ("ulMaxSessionCount", "maxSessionCount"); ("ulSessionCount", "sessionCount");
      ("ulMaxRwSessionCount", "maxRwSessionCount"); ("ulRwSessionCount", "rwSessionCount");
      ("ulMaxPinLen", "maxPinLen"); ("ulMinPinLen", "minPinLen");
      ("ulTotalPublicMemory", "totalPublicMemory");
      ("ulFreePublicMemory", "freePublicMemory");
      ("ulTotalPrivateMemory", "totalPrivateMemory");
      ("ulFreePrivateMemory", "freePrivateMemory"); ("hardwareVersion", "hardwareVersion");
      ("firmwareVersion", "firmwareVersion"); ("utcTime", "utcTime")]
    [("label", "label"); ("manufacturerID", "manufacturerID"); ("model", "model");
      ("serialNumber", "serialNumber"); ("flags", "flags");
      ("ulMaxSessionCount", "ulMaxSessionCount"); ("ulSessionCount", "ulSessionCount");
      ("ulMaxRwSessionCount", "ulMaxRwSessionCount");
      ("ulRwSessionCount", "ulRwSessionCount"); ("ulMaxPinLen", "ulMaxPinLen");
      ("ulMinPinLen", "ulMinPinLen"); ("ulTotalPublicMemory", "ulTotalPublicMemory");
      ("ulFreePublicMemory", "ulFreePublicMemory");
      ("ulTotalPrivateMemory", "ulTotalPrivateMemory");
      ("ulFreePrivateMemory", "ulFreePrivateMemory");
      ("hardwareVersion", "hardwareVersion"); ("firmwareVersion", "firmwareVersion");
      ("utcTime", "utcTime")].

(** src/Crypto/Pkcs11/Types/Structs/Version.cpp: default constructor 10-12, copies 14-16, from the
    structure 18-21, from values 23-28, assignment 30-33 and 35-40. Fields:
    include/FlameIDE/Crypto/Oasis/pkcs11t.h 76-79. *)
Definition s_Version : code := Code "Version" "CK_VERSION"
    [("major", (Int 1)); ("minor", (Int 1))]
    EmptyParent
    [("major", "major"); ("minor", "minor")]
    [("major", "major"); ("minor", "minor")]
    [("major", "major"); ("minor", "minor")].

(** src/Crypto/Pkcs11/Types/Structs/WtlsKeyMatOut.cpp: default constructor 8-9, copies 11-14, from the
    structure 16-19, from values 21-30, assignment 32-35 and 37-44. Fields:
    include/FlameIDE/Crypto/Oasis/pkcs11t.h 1824-1828. *)
Definition s_WtlsKeyMatOut : code := Code "WtlsKeyMatOut" "CK_WTLS_KEY_MAT_OUT"
    [("hMacSecret", Long); ("hKey", Long); ("pIV", Pointer)]
    Uninitialised
    [("macSecret", "hMacSecret"); ("key", "hKey"); ("iv", "pIV")]
    [("hMacSecret", "macSecret"); ("hKey", "key"); ("pIV", "iv")]
    [("hMacSecret", "hMacSecret"); ("hKey", "hKey"); ("pIV", "pIV")].

(** src/Crypto/Pkcs11/Types/Structs/WtlsKeyMatParams.cpp: default constructor 8-9, copies 11-14, from the
    structure 16-19, from values 21-40, assignment 42-45 and 47-59. Fields:
    include/FlameIDE/Crypto/Oasis/pkcs11t.h 1832-1841. *)
Definition s_WtlsKeyMatParams : code := Code "WtlsKeyMatParams" "CK_WTLS_KEY_MAT_PARAMS"
    [("DigestMechanism", Long); ("ulMacSizeInBits", Long); ("ulKeySizeInBits", Long);
      ("ulIVSizeInBits", Long); ("ulSequenceNumber", Long); ("bIsExport", (Int 1));
      ("RandomInfo", (Struct [Pointer;Long;Pointer;Long]));
      ("pReturnedKeyMaterial", Pointer)]
    Uninitialised
    [("digestMechanism", "DigestMechanism"); ("macSizeInBits", "ulMacSizeInBits");
      ("keySizeInBits", "ulKeySizeInBits"); ("ivSizeInBits", "ulIVSizeInBits");
      ("sequenceNumber", "ulSequenceNumber"); ("isExport", "bIsExport");
      ("randomInfo", "RandomInfo"); ("returnedKeyMaterial", "pReturnedKeyMaterial")]
    [("DigestMechanism", "digestMechanism"); ("ulMacSizeInBits", "macSizeInBits");
      ("ulKeySizeInBits", "keySizeInBits"); ("ulIVSizeInBits", "ivSizeInBits");
      ("ulSequenceNumber", "sequenceNumber"); ("bIsExport", "isExport");
      ("RandomInfo", "randomInfo"); ("pReturnedKeyMaterial", "returnedKeyMaterial")]
    [("DigestMechanism", "DigestMechanism"); ("ulMacSizeInBits", "ulMacSizeInBits");
      ("ulKeySizeInBits", "ulKeySizeInBits"); ("ulIVSizeInBits", "ulIVSizeInBits");
      ("ulSequenceNumber", "ulSequenceNumber"); ("bIsExport", "bIsExport");
      ("RandomInfo", "RandomInfo"); ("pReturnedKeyMaterial", "pReturnedKeyMaterial")].

(** src/Crypto/Pkcs11/Types/Structs/WtlsMasterKeyDeriveParams.cpp: default constructor 8-9, copies 11-16, from the
    structure 18-21, from values 27-36, assignment 38-43 and 45-54. Fields:
    include/FlameIDE/Crypto/Oasis/pkcs11t.h 1803-1807. *)
Definition s_WtlsMasterKeyDeriveParams : code := Code "WtlsMasterKeyDeriveParams" "CK_WTLS_MASTER_KEY_DERIVE_PARAMS"
    [("DigestMechanism", Long); ("RandomInfo", (Struct [Pointer;Long;Pointer;Long]));
      ("pVersion", Pointer)]
    Uninitialised
    [("digestMechanism", "DigestMechanism"); ("randomInfo", "RandomInfo");
      ("version", "pVersion")]
    [("DigestMechanism", "digestMechanism"); ("RandomInfo", "randomInfo");
      ("pVersion", "version")]
    [("DigestMechanism", "DigestMechanism"); ("RandomInfo", "RandomInfo");
      ("pVersion", "pVersion")].

(** src/Crypto/Pkcs11/Types/Structs/WtlsPrfParams.cpp: default constructor 8-9, copies 11-14, from the
    structure 16-19, from values 21-38, assignment 40-43 and 45-56. Fields:
    include/FlameIDE/Crypto/Oasis/pkcs11t.h 1812-1820. *)
Definition s_WtlsPrfParams : code := Code "WtlsPrfParams" "CK_WTLS_PRF_PARAMS"
    [("DigestMechanism", Long); ("pSeed", Pointer); ("ulSeedLen", Long);
      ("pLabel", Pointer); ("ulLabelLen", Long); ("pOutput", Pointer);
      ("pulOutputLen", Pointer)]
    Uninitialised
    [("digestMechanism", "DigestMechanism"); ("seed", "pSeed");
      ("seedLength", "ulSeedLen"); ("label", "pLabel"); ("labelLength", "ulLabelLen");
      ("output", "pOutput"); ("outputLength", "pulOutputLen")]
    [("DigestMechanism", "digestMechanism"); ("pSeed", "seed");
      ("ulSeedLen", "seedLength"); ("pLabel", "label"); ("ulLabelLen", "labelLength");
      ("pOutput", "output"); ("pulOutputLen", "outputLength")]
    [("DigestMechanism", "DigestMechanism"); ("pSeed", "pSeed");
      ("ulSeedLen", "ulSeedLen"); ("pLabel", "pLabel"); ("ulLabelLen", "ulLabelLen");
      ("pOutput", "pOutput"); ("pulOutputLen", "pulOutputLen")].

(** src/Crypto/Pkcs11/Types/Structs/WtlsRandomData.cpp: default constructor 8-9, copies 11-14, from the
    structure 16-19, from values 21-32, assignment 34-37 and 39-47. Fields:
    include/FlameIDE/Crypto/Oasis/pkcs11t.h 1794-1799. *)
Definition s_WtlsRandomData : code := Code "WtlsRandomData" "CK_WTLS_RANDOM_DATA"
    [("pClientRandom", Pointer); ("ulClientRandomLen", Long); ("pServerRandom", Pointer);
      ("ulServerRandomLen", Long)]
    Uninitialised
    [("clientRandom", "pClientRandom"); ("clientRandomLength", "ulClientRandomLen");
      ("serverRandom", "pServerRandom"); ("serverRandomLength", "ulServerRandomLen")]
    [("pClientRandom", "clientRandom"); ("ulClientRandomLen", "clientRandomLength");
      ("pServerRandom", "serverRandom"); ("ulServerRandomLen", "serverRandomLength")]
    [("pClientRandom", "pClientRandom"); ("ulClientRandomLen", "ulClientRandomLen");
      ("pServerRandom", "pServerRandom"); ("ulServerRandomLen", "ulServerRandomLen")].

(** src/Crypto/Pkcs11/Types/Structs/X9dot42DiffieHellman1DeriveParams.cpp: default constructor 10-11, copies 13-17, from the
    structure 19-24, from values 26-39, assignment 41-46 and 48-58. Fields:
    include/FlameIDE/Crypto/Oasis/pkcs11t.h 1526-1532. *)
Definition s_X9dot42DiffieHellman1DeriveParams : code := Code "X9dot42DiffieHellman1DeriveParams" "CK_X9_42_DH1_DERIVE_PARAMS"
    [("kdf", Long); ("ulOtherInfoLen", Long); ("pOtherInfo", Pointer);
      ("ulPublicDataLen", Long); ("pPublicData", Pointer)]
    Uninitialised
    [("kdf", "kdf"); ("otherInfoLength", "ulOtherInfoLen"); ("otherInfo", "pOtherInfo");
      ("publicDataLength", "ulPublicDataLen"); ("publicData", "pPublicData")]
    [("kdf", "kdf"); ("ulOtherInfoLen", "otherInfoLength"); ("pOtherInfo", "otherInfo");
      ("ulPublicDataLen", "publicDataLength"); ("pPublicData", "publicData")]
    [("kdf", "kdf"); ("ulOtherInfoLen", "ulOtherInfoLen"); ("pOtherInfo", "pOtherInfo");
      ("ulPublicDataLen", "ulPublicDataLen"); ("pPublicData", "pPublicData")].

(** src/Crypto/Pkcs11/Types/Structs/X9dot42DiffieHellman2DeriveParams.cpp: default constructor 10-12, copies 14-18, from the
    structure 20-25, from values 27-48, assignment 50-55 and 57-71. Fields:
    include/FlameIDE/Crypto/Oasis/pkcs11t.h 1540-1550. *)
Definition s_X9dot42DiffieHellman2DeriveParams : code := Code "X9dot42DiffieHellman2DeriveParams" "CK_X9_42_DH2_DERIVE_PARAMS"
    [("kdf", Long); ("ulOtherInfoLen", Long); ("pOtherInfo", Pointer);
      ("ulPublicDataLen", Long); ("pPublicData", Pointer); ("ulPrivateDataLen", Long);
      ("hPrivateData", Long); ("ulPublicDataLen2", Long); ("pPublicData2", Pointer)]
    EmptyParent
    [("kdf", "kdf"); ("otherInfoLength", "ulOtherInfoLen"); ("otherInfo", "pOtherInfo");
      ("publicDataLength", "ulPublicDataLen"); ("publicData", "pPublicData");
      ("privateDataLength", "ulPrivateDataLen"); ("privateData", "hPrivateData");
      ("publicDataLength2", "ulPublicDataLen2"); ("publicData2", "pPublicData2")]
    [("kdf", "kdf"); ("ulOtherInfoLen", "otherInfoLength"); ("pOtherInfo", "otherInfo");
      ("ulPublicDataLen", "publicDataLength"); ("pPublicData", "publicData");
      ("ulPrivateDataLen", "privateDataLength"); ("hPrivateData", "privateData");
      ("ulPublicDataLen2", "publicDataLength2"); ("pPublicData2", "publicData2")]
    [("kdf", "kdf"); ("ulOtherInfoLen", "ulOtherInfoLen"); ("pOtherInfo", "pOtherInfo");
      ("ulPublicDataLen", "ulPublicDataLen"); ("pPublicData", "pPublicData");
      ("ulPrivateDataLen", "ulPrivateDataLen"); ("hPrivateData", "hPrivateData");
      ("ulPublicDataLen2", "ulPublicDataLen2"); ("pPublicData2", "pPublicData2")].

(** src/Crypto/Pkcs11/Types/Structs/X9dot42MqvDeriveParams.cpp: default constructor 10-12, copies 14-16, from the
    structure 18-21, from values 23-46, assignment 48-53 and 55-69. Fields:
    include/FlameIDE/Crypto/Oasis/pkcs11t.h 1554-1565. *)
Definition s_X9dot42MqvDeriveParams : code := Code "X9dot42MqvDeriveParams" "CK_X9_42_MQV_DERIVE_PARAMS"
    [("kdf", Long); ("ulOtherInfoLen", Long); ("pOtherInfo", Pointer);
      ("ulPublicDataLen", Long); ("pPublicData", Pointer); ("ulPrivateDataLen", Long);
      ("hPrivateData", Long); ("ulPublicDataLen2", Long); ("pPublicData2", Pointer);
      ("publicKey", Long)]
    EmptyParent
    [("kdf", "kdf"); ("otherInfoLength", "ulOtherInfoLen"); ("otherInfo", "pOtherInfo");
      ("publicDataLength", "ulPublicDataLen"); ("publicData", "pPublicData");
      ("privateDataLength", "ulPrivateDataLen"); ("privateData", "hPrivateData");
      ("publicDataLength2", "ulPublicDataLen2"); ("publicData2", "pPublicData2");
      ("publicKey", "publicKey")]
    [("kdf", "kdf"); ("ulOtherInfoLen", "otherInfoLength"); ("pOtherInfo", "otherInfo");
      ("ulPublicDataLen", "publicDataLength"); ("pPublicData", "publicData");
      ("ulPrivateDataLen", "privateDataLength"); ("hPrivateData", "privateData");
      ("ulPublicDataLen2", "publicDataLength2"); ("pPublicData2", "publicData2");
      ("publicKey", "publicKey")]
    [("kdf", "kdf"); ("ulOtherInfoLen", "ulOtherInfoLen"); ("pOtherInfo", "pOtherInfo");
      ("ulPublicDataLen", "ulPublicDataLen"); ("pPublicData", "pPublicData");
      ("ulPrivateDataLen", "ulPrivateDataLen"); ("hPrivateData", "hPrivateData");
      ("ulPublicDataLen2", "ulPublicDataLen2"); ("pPublicData2", "pPublicData2");
      ("publicKey", "publicKey")].

(** All classes of the directory. *)
Definition all_structs : list code :=
  [s_AesCbcEncryptDataParams; s_AesCtrParams; s_AriaCbcEncryptDataParams; s_Attribute;
   s_CamelliaCbcEncryptDataParams; s_CamelliaCtrParams; s_CcmMessageParams; s_CcmParams;
   s_ChaCha20Params; s_CmsSigParams; s_Date; s_DerivedKey; s_DesCbcEncryptDataParams;
   s_DoubleRatchetInitializeParams; s_DoubleRatchetRespondParams; s_DsaParameterGenParam;
   s_EcDh1DeriveParams; s_EcDh2DeriveParams; s_EcMqvDeriveParams; s_EcdhAesKeyWrapParams;
   s_EdDsaParams; s_ExtendedEdDsaParams; s_ExtendedTripleDiffieHellmanInitiateParams;
   s_ExtendedTripleDiffieHellmanRespondParams; s_FunctionList; s_FunctionList3;
   s_GcmMessageParams; s_GcmParams; s_Gostr3410DeriveParams; s_Gostr3410KeyWrapParams;
   s_HkdfParams; s_Info; s_InitializeArgs; s_Interface; s_KeaDeriveParams;
   s_KeyDerivationStringData; s_KeyWrapSetOaepParams; s_KipParams; s_Mechanism;
   s_MechanismInfo; s_NistSp800Hyphen108CounterFormat; s_NistSp800Hyphen108DkmLengthFormat;
   s_NistSp800Hyphen108FeedbackKdfParams; s_NistSp800Hyphen108KdfParams; s_OtpParam;
   s_OtpParams; s_OtpSignatureInfo; s_PbeParams; s_Pkcs5Pbkd2Params; s_Pkcs5Pbkd2Params2;
   s_PrfDataParam; s_Rc2CbcParams; s_Rc2MacGeneralParams; s_Rc5CbcParams;
   s_Rc5MacGeneralParams; s_Rc5Params; s_RsaAesKeyWrapParams; s_RsaPkcsOaepParams;
   s_RsaPkcsPssParams; s_Salsa20ChaCha20Poly1305MessageParams; s_Salsa20ChaCha20Poly1305Params;
   s_Salsa20Params; s_SeedCbcEncryptDataParams; s_SessionInfo; s_SkipjackPrivateWrapParams;
   s_SkipjackRelayxParams; s_SlotInfo; s_Ssl3KeyMatOut; s_Ssl3KeyMatParams;
   s_Ssl3MasterKeyDeriveParams; s_Ssl3RandomData; s_Tls12KeyMatParams;
   s_Tls12MasterKeyDeriveParams; s_TlsKdfParams; s_TlsMacParams; s_TlsPrfParams; s_TokenInfo;
   s_Version; s_WtlsKeyMatOut; s_WtlsKeyMatParams; s_WtlsMasterKeyDeriveParams;
   s_WtlsPrfParams; s_WtlsRandomData; s_X9dot42DiffieHellman1DeriveParams;
   s_X9dot42DiffieHellman2DeriveParams; s_X9dot42MqvDeriveParams].

(** The functions that createFunctionList and createFunctionList3 pass to the constructors, after
    the version: src/Crypto/SoftPkcs11/Callbacks.cpp 12-50 and 57-112. A function is given by
    its name. *)
Definition module_functions : list string :=
  ["C_Initialize"; "C_Finalize"; "C_GetInfo"; "C_GetFunctionList"; "C_GetSlotList";
   "C_GetSlotInfo"; "C_GetTokenInfo"; "C_GetMechanismList"; "C_GetMechanismInfo";
   "C_InitToken"; "C_InitPIN"; "C_SetPIN"; "C_OpenSession"; "C_CloseSession";
   "C_CloseAllSessions"; "C_GetSessionInfo"; "C_GetOperationState"; "C_SetOperationState";
   "C_Login"; "C_Logout"; "C_CreateObject"; "C_CopyObject"; "C_DestroyObject";
   "C_GetObjectSize"; "C_GetAttributeValue"; "C_SetAttributeValue"; "C_FindObjectsInit";
   "C_FindObjects"; "C_FindObjectsFinal"; "C_EncryptInit"; "C_Encrypt"; "C_EncryptUpdate";
   "C_EncryptFinal"; "C_DecryptInit"; "C_Decrypt"; "C_DecryptUpdate"; "C_DecryptFinal";
   "C_DigestInit"; "C_Digest"; "C_DigestUpdate"; "C_DigestKey"; "C_DigestFinal"; "C_SignInit";
   "C_Sign"; "C_SignUpdate"; "C_SignFinal"; "C_SignRecoverInit"; "C_SignRecover";
   "C_VerifyInit"; "C_Verify"; "C_VerifyUpdate"; "C_VerifyFinal"; "C_VerifyRecoverInit";
   "C_VerifyRecover"; "C_DigestEncryptUpdate"; "C_DecryptDigestUpdate"; "C_SignEncryptUpdate";
   "C_DecryptVerifyUpdate"; "C_GenerateKey"; "C_GenerateKeyPair"; "C_WrapKey"; "C_UnwrapKey";
   "C_DeriveKey"; "C_SeedRandom"; "C_GenerateRandom"; "C_GetFunctionStatus";
   "C_CancelFunction"; "C_WaitForSlotEvent"].

(** The functions of the 3.0 list, in order, as [module_functions] above. *)
Definition module_functions3 : list string :=
  ["C_Initialize"; "C_Finalize"; "C_GetInfo"; "C_GetFunctionList"; "C_GetSlotList";
   "C_GetSlotInfo"; "C_GetTokenInfo"; "C_GetMechanismList"; "C_GetMechanismInfo";
   "C_InitToken"; "C_InitPIN"; "C_SetPIN"; "C_OpenSession"; "C_CloseSession";
   "C_CloseAllSessions"; "C_GetSessionInfo"; "C_GetOperationState"; "C_SetOperationState";
   "C_Login"; "C_Logout"; "C_CreateObject"; "C_CopyObject"; "C_DestroyObject";
   "C_GetObjectSize"; "C_GetAttributeValue"; "C_SetAttributeValue"; "C_FindObjectsInit";
   "C_FindObjects"; "C_FindObjectsFinal"; "C_EncryptInit"; "C_Encrypt"; "C_EncryptUpdate";
   "C_EncryptFinal"; "C_DecryptInit"; "C_Decrypt"; "C_DecryptUpdate"; "C_DecryptFinal";
   "C_DigestInit"; "C_Digest"; "C_DigestUpdate"; "C_DigestKey"; "C_DigestFinal"; "C_SignInit";
   "C_Sign"; "C_SignUpdate"; "C_SignFinal"; "C_SignRecoverInit"; "C_SignRecover";
   "C_VerifyInit"; "C_Verify"; "C_VerifyUpdate"; "C_VerifyFinal"; "C_VerifyRecoverInit";
   "C_VerifyRecover"; "C_DigestEncryptUpdate"; "C_DecryptDigestUpdate"; "C_SignEncryptUpdate";
   "C_DecryptVerifyUpdate"; "C_GenerateKey"; "C_GenerateKeyPair"; "C_WrapKey"; "C_UnwrapKey";
   "C_DeriveKey"; "C_SeedRandom"; "C_GenerateRandom"; "C_GetFunctionStatus";
   "C_CancelFunction"; "C_WaitForSlotEvent"; "C_GetInterfaceList"; "C_GetInterface";
   "C_LoginUser"; "C_SessionCancel"; "C_MessageEncryptInit"; "C_EncryptMessage";
   "C_EncryptMessageBegin"; "C_EncryptMessageNext"; "C_MessageEncryptFinal";
   "C_MessageDecryptInit"; "C_DecryptMessage"; "C_DecryptMessageBegin"; "C_DecryptMessageNext";
   "C_MessageDecryptFinal"; "C_MessageSignInit"; "C_SignMessage"; "C_SignMessageBegin";
   "C_SignMessageNext"; "C_MessageSignFinal"; "C_MessageVerifyInit"; "C_VerifyMessage";
   "C_VerifyMessageBegin"; "C_VerifyMessageNext"; "C_MessageVerifyFinal"].

(** createFunctionList and createFunctionList3, Callbacks.cpp 10-53 and 55-114, and the members
    functionList and functionList3 initialised with their results
    (src/Crypto/SoftPkcs11/GlobalContext.hpp 69-70): a local object is made, and returned
    directly into the member ([elided]) or copied once into the result and once more
    into the member (C++14 allows both). The member is the last object. *)
Definition module_list_calls (elided : bool) (version : string) (fs : list string)
    : list (scall (V := string)) :=
  MakeValues (version :: fs) :: if elided then [] else [MakeCopy 0; MakeCopy 1].
