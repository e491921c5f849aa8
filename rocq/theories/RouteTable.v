(** The exported functions of the software PKCS#11 module, their callbacks and the functions behind
    them. Generated from the sources under src/Crypto/SoftPkcs11: the parameters, the path
    of members and the arguments of each call, and for each function behind a callback its
    parameters and its body. *)
From Coq Require Import String List.
From Verif Require Import RouteModel.
Import ListNotations.
Local Open Scope string_scope.
Local Open Scope list_scope.

(** src/Crypto/SoftPkcs11/Interface, all .cpp files; each returns the result of
    GlobalContext::get().callbacks() . path (arguments). *)
Definition exported : list export :=
  [
  (* Interface/DecryptFunctions.cpp 5-15 *)
Export "C_DecryptInit" ["hSession"; "pMechanism"; "hKey"] ["decrypt"; "init"] ["hSession";
    "pMechanism"; "hKey"];
  (* Interface/DecryptFunctions.cpp 17-31 *)
Export "C_Decrypt" ["hSession"; "pEncryptedData"; "ulEncryptedDataLen"; "pData"; "pulDataLen"]
    ["decrypt"; "full"] ["hSession"; "pEncryptedData"; "ulEncryptedDataLen"; "pData";
    "pulDataLen"];
  (* Interface/DecryptFunctions.cpp 33-47 *)
Export "C_DecryptUpdate" ["hSession"; "pEncryptedPart"; "ulEncryptedPartLen"; "pPart";
    "pulPartLen"] ["decrypt"; "update"] ["hSession"; "pEncryptedPart"; "ulEncryptedPartLen";
    "pPart"; "pulPartLen"];
  (* Interface/DecryptFunctions.cpp 49-61 *)
Export "C_DecryptFinal" ["hSession"; "pLastPart"; "pulLastPartLen"] ["decrypt"; "final"]
    ["hSession"; "pLastPart"; "pulLastPartLen"];
  (* Interface/DigestFunctions.cpp 5-14 *)
Export "C_DigestInit" ["hSession"; "pMechanism"] ["digest"; "init"] ["hSession"; "pMechanism"];
  (* Interface/DigestFunctions.cpp 16-28 *)
Export "C_Digest" ["hSession"; "pData"; "ulDataLen"; "pDigest"; "pulDigestLen"] ["digest"; "full"]
    ["hSession"; "pData"; "ulDataLen"; "pDigest"; "pulDigestLen"];
  (* Interface/DigestFunctions.cpp 30-40 *)
Export "C_DigestUpdate" ["hSession"; "pPart"; "ulPartLen"] ["digest"; "update"] ["hSession";
    "pPart"; "ulPartLen"];
  (* Interface/DigestFunctions.cpp 42-51 *)
Export "C_DigestKey" ["hSession"; "hKey"] ["digest"; "key"] ["hSession"; "hKey"];
  (* Interface/DigestFunctions.cpp 53-63 *)
Export "C_DigestFinal" ["hSession"; "pDigest"; "pulDigestLen"] ["digest"; "final"] ["hSession";
    "pDigest"; "pulDigestLen"];
  (* Interface/DualOperationFunctions.cpp 5-19 *)
Export "C_DigestEncryptUpdate" ["hSession"; "pPart"; "ulPartLen"; "pEncryptedPart";
    "pulEncryptedPartLen"] ["dualOperations"; "digestEncryptUpdate"] ["hSession"; "pPart";
    "ulPartLen"; "pEncryptedPart"; "pulEncryptedPartLen"];
  (* Interface/DualOperationFunctions.cpp 21-35 *)
Export "C_DecryptDigestUpdate" ["hSession"; "pEncryptedPart"; "ulEncryptedPartLen"; "pPart";
    "pulPartLen"] ["dualOperations"; "decryptDigestUpdate"] ["hSession"; "pEncryptedPart";
    "ulEncryptedPartLen"; "pPart"; "pulPartLen"];
  (* Interface/DualOperationFunctions.cpp 37-51 *)
Export "C_SignEncryptUpdate" ["hSession"; "pPart"; "ulPartLen"; "pEncryptedPart";
    "pulEncryptedPartLen"] ["dualOperations"; "signEncryptUpdate"] ["hSession"; "pPart";
    "ulPartLen"; "pEncryptedPart"; "pulEncryptedPartLen"];
  (* Interface/DualOperationFunctions.cpp 53-67 *)
Export "C_DecryptVerifyUpdate" ["hSession"; "pEncryptedPart"; "ulEncryptedPartLen"; "pPart";
    "pulPartLen"] ["dualOperations"; "decryptVerifyUpdate"] ["hSession"; "pEncryptedPart";
    "ulEncryptedPartLen"; "pPart"; "pulPartLen"];
  (* Interface/EncryptFunctions.cpp 5-15 *)
Export "C_EncryptInit" ["hSession"; "pMechanism"; "hKey"] ["encrypt"; "init"] ["hSession";
    "pMechanism"; "hKey"];
  (* Interface/EncryptFunctions.cpp 17-29 *)
Export "C_Encrypt" ["hSession"; "pData"; "ulDataLen"; "pEncryptedData"; "pulEncryptedDataLen"]
    ["encrypt"; "full"] ["hSession"; "pData"; "ulDataLen"; "pEncryptedData";
    "pulEncryptedDataLen"];
  (* Interface/EncryptFunctions.cpp 31-43 *)
Export "C_EncryptUpdate" ["hSession"; "pPart"; "ulPartLen"; "pEncryptedPart";
    "pulEncryptedPartLen"] ["encrypt"; "update"] ["hSession"; "pPart"; "ulPartLen";
    "pEncryptedPart"; "pulEncryptedPartLen"];
  (* Interface/EncryptFunctions.cpp 46-56 *)
Export "C_EncryptFinal" ["hSession"; "pLastEncryptedPart"; "pulLastEncryptedPartLen"] ["encrypt";
    "final"] ["hSession"; "pLastEncryptedPart"; "pulLastEncryptedPartLen"];
  (* Interface/GeneralPurposeFunctions.cpp 5-11 *)
Export "C_Initialize" ["pInitArgs"] ["generalPurpose"; "initialize"] ["pInitArgs"];
  (* Interface/GeneralPurposeFunctions.cpp 13-19 *)
Export "C_Finalize" ["pReserved"] ["generalPurpose"; "finalize"] ["pReserved"];
  (* Interface/GeneralPurposeFunctions.cpp 21-27 *)
Export "C_GetInfo" ["pInfo"] ["generalPurpose"; "getInfo"] ["pInfo"];
  (* Interface/GeneralPurposeFunctions.cpp 29-35 *)
Export "C_GetFunctionList" ["ppFunctionList"] ["generalPurpose"; "getFunctionList"]
    ["ppFunctionList"];
  (* Interface/GeneralPurposeFunctions.cpp 39-45 *)
Export "C_GetInterfaceList" ["pInterfacesList"; "pulCount"] ["generalPurpose"; "getInterfaceList"]
    ["pInterfacesList"; "pulCount"];
  (* Interface/GeneralPurposeFunctions.cpp 47-54 *)
Export "C_GetInterface" ["pInterfaceName"; "pVersion"; "ppInterface"; "flags"] ["generalPurpose";
    "getInterface"] ["pInterfaceName"; "pVersion"; "ppInterface"; "flags"];
  (* Interface/KeyFunctions.cpp 5-17 *)
Export "C_GenerateKey" ["hSession"; "pMechanism"; "pTemplate"; "ulCount"; "phKey"] ["key";
    "generateKey"] ["hSession"; "pMechanism"; "pTemplate"; "ulCount"; "phKey"];
  (* Interface/KeyFunctions.cpp 19-39 *)
Export "C_GenerateKeyPair" ["hSession"; "pMechanism"; "pPublicKeyTemplate";
    "ulPublicKeyAttributeCount"; "pPrivateKeyTemplate"; "ulPrivateKeyAttributeCount";
    "phPublicKey"; "phPrivateKey"] ["key"; "generateKeyPair"] ["hSession"; "pMechanism";
    "pPublicKeyTemplate"; "ulPublicKeyAttributeCount"; "pPrivateKeyTemplate";
    "ulPrivateKeyAttributeCount"; "phPublicKey"; "phPrivateKey"];
  (* Interface/KeyFunctions.cpp 41-58 *)
Export "C_WrapKey" ["hSession"; "pMechanism"; "hWrappingKey"; "hKey"; "pWrappedKey";
    "pulWrappedKeyLen"] ["key"; "wrapKey"] ["hSession"; "pMechanism"; "hWrappingKey"; "hKey";
    "pWrappedKey"; "pulWrappedKeyLen"];
  (* Interface/KeyFunctions.cpp 60-79 *)
Export "C_UnwrapKey" ["hSession"; "pMechanism"; "hUnwrappingKey"; "pWrappedKey";
    "ulWrappedKeyLen"; "pTemplate"; "ulAttributeCount"; "phKey"] ["key"; "unwrapKey"] ["hSession";
    "pMechanism"; "hUnwrappingKey"; "pWrappedKey"; "ulWrappedKeyLen"; "pTemplate";
    "ulAttributeCount"; "phKey"];
  (* Interface/KeyFunctions.cpp 81-98 *)
Export "C_DeriveKey" ["hSession"; "pMechanism"; "hBaseKey"; "pTemplate"; "ulAttributeCount";
    "phKey"] ["key"; "deriveKey"] ["hSession"; "pMechanism"; "hBaseKey"; "pTemplate";
    "ulAttributeCount"; "phKey"];
  (* Interface/ManagementFunctions.cpp 5-15 *)
Export "C_GetSlotList" ["tokenPresent"; "pSlotList"; "pulCount"] ["management"; "getSlotList"]
    ["tokenPresent"; "pSlotList"; "pulCount"];
  (* Interface/ManagementFunctions.cpp 17-26 *)
Export "C_GetSlotInfo" ["slotId"; "pInfo"] ["management"; "getSlotInfo"] ["slotId"; "pInfo"];
  (* Interface/ManagementFunctions.cpp 28-37 *)
Export "C_GetTokenInfo" ["slotId"; "pInfo"] ["management"; "getTokenInfo"] ["slotId"; "pInfo"];
  (* Interface/ManagementFunctions.cpp 39-49 *)
Export "C_GetMechanismList" ["slotId"; "pMechanismList"; "pulCount"] ["management";
    "getMechanismList"] ["slotId"; "pMechanismList"; "pulCount"];
  (* Interface/ManagementFunctions.cpp 51-61 *)
Export "C_GetMechanismInfo" ["slotId"; "type"; "pInfo"] ["management"; "getMechanismInfo"]
    ["slotId"; "type"; "pInfo"];
  (* Interface/ManagementFunctions.cpp 63-74 *)
Export "C_InitToken" ["slotId"; "pPin"; "ulPinLen"; "pLabel"] ["management"; "initToken"]
    ["slotId"; "pPin"; "ulPinLen"; "pLabel"];
  (* Interface/ManagementFunctions.cpp 76-86 *)
Export "C_InitPIN" ["hSession"; "pPin"; "ulPinLen"] ["management"; "initPin"] ["hSession"; "pPin";
    "ulPinLen"];
  (* Interface/ManagementFunctions.cpp 88-100 *)
Export "C_SetPIN" ["hSession"; "pOldPin"; "ulOldLen"; "pNewPin"; "ulNewLen"] ["management";
    "setPin"] ["hSession"; "pOldPin"; "ulOldLen"; "pNewPin"; "ulNewLen"];
  (* Interface/MessageDecryptFunctions.cpp 4-15 *)
Export "C_MessageDecryptInit" ["hSession"; "pMechanism"; "hKey"] ["message"; "decrypt"; "init"]
    ["hSession"; "pMechanism"; "hKey"];
  (* Interface/MessageDecryptFunctions.cpp 17-39 *)
Export "C_DecryptMessage" ["hSession"; "pParameter"; "ulParameterLen"; "pAssociatedData";
    "ulAssociatedDataLen"; "pCiphertext"; "ulCiphertextLen"; "pPlaintext"; "pulPlaintextLen"]
    ["message"; "decrypt"; "full"] ["hSession"; "pParameter"; "ulParameterLen"; "pAssociatedData";
    "ulAssociatedDataLen"; "pCiphertext"; "ulCiphertextLen"; "pPlaintext"; "pulPlaintextLen"];
  (* Interface/MessageDecryptFunctions.cpp 41-57 *)
Export "C_DecryptMessageBegin" ["hSession"; "pParameter"; "ulParameterLen"; "pAssociatedData";
    "ulAssociatedDataLen"] ["message"; "decrypt"; "begin"] ["hSession"; "pParameter";
    "ulParameterLen"; "pAssociatedData"; "ulAssociatedDataLen"];
  (* Interface/MessageDecryptFunctions.cpp 59-80 *)
Export "C_DecryptMessageNext" ["hSession"; "pParameter"; "ulParameterLen"; "pCiphertext";
    "ulCiphertextLen"; "pPlaintext"; "pulPlaintextLen"; "flags"] ["message"; "decrypt"; "next"]
    ["hSession"; "pParameter"; "ulParameterLen"; "pCiphertext"; "ulCiphertextLen"; "pPlaintext";
    "pulPlaintextLen"; "flags"];
  (* Interface/MessageDecryptFunctions.cpp 82-89 *)
Export "C_MessageDecryptFinal" ["hSession"] ["message"; "decrypt"; "final"] ["hSession"];
  (* Interface/MessageEncryptFunctions.cpp 4-15 *)
Export "C_MessageEncryptInit" ["hSession"; "pMechanism"; "hKey"] ["message"; "encrypt"; "init"]
    ["hSession"; "pMechanism"; "hKey"];
  (* Interface/MessageEncryptFunctions.cpp 17-39 *)
Export "C_EncryptMessage" ["hSession"; "pParameter"; "ulParameterLen"; "pAssociatedData";
    "ulAssociatedDataLen"; "pPlaintext"; "ulPlaintextLen"; "pCiphertext"; "pulCiphertextLen"]
    ["message"; "encrypt"; "full"] ["hSession"; "pParameter"; "ulParameterLen"; "pAssociatedData";
    "ulAssociatedDataLen"; "pPlaintext"; "ulPlaintextLen"; "pCiphertext"; "pulCiphertextLen"];
  (* Interface/MessageEncryptFunctions.cpp 41-57 *)
Export "C_EncryptMessageBegin" ["hSession"; "pParameter"; "ulParameterLen"; "pAssociatedData";
    "ulAssociatedDataLen"] ["message"; "encrypt"; "begin"] ["hSession"; "pParameter";
    "ulParameterLen"; "pAssociatedData"; "ulAssociatedDataLen"];
  (* Interface/MessageEncryptFunctions.cpp 59-80 *)
Export "C_EncryptMessageNext" ["hSession"; "pParameter"; "ulParameterLen"; "pPlaintextPart";
    "ulPlaintextPartLen"; "pCiphertextPart"; "pulCiphertextPartLen"; "flags"] ["message";
    "encrypt"; "next"] ["hSession"; "pParameter"; "ulParameterLen"; "pPlaintextPart";
    "ulPlaintextPartLen"; "pCiphertextPart"; "pulCiphertextPartLen"; "flags"];
  (* Interface/MessageEncryptFunctions.cpp 82-89 *)
Export "C_MessageEncryptFinal" ["hSession"] ["message"; "encrypt"; "final"] ["hSession"];
  (* Interface/MessageSignFunctions.cpp 4-15 *)
Export "C_MessageSignInit" ["hSession"; "pMechanism"; "hKey"] ["message"; "sign"; "init"]
    ["hSession"; "pMechanism"; "hKey"];
  (* Interface/MessageSignFunctions.cpp 17-36 *)
Export "C_SignMessage" ["hSession"; "pParameter"; "ulParameterLen"; "pData"; "ulDataLen";
    "pSignature"; "pulSignatureLen"] ["message"; "sign"; "full"] ["hSession"; "pParameter";
    "ulParameterLen"; "pData"; "ulDataLen"; "pSignature"; "pulSignatureLen"];
  (* Interface/MessageSignFunctions.cpp 38-49 *)
Export "C_SignMessageBegin" ["hSession"; "pParameter"; "ulParameterLen"] ["message"; "sign";
    "begin"] ["hSession"; "pParameter"; "ulParameterLen"];
  (* Interface/MessageSignFunctions.cpp 51-70 *)
Export "C_SignMessageNext" ["hSession"; "pParameter"; "ulParameterLen"; "pData"; "ulDataLen";
    "pSignature"; "pulSignatureLen"] ["message"; "sign"; "next"] ["hSession"; "pParameter";
    "ulParameterLen"; "pData"; "ulDataLen"; "pSignature"; "pulSignatureLen"];
  (* Interface/MessageSignFunctions.cpp 72-79 *)
Export "C_MessageSignFinal" ["hSession"] ["message"; "sign"; "final"] ["hSession"];
  (* Interface/MessageVerifyFunctions.cpp 4-15 *)
Export "C_MessageVerifyInit" ["hSession"; "pMechanism"; "hKey"] ["message"; "verify"; "init"]
    ["hSession"; "pMechanism"; "hKey"];
  (* Interface/MessageVerifyFunctions.cpp 17-36 *)
Export "C_VerifyMessage" ["hSession"; "pParameter"; "ulParameterLen"; "pData"; "ulDataLen";
    "pSignature"; "ulSignatureLen"] ["message"; "verify"; "full"] ["hSession"; "pParameter";
    "ulParameterLen"; "pData"; "ulDataLen"; "pSignature"; "ulSignatureLen"];
  (* Interface/MessageVerifyFunctions.cpp 38-49 *)
Export "C_VerifyMessageBegin" ["hSession"; "pParameter"; "ulParameterLen"] ["message"; "verify";
    "begin"] ["hSession"; "pParameter"; "ulParameterLen"];
  (* Interface/MessageVerifyFunctions.cpp 51-70 *)
Export "C_VerifyMessageNext" ["hSession"; "pParameter"; "ulParameterLen"; "pData"; "ulDataLen";
    "pSignature"; "ulSignatureLen"] ["message"; "verify"; "next"] ["hSession"; "pParameter";
    "ulParameterLen"; "pData"; "ulDataLen"; "pSignature"; "ulSignatureLen"];
  (* Interface/MessageVerifyFunctions.cpp 72-79 *)
Export "C_MessageVerifyFinal" ["hSession"] ["message"; "verify"; "final"] ["hSession"];
  (* Interface/ObjectFunctions.cpp 5-16 *)
Export "C_CreateObject" ["hSession"; "pTemplate"; "ulCount"; "phObject"] ["object"; "create"]
    ["hSession"; "pTemplate"; "ulCount"; "phObject"];
  (* Interface/ObjectFunctions.cpp 18-30 *)
Export "C_CopyObject" ["hSession"; "hObject"; "pTemplate"; "ulCount"; "phNewObject"] ["object";
    "copy"] ["hSession"; "hObject"; "pTemplate"; "ulCount"; "phNewObject"];
  (* Interface/ObjectFunctions.cpp 32-41 *)
Export "C_DestroyObject" ["hSession"; "hObject"] ["object"; "destroy"] ["hSession"; "hObject"];
  (* Interface/ObjectFunctions.cpp 43-53 *)
Export "C_GetObjectSize" ["hSession"; "hObject"; "pulSize"] ["object"; "getSize"] ["hSession";
    "hObject"; "pulSize"];
  (* Interface/ObjectFunctions.cpp 55-66 *)
Export "C_GetAttributeValue" ["hSession"; "hObject"; "pTemplate"; "ulCount"] ["object";
    "getAttributeValue"] ["hSession"; "hObject"; "pTemplate"; "ulCount"];
  (* Interface/ObjectFunctions.cpp 68-79 *)
Export "C_SetAttributeValue" ["hSession"; "hObject"; "pTemplate"; "ulCount"] ["object";
    "setAttributeValue"] ["hSession"; "hObject"; "pTemplate"; "ulCount"];
  (* Interface/ObjectFunctions.cpp 81-91 *)
Export "C_FindObjectsInit" ["hSession"; "pTemplate"; "ulCount"] ["object"; "findInit"]
    ["hSession"; "pTemplate"; "ulCount"];
  (* Interface/ObjectFunctions.cpp 93-104 *)
Export "C_FindObjects" ["hSession"; "phObject"; "ulMaxObjectCount"; "pulObjectCount"] ["object";
    "find"] ["hSession"; "phObject"; "ulMaxObjectCount"; "pulObjectCount"];
  (* Interface/ObjectFunctions.cpp 106-112 *)
Export "C_FindObjectsFinal" ["hSession"] ["object"; "findFinal"] ["hSession"];
  (* Interface/ParallelManagementFunctions.cpp 5-11 *)
Export "C_GetFunctionStatus" ["hSession"] ["parallelManagement"; "getFunctionStatus"] ["hSession"];
  (* Interface/ParallelManagementFunctions.cpp 13-19 *)
Export "C_CancelFunction" ["hSession"] ["parallelManagement"; "cancelfunciton"] ["hSession"];
  (* Interface/ParallelManagementFunctions.cpp 21-31 *)
Export "C_WaitForSlotEvent" ["flags"; "pSlot"; "pReserved"] ["parallelManagement";
    "waitForSlotEvent"] ["flags"; "pSlot"; "pReserved"];
  (* Interface/RandomGeneration.cpp 5-15 *)
Export "C_SeedRandom" ["hSession"; "pSeed"; "ulSeedLen"] ["randomGeneration"; "seedRandom"]
    ["hSession"; "pSeed"; "ulSeedLen"];
  (* Interface/RandomGeneration.cpp 17-27 *)
Export "C_GenerateRandom" ["hSession"; "RandomData"; "ulRandomLen"] ["randomGeneration";
    "generateRandom"] ["hSession"; "RandomData"; "ulRandomLen"];
  (* Interface/SessionFunctions.cpp 5-17 *)
Export "C_OpenSession" ["slotId"; "flags"; "pApplication"; "Notify"; "phSession"] ["session";
    "open"] ["slotId"; "flags"; "pApplication"; "Notify"; "phSession"];
  (* Interface/SessionFunctions.cpp 19-25 *)
Export "C_CloseSession" ["hSession"] ["session"; "close"] ["hSession"];
  (* Interface/SessionFunctions.cpp 27-33 *)
Export "C_CloseAllSessions" ["slotId"] ["session"; "closeAll"] ["slotId"];
  (* Interface/SessionFunctions.cpp 35-44 *)
Export "C_GetSessionInfo" ["hSession"; "pInfo"] ["session"; "getInfo"] ["hSession"; "pInfo"];
  (* Interface/SessionFunctions.cpp 46-56 *)
Export "C_GetOperationState" ["hSession"; "pOperationState"; "pulOperationStateLen"] ["session";
    "getOperationState"] ["hSession"; "pOperationState"; "pulOperationStateLen"];
  (* Interface/SessionFunctions.cpp 58-73 *)
Export "C_SetOperationState" ["hSession"; "pOperationState"; "ulOperationStateLen";
    "hEncryptionKey"; "hAuthenticationKey"] ["session"; "setOperationState"] ["hSession";
    "pOperationState"; "ulOperationStateLen"; "hEncryptionKey"; "hAuthenticationKey"];
  (* Interface/SessionFunctions.cpp 75-86 *)
Export "C_Login" ["hSession"; "userType"; "pPin"; "ulPinLen"] ["session"; "login"] ["hSession";
    "userType"; "pPin"; "ulPinLen"];
  (* Interface/SessionFunctions.cpp 88-94 *)
Export "C_Logout" ["hSession"] ["session"; "logout"] ["hSession"];
  (* Interface/SessionFunctions.cpp 98-110 *)
Export "C_LoginUser" ["hSession"; "userType"; "pPin"; "ulPinLen"; "pUsername"; "ulUsernameLen"]
    ["session"; "loginUser"] ["hSession"; "userType"; "pPin"; "ulPinLen"; "pUsername";
    "ulUsernameLen"];
  (* Interface/SessionFunctions.cpp 112-118 *)
Export "C_SessionCancel" ["hSession"; "flags"] ["session"; "sessionCancel"] ["hSession"; "flags"];
  (* Interface/SignFunctions.cpp 5-15 *)
Export "C_SignInit" ["hSession"; "pMechanism"; "hKey"] ["sign"; "init"] ["hSession"; "pMechanism";
    "hKey"];
  (* Interface/SignFunctions.cpp 17-29 *)
Export "C_Sign" ["hSession"; "pData"; "ulDataLen"; "pSignature"; "pulSignatureLen"] ["sign";
    "full"] ["hSession"; "pData"; "ulDataLen"; "pSignature"; "pulSignatureLen"];
  (* Interface/SignFunctions.cpp 31-41 *)
Export "C_SignUpdate" ["hSession"; "pPart"; "ulPartLen"] ["sign"; "update"] ["hSession"; "pPart";
    "ulPartLen"];
  (* Interface/SignFunctions.cpp 43-53 *)
Export "C_SignFinal" ["hSession"; "pSignature"; "pulSignatureLen"] ["sign"; "final"] ["hSession";
    "pSignature"; "pulSignatureLen"];
  (* Interface/SignFunctions.cpp 55-65 *)
Export "C_SignRecoverInit" ["hSession"; "pMechanism"; "hKey"] ["sign"; "recoverInit"] ["hSession";
    "pMechanism"; "hKey"];
  (* Interface/SignFunctions.cpp 67-79 *)
Export "C_SignRecover" ["hSession"; "pData"; "ulDataLen"; "pSignature"; "pulSignatureLen"]
    ["sign"; "recoverFull"] ["hSession"; "pData"; "ulDataLen"; "pSignature"; "pulSignatureLen"];
  (* Interface/VerifyFunctions.cpp 5-15 *)
Export "C_VerifyInit" ["hSession"; "pMechanism"; "hKey"] ["verify"; "init"] ["hSession";
    "pMechanism"; "hKey"];
  (* Interface/VerifyFunctions.cpp 17-29 *)
Export "C_Verify" ["hSession"; "pData"; "ulDataLen"; "pSignature"; "ulSignatureLen"] ["verify";
    "full"] ["hSession"; "pData"; "ulDataLen"; "pSignature"; "ulSignatureLen"];
  (* Interface/VerifyFunctions.cpp 31-41 *)
Export "C_VerifyUpdate" ["hSession"; "pPart"; "ulPartLen"] ["verify"; "update"] ["hSession";
    "pPart"; "ulPartLen"];
  (* Interface/VerifyFunctions.cpp 43-53 *)
Export "C_VerifyFinal" ["hSession"; "pSignature"; "ulSignatureLen"] ["verify"; "final"]
    ["hSession"; "pSignature"; "ulSignatureLen"];
  (* Interface/VerifyFunctions.cpp 55-65 *)
Export "C_VerifyRecoverInit" ["hSession"; "pMechanism"; "hKey"] ["verify"; "recoverInit"]
    ["hSession"; "pMechanism"; "hKey"];
  (* Interface/VerifyFunctions.cpp 67-79 *)
Export "C_VerifyRecover" ["hSession"; "pSignature"; "ulSignatureLen"; "pData"; "pulDataLen"]
    ["verify"; "recoverFull"] ["hSession"; "pSignature"; "ulSignatureLen"; "pData"; "pulDataLen"]
  ].

(** The members of CallbackAggregator (Callbacks.hpp) with their initialisers. *)
Definition callbacks : list (list string * string) :=
  [
  (* GeneralPurposeCallbacks: Callbacks.hpp 20 *)
  (["generalPurpose"; "initialize"], "general_purpose::initialize");
  (["generalPurpose"; "finalize"], "general_purpose::finalize");
  (["generalPurpose"; "getInfo"], "general_purpose::getInfo");
  (["generalPurpose"; "getFunctionList"], "general_purpose::getFunctionList");
  (["generalPurpose"; "getInterfaceList"], "general_purpose::getIterfaceList");
  (["generalPurpose"; "getInterface"], "general_purpose::getIterface");
  (* ManagementCallbacks: Callbacks.hpp 39 *)
  (["management"; "getSlotList"], "management::getSlotList");
  (["management"; "getSlotInfo"], "management::getSlotInfo");
  (["management"; "getTokenInfo"], "management::getTokenInfo");
  (["management"; "getMechanismList"], "management::getMechanismList");
  (["management"; "getMechanismInfo"], "management::getMechanismInfo");
  (["management"; "initToken"], "management::initToken");
  (["management"; "initPin"], "management::initPin");
  (["management"; "setPin"], "management::setPin");
  (* SessionCallbacks: Callbacks.hpp 59 *)
  (["session"; "open"], "session::open");
  (["session"; "close"], "session::close");
  (["session"; "closeAll"], "session::closeAll");
  (["session"; "getInfo"], "session::getInfo");
  (["session"; "getOperationState"], "session::getOperationState");
  (["session"; "setOperationState"], "session::setOperationState");
  (["session"; "login"], "session::login");
  (["session"; "logout"], "session::logout");
  (["session"; "loginUser"], "session::loginUser");
  (["session"; "sessionCancel"], "session::sessionCancel");
  (* ObjectCallbacks: Callbacks.hpp 89 *)
  (["object"; "create"], "object::create");
  (["object"; "copy"], "object::copy");
  (["object"; "destroy"], "object::destroy");
  (["object"; "getSize"], "object::getSize");
  (["object"; "getAttributeValue"], "object::getAttributeValue");
  (["object"; "setAttributeValue"], "object::setAttributeValue");
  (["object"; "findInit"], "object::findInit");
  (["object"; "find"], "object::find");
  (["object"; "findFinal"], "object::findFinal");
  (* EncryptCallbacks: Callbacks.hpp 113 *)
  (["encrypt"; "init"], "encrypt::init");
  (["encrypt"; "update"], "encrypt::update");
  (["encrypt"; "final"], "encrypt::final");
  (["encrypt"; "full"], "encrypt::full");
  (* DecryptCallbacks: Callbacks.hpp 125 *)
  (["decrypt"; "init"], "decrypt::init");
  (["decrypt"; "update"], "decrypt::update");
  (["decrypt"; "final"], "decrypt::final");
  (["decrypt"; "full"], "decrypt::full");
  (* DigestCallbacks: Callbacks.hpp 137 *)
  (["digest"; "init"], "digest::init");
  (["digest"; "update"], "digest::update");
  (["digest"; "final"], "digest::final");
  (["digest"; "full"], "digest::full");
  (["digest"; "key"], "digest::key");
  (* SignCallbacks: Callbacks.hpp 152 *)
  (["sign"; "init"], "sign::init");
  (["sign"; "update"], "sign::update");
  (["sign"; "final"], "sign::final");
  (["sign"; "full"], "sign::full");
  (["sign"; "recoverInit"], "sign::recover::init");
  (["sign"; "recoverFull"], "sign::recover::full");
  (* VerifyCallbacks: Callbacks.hpp 169 *)
  (["verify"; "init"], "verify::init");
  (["verify"; "update"], "verify::update");
  (["verify"; "final"], "verify::final");
  (["verify"; "full"], "verify::full");
  (["verify"; "recoverInit"], "verify::recover::init");
  (["verify"; "recoverFull"], "verify::recover::full");
  (* DualOperationCallbacks: Callbacks.hpp 186 *)
  (["dualOperations"; "digestEncryptUpdate"], "dual_operations::digestEncryptUpdate");
  (["dualOperations"; "decryptDigestUpdate"], "dual_operations::decryptDigestUpdate");
  (["dualOperations"; "signEncryptUpdate"], "dual_operations::signEncryptUpdate");
  (["dualOperations"; "decryptVerifyUpdate"], "dual_operations::decryptVerifyUpdate");
  (* KeyCallbacks: Callbacks.hpp 198 *)
  (["key"; "generateKey"], "key::generateKey");
  (["key"; "generateKeyPair"], "key::generateKeyPair");
  (["key"; "wrapKey"], "key::wrapKey");
  (["key"; "unwrapKey"], "key::unwrapKey");
  (["key"; "deriveKey"], "key::deriveKey");
  (* ParallelManagementCallbacks: Callbacks.hpp 212 *)
  (["parallelManagement"; "getFunctionStatus"], "parallel_management::getFunctionStatus");
  (["parallelManagement"; "cancelfunciton"], "parallel_management::cancelFunction");
  (["parallelManagement"; "waitForSlotEvent"], "parallel_management::waitForSlotEvent");
  (* RandomGenerationCallbacks: Callbacks.hpp 222 *)
  (["randomGeneration"; "seedRandom"], "random_generation::seedRandom");
  (["randomGeneration"; "generateRandom"], "random_generation::generateRandom");
  (* MessageEncryptionFunctions: Callbacks.hpp 231 *)
  (["message"; "encrypt"; "init"], "message::encryptInit");
  (["message"; "encrypt"; "full"], "message::encrypt");
  (["message"; "encrypt"; "begin"], "message::encryptBegin");
  (["message"; "encrypt"; "next"], "message::encryptNext");
  (["message"; "encrypt"; "final"], "message::encryptFinal");
  (* MessageDecryptionFunctions: Callbacks.hpp 246 *)
  (["message"; "decrypt"; "init"], "message::decryptInit");
  (["message"; "decrypt"; "full"], "message::decrypt");
  (["message"; "decrypt"; "begin"], "message::decryptBegin");
  (["message"; "decrypt"; "next"], "message::decryptNext");
  (["message"; "decrypt"; "final"], "message::decryptFinal");
  (* MessageSignFunctions: Callbacks.hpp 261 *)
  (["message"; "sign"; "init"], "message::signInit");
  (["message"; "sign"; "full"], "message::sign");
  (["message"; "sign"; "begin"], "message::signBegin");
  (["message"; "sign"; "next"], "message::signNext");
  (["message"; "sign"; "final"], "message::signFinal");
  (* MessageVerifyFunctions: Callbacks.hpp 276 *)
  (["message"; "verify"; "init"], "message::verifyInit");
  (["message"; "verify"; "full"], "message::verify");
  (["message"; "verify"; "begin"], "message::verifyBegin");
  (["message"; "verify"; "next"], "message::verifyNext");
  (["message"; "verify"; "final"], "message::verifyFinal")
  ].

(** The functions behind the callbacks: src/Crypto/SoftPkcs11/Functions. *)
Definition functions : list (string * code) :=
  [
  (* Functions/DecryptFunctions.cpp 12-23 *)
("decrypt::init", Code ["session"; "mechanism"; "object"] ReturnOk);
  (* Functions/DecryptFunctions.cpp 25-40 *)
("decrypt::update", Code ["session"; "encryptedDataPart"; "encryptedDataPartLength"; "dataPart";
    "dataPartLength"] ReturnOk);
  (* Functions/DecryptFunctions.cpp 42-53 *)
("decrypt::final", Code ["session"; "lastPart"; "lastPartLength"] ReturnOk);
  (* Functions/DecryptFunctions.cpp 55-70 *)
("decrypt::full", Code ["session"; "encryptedData"; "encryptedDataLength"; "data"; "dataLength"]
    ReturnOk);
  (* Functions/DigestFunctions.cpp 12-21 *)
("digest::init", Code ["session"; "mechanism"] ReturnOk);
  (* Functions/DigestFunctions.cpp 23-34 *)
("digest::update", Code ["session"; "dataPart"; "dataPartLength"] ReturnOk);
  (* Functions/DigestFunctions.cpp 36-47 *)
("digest::final", Code ["session"; "digestData"; "digestDataLength"] ReturnOk);
  (* Functions/DigestFunctions.cpp 49-64 *)
("digest::full", Code ["session"; "data"; "dataLength"; "digestData"; "digestDataLength"]
    ReturnOk);
  (* Functions/DigestFunctions.cpp 66-75 *)
("digest::key", Code ["session"; "key"] ReturnOk);
  (* Functions/DualOperationFunctions.cpp 12-27 *)
("dual_operations::digestEncryptUpdate", Code ["session"; "dataPart"; "dataPartLength";
    "encryptedDataPart"; "encryptedDataPartLength"] ReturnOk);
  (* Functions/DualOperationFunctions.cpp 29-44 *)
("dual_operations::decryptDigestUpdate", Code ["session"; "encryptedDataPart";
    "encryptedDataPartLength"; "dataPart"; "dataPartLength"] ReturnOk);
  (* Functions/DualOperationFunctions.cpp 46-61 *)
("dual_operations::signEncryptUpdate", Code ["session"; "dataPart"; "dataPartLength";
    "encryptedDataPart"; "encryptedDataPartLength"] ReturnOk);
  (* Functions/DualOperationFunctions.cpp 63-78 *)
("dual_operations::decryptVerifyUpdate", Code ["session"; "encryptedDataPart";
    "encryptedDataPartLength"; "dataPart"; "dataPartLength"] ReturnOk);
  (* Functions/EncryptFunctions.cpp 12-23 *)
("encrypt::init", Code ["session"; "mechanism"; "key"] ReturnOk);
  (* Functions/EncryptFunctions.cpp 25-40 *)
("encrypt::update", Code ["session"; "dataPart"; "dataPartLength"; "encryptedDataPart";
    "encryptedDataPartLength"] ReturnOk);
  (* Functions/EncryptFunctions.cpp 42-53 *)
("encrypt::final", Code ["session"; "lastEncryptedDataPart"; "lastEncryptedDataPartLength"]
    ReturnOk);
  (* Functions/EncryptFunctions.cpp 55-70 *)
("encrypt::full", Code ["session"; "data"; "dataLength"; "encryptedData"; "encryptedDataLength"]
    ReturnOk);
  (* Functions/GeneralPurposeFunctions.cpp 16-39 *)
("general_purpose::initialize", Code ["arguments"] GeneralPurpose);
  (* Functions/GeneralPurposeFunctions.cpp 41-45 *)
("general_purpose::finalize", Code ["reserved"] ReturnOk);
  (* Functions/GeneralPurposeFunctions.cpp 47-63 *)
("general_purpose::getInfo", Code ["info"] GeneralPurpose);
  (* Functions/GeneralPurposeFunctions.cpp 65-76 *)
("general_purpose::getFunctionList", Code ["functionList"] GeneralPurpose);
  (* Functions/GeneralPurposeFunctions.cpp 78-94 *)
("general_purpose::getIterfaceList", Code ["interfaces"; "count"] GeneralPurpose);
  (* Functions/GeneralPurposeFunctions.cpp 96-115 *)
("general_purpose::getIterface", Code ["interfaceName"; "version"; "interface"; "flags"]
    GeneralPurpose);
  (* Functions/KeyFunctions.cpp 12-27 *)
("key::generateKey", Code ["session"; "mechanism"; "attributeList"; "attributeListLength"; "key"]
    ReturnOk);
  (* Functions/KeyFunctions.cpp 29-50 *)
("key::generateKeyPair", Code ["session"; "mechanism"; "publicKeyAttrbuteList";
    "publicKeyAttributeListLength"; "privateKeyTemplate"; "privateKeyAttributeCount"; "publicKey";
    "privateKey"] ReturnOk);
  (* Functions/KeyFunctions.cpp 52-69 *)
("key::wrapKey", Code ["session"; "mechanism"; "hWrappingKey"; "hKey"; "pWrappedKey";
    "pulWrappedKeyLen"] ReturnOk);
  (* Functions/KeyFunctions.cpp 71-92 *)
("key::unwrapKey", Code ["session"; "mechanism"; "unwrappingKey"; "wrappedKey";
    "wrappedKeyLength"; "pTemplate"; "ulAttributeCount"; "phKey"] ReturnOk);
  (* Functions/KeyFunctions.cpp 94-111 *)
("key::deriveKey", Code ["session"; "mechanism"; "baseKey"; "attributeList";
    "attributeListLength"; "key"] ReturnOk);
  (* Functions/ManagementFunctions.cpp 12-23 *)
("management::getSlotList", Code ["tokenPresent"; "list"; "count"] ReturnOk);
  (* Functions/ManagementFunctions.cpp 25-34 *)
("management::getSlotInfo", Code ["id"; "info"] ReturnOk);
  (* Functions/ManagementFunctions.cpp 36-45 *)
("management::getTokenInfo", Code ["slotId"; "tokenInfo"] ReturnOk);
  (* Functions/ManagementFunctions.cpp 47-58 *)
("management::getMechanismList", Code ["slotId"; "mechanismList"; "mechanismCount"] ReturnOk);
  (* Functions/ManagementFunctions.cpp 60-71 *)
("management::getMechanismInfo", Code ["slotId"; "mechanismType"; "mechanismInfo"] ReturnOk);
  (* Functions/ManagementFunctions.cpp 73-86 *)
("management::initToken", Code ["slotId"; "pin"; "pinLenength"; "label"] ReturnOk);
  (* Functions/ManagementFunctions.cpp 88-99 *)
("management::initPin", Code ["session"; "pin"; "pinLength"] ReturnOk);
  (* Functions/ManagementFunctions.cpp 101-116 *)
("management::setPin", Code ["session"; "oldPin"; "oldLength"; "newPin"; "newLength"] ReturnOk);
  (* Functions/MessageDecryptFunctions.cpp 12-23 *)
("message::decryptInit", Code ["session"; "mechanism"; "key"] ReturnOk);
  (* Functions/MessageDecryptFunctions.cpp 25-48 *)
("message::decrypt", Code ["session"; "parameter"; "parameterLength"; "associatedData";
    "associatedDataLength"; "cipherText"; "cipherTextLength"; "plainText"; "plainTextLength"]
    ReturnOk);
  (* Functions/MessageDecryptFunctions.cpp 50-65 *)
("message::decryptBegin", Code ["session"; "parameter"; "parameterLength"; "associatedData";
    "associatedDataLength"] ReturnOk);
  (* Functions/MessageDecryptFunctions.cpp 67-88 *)
("message::decryptNext", Code ["session"; "parameter"; "parameterLength"; "cipherText";
    "cipherTextLength"; "plainText"; "plainTextLength"; "flags"] ReturnOk);
  (* Functions/MessageDecryptFunctions.cpp 90-97 *)
("message::decryptFinal", Code ["session"] ReturnOk);
  (* Functions/MessageEncryptFunctions.cpp 12-23 *)
("message::encryptInit", Code ["session"; "mechanism"; "key"] ReturnOk);
  (* Functions/MessageEncryptFunctions.cpp 25-48 *)
("message::encrypt", Code ["session"; "parameter"; "parameterLength"; "associatedData";
    "associatedDataLength"; "plainText"; "plainTextLength"; "cipherText"; "cipherTextLength"]
    ReturnOk);
  (* Functions/MessageEncryptFunctions.cpp 50-65 *)
("message::encryptBegin", Code ["session"; "parameter"; "parameterLength"; "associatedData";
    "associatedDataLength"] ReturnOk);
  (* Functions/MessageEncryptFunctions.cpp 67-88 *)
("message::encryptNext", Code ["session"; "parameter"; "parameterLength"; "plainTextPart";
    "plainTextPartLength"; "cipherTextPart"; "cipherTextPartLength"; "flags"] ReturnOk);
  (* Functions/MessageEncryptFunctions.cpp 90-97 *)
("message::encryptFinal", Code ["session"] ReturnOk);
  (* Functions/MessageSignFunctions.cpp 12-23 *)
("message::signInit", Code ["session"; "mechanism"; "key"] ReturnOk);
  (* Functions/MessageSignFunctions.cpp 25-44 *)
("message::sign", Code ["session"; "parameter"; "parameterLength"; "data"; "dataLength";
    "signature"; "signatureLength"] ReturnOk);
  (* Functions/MessageSignFunctions.cpp 46-57 *)
("message::signBegin", Code ["session"; "parameter"; "parameterLength"] ReturnOk);
  (* Functions/MessageSignFunctions.cpp 59-78 *)
("message::signNext", Code ["session"; "parameter"; "parameterLength"; "sata"; "dataLength";
    "signature"; "signatureLength"] ReturnOk);
  (* Functions/MessageSignFunctions.cpp 80-87 *)
("message::signFinal", Code ["session"] ReturnOk);
  (* Functions/MessageVerifyFunctions.cpp 12-23 *)
("message::verifyInit", Code ["session"; "mechanism"; "key"] ReturnOk);
  (* Functions/MessageVerifyFunctions.cpp 25-44 *)
("message::verify", Code ["session"; "parameter"; "parameterLength"; "data"; "dataLength";
    "signature"; "signatureLength"] ReturnOk);
  (* Functions/MessageVerifyFunctions.cpp 46-57 *)
("message::verifyBegin", Code ["session"; "parameter"; "parameterLength"] ReturnOk);
  (* Functions/MessageVerifyFunctions.cpp 59-78 *)
("message::verifyNext", Code ["session"; "parameter"; "parameterLength"; "sata"; "sataLength";
    "signature"; "signatureLength"] ReturnOk);
  (* Functions/MessageVerifyFunctions.cpp 80-87 *)
("message::verifyFinal", Code ["session"] ReturnOk);
  (* Functions/ObjectFunctions.cpp 12-25 *)
("object::create", Code ["session"; "attributeList"; "attributeListLength"; "object"] ReturnOk);
  (* Functions/ObjectFunctions.cpp 27-42 *)
("object::copy", Code ["session"; "object"; "attributeList"; "attributeListLength"; "newObject"]
    ReturnOk);
  (* Functions/ObjectFunctions.cpp 44-53 *)
("object::destroy", Code ["session"; "object"] ReturnOk);
  (* Functions/ObjectFunctions.cpp 55-66 *)
("object::getSize", Code ["session"; "object"; "resultSize"] ReturnOk);
  (* Functions/ObjectFunctions.cpp 68-81 *)
("object::getAttributeValue", Code ["session"; "object"; "attributeList"; "attributeListLength"]
    ReturnOk);
  (* Functions/ObjectFunctions.cpp 83-96 *)
("object::setAttributeValue", Code ["session"; "object"; "attributeList"; "attributeListLength"]
    ReturnOk);
  (* Functions/ObjectFunctions.cpp 98-109 *)
("object::findInit", Code ["session"; "attributeList"; "attributeListLength"] ReturnOk);
  (* Functions/ObjectFunctions.cpp 111-124 *)
("object::find", Code ["session"; "object"; "maxObjectCount"; "objectCount"] ReturnOk);
  (* Functions/ObjectFunctions.cpp 126-133 *)
("object::findFinal", Code ["session"] ReturnOk);
  (* Functions/ParallelManagementFunctions.cpp 12-19 *)
("parallel_management::getFunctionStatus", Code ["session"] ReturnOk);
  (* Functions/ParallelManagementFunctions.cpp 21-28 *)
("parallel_management::cancelFunction", Code ["session"] ReturnOk);
  (* Functions/ParallelManagementFunctions.cpp 30-40 *)
("parallel_management::waitForSlotEvent", Code ["flags"; "slotId"; "ValuePtr"] ReturnOk);
  (* Functions/RandomGeneration.cpp 12-23 *)
("random_generation::seedRandom", Code ["session"; "seed"; "seedLength"] ReturnOk);
  (* Functions/RandomGeneration.cpp 25-36 *)
("random_generation::generateRandom", Code ["session"; "randomData"; "randomLength"] ReturnOk);
  (* Functions/SessionFunctions.cpp 12-27 *)
("session::open", Code ["slotId"; "flags"; "application"; "notifyCallback"; "session"] ReturnOk);
  (* Functions/SessionFunctions.cpp 29-34 *)
("session::close", Code ["session"] ReturnOk);
  (* Functions/SessionFunctions.cpp 36-41 *)
("session::closeAll", Code ["slotId"] ReturnOk);
  (* Functions/SessionFunctions.cpp 43-52 *)
("session::getInfo", Code ["session"; "info"] ReturnOk);
  (* Functions/SessionFunctions.cpp 54-65 *)
("session::getOperationState", Code ["session"; "operationState"; "operationStateLength"]
    ReturnOk);
  (* Functions/SessionFunctions.cpp 67-82 *)
("session::setOperationState", Code ["session"; "operationState"; "operationStateLength";
    "encryptionKey"; "authenticationKey"] ReturnOk);
  (* Functions/SessionFunctions.cpp 84-97 *)
("session::login", Code ["session"; "userType"; "pin"; "pinLength"] ReturnOk);
  (* Functions/SessionFunctions.cpp 99-104 *)
("session::logout", Code ["session"] ReturnOk);
  (* Functions/SessionFunctions.cpp 108-125 *)
("session::loginUser", Code ["session"; "user"; "pin"; "pinLength"; "username"; "usernameLength"]
    ReturnOk);
  (* Functions/SessionFunctions.cpp 127-136 *)
("session::sessionCancel", Code ["session"; "flags"] ReturnOk);
  (* Functions/SignFunctions.cpp 12-23 *)
("sign::init", Code ["session"; "mechanism"; "object"] ReturnOk);
  (* Functions/SignFunctions.cpp 25-36 *)
("sign::update", Code ["session"; "dataPart"; "dataPartLength"] ReturnOk);
  (* Functions/SignFunctions.cpp 38-49 *)
("sign::final", Code ["session"; "signature"; "signatureLength"] ReturnOk);
  (* Functions/SignFunctions.cpp 51-66 *)
("sign::full", Code ["session"; "data"; "dataLength"; "signature"; "signatureLength"] ReturnOk);
  (* Functions/SignFunctions.cpp 71-82 *)
("sign::recover::init", Code ["session"; "mechanism"; "key"] ReturnOk);
  (* Functions/SignFunctions.cpp 84-99 *)
("sign::recover::full", Code ["session"; "data"; "dataLength"; "signature"; "signatureLength"]
    ReturnOk);
  (* Functions/VerifyFunctions.cpp 12-23 *)
("verify::init", Code ["session"; "mechanism"; "key"] ReturnOk);
  (* Functions/VerifyFunctions.cpp 25-36 *)
("verify::update", Code ["session"; "dataPart"; "dataPartLength"] ReturnOk);
  (* Functions/VerifyFunctions.cpp 38-49 *)
("verify::final", Code ["session"; "signature"; "signatureLength"] ReturnOk);
  (* Functions/VerifyFunctions.cpp 51-66 *)
("verify::full", Code ["session"; "data"; "dataLength"; "signature"; "signatureLength"] ReturnOk);
  (* Functions/VerifyFunctions.cpp 71-82 *)
("verify::recover::init", Code ["session"; "mechanism"; "key"] ReturnOk);
  (* Functions/VerifyFunctions.cpp 84-99 *)
("verify::recover::full", Code ["session"; "data"; "dataLength"; "signature"; "signatureLength"]
    ReturnOk)
  ].
