(** What the functions of PKCS#11 3.0 are for (written from the standard): the name of each
    function, the operation that it stands for, and the number of its parameters. *)
From Coq Require Import String List.
Import ListNotations.
Local Open Scope string_scope.
Local Open Scope list_scope.

(** The operations come in groups; [operation group step] is how this module names them. *)
Definition operation (group step : string) : string := group ++ "::" ++ step.

(** Name, operation, number of parameters. *)
Definition standard : list (string * string * nat) :=
  let general := operation "general_purpose" in
  let management := operation "management" in
  let session := operation "session" in
  let object := operation "object" in
  let dual := operation "dual_operations" in
  let key := operation "key" in
  let message := operation "message" in
  [("C_Initialize", general "initialize", 1);
   ("C_Finalize", general "finalize", 1);
   ("C_GetInfo", general "getInfo", 1);
   ("C_GetFunctionList", general "getFunctionList", 1);
   ("C_GetInterfaceList", general "getIterfaceList", 2);
   ("C_GetInterface", general "getIterface", 4);

   ("C_GetSlotList", management "getSlotList", 3);
   ("C_GetSlotInfo", management "getSlotInfo", 2);
   ("C_GetTokenInfo", management "getTokenInfo", 2);
   ("C_GetMechanismList", management "getMechanismList", 3);
   ("C_GetMechanismInfo", management "getMechanismInfo", 3);
   ("C_InitToken", management "initToken", 4);
   ("C_InitPIN", management "initPin", 3);
   ("C_SetPIN", management "setPin", 5);
   ("C_WaitForSlotEvent", operation "parallel_management" "waitForSlotEvent", 3);
   ("C_GetFunctionStatus", operation "parallel_management" "getFunctionStatus", 1);
   ("C_CancelFunction", operation "parallel_management" "cancelFunction", 1);

   ("C_OpenSession", session "open", 5);
   ("C_CloseSession", session "close", 1);
   ("C_CloseAllSessions", session "closeAll", 1);
   ("C_GetSessionInfo", session "getInfo", 2);
   ("C_GetOperationState", session "getOperationState", 3);
   ("C_SetOperationState", session "setOperationState", 5);
   ("C_Login", session "login", 4);
   ("C_LoginUser", session "loginUser", 6);
   ("C_Logout", session "logout", 1);
   ("C_SessionCancel", session "sessionCancel", 2);

   ("C_CreateObject", object "create", 4);
   ("C_CopyObject", object "copy", 5);
   ("C_DestroyObject", object "destroy", 2);
   ("C_GetObjectSize", object "getSize", 3);
   ("C_GetAttributeValue", object "getAttributeValue", 4);
   ("C_SetAttributeValue", object "setAttributeValue", 4);
   ("C_FindObjectsInit", object "findInit", 3);
   ("C_FindObjects", object "find", 4);
   ("C_FindObjectsFinal", object "findFinal", 1);

   ("C_EncryptInit", operation "encrypt" "init", 3);
   ("C_Encrypt", operation "encrypt" "full", 5);
   ("C_EncryptUpdate", operation "encrypt" "update", 5);
   ("C_EncryptFinal", operation "encrypt" "final", 3);
   ("C_DecryptInit", operation "decrypt" "init", 3);
   ("C_Decrypt", operation "decrypt" "full", 5);
   ("C_DecryptUpdate", operation "decrypt" "update", 5);
   ("C_DecryptFinal", operation "decrypt" "final", 3);
   ("C_DigestInit", operation "digest" "init", 2);
   ("C_Digest", operation "digest" "full", 5);
   ("C_DigestUpdate", operation "digest" "update", 3);
   ("C_DigestKey", operation "digest" "key", 2);
   ("C_DigestFinal", operation "digest" "final", 3);
   ("C_SignInit", operation "sign" "init", 3);
   ("C_Sign", operation "sign" "full", 5);
   ("C_SignUpdate", operation "sign" "update", 3);
   ("C_SignFinal", operation "sign" "final", 3);
   ("C_SignRecoverInit", operation "sign" "recover::init", 3);
   ("C_SignRecover", operation "sign" "recover::full", 5);
   ("C_VerifyInit", operation "verify" "init", 3);
   ("C_Verify", operation "verify" "full", 5);
   ("C_VerifyUpdate", operation "verify" "update", 3);
   ("C_VerifyFinal", operation "verify" "final", 3);
   ("C_VerifyRecoverInit", operation "verify" "recover::init", 3);
   ("C_VerifyRecover", operation "verify" "recover::full", 5);

   ("C_DigestEncryptUpdate", dual "digestEncryptUpdate", 5);
   ("C_DecryptDigestUpdate", dual "decryptDigestUpdate", 5);
   ("C_SignEncryptUpdate", dual "signEncryptUpdate", 5);
   ("C_DecryptVerifyUpdate", dual "decryptVerifyUpdate", 5);

   ("C_GenerateKey", key "generateKey", 5);
   ("C_GenerateKeyPair", key "generateKeyPair", 8);
   ("C_WrapKey", key "wrapKey", 6);
   ("C_UnwrapKey", key "unwrapKey", 8);
   ("C_DeriveKey", key "deriveKey", 6);
   ("C_SeedRandom", operation "random_generation" "seedRandom", 3);
   ("C_GenerateRandom", operation "random_generation" "generateRandom", 3);

   ("C_MessageEncryptInit", message "encryptInit", 3);
   ("C_EncryptMessage", message "encrypt", 9);
   ("C_EncryptMessageBegin", message "encryptBegin", 5);
   ("C_EncryptMessageNext", message "encryptNext", 8);
   ("C_MessageEncryptFinal", message "encryptFinal", 1);
   ("C_MessageDecryptInit", message "decryptInit", 3);
   ("C_DecryptMessage", message "decrypt", 9);
   ("C_DecryptMessageBegin", message "decryptBegin", 5);
   ("C_DecryptMessageNext", message "decryptNext", 8);
   ("C_MessageDecryptFinal", message "decryptFinal", 1);
   ("C_MessageSignInit", message "signInit", 3);
   ("C_SignMessage", message "sign", 7);
   ("C_SignMessageBegin", message "signBegin", 3);
   ("C_SignMessageNext", message "signNext", 7);
   ("C_MessageSignFinal", message "signFinal", 1);
   ("C_MessageVerifyInit", message "verifyInit", 3);
   ("C_VerifyMessage", message "verify", 7);
   ("C_VerifyMessageBegin", message "verifyBegin", 3);
   ("C_VerifyMessageNext", message "verifyNext", 7);
   ("C_MessageVerifyFinal", message "verifyFinal", 1)].
