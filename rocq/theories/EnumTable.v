(** The enumerations of the PKCS#11 wrapper, as tables. Generated mechanically from
    /repo/include/FlameIDE/Crypto/Pkcs11/Types/Enums.hpp and the header of the standard,
    /repo/include/FlameIDE/Crypto/Oasis/pkcs11t.h. *)
From Coq Require Import List ZArith String.
Import ListNotations.
Local Open Scope string_scope.
Local Open Scope Z_scope.

(** How a constant of the header is defined: by a number, by another constant, by a constant and
    a number combined with |, as ~0UL. *)
Inductive hvalue := HNumber (n : Z) | HSame (c : string) | HOr (c : string) (n : Z) | HOnes.

(** How an enumerator is defined: by a constant of the header, by a number, or by nothing, which
    means one more than the one before. Enums.hpp 60-1515. *)
Inductive evalue := EConstant (c : string) | ENumber (n : Z) | ENext.

(** The underlying types: CK_BYTE and CK_BBOOL have eight bits, the others are unsigned long.
    UNDERLYING_TYPE in Enums.hpp 29-43. *)
Inductive width := Eight | Long.

(** pkcs11t.h, in the order of the lines. pkcs11t.h, all lines that define a constant. *)
Definition header : list (string * hvalue) := [
  ("CRYPTOKI_VERSION_MAJOR", HNumber 3);
  ("CRYPTOKI_VERSION_MINOR", HNumber 0);
  ("CRYPTOKI_VERSION_AMENDMENT", HNumber 0);
  ("CK_TRUE", HNumber 1);
  ("CK_FALSE", HNumber 0);
  ("CK_UNAVAILABLE_INFORMATION", HOnes);
  ("CK_EFFECTIVELY_INFINITE", HNumber 0);
  ("CK_INVALID_HANDLE", HNumber 0);
  ("CKN_SURRENDER", HNumber 0);
  ("CKN_OTP_CHANGED", HNumber 1);
  ("CKF_TOKEN_PRESENT", HNumber 1);
  ("CKF_REMOVABLE_DEVICE", HNumber 2);
  ("CKF_HW_SLOT", HNumber 4);
  ("CKF_RNG", HNumber 1);
  ("CKF_WRITE_PROTECTED", HNumber 2);
  ("CKF_LOGIN_REQUIRED", HNumber 4);
  ("CKF_USER_PIN_INITIALIZED", HNumber 8);
  ("CKF_RESTORE_KEY_NOT_NEEDED", HNumber 32);
  ("CKF_CLOCK_ON_TOKEN", HNumber 64);
  ("CKF_PROTECTED_AUTHENTICATION_PATH", HNumber 256);
  ("CKF_DUAL_CRYPTO_OPERATIONS", HNumber 512);
  ("CKF_TOKEN_INITIALIZED", HNumber 1024);
  ("CKF_SECONDARY_AUTHENTICATION", HNumber 2048);
  ("CKF_USER_PIN_COUNT_LOW", HNumber 65536);
  ("CKF_USER_PIN_FINAL_TRY", HNumber 131072);
  ("CKF_USER_PIN_LOCKED", HNumber 262144);
  ("CKF_USER_PIN_TO_BE_CHANGED", HNumber 524288);
  ("CKF_SO_PIN_COUNT_LOW", HNumber 1048576);
  ("CKF_SO_PIN_FINAL_TRY", HNumber 2097152);
  ("CKF_SO_PIN_LOCKED", HNumber 4194304);
  ("CKF_SO_PIN_TO_BE_CHANGED", HNumber 8388608);
  ("CKF_ERROR_STATE", HNumber 16777216);
  ("CKU_SO", HNumber 0);
  ("CKU_USER", HNumber 1);
  ("CKU_CONTEXT_SPECIFIC", HNumber 2);
  ("CKS_RO_PUBLIC_SESSION", HNumber 0);
  ("CKS_RO_USER_FUNCTIONS", HNumber 1);
  ("CKS_RW_PUBLIC_SESSION", HNumber 2);
  ("CKS_RW_USER_FUNCTIONS", HNumber 3);
  ("CKS_RW_SO_FUNCTIONS", HNumber 4);
  ("CKF_RW_SESSION", HNumber 2);
  ("CKF_SERIAL_SESSION", HNumber 4);
  ("CKO_DATA", HNumber 0);
  ("CKO_CERTIFICATE", HNumber 1);
  ("CKO_PUBLIC_KEY", HNumber 2);
  ("CKO_PRIVATE_KEY", HNumber 3);
  ("CKO_SECRET_KEY", HNumber 4);
  ("CKO_HW_FEATURE", HNumber 5);
  ("CKO_DOMAIN_PARAMETERS", HNumber 6);
  ("CKO_MECHANISM", HNumber 7);
  ("CKO_OTP_KEY", HNumber 8);
  ("CKO_PROFILE", HNumber 9);
  ("CKO_VENDOR_DEFINED", HNumber 2147483648);
  ("CKP_INVALID_ID", HNumber 0);
  ("CKP_BASELINE_PROVIDER", HNumber 1);
  ("CKP_EXTENDED_PROVIDER", HNumber 2);
  ("CKP_AUTHENTICATION_TOKEN", HNumber 3);
  ("CKP_PUBLIC_CERTIFICATES_TOKEN", HNumber 4);
  ("CKP_VENDOR_DEFINED", HNumber 2147483648);
  ("CKH_MONOTONIC_COUNTER", HNumber 1);
  ("CKH_CLOCK", HNumber 2);
  ("CKH_USER_INTERFACE", HNumber 3);
  ("CKH_VENDOR_DEFINED", HNumber 2147483648);
  ("CKK_RSA", HNumber 0);
  ("CKK_DSA", HNumber 1);
  ("CKK_DH", HNumber 2);
  ("CKK_ECDSA", HNumber 3);
  ("CKK_EC", HNumber 3);
  ("CKK_X9_42_DH", HNumber 4);
  ("CKK_KEA", HNumber 5);
  ("CKK_GENERIC_SECRET", HNumber 16);
  ("CKK_RC2", HNumber 17);
  ("CKK_RC4", HNumber 18);
  ("CKK_DES", HNumber 19);
  ("CKK_DES2", HNumber 20);
  ("CKK_DES3", HNumber 21);
  ("CKK_CAST", HNumber 22);
  ("CKK_CAST3", HNumber 23);
  ("CKK_CAST5", HNumber 24);
  ("CKK_CAST128", HNumber 24);
  ("CKK_RC5", HNumber 25);
  ("CKK_IDEA", HNumber 26);
  ("CKK_SKIPJACK", HNumber 27);
  ("CKK_BATON", HNumber 28);
  ("CKK_JUNIPER", HNumber 29);
  ("CKK_CDMF", HNumber 30);
  ("CKK_AES", HNumber 31);
  ("CKK_BLOWFISH", HNumber 32);
  ("CKK_TWOFISH", HNumber 33);
  ("CKK_SECURID", HNumber 34);
  ("CKK_HOTP", HNumber 35);
  ("CKK_ACTI", HNumber 36);
  ("CKK_CAMELLIA", HNumber 37);
  ("CKK_ARIA", HNumber 38);
  ("CKK_MD5_HMAC", HNumber 39);
  ("CKK_SHA_1_HMAC", HNumber 40);
  ("CKK_RIPEMD128_HMAC", HNumber 41);
  ("CKK_RIPEMD160_HMAC", HNumber 42);
  ("CKK_SHA256_HMAC", HNumber 43);
  ("CKK_SHA384_HMAC", HNumber 44);
  ("CKK_SHA512_HMAC", HNumber 45);
  ("CKK_SHA224_HMAC", HNumber 46);
  ("CKK_SEED", HNumber 47);
  ("CKK_GOSTR3410", HNumber 48);
  ("CKK_GOSTR3411", HNumber 49);
  ("CKK_GOST28147", HNumber 50);
  ("CKK_CHACHA20", HNumber 51);
  ("CKK_POLY1305", HNumber 52);
  ("CKK_AES_XTS", HNumber 53);
  ("CKK_SHA3_224_HMAC", HNumber 54);
  ("CKK_SHA3_256_HMAC", HNumber 55);
  ("CKK_SHA3_384_HMAC", HNumber 56);
  ("CKK_SHA3_512_HMAC", HNumber 57);
  ("CKK_BLAKE2B_160_HMAC", HNumber 58);
  ("CKK_BLAKE2B_256_HMAC", HNumber 59);
  ("CKK_BLAKE2B_384_HMAC", HNumber 60);
  ("CKK_BLAKE2B_512_HMAC", HNumber 61);
  ("CKK_SALSA20", HNumber 62);
  ("CKK_X2RATCHET", HNumber 63);
  ("CKK_EC_EDWARDS", HNumber 64);
  ("CKK_EC_MONTGOMERY", HNumber 65);
  ("CKK_HKDF", HNumber 66);
  ("CKK_VENDOR_DEFINED", HNumber 2147483648);
  ("CK_CERTIFICATE_CATEGORY_UNSPECIFIED", HNumber 0);
  ("CK_CERTIFICATE_CATEGORY_TOKEN_USER", HNumber 1);
  ("CK_CERTIFICATE_CATEGORY_AUTHORITY", HNumber 2);
  ("CK_CERTIFICATE_CATEGORY_OTHER_ENTITY", HNumber 3);
  ("CK_SECURITY_DOMAIN_UNSPECIFIED", HNumber 0);
  ("CK_SECURITY_DOMAIN_MANUFACTURER", HNumber 1);
  ("CK_SECURITY_DOMAIN_OPERATOR", HNumber 2);
  ("CK_SECURITY_DOMAIN_THIRD_PARTY", HNumber 3);
  ("CKC_X_509", HNumber 0);
  ("CKC_X_509_ATTR_CERT", HNumber 1);
  ("CKC_WTLS", HNumber 2);
  ("CKC_VENDOR_DEFINED", HNumber 2147483648);
  ("CKF_ARRAY_ATTRIBUTE", HNumber 1073741824);
  ("CK_OTP_FORMAT_DECIMAL", HNumber 0);
  ("CK_OTP_FORMAT_HEXADECIMAL", HNumber 1);
  ("CK_OTP_FORMAT_ALPHANUMERIC", HNumber 2);
  ("CK_OTP_FORMAT_BINARY", HNumber 3);
  ("CK_OTP_PARAM_IGNORED", HNumber 0);
  ("CK_OTP_PARAM_OPTIONAL", HNumber 1);
  ("CK_OTP_PARAM_MANDATORY", HNumber 2);
  ("CKA_CLASS", HNumber 0);
  ("CKA_TOKEN", HNumber 1);
  ("CKA_PRIVATE", HNumber 2);
  ("CKA_LABEL", HNumber 3);
  ("CKA_UNIQUE_ID", HNumber 4);
  ("CKA_APPLICATION", HNumber 16);
  ("CKA_VALUE", HNumber 17);
  ("CKA_OBJECT_ID", HNumber 18);
  ("CKA_CERTIFICATE_TYPE", HNumber 128);
  ("CKA_ISSUER", HNumber 129);
  ("CKA_SERIAL_NUMBER", HNumber 130);
  ("CKA_AC_ISSUER", HNumber 131);
  ("CKA_OWNER", HNumber 132);
  ("CKA_ATTR_TYPES", HNumber 133);
  ("CKA_TRUSTED", HNumber 134);
  ("CKA_CERTIFICATE_CATEGORY", HNumber 135);
  ("CKA_JAVA_MIDP_SECURITY_DOMAIN", HNumber 136);
  ("CKA_URL", HNumber 137);
  ("CKA_HASH_OF_SUBJECT_PUBLIC_KEY", HNumber 138);
  ("CKA_HASH_OF_ISSUER_PUBLIC_KEY", HNumber 139);
  ("CKA_NAME_HASH_ALGORITHM", HNumber 140);
  ("CKA_CHECK_VALUE", HNumber 144);
  ("CKA_KEY_TYPE", HNumber 256);
  ("CKA_SUBJECT", HNumber 257);
  ("CKA_ID", HNumber 258);
  ("CKA_SENSITIVE", HNumber 259);
  ("CKA_ENCRYPT", HNumber 260);
  ("CKA_DECRYPT", HNumber 261);
  ("CKA_WRAP", HNumber 262);
  ("CKA_UNWRAP", HNumber 263);
  ("CKA_SIGN", HNumber 264);
  ("CKA_SIGN_RECOVER", HNumber 265);
  ("CKA_VERIFY", HNumber 266);
  ("CKA_VERIFY_RECOVER", HNumber 267);
  ("CKA_DERIVE", HNumber 268);
  ("CKA_START_DATE", HNumber 272);
  ("CKA_END_DATE", HNumber 273);
  ("CKA_MODULUS", HNumber 288);
  ("CKA_MODULUS_BITS", HNumber 289);
  ("CKA_PUBLIC_EXPONENT", HNumber 290);
  ("CKA_PRIVATE_EXPONENT", HNumber 291);
  ("CKA_PRIME_1", HNumber 292);
  ("CKA_PRIME_2", HNumber 293);
  ("CKA_EXPONENT_1", HNumber 294);
  ("CKA_EXPONENT_2", HNumber 295);
  ("CKA_COEFFICIENT", HNumber 296);
  ("CKA_PUBLIC_KEY_INFO", HNumber 297);
  ("CKA_PRIME", HNumber 304);
  ("CKA_SUBPRIME", HNumber 305);
  ("CKA_BASE", HNumber 306);
  ("CKA_PRIME_BITS", HNumber 307);
  ("CKA_SUBPRIME_BITS", HNumber 308);
  ("CKA_SUB_PRIME_BITS", HSame "CKA_SUBPRIME_BITS");
  ("CKA_VALUE_BITS", HNumber 352);
  ("CKA_VALUE_LEN", HNumber 353);
  ("CKA_EXTRACTABLE", HNumber 354);
  ("CKA_LOCAL", HNumber 355);
  ("CKA_NEVER_EXTRACTABLE", HNumber 356);
  ("CKA_ALWAYS_SENSITIVE", HNumber 357);
  ("CKA_KEY_GEN_MECHANISM", HNumber 358);
  ("CKA_MODIFIABLE", HNumber 368);
  ("CKA_COPYABLE", HNumber 369);
  ("CKA_DESTROYABLE", HNumber 370);
  ("CKA_ECDSA_PARAMS", HNumber 384);
  ("CKA_EC_PARAMS", HNumber 384);
  ("CKA_EC_POINT", HNumber 385);
  ("CKA_SECONDARY_AUTH", HNumber 512);
  ("CKA_AUTH_PIN_FLAGS", HNumber 513);
  ("CKA_ALWAYS_AUTHENTICATE", HNumber 514);
  ("CKA_WRAP_WITH_TRUSTED", HNumber 528);
  ("CKA_WRAP_TEMPLATE", HOr "CKF_ARRAY_ATTRIBUTE" 529);
  ("CKA_UNWRAP_TEMPLATE", HOr "CKF_ARRAY_ATTRIBUTE" 530);
  ("CKA_DERIVE_TEMPLATE", HOr "CKF_ARRAY_ATTRIBUTE" 531);
  ("CKA_OTP_FORMAT", HNumber 544);
  ("CKA_OTP_LENGTH", HNumber 545);
  ("CKA_OTP_TIME_INTERVAL", HNumber 546);
  ("CKA_OTP_USER_FRIENDLY_MODE", HNumber 547);
  ("CKA_OTP_CHALLENGE_REQUIREMENT", HNumber 548);
  ("CKA_OTP_TIME_REQUIREMENT", HNumber 549);
  ("CKA_OTP_COUNTER_REQUIREMENT", HNumber 550);
  ("CKA_OTP_PIN_REQUIREMENT", HNumber 551);
  ("CKA_OTP_COUNTER", HNumber 558);
  ("CKA_OTP_TIME", HNumber 559);
  ("CKA_OTP_USER_IDENTIFIER", HNumber 554);
  ("CKA_OTP_SERVICE_IDENTIFIER", HNumber 555);
  ("CKA_OTP_SERVICE_LOGO", HNumber 556);
  ("CKA_OTP_SERVICE_LOGO_TYPE", HNumber 557);
  ("CKA_GOSTR3410_PARAMS", HNumber 592);
  ("CKA_GOSTR3411_PARAMS", HNumber 593);
  ("CKA_GOST28147_PARAMS", HNumber 594);
  ("CKA_HW_FEATURE_TYPE", HNumber 768);
  ("CKA_RESET_ON_INIT", HNumber 769);
  ("CKA_HAS_RESET", HNumber 770);
  ("CKA_PIXEL_X", HNumber 1024);
  ("CKA_PIXEL_Y", HNumber 1025);
  ("CKA_RESOLUTION", HNumber 1026);
  ("CKA_CHAR_ROWS", HNumber 1027);
  ("CKA_CHAR_COLUMNS", HNumber 1028);
  ("CKA_COLOR", HNumber 1029);
  ("CKA_BITS_PER_PIXEL", HNumber 1030);
  ("CKA_CHAR_SETS", HNumber 1152);
  ("CKA_ENCODING_METHODS", HNumber 1153);
  ("CKA_MIME_TYPES", HNumber 1154);
  ("CKA_MECHANISM_TYPE", HNumber 1280);
  ("CKA_REQUIRED_CMS_ATTRIBUTES", HNumber 1281);
  ("CKA_DEFAULT_CMS_ATTRIBUTES", HNumber 1282);
  ("CKA_SUPPORTED_CMS_ATTRIBUTES", HNumber 1283);
  ("CKA_ALLOWED_MECHANISMS", HOr "CKF_ARRAY_ATTRIBUTE" 1536);
  ("CKA_PROFILE_ID", HNumber 1537);
  ("CKA_VENDOR_DEFINED", HNumber 2147483648);
  ("CKM_RSA_PKCS_KEY_PAIR_GEN", HNumber 0);
  ("CKM_RSA_PKCS", HNumber 1);
  ("CKM_RSA_9796", HNumber 2);
  ("CKM_RSA_X_509", HNumber 3);
  ("CKM_MD2_RSA_PKCS", HNumber 4);
  ("CKM_MD5_RSA_PKCS", HNumber 5);
  ("CKM_SHA1_RSA_PKCS", HNumber 6);
  ("CKM_RIPEMD128_RSA_PKCS", HNumber 7);
  ("CKM_RIPEMD160_RSA_PKCS", HNumber 8);
  ("CKM_RSA_PKCS_OAEP", HNumber 9);
  ("CKM_RSA_X9_31_KEY_PAIR_GEN", HNumber 10);
  ("CKM_RSA_X9_31", HNumber 11);
  ("CKM_SHA1_RSA_X9_31", HNumber 12);
  ("CKM_RSA_PKCS_PSS", HNumber 13);
  ("CKM_SHA1_RSA_PKCS_PSS", HNumber 14);
  ("CKM_DSA_KEY_PAIR_GEN", HNumber 16);
  ("CKM_DSA", HNumber 17);
  ("CKM_DSA_SHA1", HNumber 18);
  ("CKM_DSA_SHA224", HNumber 19);
  ("CKM_DSA_SHA256", HNumber 20);
  ("CKM_DSA_SHA384", HNumber 21);
  ("CKM_DSA_SHA512", HNumber 22);
  ("CKM_DSA_SHA3_224", HNumber 24);
  ("CKM_DSA_SHA3_256", HNumber 25);
  ("CKM_DSA_SHA3_384", HNumber 26);
  ("CKM_DSA_SHA3_512", HNumber 27);
  ("CKM_DH_PKCS_KEY_PAIR_GEN", HNumber 32);
  ("CKM_DH_PKCS_DERIVE", HNumber 33);
  ("CKM_X9_42_DH_KEY_PAIR_GEN", HNumber 48);
  ("CKM_X9_42_DH_DERIVE", HNumber 49);
  ("CKM_X9_42_DH_HYBRID_DERIVE", HNumber 50);
  ("CKM_X9_42_MQV_DERIVE", HNumber 51);
  ("CKM_SHA256_RSA_PKCS", HNumber 64);
  ("CKM_SHA384_RSA_PKCS", HNumber 65);
  ("CKM_SHA512_RSA_PKCS", HNumber 66);
  ("CKM_SHA256_RSA_PKCS_PSS", HNumber 67);
  ("CKM_SHA384_RSA_PKCS_PSS", HNumber 68);
  ("CKM_SHA512_RSA_PKCS_PSS", HNumber 69);
  ("CKM_SHA224_RSA_PKCS", HNumber 70);
  ("CKM_SHA224_RSA_PKCS_PSS", HNumber 71);
  ("CKM_SHA512_224", HNumber 72);
  ("CKM_SHA512_224_HMAC", HNumber 73);
  ("CKM_SHA512_224_HMAC_GENERAL", HNumber 74);
  ("CKM_SHA512_224_KEY_DERIVATION", HNumber 75);
  ("CKM_SHA512_256", HNumber 76);
  ("CKM_SHA512_256_HMAC", HNumber 77);
  ("CKM_SHA512_256_HMAC_GENERAL", HNumber 78);
  ("CKM_SHA512_256_KEY_DERIVATION", HNumber 79);
  ("CKM_SHA512_T", HNumber 80);
  ("CKM_SHA512_T_HMAC", HNumber 81);
  ("CKM_SHA512_T_HMAC_GENERAL", HNumber 82);
  ("CKM_SHA512_T_KEY_DERIVATION", HNumber 83);
  ("CKM_SHA3_256_RSA_PKCS", HNumber 96);
  ("CKM_SHA3_384_RSA_PKCS", HNumber 97);
  ("CKM_SHA3_512_RSA_PKCS", HNumber 98);
  ("CKM_SHA3_256_RSA_PKCS_PSS", HNumber 99);
  ("CKM_SHA3_384_RSA_PKCS_PSS", HNumber 100);
  ("CKM_SHA3_512_RSA_PKCS_PSS", HNumber 101);
  ("CKM_SHA3_224_RSA_PKCS", HNumber 102);
  ("CKM_SHA3_224_RSA_PKCS_PSS", HNumber 103);
  ("CKM_RC2_KEY_GEN", HNumber 256);
  ("CKM_RC2_ECB", HNumber 257);
  ("CKM_RC2_CBC", HNumber 258);
  ("CKM_RC2_MAC", HNumber 259);
  ("CKM_RC2_MAC_GENERAL", HNumber 260);
  ("CKM_RC2_CBC_PAD", HNumber 261);
  ("CKM_RC4_KEY_GEN", HNumber 272);
  ("CKM_RC4", HNumber 273);
  ("CKM_DES_KEY_GEN", HNumber 288);
  ("CKM_DES_ECB", HNumber 289);
  ("CKM_DES_CBC", HNumber 290);
  ("CKM_DES_MAC", HNumber 291);
  ("CKM_DES_MAC_GENERAL", HNumber 292);
  ("CKM_DES_CBC_PAD", HNumber 293);
  ("CKM_DES2_KEY_GEN", HNumber 304);
  ("CKM_DES3_KEY_GEN", HNumber 305);
  ("CKM_DES3_ECB", HNumber 306);
  ("CKM_DES3_CBC", HNumber 307);
  ("CKM_DES3_MAC", HNumber 308);
  ("CKM_DES3_MAC_GENERAL", HNumber 309);
  ("CKM_DES3_CBC_PAD", HNumber 310);
  ("CKM_DES3_CMAC_GENERAL", HNumber 311);
  ("CKM_DES3_CMAC", HNumber 312);
  ("CKM_CDMF_KEY_GEN", HNumber 320);
  ("CKM_CDMF_ECB", HNumber 321);
  ("CKM_CDMF_CBC", HNumber 322);
  ("CKM_CDMF_MAC", HNumber 323);
  ("CKM_CDMF_MAC_GENERAL", HNumber 324);
  ("CKM_CDMF_CBC_PAD", HNumber 325);
  ("CKM_DES_OFB64", HNumber 336);
  ("CKM_DES_OFB8", HNumber 337);
  ("CKM_DES_CFB64", HNumber 338);
  ("CKM_DES_CFB8", HNumber 339);
  ("CKM_MD2", HNumber 512);
  ("CKM_MD2_HMAC", HNumber 513);
  ("CKM_MD2_HMAC_GENERAL", HNumber 514);
  ("CKM_MD5", HNumber 528);
  ("CKM_MD5_HMAC", HNumber 529);
  ("CKM_MD5_HMAC_GENERAL", HNumber 530);
  ("CKM_SHA_1", HNumber 544);
  ("CKM_SHA_1_HMAC", HNumber 545);
  ("CKM_SHA_1_HMAC_GENERAL", HNumber 546);
  ("CKM_RIPEMD128", HNumber 560);
  ("CKM_RIPEMD128_HMAC", HNumber 561);
  ("CKM_RIPEMD128_HMAC_GENERAL", HNumber 562);
  ("CKM_RIPEMD160", HNumber 576);
  ("CKM_RIPEMD160_HMAC", HNumber 577);
  ("CKM_RIPEMD160_HMAC_GENERAL", HNumber 578);
  ("CKM_SHA256", HNumber 592);
  ("CKM_SHA256_HMAC", HNumber 593);
  ("CKM_SHA256_HMAC_GENERAL", HNumber 594);
  ("CKM_SHA224", HNumber 597);
  ("CKM_SHA224_HMAC", HNumber 598);
  ("CKM_SHA224_HMAC_GENERAL", HNumber 599);
  ("CKM_SHA384", HNumber 608);
  ("CKM_SHA384_HMAC", HNumber 609);
  ("CKM_SHA384_HMAC_GENERAL", HNumber 610);
  ("CKM_SHA512", HNumber 624);
  ("CKM_SHA512_HMAC", HNumber 625);
  ("CKM_SHA512_HMAC_GENERAL", HNumber 626);
  ("CKM_SECURID_KEY_GEN", HNumber 640);
  ("CKM_SECURID", HNumber 642);
  ("CKM_HOTP_KEY_GEN", HNumber 656);
  ("CKM_HOTP", HNumber 657);
  ("CKM_ACTI", HNumber 672);
  ("CKM_ACTI_KEY_GEN", HNumber 673);
  ("CKM_SHA3_256", HNumber 688);
  ("CKM_SHA3_256_HMAC", HNumber 689);
  ("CKM_SHA3_256_HMAC_GENERAL", HNumber 690);
  ("CKM_SHA3_256_KEY_GEN", HNumber 691);
  ("CKM_SHA3_224", HNumber 693);
  ("CKM_SHA3_224_HMAC", HNumber 694);
  ("CKM_SHA3_224_HMAC_GENERAL", HNumber 695);
  ("CKM_SHA3_224_KEY_GEN", HNumber 696);
  ("CKM_SHA3_384", HNumber 704);
  ("CKM_SHA3_384_HMAC", HNumber 705);
  ("CKM_SHA3_384_HMAC_GENERAL", HNumber 706);
  ("CKM_SHA3_384_KEY_GEN", HNumber 707);
  ("CKM_SHA3_512", HNumber 720);
  ("CKM_SHA3_512_HMAC", HNumber 721);
  ("CKM_SHA3_512_HMAC_GENERAL", HNumber 722);
  ("CKM_SHA3_512_KEY_GEN", HNumber 723);
  ("CKM_CAST_KEY_GEN", HNumber 768);
  ("CKM_CAST_ECB", HNumber 769);
  ("CKM_CAST_CBC", HNumber 770);
  ("CKM_CAST_MAC", HNumber 771);
  ("CKM_CAST_MAC_GENERAL", HNumber 772);
  ("CKM_CAST_CBC_PAD", HNumber 773);
  ("CKM_CAST3_KEY_GEN", HNumber 784);
  ("CKM_CAST3_ECB", HNumber 785);
  ("CKM_CAST3_CBC", HNumber 786);
  ("CKM_CAST3_MAC", HNumber 787);
  ("CKM_CAST3_MAC_GENERAL", HNumber 788);
  ("CKM_CAST3_CBC_PAD", HNumber 789);
  ("CKM_CAST5_KEY_GEN", HNumber 800);
  ("CKM_CAST128_KEY_GEN", HNumber 800);
  ("CKM_CAST5_ECB", HNumber 801);
  ("CKM_CAST128_ECB", HNumber 801);
  ("CKM_CAST5_CBC", HNumber 802);
  ("CKM_CAST128_CBC", HNumber 802);
  ("CKM_CAST5_MAC", HNumber 803);
  ("CKM_CAST128_MAC", HNumber 803);
  ("CKM_CAST5_MAC_GENERAL", HNumber 804);
  ("CKM_CAST128_MAC_GENERAL", HNumber 804);
  ("CKM_CAST5_CBC_PAD", HNumber 805);
  ("CKM_CAST128_CBC_PAD", HNumber 805);
  ("CKM_RC5_KEY_GEN", HNumber 816);
  ("CKM_RC5_ECB", HNumber 817);
  ("CKM_RC5_CBC", HNumber 818);
  ("CKM_RC5_MAC", HNumber 819);
  ("CKM_RC5_MAC_GENERAL", HNumber 820);
  ("CKM_RC5_CBC_PAD", HNumber 821);
  ("CKM_IDEA_KEY_GEN", HNumber 832);
  ("CKM_IDEA_ECB", HNumber 833);
  ("CKM_IDEA_CBC", HNumber 834);
  ("CKM_IDEA_MAC", HNumber 835);
  ("CKM_IDEA_MAC_GENERAL", HNumber 836);
  ("CKM_IDEA_CBC_PAD", HNumber 837);
  ("CKM_GENERIC_SECRET_KEY_GEN", HNumber 848);
  ("CKM_CONCATENATE_BASE_AND_KEY", HNumber 864);
  ("CKM_CONCATENATE_BASE_AND_DATA", HNumber 866);
  ("CKM_CONCATENATE_DATA_AND_BASE", HNumber 867);
  ("CKM_XOR_BASE_AND_DATA", HNumber 868);
  ("CKM_EXTRACT_KEY_FROM_KEY", HNumber 869);
  ("CKM_SSL3_PRE_MASTER_KEY_GEN", HNumber 880);
  ("CKM_SSL3_MASTER_KEY_DERIVE", HNumber 881);
  ("CKM_SSL3_KEY_AND_MAC_DERIVE", HNumber 882);
  ("CKM_SSL3_MASTER_KEY_DERIVE_DH", HNumber 883);
  ("CKM_TLS_PRE_MASTER_KEY_GEN", HNumber 884);
  ("CKM_TLS_MASTER_KEY_DERIVE", HNumber 885);
  ("CKM_TLS_KEY_AND_MAC_DERIVE", HNumber 886);
  ("CKM_TLS_MASTER_KEY_DERIVE_DH", HNumber 887);
  ("CKM_TLS_PRF", HNumber 888);
  ("CKM_SSL3_MD5_MAC", HNumber 896);
  ("CKM_SSL3_SHA1_MAC", HNumber 897);
  ("CKM_MD5_KEY_DERIVATION", HNumber 912);
  ("CKM_MD2_KEY_DERIVATION", HNumber 913);
  ("CKM_SHA1_KEY_DERIVATION", HNumber 914);
  ("CKM_SHA256_KEY_DERIVATION", HNumber 915);
  ("CKM_SHA384_KEY_DERIVATION", HNumber 916);
  ("CKM_SHA512_KEY_DERIVATION", HNumber 917);
  ("CKM_SHA224_KEY_DERIVATION", HNumber 918);
  ("CKM_SHA3_256_KEY_DERIVE", HNumber 919);
  ("CKM_SHA3_224_KEY_DERIVE", HNumber 920);
  ("CKM_SHA3_384_KEY_DERIVE", HNumber 921);
  ("CKM_SHA3_512_KEY_DERIVE", HNumber 922);
  ("CKM_SHAKE_128_KEY_DERIVE", HNumber 923);
  ("CKM_SHAKE_256_KEY_DERIVE", HNumber 924);
  ("CKM_PBE_MD2_DES_CBC", HNumber 928);
  ("CKM_PBE_MD5_DES_CBC", HNumber 929);
  ("CKM_PBE_MD5_CAST_CBC", HNumber 930);
  ("CKM_PBE_MD5_CAST3_CBC", HNumber 931);
  ("CKM_PBE_MD5_CAST5_CBC", HNumber 932);
  ("CKM_PBE_MD5_CAST128_CBC", HNumber 932);
  ("CKM_PBE_SHA1_CAST5_CBC", HNumber 933);
  ("CKM_PBE_SHA1_CAST128_CBC", HNumber 933);
  ("CKM_PBE_SHA1_RC4_128", HNumber 934);
  ("CKM_PBE_SHA1_RC4_40", HNumber 935);
  ("CKM_PBE_SHA1_DES3_EDE_CBC", HNumber 936);
  ("CKM_PBE_SHA1_DES2_EDE_CBC", HNumber 937);
  ("CKM_PBE_SHA1_RC2_128_CBC", HNumber 938);
  ("CKM_PBE_SHA1_RC2_40_CBC", HNumber 939);
  ("CKM_PKCS5_PBKD2", HNumber 944);
  ("CKM_PBA_SHA1_WITH_SHA1_HMAC", HNumber 960);
  ("CKM_WTLS_PRE_MASTER_KEY_GEN", HNumber 976);
  ("CKM_WTLS_MASTER_KEY_DERIVE", HNumber 977);
  ("CKM_WTLS_MASTER_KEY_DERIVE_DH_ECC", HNumber 978);
  ("CKM_WTLS_PRF", HNumber 979);
  ("CKM_WTLS_SERVER_KEY_AND_MAC_DERIVE", HNumber 980);
  ("CKM_WTLS_CLIENT_KEY_AND_MAC_DERIVE", HNumber 981);
  ("CKM_TLS10_MAC_SERVER", HNumber 982);
  ("CKM_TLS10_MAC_CLIENT", HNumber 983);
  ("CKM_TLS12_MAC", HNumber 984);
  ("CKM_TLS12_KDF", HNumber 985);
  ("CKM_TLS12_MASTER_KEY_DERIVE", HNumber 992);
  ("CKM_TLS12_KEY_AND_MAC_DERIVE", HNumber 993);
  ("CKM_TLS12_MASTER_KEY_DERIVE_DH", HNumber 994);
  ("CKM_TLS12_KEY_SAFE_DERIVE", HNumber 995);
  ("CKM_TLS_MAC", HNumber 996);
  ("CKM_TLS_KDF", HNumber 997);
  ("CKM_KEY_WRAP_LYNKS", HNumber 1024);
  ("CKM_KEY_WRAP_SET_OAEP", HNumber 1025);
  ("CKM_CMS_SIG", HNumber 1280);
  ("CKM_KIP_DERIVE", HNumber 1296);
  ("CKM_KIP_WRAP", HNumber 1297);
  ("CKM_KIP_MAC", HNumber 1298);
  ("CKM_CAMELLIA_KEY_GEN", HNumber 1360);
  ("CKM_CAMELLIA_ECB", HNumber 1361);
  ("CKM_CAMELLIA_CBC", HNumber 1362);
  ("CKM_CAMELLIA_MAC", HNumber 1363);
  ("CKM_CAMELLIA_MAC_GENERAL", HNumber 1364);
  ("CKM_CAMELLIA_CBC_PAD", HNumber 1365);
  ("CKM_CAMELLIA_ECB_ENCRYPT_DATA", HNumber 1366);
  ("CKM_CAMELLIA_CBC_ENCRYPT_DATA", HNumber 1367);
  ("CKM_CAMELLIA_CTR", HNumber 1368);
  ("CKM_ARIA_KEY_GEN", HNumber 1376);
  ("CKM_ARIA_ECB", HNumber 1377);
  ("CKM_ARIA_CBC", HNumber 1378);
  ("CKM_ARIA_MAC", HNumber 1379);
  ("CKM_ARIA_MAC_GENERAL", HNumber 1380);
  ("CKM_ARIA_CBC_PAD", HNumber 1381);
  ("CKM_ARIA_ECB_ENCRYPT_DATA", HNumber 1382);
  ("CKM_ARIA_CBC_ENCRYPT_DATA", HNumber 1383);
  ("CKM_SEED_KEY_GEN", HNumber 1616);
  ("CKM_SEED_ECB", HNumber 1617);
  ("CKM_SEED_CBC", HNumber 1618);
  ("CKM_SEED_MAC", HNumber 1619);
  ("CKM_SEED_MAC_GENERAL", HNumber 1620);
  ("CKM_SEED_CBC_PAD", HNumber 1621);
  ("CKM_SEED_ECB_ENCRYPT_DATA", HNumber 1622);
  ("CKM_SEED_CBC_ENCRYPT_DATA", HNumber 1623);
  ("CKM_SKIPJACK_KEY_GEN", HNumber 4096);
  ("CKM_SKIPJACK_ECB64", HNumber 4097);
  ("CKM_SKIPJACK_CBC64", HNumber 4098);
  ("CKM_SKIPJACK_OFB64", HNumber 4099);
  ("CKM_SKIPJACK_CFB64", HNumber 4100);
  ("CKM_SKIPJACK_CFB32", HNumber 4101);
  ("CKM_SKIPJACK_CFB16", HNumber 4102);
  ("CKM_SKIPJACK_CFB8", HNumber 4103);
  ("CKM_SKIPJACK_WRAP", HNumber 4104);
  ("CKM_SKIPJACK_PRIVATE_WRAP", HNumber 4105);
  ("CKM_SKIPJACK_RELAYX", HNumber 4106);
  ("CKM_KEA_KEY_PAIR_GEN", HNumber 4112);
  ("CKM_KEA_KEY_DERIVE", HNumber 4113);
  ("CKM_KEA_DERIVE", HNumber 4114);
  ("CKM_FORTEZZA_TIMESTAMP", HNumber 4128);
  ("CKM_BATON_KEY_GEN", HNumber 4144);
  ("CKM_BATON_ECB128", HNumber 4145);
  ("CKM_BATON_ECB96", HNumber 4146);
  ("CKM_BATON_CBC128", HNumber 4147);
  ("CKM_BATON_COUNTER", HNumber 4148);
  ("CKM_BATON_SHUFFLE", HNumber 4149);
  ("CKM_BATON_WRAP", HNumber 4150);
  ("CKM_ECDSA_KEY_PAIR_GEN", HNumber 4160);
  ("CKM_EC_KEY_PAIR_GEN", HNumber 4160);
  ("CKM_ECDSA", HNumber 4161);
  ("CKM_ECDSA_SHA1", HNumber 4162);
  ("CKM_ECDSA_SHA224", HNumber 4163);
  ("CKM_ECDSA_SHA256", HNumber 4164);
  ("CKM_ECDSA_SHA384", HNumber 4165);
  ("CKM_ECDSA_SHA512", HNumber 4166);
  ("CKM_ECDH1_DERIVE", HNumber 4176);
  ("CKM_ECDH1_COFACTOR_DERIVE", HNumber 4177);
  ("CKM_ECMQV_DERIVE", HNumber 4178);
  ("CKM_ECDH_AES_KEY_WRAP", HNumber 4179);
  ("CKM_RSA_AES_KEY_WRAP", HNumber 4180);
  ("CKM_JUNIPER_KEY_GEN", HNumber 4192);
  ("CKM_JUNIPER_ECB128", HNumber 4193);
  ("CKM_JUNIPER_CBC128", HNumber 4194);
  ("CKM_JUNIPER_COUNTER", HNumber 4195);
  ("CKM_JUNIPER_SHUFFLE", HNumber 4196);
  ("CKM_JUNIPER_WRAP", HNumber 4197);
  ("CKM_FASTHASH", HNumber 4208);
  ("CKM_AES_XTS", HNumber 4209);
  ("CKM_AES_XTS_KEY_GEN", HNumber 4210);
  ("CKM_AES_KEY_GEN", HNumber 4224);
  ("CKM_AES_ECB", HNumber 4225);
  ("CKM_AES_CBC", HNumber 4226);
  ("CKM_AES_MAC", HNumber 4227);
  ("CKM_AES_MAC_GENERAL", HNumber 4228);
  ("CKM_AES_CBC_PAD", HNumber 4229);
  ("CKM_AES_CTR", HNumber 4230);
  ("CKM_AES_GCM", HNumber 4231);
  ("CKM_AES_CCM", HNumber 4232);
  ("CKM_AES_CTS", HNumber 4233);
  ("CKM_AES_CMAC", HNumber 4234);
  ("CKM_AES_CMAC_GENERAL", HNumber 4235);
  ("CKM_AES_XCBC_MAC", HNumber 4236);
  ("CKM_AES_XCBC_MAC_96", HNumber 4237);
  ("CKM_AES_GMAC", HNumber 4238);
  ("CKM_BLOWFISH_KEY_GEN", HNumber 4240);
  ("CKM_BLOWFISH_CBC", HNumber 4241);
  ("CKM_TWOFISH_KEY_GEN", HNumber 4242);
  ("CKM_TWOFISH_CBC", HNumber 4243);
  ("CKM_BLOWFISH_CBC_PAD", HNumber 4244);
  ("CKM_TWOFISH_CBC_PAD", HNumber 4245);
  ("CKM_DES_ECB_ENCRYPT_DATA", HNumber 4352);
  ("CKM_DES_CBC_ENCRYPT_DATA", HNumber 4353);
  ("CKM_DES3_ECB_ENCRYPT_DATA", HNumber 4354);
  ("CKM_DES3_CBC_ENCRYPT_DATA", HNumber 4355);
  ("CKM_AES_ECB_ENCRYPT_DATA", HNumber 4356);
  ("CKM_AES_CBC_ENCRYPT_DATA", HNumber 4357);
  ("CKM_GOSTR3410_KEY_PAIR_GEN", HNumber 4608);
  ("CKM_GOSTR3410", HNumber 4609);
  ("CKM_GOSTR3410_WITH_GOSTR3411", HNumber 4610);
  ("CKM_GOSTR3410_KEY_WRAP", HNumber 4611);
  ("CKM_GOSTR3410_DERIVE", HNumber 4612);
  ("CKM_GOSTR3411", HNumber 4624);
  ("CKM_GOSTR3411_HMAC", HNumber 4625);
  ("CKM_GOST28147_KEY_GEN", HNumber 4640);
  ("CKM_GOST28147_ECB", HNumber 4641);
  ("CKM_GOST28147", HNumber 4642);
  ("CKM_GOST28147_MAC", HNumber 4643);
  ("CKM_GOST28147_KEY_WRAP", HNumber 4644);
  ("CKM_CHACHA20_KEY_GEN", HNumber 4645);
  ("CKM_CHACHA20", HNumber 4646);
  ("CKM_POLY1305_KEY_GEN", HNumber 4647);
  ("CKM_POLY1305", HNumber 4648);
  ("CKM_DSA_PARAMETER_GEN", HNumber 8192);
  ("CKM_DH_PKCS_PARAMETER_GEN", HNumber 8193);
  ("CKM_X9_42_DH_PARAMETER_GEN", HNumber 8194);
  ("CKM_DSA_PROBABLISTIC_PARAMETER_GEN", HNumber 8195);
  ("CKM_DSA_SHAWE_TAYLOR_PARAMETER_GEN", HNumber 8196);
  ("CKM_AES_OFB", HNumber 8452);
  ("CKM_AES_CFB64", HNumber 8453);
  ("CKM_AES_CFB8", HNumber 8454);
  ("CKM_AES_CFB128", HNumber 8455);
  ("CKM_AES_CFB1", HNumber 8456);
  ("CKM_AES_KEY_WRAP", HNumber 8457);
  ("CKM_AES_KEY_WRAP_PAD", HNumber 8458);
  ("CKM_AES_KEY_WRAP_KWP", HNumber 8459);
  ("CKM_RSA_PKCS_TPM_1_1", HNumber 16385);
  ("CKM_RSA_PKCS_OAEP_TPM_1_1", HNumber 16386);
  ("CKM_SHA_1_KEY_GEN", HNumber 16387);
  ("CKM_SHA224_KEY_GEN", HNumber 16388);
  ("CKM_SHA256_KEY_GEN", HNumber 16389);
  ("CKM_SHA384_KEY_GEN", HNumber 16390);
  ("CKM_SHA512_KEY_GEN", HNumber 16391);
  ("CKM_SHA512_224_KEY_GEN", HNumber 16392);
  ("CKM_SHA512_256_KEY_GEN", HNumber 16393);
  ("CKM_SHA512_T_KEY_GEN", HNumber 16394);
  ("CKM_NULL", HNumber 16395);
  ("CKM_BLAKE2B_160", HNumber 16396);
  ("CKM_BLAKE2B_160_HMAC", HNumber 16397);
  ("CKM_BLAKE2B_160_HMAC_GENERAL", HNumber 16398);
  ("CKM_BLAKE2B_160_KEY_DERIVE", HNumber 16399);
  ("CKM_BLAKE2B_160_KEY_GEN", HNumber 16400);
  ("CKM_BLAKE2B_256", HNumber 16401);
  ("CKM_BLAKE2B_256_HMAC", HNumber 16402);
  ("CKM_BLAKE2B_256_HMAC_GENERAL", HNumber 16403);
  ("CKM_BLAKE2B_256_KEY_DERIVE", HNumber 16404);
  ("CKM_BLAKE2B_256_KEY_GEN", HNumber 16405);
  ("CKM_BLAKE2B_384", HNumber 16406);
  ("CKM_BLAKE2B_384_HMAC", HNumber 16407);
  ("CKM_BLAKE2B_384_HMAC_GENERAL", HNumber 16408);
  ("CKM_BLAKE2B_384_KEY_DERIVE", HNumber 16409);
  ("CKM_BLAKE2B_384_KEY_GEN", HNumber 16410);
  ("CKM_BLAKE2B_512", HNumber 16411);
  ("CKM_BLAKE2B_512_HMAC", HNumber 16412);
  ("CKM_BLAKE2B_512_HMAC_GENERAL", HNumber 16413);
  ("CKM_BLAKE2B_512_KEY_DERIVE", HNumber 16414);
  ("CKM_BLAKE2B_512_KEY_GEN", HNumber 16415);
  ("CKM_SALSA20", HNumber 16416);
  ("CKM_CHACHA20_POLY1305", HNumber 16417);
  ("CKM_SALSA20_POLY1305", HNumber 16418);
  ("CKM_X3DH_INITIALIZE", HNumber 16419);
  ("CKM_X3DH_RESPOND", HNumber 16420);
  ("CKM_X2RATCHET_INITIALIZE", HNumber 16421);
  ("CKM_X2RATCHET_RESPOND", HNumber 16422);
  ("CKM_X2RATCHET_ENCRYPT", HNumber 16423);
  ("CKM_X2RATCHET_DECRYPT", HNumber 16424);
  ("CKM_XEDDSA", HNumber 16425);
  ("CKM_HKDF_DERIVE", HNumber 16426);
  ("CKM_HKDF_DATA", HNumber 16427);
  ("CKM_HKDF_KEY_GEN", HNumber 16428);
  ("CKM_ECDSA_SHA3_224", HNumber 4167);
  ("CKM_ECDSA_SHA3_256", HNumber 4168);
  ("CKM_ECDSA_SHA3_384", HNumber 4169);
  ("CKM_ECDSA_SHA3_512", HNumber 4170);
  ("CKM_EC_EDWARDS_KEY_PAIR_GEN", HNumber 4181);
  ("CKM_EC_MONTGOMERY_KEY_PAIR_GEN", HNumber 4182);
  ("CKM_EDDSA", HNumber 4183);
  ("CKM_SP800_108_COUNTER_KDF", HNumber 940);
  ("CKM_SP800_108_FEEDBACK_KDF", HNumber 941);
  ("CKM_SP800_108_DOUBLE_PIPELINE_KDF", HNumber 942);
  ("CKM_VENDOR_DEFINED", HNumber 2147483648);
  ("CKF_HW", HNumber 1);
  ("CKF_MESSAGE_ENCRYPT", HNumber 2);
  ("CKF_MESSAGE_DECRYPT", HNumber 4);
  ("CKF_MESSAGE_SIGN", HNumber 8);
  ("CKF_MESSAGE_VERIFY", HNumber 16);
  ("CKF_MULTI_MESSGE", HNumber 32);
  ("CKF_FIND_OBJECTS", HNumber 64);
  ("CKF_ENCRYPT", HNumber 256);
  ("CKF_DECRYPT", HNumber 512);
  ("CKF_DIGEST", HNumber 1024);
  ("CKF_SIGN", HNumber 2048);
  ("CKF_SIGN_RECOVER", HNumber 4096);
  ("CKF_VERIFY", HNumber 8192);
  ("CKF_VERIFY_RECOVER", HNumber 16384);
  ("CKF_GENERATE", HNumber 32768);
  ("CKF_GENERATE_KEY_PAIR", HNumber 65536);
  ("CKF_WRAP", HNumber 131072);
  ("CKF_UNWRAP", HNumber 262144);
  ("CKF_DERIVE", HNumber 524288);
  ("CKF_EC_F_P", HNumber 1048576);
  ("CKF_EC_F_2M", HNumber 2097152);
  ("CKF_EC_ECPARAMETERS", HNumber 4194304);
  ("CKF_EC_OID", HNumber 8388608);
  ("CKF_EC_NAMEDCURVE", HSame "CKF_EC_OID");
  ("CKF_EC_UNCOMPRESS", HNumber 16777216);
  ("CKF_EC_COMPRESS", HNumber 33554432);
  ("CKF_EC_CURVENAME", HNumber 67108864);
  ("CKF_EXTENSION", HNumber 2147483648);
  ("CKR_OK", HNumber 0);
  ("CKR_CANCEL", HNumber 1);
  ("CKR_HOST_MEMORY", HNumber 2);
  ("CKR_SLOT_ID_INVALID", HNumber 3);
  ("CKR_GENERAL_ERROR", HNumber 5);
  ("CKR_FUNCTION_FAILED", HNumber 6);
  ("CKR_ARGUMENTS_BAD", HNumber 7);
  ("CKR_NO_EVENT", HNumber 8);
  ("CKR_NEED_TO_CREATE_THREADS", HNumber 9);
  ("CKR_CANT_LOCK", HNumber 10);
  ("CKR_ATTRIBUTE_READ_ONLY", HNumber 16);
  ("CKR_ATTRIBUTE_SENSITIVE", HNumber 17);
  ("CKR_ATTRIBUTE_TYPE_INVALID", HNumber 18);
  ("CKR_ATTRIBUTE_VALUE_INVALID", HNumber 19);
  ("CKR_ACTION_PROHIBITED", HNumber 27);
  ("CKR_DATA_INVALID", HNumber 32);
  ("CKR_DATA_LEN_RANGE", HNumber 33);
  ("CKR_DEVICE_ERROR", HNumber 48);
  ("CKR_DEVICE_MEMORY", HNumber 49);
  ("CKR_DEVICE_REMOVED", HNumber 50);
  ("CKR_ENCRYPTED_DATA_INVALID", HNumber 64);
  ("CKR_ENCRYPTED_DATA_LEN_RANGE", HNumber 65);
  ("CKR_AEAD_DECRYPT_FAILED", HNumber 66);
  ("CKR_FUNCTION_CANCELED", HNumber 80);
  ("CKR_FUNCTION_NOT_PARALLEL", HNumber 81);
  ("CKR_FUNCTION_NOT_SUPPORTED", HNumber 84);
  ("CKR_KEY_HANDLE_INVALID", HNumber 96);
  ("CKR_KEY_SIZE_RANGE", HNumber 98);
  ("CKR_KEY_TYPE_INCONSISTENT", HNumber 99);
  ("CKR_KEY_NOT_NEEDED", HNumber 100);
  ("CKR_KEY_CHANGED", HNumber 101);
  ("CKR_KEY_NEEDED", HNumber 102);
  ("CKR_KEY_INDIGESTIBLE", HNumber 103);
  ("CKR_KEY_FUNCTION_NOT_PERMITTED", HNumber 104);
  ("CKR_KEY_NOT_WRAPPABLE", HNumber 105);
  ("CKR_KEY_UNEXTRACTABLE", HNumber 106);
  ("CKR_MECHANISM_INVALID", HNumber 112);
  ("CKR_MECHANISM_PARAM_INVALID", HNumber 113);
  ("CKR_OBJECT_HANDLE_INVALID", HNumber 130);
  ("CKR_OPERATION_ACTIVE", HNumber 144);
  ("CKR_OPERATION_NOT_INITIALIZED", HNumber 145);
  ("CKR_PIN_INCORRECT", HNumber 160);
  ("CKR_PIN_INVALID", HNumber 161);
  ("CKR_PIN_LEN_RANGE", HNumber 162);
  ("CKR_PIN_EXPIRED", HNumber 163);
  ("CKR_PIN_LOCKED", HNumber 164);
  ("CKR_SESSION_CLOSED", HNumber 176);
  ("CKR_SESSION_COUNT", HNumber 177);
  ("CKR_SESSION_HANDLE_INVALID", HNumber 179);
  ("CKR_SESSION_PARALLEL_NOT_SUPPORTED", HNumber 180);
  ("CKR_SESSION_READ_ONLY", HNumber 181);
  ("CKR_SESSION_EXISTS", HNumber 182);
  ("CKR_SESSION_READ_ONLY_EXISTS", HNumber 183);
  ("CKR_SESSION_READ_WRITE_SO_EXISTS", HNumber 184);
  ("CKR_SIGNATURE_INVALID", HNumber 192);
  ("CKR_SIGNATURE_LEN_RANGE", HNumber 193);
  ("CKR_TEMPLATE_INCOMPLETE", HNumber 208);
  ("CKR_TEMPLATE_INCONSISTENT", HNumber 209);
  ("CKR_TOKEN_NOT_PRESENT", HNumber 224);
  ("CKR_TOKEN_NOT_RECOGNIZED", HNumber 225);
  ("CKR_TOKEN_WRITE_PROTECTED", HNumber 226);
  ("CKR_UNWRAPPING_KEY_HANDLE_INVALID", HNumber 240);
  ("CKR_UNWRAPPING_KEY_SIZE_RANGE", HNumber 241);
  ("CKR_UNWRAPPING_KEY_TYPE_INCONSISTENT", HNumber 242);
  ("CKR_USER_ALREADY_LOGGED_IN", HNumber 256);
  ("CKR_USER_NOT_LOGGED_IN", HNumber 257);
  ("CKR_USER_PIN_NOT_INITIALIZED", HNumber 258);
  ("CKR_USER_TYPE_INVALID", HNumber 259);
  ("CKR_USER_ANOTHER_ALREADY_LOGGED_IN", HNumber 260);
  ("CKR_USER_TOO_MANY_TYPES", HNumber 261);
  ("CKR_WRAPPED_KEY_INVALID", HNumber 272);
  ("CKR_WRAPPED_KEY_LEN_RANGE", HNumber 274);
  ("CKR_WRAPPING_KEY_HANDLE_INVALID", HNumber 275);
  ("CKR_WRAPPING_KEY_SIZE_RANGE", HNumber 276);
  ("CKR_WRAPPING_KEY_TYPE_INCONSISTENT", HNumber 277);
  ("CKR_RANDOM_SEED_NOT_SUPPORTED", HNumber 288);
  ("CKR_RANDOM_NO_RNG", HNumber 289);
  ("CKR_DOMAIN_PARAMS_INVALID", HNumber 304);
  ("CKR_CURVE_NOT_SUPPORTED", HNumber 320);
  ("CKR_BUFFER_TOO_SMALL", HNumber 336);
  ("CKR_SAVED_STATE_INVALID", HNumber 352);
  ("CKR_INFORMATION_SENSITIVE", HNumber 368);
  ("CKR_STATE_UNSAVEABLE", HNumber 384);
  ("CKR_CRYPTOKI_NOT_INITIALIZED", HNumber 400);
  ("CKR_CRYPTOKI_ALREADY_INITIALIZED", HNumber 401);
  ("CKR_MUTEX_BAD", HNumber 416);
  ("CKR_MUTEX_NOT_LOCKED", HNumber 417);
  ("CKR_NEW_PIN_MODE", HNumber 432);
  ("CKR_NEXT_OTP", HNumber 433);
  ("CKR_EXCEEDED_MAX_ITERATIONS", HNumber 437);
  ("CKR_FIPS_SELF_TEST_FAILED", HNumber 438);
  ("CKR_LIBRARY_LOAD_FAILED", HNumber 439);
  ("CKR_PIN_TOO_WEAK", HNumber 440);
  ("CKR_PUBLIC_KEY_INVALID", HNumber 441);
  ("CKR_FUNCTION_REJECTED", HNumber 512);
  ("CKR_TOKEN_RESOURCE_EXCEEDED", HNumber 513);
  ("CKR_VENDOR_DEFINED", HNumber 2147483648);
  ("CKF_END_OF_MESSAGE", HNumber 1);
  ("CKF_INTERFACE_FORK_SAFE", HNumber 1);
  ("CKF_LIBRARY_CANT_CREATE_OS_THREADS", HNumber 1);
  ("CKF_OS_LOCKING_OK", HNumber 2);
  ("CKF_DONT_BLOCK", HNumber 1);
  ("CKG_MGF1_SHA1", HNumber 1);
  ("CKG_MGF1_SHA256", HNumber 2);
  ("CKG_MGF1_SHA384", HNumber 3);
  ("CKG_MGF1_SHA512", HNumber 4);
  ("CKG_MGF1_SHA224", HNumber 5);
  ("CKZ_DATA_SPECIFIED", HNumber 1);
  ("CKD_NULL", HNumber 1);
  ("CKD_SHA1_KDF", HNumber 2);
  ("CKD_SHA1_KDF_ASN1", HNumber 3);
  ("CKD_SHA1_KDF_CONCATENATE", HNumber 4);
  ("CKD_SHA224_KDF", HNumber 5);
  ("CKD_SHA256_KDF", HNumber 6);
  ("CKD_SHA384_KDF", HNumber 7);
  ("CKD_SHA512_KDF", HNumber 8);
  ("CKD_CPDIVERSIFY_KDF", HNumber 9);
  ("CKD_SHA3_224_KDF", HNumber 10);
  ("CKD_SHA3_256_KDF", HNumber 11);
  ("CKD_SHA3_384_KDF", HNumber 12);
  ("CKD_SHA3_512_KDF", HNumber 13);
  ("CKD_SHA1_KDF_SP800", HNumber 14);
  ("CKD_SHA224_KDF_SP800", HNumber 15);
  ("CKD_SHA256_KDF_SP800", HNumber 16);
  ("CKD_SHA384_KDF_SP800", HNumber 17);
  ("CKD_SHA512_KDF_SP800", HNumber 18);
  ("CKD_SHA3_224_KDF_SP800", HNumber 19);
  ("CKD_SHA3_256_KDF_SP800", HNumber 20);
  ("CKD_SHA3_384_KDF_SP800", HNumber 21);
  ("CKD_SHA3_512_KDF_SP800", HNumber 22);
  ("CKD_BLAKE2B_160_KDF", HNumber 23);
  ("CKD_BLAKE2B_256_KDF", HNumber 24);
  ("CKD_BLAKE2B_384_KDF", HNumber 25);
  ("CKD_BLAKE2B_512_KDF", HNumber 26);
  ("CKP_PKCS5_PBKD2_HMAC_SHA1", HNumber 1);
  ("CKP_PKCS5_PBKD2_HMAC_GOSTR3411", HNumber 2);
  ("CKP_PKCS5_PBKD2_HMAC_SHA224", HNumber 3);
  ("CKP_PKCS5_PBKD2_HMAC_SHA256", HNumber 4);
  ("CKP_PKCS5_PBKD2_HMAC_SHA384", HNumber 5);
  ("CKP_PKCS5_PBKD2_HMAC_SHA512", HNumber 6);
  ("CKP_PKCS5_PBKD2_HMAC_SHA512_224", HNumber 7);
  ("CKP_PKCS5_PBKD2_HMAC_SHA512_256", HNumber 8);
  ("CKZ_SALT_SPECIFIED", HNumber 1);
  ("CK_OTP_VALUE", HNumber 0);
  ("CK_OTP_PIN", HNumber 1);
  ("CK_OTP_CHALLENGE", HNumber 2);
  ("CK_OTP_TIME", HNumber 3);
  ("CK_OTP_COUNTER", HNumber 4);
  ("CK_OTP_FLAGS", HNumber 5);
  ("CK_OTP_OUTPUT_LENGTH", HNumber 6);
  ("CK_OTP_OUTPUT_FORMAT", HNumber 7);
  ("CKF_NEXT_OTP", HNumber 1);
  ("CKF_EXCLUDE_TIME", HNumber 2);
  ("CKF_EXCLUDE_COUNTER", HNumber 4);
  ("CKF_EXCLUDE_CHALLENGE", HNumber 8);
  ("CKF_EXCLUDE_PIN", HNumber 16);
  ("CKF_USER_FRIENDLY_OTP", HNumber 32);
  ("CKG_NO_GENERATE", HNumber 0);
  ("CKG_GENERATE", HNumber 1);
  ("CKG_GENERATE_COUNTER", HNumber 2);
  ("CKG_GENERATE_RANDOM", HNumber 3);
  ("CK_SP800_108_ITERATION_VARIABLE", HNumber 1);
  ("CK_SP800_108_OPTIONAL_COUNTER", HNumber 2);
  ("CK_SP800_108_DKM_LENGTH", HNumber 3);
  ("CK_SP800_108_BYTE_ARRAY", HNumber 4);
  ("CKF_HKDF_SALT_NULL", HNumber 1);
  ("CKF_HKDF_SALT_DATA", HNumber 2);
  ("CKF_HKDF_SALT_KEY", HNumber 4)
].

(** An enumeration: its name, its underlying type, its enumerators in order. Enums.hpp 60-1515. *)
Record enumeration := Enumeration { en_name : string; en_width : width; en_rows : list (string * evalue) }.

(** Enums.hpp 60-65. *)
Definition enum_Version := Enumeration "Version" Eight [
  ("MAJOR", EConstant "CRYPTOKI_VERSION_MAJOR");
  ("MINOR", EConstant "CRYPTOKI_VERSION_MINOR");
  ("AMENDMENT", EConstant "CRYPTOKI_VERSION_AMENDMENT")
].
(** Enums.hpp 70-74. *)
Definition enum_Bool := Enumeration "Bool" Eight [
  ("OASIS_TRUE", EConstant "CK_TRUE");
  ("OASIS_FALSE", EConstant "CK_FALSE")
].
(** Enums.hpp 79-87. *)
Definition enum_SpecialValue := Enumeration "SpecialValue" Long [
  ("UNAVAILABLE_INFORMATION", EConstant "CK_UNAVAILABLE_INFORMATION");
  ("EFFECTIVELY_INFINITE", EConstant "CK_EFFECTIVELY_INFINITE");
  ("INVALID_HANDLE", EConstant "CK_INVALID_HANDLE")
].
(** Enums.hpp 93-97. *)
Definition enum_Notification := Enumeration "Notification" Long [
  ("SURRENDER", EConstant "CKN_SURRENDER");
  ("OTP_CHANGED", EConstant "CKN_OTP_CHANGED")
].
(** Enums.hpp 102-112. *)
Definition enum_SlotFlags := Enumeration "SlotFlags" Long [
  ("TOKEN_PRESENT", EConstant "CKF_TOKEN_PRESENT");
  ("REMOVABLE_DEVICE", EConstant "CKF_REMOVABLE_DEVICE");
  ("HW_SLOT", EConstant "CKF_HW_SLOT")
].
(** Enums.hpp 118-207. *)
Definition enum_TokenInfoFlags := Enumeration "TokenInfoFlags" Long [
  ("RNG", EConstant "CKF_RNG");
  ("WRITE_PROTECTED", EConstant "CKF_WRITE_PROTECTED");
  ("LOGIN_REQUIRED", EConstant "CKF_LOGIN_REQUIRED");
  ("USER_PIN_INITIALIZED", EConstant "CKF_USER_PIN_INITIALIZED");
  ("RESTORE_KEY_NOT_NEEDED", EConstant "CKF_RESTORE_KEY_NOT_NEEDED");
  ("CLOCK_ON_TOKEN", EConstant "CKF_CLOCK_ON_TOKEN");
  ("PROTECTED_AUTHENTICATION_PATH", EConstant "CKF_PROTECTED_AUTHENTICATION_PATH");
  ("DUAL_CRYPTO_OPERATIONS", EConstant "CKF_DUAL_CRYPTO_OPERATIONS");
  ("TOKEN_INITIALIZED", EConstant "CKF_TOKEN_INITIALIZED");
  ("SECONDARY_AUTHENTICATION", EConstant "CKF_SECONDARY_AUTHENTICATION");
  ("USER_PIN_COUNT_LOW", EConstant "CKF_USER_PIN_COUNT_LOW");
  ("USER_PIN_FINAL_TRY", EConstant "CKF_USER_PIN_FINAL_TRY");
  ("USER_PIN_LOCKED", EConstant "CKF_USER_PIN_LOCKED");
  ("USER_PIN_TO_BE_CHANGED", EConstant "CKF_USER_PIN_TO_BE_CHANGED");
  ("SO_PIN_COUNT_LOW", EConstant "CKF_SO_PIN_COUNT_LOW");
  ("SO_PIN_FINAL_TRY", EConstant "CKF_SO_PIN_FINAL_TRY");
  ("SO_PIN_LOCKED", EConstant "CKF_SO_PIN_LOCKED");
  ("SO_PIN_TO_BE_CHANGED", EConstant "CKF_SO_PIN_TO_BE_CHANGED");
  ("ERROR_STATE", EConstant "CKF_ERROR_STATE")
].
(** Enums.hpp 213-223. *)
Definition enum_User := Enumeration "User" Long [
  ("SECURITY_OFFICER", EConstant "CKU_SO");
  ("USER", EConstant "CKU_USER");
  ("CONTEXT_SPECIFIC", EConstant "CKU_CONTEXT_SPECIFIC")
].
(** Enums.hpp 228-244. *)
Definition enum_State := Enumeration "State" Long [
  ("RO_PUBLIC_SESSION", EConstant "CKS_RO_PUBLIC_SESSION");
  ("RO_USER_FUNCTIONS", EConstant "CKS_RO_USER_FUNCTIONS");
  ("RW_PUBLIC_SESSION", EConstant "CKS_RW_PUBLIC_SESSION");
  ("RW_USER_FUNCTIONS", EConstant "CKS_RW_USER_FUNCTIONS");
  ("RW_SO_FUNCTIONS", EConstant "CKS_RW_SO_FUNCTIONS")
].
(** Enums.hpp 249-256. *)
Definition enum_SessionFlags := Enumeration "SessionFlags" Long [
  ("RW_SESSION", EConstant "CKF_RW_SESSION");
  ("SERIAL_SESSION", EConstant "CKF_SERIAL_SESSION")
].
(** Enums.hpp 262-278. *)
Definition enum_ObjectClass := Enumeration "ObjectClass" Long [
  ("DATA", EConstant "CKO_DATA");
  ("CERTIFICATE", EConstant "CKO_CERTIFICATE");
  ("PUBLIC_KEY", EConstant "CKO_PUBLIC_KEY");
  ("PRIVATE_KEY", EConstant "CKO_PRIVATE_KEY");
  ("SECRET_KEY", EConstant "CKO_SECRET_KEY");
  ("HW_FEATURE", EConstant "CKO_HW_FEATURE");
  ("DOMAIN_PARAMETERS", EConstant "CKO_DOMAIN_PARAMETERS");
  ("MECHANISM", EConstant "CKO_MECHANISM");
  ("OTP_KEY", EConstant "CKO_OTP_KEY");
  ("PROFILE", EConstant "CKO_PROFILE");
  ("VENDOR_DEFINED", EConstant "CKO_VENDOR_DEFINED")
].
(** Enums.hpp 282-290. *)
Definition enum_ProfileId := Enumeration "ProfileId" Long [
  ("INVALID_ID", EConstant "CKP_INVALID_ID");
  ("BASELINE_PROVIDER", EConstant "CKP_BASELINE_PROVIDER");
  ("EXTENDED_PROVIDER", EConstant "CKP_EXTENDED_PROVIDER");
  ("AUTHENTICATION_TOKEN", EConstant "CKP_AUTHENTICATION_TOKEN");
  ("PUBLIC_CERTIFICATES_TOKEN", EConstant "CKP_PUBLIC_CERTIFICATES_TOKEN");
  ("VENDOR_DEFINED", EConstant "CKP_VENDOR_DEFINED")
].
(** Enums.hpp 295-301. *)
Definition enum_HardwareFeature := Enumeration "HardwareFeature" Long [
  ("MONOTONIC_COUNTER", EConstant "CKH_MONOTONIC_COUNTER");
  ("CLOCK", EConstant "CKH_CLOCK");
  ("USER_INTERFACE", EConstant "CKH_USER_INTERFACE");
  ("VENDOR_DEFINED", EConstant "CKH_VENDOR_DEFINED")
].
(** Enums.hpp 305-372. *)
Definition enum_Key := Enumeration "Key" Long [
  ("RSA", EConstant "CKK_RSA");
  ("DSA", EConstant "CKK_DSA");
  ("DH", EConstant "CKK_DH");
  ("EC", EConstant "CKK_EC");
  ("X9_42_DH", EConstant "CKK_X9_42_DH");
  ("KEA", EConstant "CKK_KEA");
  ("GENERIC_SECRET", EConstant "CKK_GENERIC_SECRET");
  ("RC2", EConstant "CKK_RC2");
  ("RC4", EConstant "CKK_RC4");
  ("DES", EConstant "CKK_DES");
  ("DES2", EConstant "CKK_DES2");
  ("DES3", EConstant "CKK_DES3");
  ("CAST", EConstant "CKK_CAST");
  ("CAST3", EConstant "CKK_CAST3");
  ("CAST128", EConstant "CKK_CAST128");
  ("RC5", EConstant "CKK_RC5");
  ("IDEA", EConstant "CKK_IDEA");
  ("SKIPJACK", EConstant "CKK_SKIPJACK");
  ("BATON", EConstant "CKK_BATON");
  ("JUNIPER", EConstant "CKK_JUNIPER");
  ("CDMF", EConstant "CKK_CDMF");
  ("AES", EConstant "CKK_AES");
  ("BLOWFISH", EConstant "CKK_BLOWFISH");
  ("TWOFISH", EConstant "CKK_TWOFISH");
  ("SECURID", EConstant "CKK_SECURID");
  ("HOTP", EConstant "CKK_HOTP");
  ("ACTI", EConstant "CKK_ACTI");
  ("CAMELLIA", EConstant "CKK_CAMELLIA");
  ("ARIA", EConstant "CKK_ARIA");
  ("MD5_HMAC", EConstant "CKK_MD5_HMAC");
  ("SHA_1_HMAC", EConstant "CKK_SHA_1_HMAC");
  ("RIPEMD128_HMAC", EConstant "CKK_RIPEMD128_HMAC");
  ("RIPEMD160_HMAC", EConstant "CKK_RIPEMD160_HMAC");
  ("SHA256_HMAC", EConstant "CKK_SHA256_HMAC");
  ("SHA384_HMAC", EConstant "CKK_SHA384_HMAC");
  ("SHA512_HMAC", EConstant "CKK_SHA512_HMAC");
  ("SHA224_HMAC", EConstant "CKK_SHA224_HMAC");
  ("SEED", EConstant "CKK_SEED");
  ("GOSTR3410", EConstant "CKK_GOSTR3410");
  ("GOSTR3411", EConstant "CKK_GOSTR3411");
  ("GOST28147", EConstant "CKK_GOST28147");
  ("CHACHA20", EConstant "CKK_CHACHA20");
  ("POLY1305", EConstant "CKK_POLY1305");
  ("AES_XTS", EConstant "CKK_AES_XTS");
  ("SHA3_224_HMAC", EConstant "CKK_SHA3_224_HMAC");
  ("SHA3_256_HMAC", EConstant "CKK_SHA3_256_HMAC");
  ("SHA3_384_HMAC", EConstant "CKK_SHA3_384_HMAC");
  ("SHA3_512_HMAC", EConstant "CKK_SHA3_512_HMAC");
  ("BLAKE2B_160_HMAC", EConstant "CKK_BLAKE2B_160_HMAC");
  ("BLAKE2B_256_HMAC", EConstant "CKK_BLAKE2B_256_HMAC");
  ("BLAKE2B_384_HMAC", EConstant "CKK_BLAKE2B_384_HMAC");
  ("BLAKE2B_512_HMAC", EConstant "CKK_BLAKE2B_512_HMAC");
  ("SALSA20", EConstant "CKK_SALSA20");
  ("X2RATCHET", EConstant "CKK_X2RATCHET");
  ("EC_EDWARDS", EConstant "CKK_EC_EDWARDS");
  ("EC_MONTGOMERY", EConstant "CKK_EC_MONTGOMERY");
  ("HKDF", EConstant "CKK_HKDF");
  ("VENDOR_DEFINED", EConstant "CKK_VENDOR_DEFINED")
].
(** Enums.hpp 377-383. *)
Definition enum_CertificateCategory := Enumeration "CertificateCategory" Long [
  ("UNSPECIFIED", EConstant "CK_CERTIFICATE_CATEGORY_UNSPECIFIED");
  ("TOKEN_USER", EConstant "CK_CERTIFICATE_CATEGORY_TOKEN_USER");
  ("AUTHORITY", EConstant "CK_CERTIFICATE_CATEGORY_AUTHORITY");
  ("OTHER_ENTITY", EConstant "CK_CERTIFICATE_CATEGORY_OTHER_ENTITY")
].
(** Enums.hpp 388-394. *)
Definition enum_SecurityDomain := Enumeration "SecurityDomain" Long [
  ("UNSPECIFIED", EConstant "CK_SECURITY_DOMAIN_UNSPECIFIED");
  ("MANUFACTURER", EConstant "CK_SECURITY_DOMAIN_MANUFACTURER");
  ("OPERATOR", EConstant "CK_SECURITY_DOMAIN_OPERATOR");
  ("THIRD_PARTY", EConstant "CK_SECURITY_DOMAIN_THIRD_PARTY")
].
(** Enums.hpp 399-405. *)
Definition enum_Certificate := Enumeration "Certificate" Long [
  ("X_509", EConstant "CKC_X_509");
  ("X_509_ATTR_CERT", EConstant "CKC_X_509_ATTR_CERT");
  ("WTLS", EConstant "CKC_WTLS");
  ("VENDOR_DEFINED", EConstant "CKC_VENDOR_DEFINED")
].
(** Enums.hpp 410-413. *)
Definition enum_AttributeFlags := Enumeration "AttributeFlags" Long [
  ("ARRAY_ATTRIBUTE", EConstant "CKF_ARRAY_ATTRIBUTE")
].
(** Enums.hpp 419-425. *)
Definition enum_OtpFormat := Enumeration "OtpFormat" Long [
  ("DECIMAL", EConstant "CK_OTP_FORMAT_DECIMAL");
  ("HEXADECIMAL", EConstant "CK_OTP_FORMAT_HEXADECIMAL");
  ("ALPHANUMERIC", EConstant "CK_OTP_FORMAT_ALPHANUMERIC");
  ("BINARY", EConstant "CK_OTP_FORMAT_BINARY")
].
(** Enums.hpp 430-435. *)
Definition enum_OtpParamAttributes := Enumeration "OtpParamAttributes" Long [
  ("PARAM_IGNORED", EConstant "CK_OTP_PARAM_IGNORED");
  ("PARAM_OPTIONAL", EConstant "CK_OTP_PARAM_OPTIONAL");
  ("PARAM_MANDATORY", EConstant "CK_OTP_PARAM_MANDATORY")
].
(** Enums.hpp 440-572. *)
Definition enum_Attribute := Enumeration "Attribute" Long [
  ("CLASS", EConstant "CKA_CLASS");
  ("TOKEN", EConstant "CKA_TOKEN");
  ("PRIVATE", EConstant "CKA_PRIVATE");
  ("LABEL", EConstant "CKA_LABEL");
  ("UNIQUE_ID", EConstant "CKA_UNIQUE_ID");
  ("APPLICATION", EConstant "CKA_APPLICATION");
  ("VALUE", EConstant "CKA_VALUE");
  ("OBJECT_ID", EConstant "CKA_OBJECT_ID");
  ("CERTIFICATE_TYPE", EConstant "CKA_CERTIFICATE_TYPE");
  ("ISSUER", EConstant "CKA_ISSUER");
  ("SERIAL_NUMBER", EConstant "CKA_SERIAL_NUMBER");
  ("AC_ISSUER", EConstant "CKA_AC_ISSUER");
  ("OWNER", EConstant "CKA_OWNER");
  ("ATTR_TYPES", EConstant "CKA_ATTR_TYPES");
  ("TRUSTED", EConstant "CKA_TRUSTED");
  ("CERTIFICATE_CATEGORY", EConstant "CKA_CERTIFICATE_CATEGORY");
  ("JAVA_MIDP_SECURITY_DOMAIN", EConstant "CKA_JAVA_MIDP_SECURITY_DOMAIN");
  ("URL", EConstant "CKA_URL");
  ("HASH_OF_SUBJECT_PUBLIC_KEY", EConstant "CKA_HASH_OF_SUBJECT_PUBLIC_KEY");
  ("HASH_OF_ISSUER_PUBLIC_KEY", EConstant "CKA_HASH_OF_ISSUER_PUBLIC_KEY");
  ("NAME_HASH_ALGORITHM", EConstant "CKA_NAME_HASH_ALGORITHM");
  ("CHECK_VALUE", EConstant "CKA_CHECK_VALUE");
  ("KEY_TYPE", EConstant "CKA_KEY_TYPE");
  ("SUBJECT", EConstant "CKA_SUBJECT");
  ("ID", EConstant "CKA_ID");
  ("SENSITIVE", EConstant "CKA_SENSITIVE");
  ("ENCRYPT", EConstant "CKA_ENCRYPT");
  ("DECRYPT", EConstant "CKA_DECRYPT");
  ("WRAP", EConstant "CKA_WRAP");
  ("UNWRAP", EConstant "CKA_UNWRAP");
  ("SIGN", EConstant "CKA_SIGN");
  ("SIGN_RECOVER", EConstant "CKA_SIGN_RECOVER");
  ("VERIFY", EConstant "CKA_VERIFY");
  ("VERIFY_RECOVER", EConstant "CKA_VERIFY_RECOVER");
  ("DERIVE", EConstant "CKA_DERIVE");
  ("START_DATE", EConstant "CKA_START_DATE");
  ("END_DATE", EConstant "CKA_END_DATE");
  ("MODULUS", EConstant "CKA_MODULUS");
  ("MODULUS_BITS", EConstant "CKA_MODULUS_BITS");
  ("PUBLIC_EXPONENT", EConstant "CKA_PUBLIC_EXPONENT");
  ("PRIVATE_EXPONENT", EConstant "CKA_PRIVATE_EXPONENT");
  ("PRIME_1", EConstant "CKA_PRIME_1");
  ("PRIME_2", EConstant "CKA_PRIME_2");
  ("EXPONENT_1", EConstant "CKA_EXPONENT_1");
  ("EXPONENT_2", EConstant "CKA_EXPONENT_2");
  ("COEFFICIENT", EConstant "CKA_COEFFICIENT");
  ("PUBLIC_KEY_INFO", EConstant "CKA_PUBLIC_KEY_INFO");
  ("PRIME", EConstant "CKA_PRIME");
  ("SUBPRIME", EConstant "CKA_SUBPRIME");
  ("BASE", EConstant "CKA_BASE");
  ("PRIME_BITS", EConstant "CKA_PRIME_BITS");
  ("SUBPRIME_BITS", EConstant "CKA_SUBPRIME_BITS");
  ("SUB_PRIME_BITS", EConstant "CKA_SUB_PRIME_BITS");
  ("VALUE_BITS", EConstant "CKA_VALUE_BITS");
  ("VALUE_LEN", EConstant "CKA_VALUE_LEN");
  ("EXTRACTABLE", EConstant "CKA_EXTRACTABLE");
  ("LOCAL", EConstant "CKA_LOCAL");
  ("NEVER_EXTRACTABLE", EConstant "CKA_NEVER_EXTRACTABLE");
  ("ALWAYS_SENSITIVE", EConstant "CKA_ALWAYS_SENSITIVE");
  ("KEY_GEN_MECHANISM", EConstant "CKA_KEY_GEN_MECHANISM");
  ("MODIFIABLE", EConstant "CKA_MODIFIABLE");
  ("COPYABLE", EConstant "CKA_COPYABLE");
  ("DESTROYABLE", EConstant "CKA_DESTROYABLE");
  ("EC_PARAMS", EConstant "CKA_EC_PARAMS");
  ("EC_POINT", EConstant "CKA_EC_POINT");
  ("ALWAYS_AUTHENTICATE", EConstant "CKA_ALWAYS_AUTHENTICATE");
  ("WRAP_WITH_TRUSTED", EConstant "CKA_WRAP_WITH_TRUSTED");
  ("WRAP_TEMPLATE", EConstant "CKA_WRAP_TEMPLATE");
  ("UNWRAP_TEMPLATE", EConstant "CKA_UNWRAP_TEMPLATE");
  ("DERIVE_TEMPLATE", EConstant "CKA_DERIVE_TEMPLATE");
  ("OTP_FORMAT", EConstant "CKA_OTP_FORMAT");
  ("OTP_LENGTH", EConstant "CKA_OTP_LENGTH");
  ("OTP_TIME_INTERVAL", EConstant "CKA_OTP_TIME_INTERVAL");
  ("OTP_USER_FRIENDLY_MODE", EConstant "CKA_OTP_USER_FRIENDLY_MODE");
  ("OTP_CHALLENGE_REQUIREMENT", EConstant "CKA_OTP_CHALLENGE_REQUIREMENT");
  ("OTP_TIME_REQUIREMENT", EConstant "CKA_OTP_TIME_REQUIREMENT");
  ("OTP_COUNTER_REQUIREMENT", EConstant "CKA_OTP_COUNTER_REQUIREMENT");
  ("OTP_PIN_REQUIREMENT", EConstant "CKA_OTP_PIN_REQUIREMENT");
  ("OTP_COUNTER", EConstant "CKA_OTP_COUNTER");
  ("OTP_TIME", EConstant "CKA_OTP_TIME");
  ("OTP_USER_IDENTIFIER", EConstant "CKA_OTP_USER_IDENTIFIER");
  ("OTP_SERVICE_IDENTIFIER", EConstant "CKA_OTP_SERVICE_IDENTIFIER");
  ("OTP_SERVICE_LOGO", EConstant "CKA_OTP_SERVICE_LOGO");
  ("OTP_SERVICE_LOGO_TYPE", EConstant "CKA_OTP_SERVICE_LOGO_TYPE");
  ("GOSTR3410_PARAMS", EConstant "CKA_GOSTR3410_PARAMS");
  ("GOSTR3411_PARAMS", EConstant "CKA_GOSTR3411_PARAMS");
  ("GOST28147_PARAMS", EConstant "CKA_GOST28147_PARAMS");
  ("HW_FEATURE_TYPE", EConstant "CKA_HW_FEATURE_TYPE");
  ("RESET_ON_INIT", EConstant "CKA_RESET_ON_INIT");
  ("HAS_RESET", EConstant "CKA_HAS_RESET");
  ("PIXEL_X", EConstant "CKA_PIXEL_X");
  ("PIXEL_Y", EConstant "CKA_PIXEL_Y");
  ("RESOLUTION", EConstant "CKA_RESOLUTION");
  ("CHAR_ROWS", EConstant "CKA_CHAR_ROWS");
  ("CHAR_COLUMNS", EConstant "CKA_CHAR_COLUMNS");
  ("COLOR", EConstant "CKA_COLOR");
  ("BITS_PER_PIXEL", EConstant "CKA_BITS_PER_PIXEL");
  ("CHAR_SETS", EConstant "CKA_CHAR_SETS");
  ("ENCODING_METHODS", EConstant "CKA_ENCODING_METHODS");
  ("MIME_TYPES", EConstant "CKA_MIME_TYPES");
  ("MECHANISM_TYPE", EConstant "CKA_MECHANISM_TYPE");
  ("REQUIRED_CMS_ATTRIBUTES", EConstant "CKA_REQUIRED_CMS_ATTRIBUTES");
  ("DEFAULT_CMS_ATTRIBUTES", EConstant "CKA_DEFAULT_CMS_ATTRIBUTES");
  ("SUPPORTED_CMS_ATTRIBUTES", EConstant "CKA_SUPPORTED_CMS_ATTRIBUTES");
  ("ALLOWED_MECHANISMS", EConstant "CKA_ALLOWED_MECHANISMS");
  ("PROFILE_ID", EConstant "CKA_PROFILE_ID");
  ("VENDOR_DEFINED", EConstant "CKA_VENDOR_DEFINED")
].
(** Enums.hpp 577-1153. *)
Definition enum_Mechanism := Enumeration "Mechanism" Long [
  ("RSA_PKCS_KEY_PAIR_GEN", EConstant "CKM_RSA_PKCS_KEY_PAIR_GEN");
  ("RSA_PKCS", EConstant "CKM_RSA_PKCS");
  ("RSA_9796", EConstant "CKM_RSA_9796");
  ("RSA_X_509", EConstant "CKM_RSA_X_509");
  ("MD2_RSA_PKCS", EConstant "CKM_MD2_RSA_PKCS");
  ("MD5_RSA_PKCS", EConstant "CKM_MD5_RSA_PKCS");
  ("SHA1_RSA_PKCS", EConstant "CKM_SHA1_RSA_PKCS");
  ("RIPEMD128_RSA_PKCS", EConstant "CKM_RIPEMD128_RSA_PKCS");
  ("RIPEMD160_RSA_PKCS", EConstant "CKM_RIPEMD160_RSA_PKCS");
  ("RSA_PKCS_OAEP", EConstant "CKM_RSA_PKCS_OAEP");
  ("RSA_X9_31_KEY_PAIR_GEN", EConstant "CKM_RSA_X9_31_KEY_PAIR_GEN");
  ("RSA_X9_31", EConstant "CKM_RSA_X9_31");
  ("SHA1_RSA_X9_31", EConstant "CKM_SHA1_RSA_X9_31");
  ("RSA_PKCS_PSS", EConstant "CKM_RSA_PKCS_PSS");
  ("SHA1_RSA_PKCS_PSS", EConstant "CKM_SHA1_RSA_PKCS_PSS");
  ("DSA_KEY_PAIR_GEN", EConstant "CKM_DSA_KEY_PAIR_GEN");
  ("DSA", EConstant "CKM_DSA");
  ("DSA_SHA1", EConstant "CKM_DSA_SHA1");
  ("DSA_SHA224", EConstant "CKM_DSA_SHA224");
  ("DSA_SHA256", EConstant "CKM_DSA_SHA256");
  ("DSA_SHA384", EConstant "CKM_DSA_SHA384");
  ("DSA_SHA512", EConstant "CKM_DSA_SHA512");
  ("DSA_SHA3_224", EConstant "CKM_DSA_SHA3_224");
  ("DSA_SHA3_256", EConstant "CKM_DSA_SHA3_256");
  ("DSA_SHA3_384", EConstant "CKM_DSA_SHA3_384");
  ("DSA_SHA3_512", EConstant "CKM_DSA_SHA3_512");
  ("DH_PKCS_KEY_PAIR_GEN", EConstant "CKM_DH_PKCS_KEY_PAIR_GEN");
  ("DH_PKCS_DERIVE", EConstant "CKM_DH_PKCS_DERIVE");
  ("X9_42_DH_KEY_PAIR_GEN", EConstant "CKM_X9_42_DH_KEY_PAIR_GEN");
  ("X9_42_DH_DERIVE", EConstant "CKM_X9_42_DH_DERIVE");
  ("X9_42_DH_HYBRID_DERIVE", EConstant "CKM_X9_42_DH_HYBRID_DERIVE");
  ("X9_42_MQV_DERIVE", EConstant "CKM_X9_42_MQV_DERIVE");
  ("SHA256_RSA_PKCS", EConstant "CKM_SHA256_RSA_PKCS");
  ("SHA384_RSA_PKCS", EConstant "CKM_SHA384_RSA_PKCS");
  ("SHA512_RSA_PKCS", EConstant "CKM_SHA512_RSA_PKCS");
  ("SHA256_RSA_PKCS_PSS", EConstant "CKM_SHA256_RSA_PKCS_PSS");
  ("SHA384_RSA_PKCS_PSS", EConstant "CKM_SHA384_RSA_PKCS_PSS");
  ("SHA512_RSA_PKCS_PSS", EConstant "CKM_SHA512_RSA_PKCS_PSS");
  ("SHA224_RSA_PKCS", EConstant "CKM_SHA224_RSA_PKCS");
  ("SHA224_RSA_PKCS_PSS", EConstant "CKM_SHA224_RSA_PKCS_PSS");
  ("SHA512_224", EConstant "CKM_SHA512_224");
  ("SHA512_224_HMAC", EConstant "CKM_SHA512_224_HMAC");
  ("SHA512_224_HMAC_GENERAL", EConstant "CKM_SHA512_224_HMAC_GENERAL");
  ("SHA512_224_KEY_DERIVATION", EConstant "CKM_SHA512_224_KEY_DERIVATION");
  ("SHA512_256", EConstant "CKM_SHA512_256");
  ("SHA512_256_HMAC", EConstant "CKM_SHA512_256_HMAC");
  ("SHA512_256_HMAC_GENERAL", EConstant "CKM_SHA512_256_HMAC_GENERAL");
  ("SHA512_256_KEY_DERIVATION", EConstant "CKM_SHA512_256_KEY_DERIVATION");
  ("SHA512_T", EConstant "CKM_SHA512_T");
  ("SHA512_T_HMAC", EConstant "CKM_SHA512_T_HMAC");
  ("SHA512_T_HMAC_GENERAL", EConstant "CKM_SHA512_T_HMAC_GENERAL");
  ("SHA512_T_KEY_DERIVATION", EConstant "CKM_SHA512_T_KEY_DERIVATION");
  ("SHA3_256_RSA_PKCS", EConstant "CKM_SHA3_256_RSA_PKCS");
  ("SHA3_384_RSA_PKCS", EConstant "CKM_SHA3_384_RSA_PKCS");
  ("SHA3_512_RSA_PKCS", EConstant "CKM_SHA3_512_RSA_PKCS");
  ("SHA3_256_RSA_PKCS_PSS", EConstant "CKM_SHA3_256_RSA_PKCS_PSS");
  ("SHA3_384_RSA_PKCS_PSS", EConstant "CKM_SHA3_384_RSA_PKCS_PSS");
  ("SHA3_512_RSA_PKCS_PSS", EConstant "CKM_SHA3_512_RSA_PKCS_PSS");
  ("SHA3_224_RSA_PKCS", EConstant "CKM_SHA3_224_RSA_PKCS");
  ("SHA3_224_RSA_PKCS_PSS", EConstant "CKM_SHA3_224_RSA_PKCS_PSS");
  ("RC2_KEY_GEN", EConstant "CKM_RC2_KEY_GEN");
  ("RC2_ECB", EConstant "CKM_RC2_ECB");
  ("RC2_CBC", EConstant "CKM_RC2_CBC");
  ("RC2_MAC", EConstant "CKM_RC2_MAC");
  ("RC2_MAC_GENERAL", EConstant "CKM_RC2_MAC_GENERAL");
  ("RC2_CBC_PAD", EConstant "CKM_RC2_CBC_PAD");
  ("RC4_KEY_GEN", EConstant "CKM_RC4_KEY_GEN");
  ("RC4", EConstant "CKM_RC4");
  ("DES_KEY_GEN", EConstant "CKM_DES_KEY_GEN");
  ("DES_ECB", EConstant "CKM_DES_ECB");
  ("DES_CBC", EConstant "CKM_DES_CBC");
  ("DES_MAC", EConstant "CKM_DES_MAC");
  ("DES_MAC_GENERAL", EConstant "CKM_DES_MAC_GENERAL");
  ("DES_CBC_PAD", EConstant "CKM_DES_CBC_PAD");
  ("DES2_KEY_GEN", EConstant "CKM_DES2_KEY_GEN");
  ("DES3_KEY_GEN", EConstant "CKM_DES3_KEY_GEN");
  ("DES3_ECB", EConstant "CKM_DES3_ECB");
  ("DES3_CBC", EConstant "CKM_DES3_CBC");
  ("DES3_MAC", EConstant "CKM_DES3_MAC");
  ("DES3_MAC_GENERAL", EConstant "CKM_DES3_MAC_GENERAL");
  ("DES3_CBC_PAD", EConstant "CKM_DES3_CBC_PAD");
  ("DES3_CMAC_GENERAL", EConstant "CKM_DES3_CMAC_GENERAL");
  ("DES3_CMAC", EConstant "CKM_DES3_CMAC");
  ("CDMF_KEY_GEN", EConstant "CKM_CDMF_KEY_GEN");
  ("CDMF_ECB", EConstant "CKM_CDMF_ECB");
  ("CDMF_CBC", EConstant "CKM_CDMF_CBC");
  ("CDMF_MAC", EConstant "CKM_CDMF_MAC");
  ("CDMF_MAC_GENERAL", EConstant "CKM_CDMF_MAC_GENERAL");
  ("CDMF_CBC_PAD", EConstant "CKM_CDMF_CBC_PAD");
  ("DES_OFB64", EConstant "CKM_DES_OFB64");
  ("DES_OFB8", EConstant "CKM_DES_OFB8");
  ("DES_CFB64", EConstant "CKM_DES_CFB64");
  ("DES_CFB8", EConstant "CKM_DES_CFB8");
  ("MD2", EConstant "CKM_MD2");
  ("MD2_HMAC", EConstant "CKM_MD2_HMAC");
  ("MD2_HMAC_GENERAL", EConstant "CKM_MD2_HMAC_GENERAL");
  ("MD5", EConstant "CKM_MD5");
  ("MD5_HMAC", EConstant "CKM_MD5_HMAC");
  ("MD5_HMAC_GENERAL", EConstant "CKM_MD5_HMAC_GENERAL");
  ("SHA_1", EConstant "CKM_SHA_1");
  ("SHA_1_HMAC", EConstant "CKM_SHA_1_HMAC");
  ("SHA_1_HMAC_GENERAL", EConstant "CKM_SHA_1_HMAC_GENERAL");
  ("RIPEMD128", EConstant "CKM_RIPEMD128");
  ("RIPEMD128_HMAC", EConstant "CKM_RIPEMD128_HMAC");
  ("RIPEMD128_HMAC_GENERAL", EConstant "CKM_RIPEMD128_HMAC_GENERAL");
  ("RIPEMD160", EConstant "CKM_RIPEMD160");
  ("RIPEMD160_HMAC", EConstant "CKM_RIPEMD160_HMAC");
  ("RIPEMD160_HMAC_GENERAL", EConstant "CKM_RIPEMD160_HMAC_GENERAL");
  ("SHA256", EConstant "CKM_SHA256");
  ("SHA256_HMAC", EConstant "CKM_SHA256_HMAC");
  ("SHA256_HMAC_GENERAL", EConstant "CKM_SHA256_HMAC_GENERAL");
  ("SHA224", EConstant "CKM_SHA224");
  ("SHA224_HMAC", EConstant "CKM_SHA224_HMAC");
  ("SHA224_HMAC_GENERAL", EConstant "CKM_SHA224_HMAC_GENERAL");
  ("SHA384", EConstant "CKM_SHA384");
  ("SHA384_HMAC", EConstant "CKM_SHA384_HMAC");
  ("SHA384_HMAC_GENERAL", EConstant "CKM_SHA384_HMAC_GENERAL");
  ("SHA512", EConstant "CKM_SHA512");
  ("SHA512_HMAC", EConstant "CKM_SHA512_HMAC");
  ("SHA512_HMAC_GENERAL", EConstant "CKM_SHA512_HMAC_GENERAL");
  ("SECURID_KEY_GEN", EConstant "CKM_SECURID_KEY_GEN");
  ("SECURID", EConstant "CKM_SECURID");
  ("HOTP_KEY_GEN", EConstant "CKM_HOTP_KEY_GEN");
  ("HOTP", EConstant "CKM_HOTP");
  ("ACTI", EConstant "CKM_ACTI");
  ("ACTI_KEY_GEN", EConstant "CKM_ACTI_KEY_GEN");
  ("SHA3_256", EConstant "CKM_SHA3_256");
  ("SHA3_256_HMAC", EConstant "CKM_SHA3_256_HMAC");
  ("SHA3_256_HMAC_GENERAL", EConstant "CKM_SHA3_256_HMAC_GENERAL");
  ("SHA3_256_KEY_GEN", EConstant "CKM_SHA3_256_KEY_GEN");
  ("SHA3_224", EConstant "CKM_SHA3_224");
  ("SHA3_224_HMAC", EConstant "CKM_SHA3_224_HMAC");
  ("SHA3_224_HMAC_GENERAL", EConstant "CKM_SHA3_224_HMAC_GENERAL");
  ("SHA3_224_KEY_GEN", EConstant "CKM_SHA3_224_KEY_GEN");
  ("SHA3_384", EConstant "CKM_SHA3_384");
  ("SHA3_384_HMAC", EConstant "CKM_SHA3_384_HMAC");
  ("SHA3_384_HMAC_GENERAL", EConstant "CKM_SHA3_384_HMAC_GENERAL");
  ("SHA3_384_KEY_GEN", EConstant "CKM_SHA3_384_KEY_GEN");
  ("SHA3_512", EConstant "CKM_SHA3_512");
  ("SHA3_512_HMAC", EConstant "CKM_SHA3_512_HMAC");
  ("SHA3_512_HMAC_GENERAL", EConstant "CKM_SHA3_512_HMAC_GENERAL");
  ("SHA3_512_KEY_GEN", EConstant "CKM_SHA3_512_KEY_GEN");
  ("CAST_KEY_GEN", EConstant "CKM_CAST_KEY_GEN");
  ("CAST_ECB", EConstant "CKM_CAST_ECB");
  ("CAST_CBC", EConstant "CKM_CAST_CBC");
  ("CAST_MAC", EConstant "CKM_CAST_MAC");
  ("CAST_MAC_GENERAL", EConstant "CKM_CAST_MAC_GENERAL");
  ("CAST_CBC_PAD", EConstant "CKM_CAST_CBC_PAD");
  ("CAST3_KEY_GEN", EConstant "CKM_CAST3_KEY_GEN");
  ("CAST3_ECB", EConstant "CKM_CAST3_ECB");
  ("CAST3_CBC", EConstant "CKM_CAST3_CBC");
  ("CAST3_MAC", EConstant "CKM_CAST3_MAC");
  ("CAST3_MAC_GENERAL", EConstant "CKM_CAST3_MAC_GENERAL");
  ("CAST3_CBC_PAD", EConstant "CKM_CAST3_CBC_PAD");
  ("CAST128_KEY_GEN", EConstant "CKM_CAST128_KEY_GEN");
  ("CAST128_ECB", EConstant "CKM_CAST128_ECB");
  ("CAST128_CBC", EConstant "CKM_CAST128_CBC");
  ("CAST128_MAC", EConstant "CKM_CAST128_MAC");
  ("CAST128_MAC_GENERAL", EConstant "CKM_CAST128_MAC_GENERAL");
  ("CAST128_CBC_PAD", EConstant "CKM_CAST128_CBC_PAD");
  ("RC5_KEY_GEN", EConstant "CKM_RC5_KEY_GEN");
  ("RC5_ECB", EConstant "CKM_RC5_ECB");
  ("RC5_CBC", EConstant "CKM_RC5_CBC");
  ("RC5_MAC", EConstant "CKM_RC5_MAC");
  ("RC5_MAC_GENERAL", EConstant "CKM_RC5_MAC_GENERAL");
  ("RC5_CBC_PAD", EConstant "CKM_RC5_CBC_PAD");
  ("IDEA_KEY_GEN", EConstant "CKM_IDEA_KEY_GEN");
  ("IDEA_ECB", EConstant "CKM_IDEA_ECB");
  ("IDEA_CBC", EConstant "CKM_IDEA_CBC");
  ("IDEA_MAC", EConstant "CKM_IDEA_MAC");
  ("IDEA_MAC_GENERAL", EConstant "CKM_IDEA_MAC_GENERAL");
  ("IDEA_CBC_PAD", EConstant "CKM_IDEA_CBC_PAD");
  ("GENERIC_SECRET_KEY_GEN", EConstant "CKM_GENERIC_SECRET_KEY_GEN");
  ("CONCATENATE_BASE_AND_KEY", EConstant "CKM_CONCATENATE_BASE_AND_KEY");
  ("CONCATENATE_BASE_AND_DATA", EConstant "CKM_CONCATENATE_BASE_AND_DATA");
  ("CONCATENATE_DATA_AND_BASE", EConstant "CKM_CONCATENATE_DATA_AND_BASE");
  ("XOR_BASE_AND_DATA", EConstant "CKM_XOR_BASE_AND_DATA");
  ("EXTRACT_KEY_FROM_KEY", EConstant "CKM_EXTRACT_KEY_FROM_KEY");
  ("SSL3_PRE_MASTER_KEY_GEN", EConstant "CKM_SSL3_PRE_MASTER_KEY_GEN");
  ("SSL3_MASTER_KEY_DERIVE", EConstant "CKM_SSL3_MASTER_KEY_DERIVE");
  ("SSL3_KEY_AND_MAC_DERIVE", EConstant "CKM_SSL3_KEY_AND_MAC_DERIVE");
  ("SSL3_MASTER_KEY_DERIVE_DH", EConstant "CKM_SSL3_MASTER_KEY_DERIVE_DH");
  ("TLS_PRE_MASTER_KEY_GEN", EConstant "CKM_TLS_PRE_MASTER_KEY_GEN");
  ("TLS_MASTER_KEY_DERIVE", EConstant "CKM_TLS_MASTER_KEY_DERIVE");
  ("TLS_KEY_AND_MAC_DERIVE", EConstant "CKM_TLS_KEY_AND_MAC_DERIVE");
  ("TLS_MASTER_KEY_DERIVE_DH", EConstant "CKM_TLS_MASTER_KEY_DERIVE_DH");
  ("TLS_PRF", EConstant "CKM_TLS_PRF");
  ("SSL3_MD5_MAC", EConstant "CKM_SSL3_MD5_MAC");
  ("SSL3_SHA1_MAC", EConstant "CKM_SSL3_SHA1_MAC");
  ("MD5_KEY_DERIVATION", EConstant "CKM_MD5_KEY_DERIVATION");
  ("MD2_KEY_DERIVATION", EConstant "CKM_MD2_KEY_DERIVATION");
  ("SHA1_KEY_DERIVATION", EConstant "CKM_SHA1_KEY_DERIVATION");
  ("SHA256_KEY_DERIVATION", EConstant "CKM_SHA256_KEY_DERIVATION");
  ("SHA384_KEY_DERIVATION", EConstant "CKM_SHA384_KEY_DERIVATION");
  ("SHA512_KEY_DERIVATION", EConstant "CKM_SHA512_KEY_DERIVATION");
  ("SHA224_KEY_DERIVATION", EConstant "CKM_SHA224_KEY_DERIVATION");
  ("SHA3_256_KEY_DERIVE", EConstant "CKM_SHA3_256_KEY_DERIVE");
  ("SHA3_224_KEY_DERIVE", EConstant "CKM_SHA3_224_KEY_DERIVE");
  ("SHA3_384_KEY_DERIVE", EConstant "CKM_SHA3_384_KEY_DERIVE");
  ("SHA3_512_KEY_DERIVE", EConstant "CKM_SHA3_512_KEY_DERIVE");
  ("SHAKE_128_KEY_DERIVE", EConstant "CKM_SHAKE_128_KEY_DERIVE");
  ("SHAKE_256_KEY_DERIVE", EConstant "CKM_SHAKE_256_KEY_DERIVE");
  ("PBE_MD2_DES_CBC", EConstant "CKM_PBE_MD2_DES_CBC");
  ("PBE_MD5_DES_CBC", EConstant "CKM_PBE_MD5_DES_CBC");
  ("PBE_MD5_CAST_CBC", EConstant "CKM_PBE_MD5_CAST_CBC");
  ("PBE_MD5_CAST3_CBC", EConstant "CKM_PBE_MD5_CAST3_CBC");
  ("PBE_MD5_CAST128_CBC", EConstant "CKM_PBE_MD5_CAST128_CBC");
  ("PBE_SHA1_CAST128_CBC", EConstant "CKM_PBE_SHA1_CAST128_CBC");
  ("PBE_SHA1_RC4_128", EConstant "CKM_PBE_SHA1_RC4_128");
  ("PBE_SHA1_RC4_40", EConstant "CKM_PBE_SHA1_RC4_40");
  ("PBE_SHA1_DES3_EDE_CBC", EConstant "CKM_PBE_SHA1_DES3_EDE_CBC");
  ("PBE_SHA1_DES2_EDE_CBC", EConstant "CKM_PBE_SHA1_DES2_EDE_CBC");
  ("PBE_SHA1_RC2_128_CBC", EConstant "CKM_PBE_SHA1_RC2_128_CBC");
  ("PBE_SHA1_RC2_40_CBC", EConstant "CKM_PBE_SHA1_RC2_40_CBC");
  ("PKCS5_PBKD2", EConstant "CKM_PKCS5_PBKD2");
  ("PBA_SHA1_WITH_SHA1_HMAC", EConstant "CKM_PBA_SHA1_WITH_SHA1_HMAC");
  ("WTLS_PRE_MASTER_KEY_GEN", EConstant "CKM_WTLS_PRE_MASTER_KEY_GEN");
  ("WTLS_MASTER_KEY_DERIVE", EConstant "CKM_WTLS_MASTER_KEY_DERIVE");
  ("WTLS_MASTER_KEY_DERIVE_DH_ECC", EConstant "CKM_WTLS_MASTER_KEY_DERIVE_DH_ECC");
  ("WTLS_PRF", EConstant "CKM_WTLS_PRF");
  ("WTLS_SERVER_KEY_AND_MAC_DERIVE", EConstant "CKM_WTLS_SERVER_KEY_AND_MAC_DERIVE");
  ("WTLS_CLIENT_KEY_AND_MAC_DERIVE", EConstant "CKM_WTLS_CLIENT_KEY_AND_MAC_DERIVE");
  ("TLS10_MAC_SERVER", EConstant "CKM_TLS10_MAC_SERVER");
  ("TLS10_MAC_CLIENT", EConstant "CKM_TLS10_MAC_CLIENT");
  ("TLS12_MAC", EConstant "CKM_TLS12_MAC");
  ("TLS12_KDF", EConstant "CKM_TLS12_KDF");
  ("TLS12_MASTER_KEY_DERIVE", EConstant "CKM_TLS12_MASTER_KEY_DERIVE");
  ("TLS12_KEY_AND_MAC_DERIVE", EConstant "CKM_TLS12_KEY_AND_MAC_DERIVE");
  ("TLS12_MASTER_KEY_DERIVE_DH", EConstant "CKM_TLS12_MASTER_KEY_DERIVE_DH");
  ("TLS12_KEY_SAFE_DERIVE", EConstant "CKM_TLS12_KEY_SAFE_DERIVE");
  ("TLS_MAC", EConstant "CKM_TLS_MAC");
  ("TLS_KDF", EConstant "CKM_TLS_KDF");
  ("KEY_WRAP_LYNKS", EConstant "CKM_KEY_WRAP_LYNKS");
  ("KEY_WRAP_SET_OAEP", EConstant "CKM_KEY_WRAP_SET_OAEP");
  ("CMS_SIG", EConstant "CKM_CMS_SIG");
  ("KIP_DERIVE", EConstant "CKM_KIP_DERIVE");
  ("KIP_WRAP", EConstant "CKM_KIP_WRAP");
  ("KIP_MAC", EConstant "CKM_KIP_MAC");
  ("CAMELLIA_KEY_GEN", EConstant "CKM_CAMELLIA_KEY_GEN");
  ("CAMELLIA_ECB", EConstant "CKM_CAMELLIA_ECB");
  ("CAMELLIA_CBC", EConstant "CKM_CAMELLIA_CBC");
  ("CAMELLIA_MAC", EConstant "CKM_CAMELLIA_MAC");
  ("CAMELLIA_MAC_GENERAL", EConstant "CKM_CAMELLIA_MAC_GENERAL");
  ("CAMELLIA_CBC_PAD", EConstant "CKM_CAMELLIA_CBC_PAD");
  ("CAMELLIA_ECB_ENCRYPT_DATA", EConstant "CKM_CAMELLIA_ECB_ENCRYPT_DATA");
  ("CAMELLIA_CBC_ENCRYPT_DATA", EConstant "CKM_CAMELLIA_CBC_ENCRYPT_DATA");
  ("CAMELLIA_CTR", EConstant "CKM_CAMELLIA_CTR");
  ("ARIA_KEY_GEN", EConstant "CKM_ARIA_KEY_GEN");
  ("ARIA_ECB", EConstant "CKM_ARIA_ECB");
  ("ARIA_CBC", EConstant "CKM_ARIA_CBC");
  ("ARIA_MAC", EConstant "CKM_ARIA_MAC");
  ("ARIA_MAC_GENERAL", EConstant "CKM_ARIA_MAC_GENERAL");
  ("ARIA_CBC_PAD", EConstant "CKM_ARIA_CBC_PAD");
  ("ARIA_ECB_ENCRYPT_DATA", EConstant "CKM_ARIA_ECB_ENCRYPT_DATA");
  ("ARIA_CBC_ENCRYPT_DATA", EConstant "CKM_ARIA_CBC_ENCRYPT_DATA");
  ("SEED_KEY_GEN", EConstant "CKM_SEED_KEY_GEN");
  ("SEED_ECB", EConstant "CKM_SEED_ECB");
  ("SEED_CBC", EConstant "CKM_SEED_CBC");
  ("SEED_MAC", EConstant "CKM_SEED_MAC");
  ("SEED_MAC_GENERAL", EConstant "CKM_SEED_MAC_GENERAL");
  ("SEED_CBC_PAD", EConstant "CKM_SEED_CBC_PAD");
  ("SEED_ECB_ENCRYPT_DATA", EConstant "CKM_SEED_ECB_ENCRYPT_DATA");
  ("SEED_CBC_ENCRYPT_DATA", EConstant "CKM_SEED_CBC_ENCRYPT_DATA");
  ("SKIPJACK_KEY_GEN", EConstant "CKM_SKIPJACK_KEY_GEN");
  ("SKIPJACK_ECB64", EConstant "CKM_SKIPJACK_ECB64");
  ("SKIPJACK_CBC64", EConstant "CKM_SKIPJACK_CBC64");
  ("SKIPJACK_OFB64", EConstant "CKM_SKIPJACK_OFB64");
  ("SKIPJACK_CFB64", EConstant "CKM_SKIPJACK_CFB64");
  ("SKIPJACK_CFB32", EConstant "CKM_SKIPJACK_CFB32");
  ("SKIPJACK_CFB16", EConstant "CKM_SKIPJACK_CFB16");
  ("SKIPJACK_CFB8", EConstant "CKM_SKIPJACK_CFB8");
  ("SKIPJACK_WRAP", EConstant "CKM_SKIPJACK_WRAP");
  ("SKIPJACK_PRIVATE_WRAP", EConstant "CKM_SKIPJACK_PRIVATE_WRAP");
  ("SKIPJACK_RELAYX", EConstant "CKM_SKIPJACK_RELAYX");
  ("KEA_KEY_PAIR_GEN", EConstant "CKM_KEA_KEY_PAIR_GEN");
  ("KEA_KEY_DERIVE", EConstant "CKM_KEA_KEY_DERIVE");
  ("KEA_DERIVE", EConstant "CKM_KEA_DERIVE");
  ("FORTEZZA_TIMESTAMP", EConstant "CKM_FORTEZZA_TIMESTAMP");
  ("BATON_KEY_GEN", EConstant "CKM_BATON_KEY_GEN");
  ("BATON_ECB128", EConstant "CKM_BATON_ECB128");
  ("BATON_ECB96", EConstant "CKM_BATON_ECB96");
  ("BATON_CBC128", EConstant "CKM_BATON_CBC128");
  ("BATON_COUNTER", EConstant "CKM_BATON_COUNTER");
  ("BATON_SHUFFLE", EConstant "CKM_BATON_SHUFFLE");
  ("BATON_WRAP", EConstant "CKM_BATON_WRAP");
  ("EC_KEY_PAIR_GEN", EConstant "CKM_EC_KEY_PAIR_GEN");
  ("ECDSA", EConstant "CKM_ECDSA");
  ("ECDSA_SHA1", EConstant "CKM_ECDSA_SHA1");
  ("ECDSA_SHA224", EConstant "CKM_ECDSA_SHA224");
  ("ECDSA_SHA256", EConstant "CKM_ECDSA_SHA256");
  ("ECDSA_SHA384", EConstant "CKM_ECDSA_SHA384");
  ("ECDSA_SHA512", EConstant "CKM_ECDSA_SHA512");
  ("ECDH1_DERIVE", EConstant "CKM_ECDH1_DERIVE");
  ("ECDH1_COFACTOR_DERIVE", EConstant "CKM_ECDH1_COFACTOR_DERIVE");
  ("ECMQV_DERIVE", EConstant "CKM_ECMQV_DERIVE");
  ("ECDH_AES_KEY_WRAP", EConstant "CKM_ECDH_AES_KEY_WRAP");
  ("RSA_AES_KEY_WRAP", EConstant "CKM_RSA_AES_KEY_WRAP");
  ("JUNIPER_KEY_GEN", EConstant "CKM_JUNIPER_KEY_GEN");
  ("JUNIPER_ECB128", EConstant "CKM_JUNIPER_ECB128");
  ("JUNIPER_CBC128", EConstant "CKM_JUNIPER_CBC128");
  ("JUNIPER_COUNTER", EConstant "CKM_JUNIPER_COUNTER");
  ("JUNIPER_SHUFFLE", EConstant "CKM_JUNIPER_SHUFFLE");
  ("JUNIPER_WRAP", EConstant "CKM_JUNIPER_WRAP");
  ("FASTHASH", EConstant "CKM_FASTHASH");
  ("AES_XTS", EConstant "CKM_AES_XTS");
  ("AES_XTS_KEY_GEN", EConstant "CKM_AES_XTS_KEY_GEN");
  ("AES_KEY_GEN", EConstant "CKM_AES_KEY_GEN");
  ("AES_ECB", EConstant "CKM_AES_ECB");
  ("AES_CBC", EConstant "CKM_AES_CBC");
  ("AES_MAC", EConstant "CKM_AES_MAC");
  ("AES_MAC_GENERAL", EConstant "CKM_AES_MAC_GENERAL");
  ("AES_CBC_PAD", EConstant "CKM_AES_CBC_PAD");
  ("AES_CTR", EConstant "CKM_AES_CTR");
  ("AES_GCM", EConstant "CKM_AES_GCM");
  ("AES_CCM", EConstant "CKM_AES_CCM");
  ("AES_CTS", EConstant "CKM_AES_CTS");
  ("AES_CMAC", EConstant "CKM_AES_CMAC");
  ("AES_CMAC_GENERAL", EConstant "CKM_AES_CMAC_GENERAL");
  ("AES_XCBC_MAC", EConstant "CKM_AES_XCBC_MAC");
  ("AES_XCBC_MAC_96", EConstant "CKM_AES_XCBC_MAC_96");
  ("AES_GMAC", EConstant "CKM_AES_GMAC");
  ("BLOWFISH_KEY_GEN", EConstant "CKM_BLOWFISH_KEY_GEN");
  ("BLOWFISH_CBC", EConstant "CKM_BLOWFISH_CBC");
  ("TWOFISH_KEY_GEN", EConstant "CKM_TWOFISH_KEY_GEN");
  ("TWOFISH_CBC", EConstant "CKM_TWOFISH_CBC");
  ("BLOWFISH_CBC_PAD", EConstant "CKM_BLOWFISH_CBC_PAD");
  ("TWOFISH_CBC_PAD", EConstant "CKM_TWOFISH_CBC_PAD");
  ("DES_ECB_ENCRYPT_DATA", EConstant "CKM_DES_ECB_ENCRYPT_DATA");
  ("DES_CBC_ENCRYPT_DATA", EConstant "CKM_DES_CBC_ENCRYPT_DATA");
  ("DES3_ECB_ENCRYPT_DATA", EConstant "CKM_DES3_ECB_ENCRYPT_DATA");
  ("DES3_CBC_ENCRYPT_DATA", EConstant "CKM_DES3_CBC_ENCRYPT_DATA");
  ("AES_ECB_ENCRYPT_DATA", EConstant "CKM_AES_ECB_ENCRYPT_DATA");
  ("AES_CBC_ENCRYPT_DATA", EConstant "CKM_AES_CBC_ENCRYPT_DATA");
  ("GOSTR3410_KEY_PAIR_GEN", EConstant "CKM_GOSTR3410_KEY_PAIR_GEN");
  ("GOSTR3410", EConstant "CKM_GOSTR3410");
  ("GOSTR3410_WITH_GOSTR3411", EConstant "CKM_GOSTR3410_WITH_GOSTR3411");
  ("GOSTR3410_KEY_WRAP", EConstant "CKM_GOSTR3410_KEY_WRAP");
  ("GOSTR3410_DERIVE", EConstant "CKM_GOSTR3410_DERIVE");
  ("GOSTR3411", EConstant "CKM_GOSTR3411");
  ("GOSTR3411_HMAC", EConstant "CKM_GOSTR3411_HMAC");
  ("GOST28147_KEY_GEN", EConstant "CKM_GOST28147_KEY_GEN");
  ("GOST28147_ECB", EConstant "CKM_GOST28147_ECB");
  ("GOST28147", EConstant "CKM_GOST28147");
  ("GOST28147_MAC", EConstant "CKM_GOST28147_MAC");
  ("GOST28147_KEY_WRAP", EConstant "CKM_GOST28147_KEY_WRAP");
  ("CHACHA20_KEY_GEN", EConstant "CKM_CHACHA20_KEY_GEN");
  ("CHACHA20", EConstant "CKM_CHACHA20");
  ("POLY1305_KEY_GEN", EConstant "CKM_POLY1305_KEY_GEN");
  ("POLY1305", EConstant "CKM_POLY1305");
  ("DSA_PARAMETER_GEN", EConstant "CKM_DSA_PARAMETER_GEN");
  ("DH_PKCS_PARAMETER_GEN", EConstant "CKM_DH_PKCS_PARAMETER_GEN");
  ("X9_42_DH_PARAMETER_GEN", EConstant "CKM_X9_42_DH_PARAMETER_GEN");
  ("DSA_PROBABLISTIC_PARAMETER_GEN", EConstant "CKM_DSA_PROBABLISTIC_PARAMETER_GEN");
  ("DSA_SHAWE_TAYLOR_PARAMETER_GEN", EConstant "CKM_DSA_SHAWE_TAYLOR_PARAMETER_GEN");
  ("AES_OFB", EConstant "CKM_AES_OFB");
  ("AES_CFB64", EConstant "CKM_AES_CFB64");
  ("AES_CFB8", EConstant "CKM_AES_CFB8");
  ("AES_CFB128", EConstant "CKM_AES_CFB128");
  ("AES_CFB1", EConstant "CKM_AES_CFB1");
  ("AES_KEY_WRAP", EConstant "CKM_AES_KEY_WRAP");
  ("AES_KEY_WRAP_PAD", EConstant "CKM_AES_KEY_WRAP_PAD");
  ("AES_KEY_WRAP_KWP", EConstant "CKM_AES_KEY_WRAP_KWP");
  ("RSA_PKCS_TPM_1_1", EConstant "CKM_RSA_PKCS_TPM_1_1");
  ("RSA_PKCS_OAEP_TPM_1_1", EConstant "CKM_RSA_PKCS_OAEP_TPM_1_1");
  ("SHA_1_KEY_GEN", EConstant "CKM_SHA_1_KEY_GEN");
  ("SHA224_KEY_GEN", EConstant "CKM_SHA224_KEY_GEN");
  ("SHA256_KEY_GEN", EConstant "CKM_SHA256_KEY_GEN");
  ("SHA384_KEY_GEN", EConstant "CKM_SHA384_KEY_GEN");
  ("SHA512_KEY_GEN", EConstant "CKM_SHA512_KEY_GEN");
  ("SHA512_224_KEY_GEN", EConstant "CKM_SHA512_224_KEY_GEN");
  ("SHA512_256_KEY_GEN", EConstant "CKM_SHA512_256_KEY_GEN");
  ("SHA512_T_KEY_GEN", EConstant "CKM_SHA512_T_KEY_GEN");
  ("MECHANISM_NULL", EConstant "CKM_NULL");
  ("BLAKE2B_160", EConstant "CKM_BLAKE2B_160");
  ("BLAKE2B_160_HMAC", EConstant "CKM_BLAKE2B_160_HMAC");
  ("BLAKE2B_160_HMAC_GENERAL", EConstant "CKM_BLAKE2B_160_HMAC_GENERAL");
  ("BLAKE2B_160_KEY_DERIVE", EConstant "CKM_BLAKE2B_160_KEY_DERIVE");
  ("BLAKE2B_160_KEY_GEN", EConstant "CKM_BLAKE2B_160_KEY_GEN");
  ("BLAKE2B_256", EConstant "CKM_BLAKE2B_256");
  ("BLAKE2B_256_HMAC", EConstant "CKM_BLAKE2B_256_HMAC");
  ("E2B_256_HMAC_GENERAL", EConstant "CKM_BLAKE2B_256_HMAC_GENERAL");
  ("BLAKE2B_256_KEY_DERIVE", EConstant "CKM_BLAKE2B_256_KEY_DERIVE");
  ("BLAKE2B_256_KEY_GEN", EConstant "CKM_BLAKE2B_256_KEY_GEN");
  ("BLAKE2B_384", EConstant "CKM_BLAKE2B_384");
  ("BLAKE2B_384_HMAC", EConstant "CKM_BLAKE2B_384_HMAC");
  ("BLAKE2B_384_HMAC_GENERAL", EConstant "CKM_BLAKE2B_384_HMAC_GENERAL");
  ("BLAKE2B_384_KEY_DERIVE", EConstant "CKM_BLAKE2B_384_KEY_DERIVE");
  ("BLAKE2B_384_KEY_GEN", EConstant "CKM_BLAKE2B_384_KEY_GEN");
  ("BLAKE2B_512", EConstant "CKM_BLAKE2B_512");
  ("BLAKE2B_512_HMAC", EConstant "CKM_BLAKE2B_512_HMAC");
  ("BLAKE2B_512_HMAC_GENERAL", EConstant "CKM_BLAKE2B_512_HMAC_GENERAL");
  ("BLAKE2B_512_KEY_DERIVE", EConstant "CKM_BLAKE2B_512_KEY_DERIVE");
  ("BLAKE2B_512_KEY_GEN", EConstant "CKM_BLAKE2B_512_KEY_GEN");
  ("SALSA20", EConstant "CKM_SALSA20");
  ("CHACHA20_POLY1305", EConstant "CKM_CHACHA20_POLY1305");
  ("SALSA20_POLY1305", EConstant "CKM_SALSA20_POLY1305");
  ("X3DH_INITIALIZE", EConstant "CKM_X3DH_INITIALIZE");
  ("X3DH_RESPOND", EConstant "CKM_X3DH_RESPOND");
  ("X2RATCHET_INITIALIZE", EConstant "CKM_X2RATCHET_INITIALIZE");
  ("X2RATCHET_RESPOND", EConstant "CKM_X2RATCHET_RESPOND");
  ("X2RATCHET_ENCRYPT", EConstant "CKM_X2RATCHET_ENCRYPT");
  ("X2RATCHET_DECRYPT", EConstant "CKM_X2RATCHET_DECRYPT");
  ("XEDDSA", EConstant "CKM_XEDDSA");
  ("HKDF_DERIVE", EConstant "CKM_HKDF_DERIVE");
  ("HKDF_DATA", EConstant "CKM_HKDF_DATA");
  ("HKDF_KEY_GEN", EConstant "CKM_HKDF_KEY_GEN");
  ("ECDSA_SHA3_224", EConstant "CKM_ECDSA_SHA3_224");
  ("ECDSA_SHA3_256", EConstant "CKM_ECDSA_SHA3_256");
  ("ECDSA_SHA3_384", EConstant "CKM_ECDSA_SHA3_384");
  ("ECDSA_SHA3_512", EConstant "CKM_ECDSA_SHA3_512");
  ("EC_EDWARDS_KEY_PAIR_GEN", EConstant "CKM_EC_EDWARDS_KEY_PAIR_GEN");
  ("EC_MONTGOMERY_KEY_PAIR_GEN", EConstant "CKM_EC_MONTGOMERY_KEY_PAIR_GEN");
  ("EDDSA", EConstant "CKM_EDDSA");
  ("SP800_108_COUNTER_KDF", EConstant "CKM_SP800_108_COUNTER_KDF");
  ("SP800_108_FEEDBACK_KDF", EConstant "CKM_SP800_108_FEEDBACK_KDF");
  ("SP800_108_DOUBLE_PIPELINE_KDF", EConstant "CKM_SP800_108_DOUBLE_PIPELINE_KDF");
  ("VENDOR_DEFINED", EConstant "CKM_VENDOR_DEFINED")
].
(** Enums.hpp 1158-1195. *)
Definition enum_MechanismFlags := Enumeration "MechanismFlags" Long [
  ("HW", EConstant "CKF_HW");
  ("MESSAGE_ENCRYPT", EConstant "CKF_MESSAGE_ENCRYPT");
  ("MESSAGE_DECRYPT", EConstant "CKF_MESSAGE_DECRYPT");
  ("MESSAGE_SIGN", EConstant "CKF_MESSAGE_SIGN");
  ("MESSAGE_VERIFY", EConstant "CKF_MESSAGE_VERIFY");
  ("MULTI_MESSGE", EConstant "CKF_MULTI_MESSGE");
  ("FIND_OBJECTS", EConstant "CKF_FIND_OBJECTS");
  ("ENCRYPT", EConstant "CKF_ENCRYPT");
  ("DECRYPT", EConstant "CKF_DECRYPT");
  ("DIGEST", EConstant "CKF_DIGEST");
  ("SIGN", EConstant "CKF_SIGN");
  ("SIGN_RECOVER", EConstant "CKF_SIGN_RECOVER");
  ("VERIFY", EConstant "CKF_VERIFY");
  ("VERIFY_RECOVER", EConstant "CKF_VERIFY_RECOVER");
  ("GENERATE", EConstant "CKF_GENERATE");
  ("GENERATE_KEY_PAIR", EConstant "CKF_GENERATE_KEY_PAIR");
  ("WRAP", EConstant "CKF_WRAP");
  ("UNWRAP", EConstant "CKF_UNWRAP");
  ("DERIVE", EConstant "CKF_DERIVE");
  ("EC_F_P", EConstant "CKF_EC_F_P");
  ("EC_F_2M", EConstant "CKF_EC_F_2M");
  ("EC_ECPARAMETERS", EConstant "CKF_EC_ECPARAMETERS");
  ("EC_OID", EConstant "CKF_EC_OID");
  ("EC_UNCOMPRESS", EConstant "CKF_EC_UNCOMPRESS");
  ("EC_COMPRESS", EConstant "CKF_EC_COMPRESS");
  ("EC_CURVENAME", EConstant "CKF_EC_CURVENAME");
  ("EXTENSION", EConstant "CKF_EXTENSION")
].
(** Enums.hpp 1201-1331. *)
Definition enum_ReturnType := Enumeration "ReturnType" Long [
  ("OK", EConstant "CKR_OK");
  ("CANCEL", EConstant "CKR_CANCEL");
  ("HOST_MEMORY", EConstant "CKR_HOST_MEMORY");
  ("SLOT_ID_INVALID", EConstant "CKR_SLOT_ID_INVALID");
  ("GENERAL_ERROR", EConstant "CKR_GENERAL_ERROR");
  ("FUNCTION_FAILED", EConstant "CKR_FUNCTION_FAILED");
  ("ARGUMENTS_BAD", EConstant "CKR_ARGUMENTS_BAD");
  ("NO_EVENT", EConstant "CKR_NO_EVENT");
  ("NEED_TO_CREATE_THREADS", EConstant "CKR_NEED_TO_CREATE_THREADS");
  ("CANT_LOCK", EConstant "CKR_CANT_LOCK");
  ("ATTRIBUTE_READ_ONLY", EConstant "CKR_ATTRIBUTE_READ_ONLY");
  ("ATTRIBUTE_SENSITIVE", EConstant "CKR_ATTRIBUTE_SENSITIVE");
  ("ATTRIBUTE_TYPE_INVALID", EConstant "CKR_ATTRIBUTE_TYPE_INVALID");
  ("ATTRIBUTE_VALUE_INVALID", EConstant "CKR_ATTRIBUTE_VALUE_INVALID");
  ("ACTION_PROHIBITED", EConstant "CKR_ACTION_PROHIBITED");
  ("DATA_INVALID", EConstant "CKR_DATA_INVALID");
  ("DATA_LEN_RANGE", EConstant "CKR_DATA_LEN_RANGE");
  ("DEVICE_ERROR", EConstant "CKR_DEVICE_ERROR");
  ("DEVICE_MEMORY", EConstant "CKR_DEVICE_MEMORY");
  ("DEVICE_REMOVED", EConstant "CKR_DEVICE_REMOVED");
  ("ENCRYPTED_DATA_INVALID", EConstant "CKR_ENCRYPTED_DATA_INVALID");
  ("ENCRYPTED_DATA_LEN_RANGE", EConstant "CKR_ENCRYPTED_DATA_LEN_RANGE");
  ("AEAD_DECRYPT_FAILED", EConstant "CKR_AEAD_DECRYPT_FAILED");
  ("FUNCTION_CANCELED", EConstant "CKR_FUNCTION_CANCELED");
  ("FUNCTION_NOT_PARALLEL", EConstant "CKR_FUNCTION_NOT_PARALLEL");
  ("FUNCTION_NOT_SUPPORTED", EConstant "CKR_FUNCTION_NOT_SUPPORTED");
  ("KEY_HANDLE_INVALID", EConstant "CKR_KEY_HANDLE_INVALID");
  ("KEY_SIZE_RANGE", EConstant "CKR_KEY_SIZE_RANGE");
  ("KEY_TYPE_INCONSISTENT", EConstant "CKR_KEY_TYPE_INCONSISTENT");
  ("KEY_NOT_NEEDED", EConstant "CKR_KEY_NOT_NEEDED");
  ("KEY_CHANGED", EConstant "CKR_KEY_CHANGED");
  ("KEY_NEEDED", EConstant "CKR_KEY_NEEDED");
  ("KEY_INDIGESTIBLE", EConstant "CKR_KEY_INDIGESTIBLE");
  ("KEY_FUNCTION_NOT_PERMITTED", EConstant "CKR_KEY_FUNCTION_NOT_PERMITTED");
  ("KEY_NOT_WRAPPABLE", EConstant "CKR_KEY_NOT_WRAPPABLE");
  ("KEY_UNEXTRACTABLE", EConstant "CKR_KEY_UNEXTRACTABLE");
  ("MECHANISM_INVALID", EConstant "CKR_MECHANISM_INVALID");
  ("MECHANISM_PARAM_INVALID", EConstant "CKR_MECHANISM_PARAM_INVALID");
  ("OBJECT_HANDLE_INVALID", EConstant "CKR_OBJECT_HANDLE_INVALID");
  ("OPERATION_ACTIVE", EConstant "CKR_OPERATION_ACTIVE");
  ("OPERATION_NOT_INITIALIZED", EConstant "CKR_OPERATION_NOT_INITIALIZED");
  ("PIN_INCORRECT", EConstant "CKR_PIN_INCORRECT");
  ("PIN_INVALID", EConstant "CKR_PIN_INVALID");
  ("PIN_LEN_RANGE", EConstant "CKR_PIN_LEN_RANGE");
  ("PIN_EXPIRED", EConstant "CKR_PIN_EXPIRED");
  ("PIN_LOCKED", EConstant "CKR_PIN_LOCKED");
  ("SESSION_CLOSED", EConstant "CKR_SESSION_CLOSED");
  ("SESSION_COUNT", EConstant "CKR_SESSION_COUNT");
  ("SESSION_HANDLE_INVALID", EConstant "CKR_SESSION_HANDLE_INVALID");
  ("SESSION_PARALLEL_NOT_SUPPORTED", EConstant "CKR_SESSION_PARALLEL_NOT_SUPPORTED");
  ("SESSION_READ_ONLY", EConstant "CKR_SESSION_READ_ONLY");
  ("SESSION_EXISTS", EConstant "CKR_SESSION_EXISTS");
  ("SESSION_READ_ONLY_EXISTS", EConstant "CKR_SESSION_READ_ONLY_EXISTS");
  ("SESSION_READ_WRITE_SO_EXISTS", EConstant "CKR_SESSION_READ_WRITE_SO_EXISTS");
  ("SIGNATURE_INVALID", EConstant "CKR_SIGNATURE_INVALID");
  ("SIGNATURE_LEN_RANGE", EConstant "CKR_SIGNATURE_LEN_RANGE");
  ("TEMPLATE_INCOMPLETE", EConstant "CKR_TEMPLATE_INCOMPLETE");
  ("TEMPLATE_INCONSISTENT", EConstant "CKR_TEMPLATE_INCONSISTENT");
  ("TOKEN_NOT_PRESENT", EConstant "CKR_TOKEN_NOT_PRESENT");
  ("TOKEN_NOT_RECOGNIZED", EConstant "CKR_TOKEN_NOT_RECOGNIZED");
  ("TOKEN_WRITE_PROTECTED", EConstant "CKR_TOKEN_WRITE_PROTECTED");
  ("UNWRAPPING_KEY_HANDLE_INVALID", EConstant "CKR_UNWRAPPING_KEY_HANDLE_INVALID");
  ("UNWRAPPING_KEY_SIZE_RANGE", EConstant "CKR_UNWRAPPING_KEY_SIZE_RANGE");
  ("UNWRAPPING_KEY_TYPE_INCONSISTENT", EConstant "CKR_UNWRAPPING_KEY_TYPE_INCONSISTENT");
  ("USER_ALREADY_LOGGED_IN", EConstant "CKR_USER_ALREADY_LOGGED_IN");
  ("USER_NOT_LOGGED_IN", EConstant "CKR_USER_NOT_LOGGED_IN");
  ("USER_PIN_NOT_INITIALIZED", EConstant "CKR_USER_PIN_NOT_INITIALIZED");
  ("USER_TYPE_INVALID", EConstant "CKR_USER_TYPE_INVALID");
  ("USER_ANOTHER_ALREADY_LOGGED_IN", EConstant "CKR_USER_ANOTHER_ALREADY_LOGGED_IN");
  ("USER_TOO_MANY_TYPES", EConstant "CKR_USER_TOO_MANY_TYPES");
  ("WRAPPED_KEY_INVALID", EConstant "CKR_WRAPPED_KEY_INVALID");
  ("WRAPPED_KEY_LEN_RANGE", EConstant "CKR_WRAPPED_KEY_LEN_RANGE");
  ("WRAPPING_KEY_HANDLE_INVALID", EConstant "CKR_WRAPPING_KEY_HANDLE_INVALID");
  ("WRAPPING_KEY_SIZE_RANGE", EConstant "CKR_WRAPPING_KEY_SIZE_RANGE");
  ("WRAPPING_KEY_TYPE_INCONSISTENT", EConstant "CKR_WRAPPING_KEY_TYPE_INCONSISTENT");
  ("RANDOM_SEED_NOT_SUPPORTED", EConstant "CKR_RANDOM_SEED_NOT_SUPPORTED");
  ("RANDOM_NO_RNG", EConstant "CKR_RANDOM_NO_RNG");
  ("DOMAIN_PARAMS_INVALID", EConstant "CKR_DOMAIN_PARAMS_INVALID");
  ("CURVE_NOT_SUPPORTED", EConstant "CKR_CURVE_NOT_SUPPORTED");
  ("BUFFER_TOO_SMALL", EConstant "CKR_BUFFER_TOO_SMALL");
  ("SAVED_STATE_INVALID", EConstant "CKR_SAVED_STATE_INVALID");
  ("INFORMATION_SENSITIVE", EConstant "CKR_INFORMATION_SENSITIVE");
  ("STATE_UNSAVEABLE", EConstant "CKR_STATE_UNSAVEABLE");
  ("CRYPTOKI_NOT_INITIALIZED", EConstant "CKR_CRYPTOKI_NOT_INITIALIZED");
  ("CRYPTOKI_ALREADY_INITIALIZED", EConstant "CKR_CRYPTOKI_ALREADY_INITIALIZED");
  ("MUTEX_BAD", EConstant "CKR_MUTEX_BAD");
  ("MUTEX_NOT_LOCKED", EConstant "CKR_MUTEX_NOT_LOCKED");
  ("NEW_PIN_MODE", EConstant "CKR_NEW_PIN_MODE");
  ("NEXT_OTP", EConstant "CKR_NEXT_OTP");
  ("EXCEEDED_MAX_ITERATIONS", EConstant "CKR_EXCEEDED_MAX_ITERATIONS");
  ("FIPS_SELF_TEST_FAILED", EConstant "CKR_FIPS_SELF_TEST_FAILED");
  ("LIBRARY_LOAD_FAILED", EConstant "CKR_LIBRARY_LOAD_FAILED");
  ("PIN_TOO_WEAK", EConstant "CKR_PIN_TOO_WEAK");
  ("PUBLIC_KEY_INVALID", EConstant "CKR_PUBLIC_KEY_INVALID");
  ("FUNCTION_REJECTED", EConstant "CKR_FUNCTION_REJECTED");
  ("TOKEN_RESOURCE_EXCEEDED", EConstant "CKR_TOKEN_RESOURCE_EXCEEDED");
  ("VENDOR_DEFINED", EConstant "CKR_VENDOR_DEFINED")
].
(** Enums.hpp 1335-1339. *)
Definition enum_InterfaceFlags := Enumeration "InterfaceFlags" Long [
  ("NONE", ENext);
  ("END_OF_MESSAGE", EConstant "CKF_END_OF_MESSAGE")
].
(** Enums.hpp 1345-1349. *)
Definition enum_FunctionListFlags := Enumeration "FunctionListFlags" Long [
  ("NULL_VALUE", ENext);
  ("FORK_SAFE", EConstant "CKF_INTERFACE_FORK_SAFE")
].
(** Enums.hpp 1355-1359. *)
Definition enum_InitializeArgsFlags := Enumeration "InitializeArgsFlags" Long [
  ("LIBRARY_CANT_CREATE_OS_THREADS", EConstant "CKF_LIBRARY_CANT_CREATE_OS_THREADS");
  ("OS_LOCKING_OK", EConstant "CKF_OS_LOCKING_OK")
].
(** Enums.hpp 1365-1369. *)
Definition enum_WaitForSlotEventFlags := Enumeration "WaitForSlotEventFlags" Long [
  ("DO_BLOCK", ENumber 0);
  ("DONT_BLOCK", EConstant "CKF_DONT_BLOCK")
].
(** Enums.hpp 1375-1383. *)
Definition enum_RsaMessageGenerationFunction := Enumeration "RsaMessageGenerationFunction" Long [
  ("SHA1", EConstant "CKG_MGF1_SHA1");
  ("SHA256", EConstant "CKG_MGF1_SHA256");
  ("SHA384", EConstant "CKG_MGF1_SHA384");
  ("SHA512", EConstant "CKG_MGF1_SHA512");
  ("SHA224", EConstant "CKG_MGF1_SHA224")
].
(** Enums.hpp 1389-1392. *)
Definition enum_RsaPkcsOaepSource := Enumeration "RsaPkcsOaepSource" Long [
  ("DATA_SPECIFIED", EConstant "CKZ_DATA_SPECIFIED")
].
(** Enums.hpp 1397-1428. *)
Definition enum_EcKdf := Enumeration "EcKdf" Long [
  ("NONE", EConstant "CKD_NULL");
  ("SHA1", EConstant "CKD_SHA1_KDF");
  ("SHA1_ASN1", EConstant "CKD_SHA1_KDF_ASN1");
  ("SHA1_CONCATENATE", EConstant "CKD_SHA1_KDF_CONCATENATE");
  ("SHA224", EConstant "CKD_SHA224_KDF");
  ("SHA256", EConstant "CKD_SHA256_KDF");
  ("SHA384", EConstant "CKD_SHA384_KDF");
  ("SHA512", EConstant "CKD_SHA512_KDF");
  ("CPDIVERSIFY", EConstant "CKD_CPDIVERSIFY_KDF");
  ("SHA3_224_KDF", EConstant "CKD_SHA3_224_KDF");
  ("SHA3_256_KDF", EConstant "CKD_SHA3_256_KDF");
  ("SHA3_384_KDF", EConstant "CKD_SHA3_384_KDF");
  ("SHA3_512_KDF", EConstant "CKD_SHA3_512_KDF");
  ("SHA1_KDF_SP800", EConstant "CKD_SHA1_KDF_SP800");
  ("SHA224_KDF_SP800", EConstant "CKD_SHA224_KDF_SP800");
  ("SHA256_KDF_SP800", EConstant "CKD_SHA256_KDF_SP800");
  ("SHA384_KDF_SP800", EConstant "CKD_SHA384_KDF_SP800");
  ("SHA512_KDF_SP800", EConstant "CKD_SHA512_KDF_SP800");
  ("SHA3_224_KDF_SP800", EConstant "CKD_SHA3_224_KDF_SP800");
  ("SHA3_256_KDF_SP800", EConstant "CKD_SHA3_256_KDF_SP800");
  ("SHA3_384_KDF_SP800", EConstant "CKD_SHA3_384_KDF_SP800");
  ("SHA3_512_KDF_SP800", EConstant "CKD_SHA3_512_KDF_SP800");
  ("BLAKE2B_160_KDF", EConstant "CKD_BLAKE2B_160_KDF");
  ("BLAKE2B_256_KDF", EConstant "CKD_BLAKE2B_256_KDF");
  ("BLAKE2B_384_KDF", EConstant "CKD_BLAKE2B_384_KDF");
  ("BLAKE2B_512_KDF", EConstant "CKD_BLAKE2B_512_KDF")
].
(** Enums.hpp 1433-1444. *)
Definition enum_Pkcs5Pbkd2PseudoRandomFunction := Enumeration "Pkcs5Pbkd2PseudoRandomFunction" Long [
  ("SHA1", EConstant "CKP_PKCS5_PBKD2_HMAC_SHA1");
  ("GOSTR3411", EConstant "CKP_PKCS5_PBKD2_HMAC_GOSTR3411");
  ("SHA224", EConstant "CKP_PKCS5_PBKD2_HMAC_SHA224");
  ("SHA256", EConstant "CKP_PKCS5_PBKD2_HMAC_SHA256");
  ("SHA384", EConstant "CKP_PKCS5_PBKD2_HMAC_SHA384");
  ("SHA512", EConstant "CKP_PKCS5_PBKD2_HMAC_SHA512");
  ("SHA512_224", EConstant "CKP_PKCS5_PBKD2_HMAC_SHA512_224");
  ("SHA512_256", EConstant "CKP_PKCS5_PBKD2_HMAC_SHA512_256")
].
(** Enums.hpp 1450-1453. *)
Definition enum_Pkcs5Pbkdf2SaltSource := Enumeration "Pkcs5Pbkdf2SaltSource" Long [
  ("SPECIFIED", EConstant "CKZ_SALT_SPECIFIED")
].
(** Enums.hpp 1459-1469. *)
Definition enum_OtpParam := Enumeration "OtpParam" Long [
  ("VALUE", EConstant "CK_OTP_VALUE");
  ("PIN", EConstant "CK_OTP_PIN");
  ("CHALLENGE", EConstant "CK_OTP_CHALLENGE");
  ("TIME", EConstant "CK_OTP_TIME");
  ("COUNTER", EConstant "CK_OTP_COUNTER");
  ("FLAGS", EConstant "CK_OTP_FLAGS");
  ("OUTPUT_LENGTH", EConstant "CK_OTP_OUTPUT_LENGTH");
  ("OUTPUT_FORMAT", EConstant "CK_OTP_OUTPUT_FORMAT")
].
(** Enums.hpp 1474-1482. *)
Definition enum_OtpParamFlags := Enumeration "OtpParamFlags" Long [
  ("NEXT_OTP", EConstant "CKF_NEXT_OTP");
  ("EXCLUDE_TIME", EConstant "CKF_EXCLUDE_TIME");
  ("EXCLUDE_COUNTER", EConstant "CKF_EXCLUDE_COUNTER");
  ("EXCLUDE_CHALLENGE", EConstant "CKF_EXCLUDE_CHALLENGE");
  ("EXCLUDE_PIN", EConstant "CKF_EXCLUDE_PIN");
  ("USER_FRIENDLY_OTP", EConstant "CKF_USER_FRIENDLY_OTP")
].
(** Enums.hpp 1490-1496. *)
Definition enum_GeneratorFunction := Enumeration "GeneratorFunction" Long [
  ("NO_GENERATE", EConstant "CKG_NO_GENERATE");
  ("GENERATE", EConstant "CKG_GENERATE");
  ("GENERATE_COUNTER", EConstant "CKG_GENERATE_COUNTER");
  ("GENERATE_RANDOM", EConstant "CKG_GENERATE_RANDOM")
].
(** Enums.hpp 1500-1506. *)
Definition enum_NistSp800dot108 := Enumeration "NistSp800dot108" Long [
  ("ITERATION_VARIABLE", EConstant "CK_SP800_108_ITERATION_VARIABLE");
  ("OPTIONAL_COUNTER", EConstant "CK_SP800_108_OPTIONAL_COUNTER");
  ("DKM_LENGTH", EConstant "CK_SP800_108_DKM_LENGTH");
  ("BYTE_ARRAY", EConstant "CK_SP800_108_BYTE_ARRAY")
].
(** Enums.hpp 1510-1515. *)
Definition enum_HkdfSalt := Enumeration "HkdfSalt" Long [
  ("SALT_NULL", EConstant "CKF_HKDF_SALT_NULL");
  ("SALT_DATA", EConstant "CKF_HKDF_SALT_DATA");
  ("SALT_KEY", EConstant "CKF_HKDF_SALT_KEY")
].

(** Of the model: the enumerations of Enums.hpp 60-1515 in their order. *)
Definition enumerations : list enumeration := [
  enum_Version;
  enum_Bool;
  enum_SpecialValue;
  enum_Notification;
  enum_SlotFlags;
  enum_TokenInfoFlags;
  enum_User;
  enum_State;
  enum_SessionFlags;
  enum_ObjectClass;
  enum_ProfileId;
  enum_HardwareFeature;
  enum_Key;
  enum_CertificateCategory;
  enum_SecurityDomain;
  enum_Certificate;
  enum_AttributeFlags;
  enum_OtpFormat;
  enum_OtpParamAttributes;
  enum_Attribute;
  enum_Mechanism;
  enum_MechanismFlags;
  enum_ReturnType;
  enum_InterfaceFlags;
  enum_FunctionListFlags;
  enum_InitializeArgsFlags;
  enum_WaitForSlotEventFlags;
  enum_RsaMessageGenerationFunction;
  enum_RsaPkcsOaepSource;
  enum_EcKdf;
  enum_Pkcs5Pbkd2PseudoRandomFunction;
  enum_Pkcs5Pbkdf2SaltSource;
  enum_OtpParam;
  enum_OtpParamFlags;
  enum_GeneratorFunction;
  enum_NistSp800dot108;
  enum_HkdfSalt
].

(** The enumerations with the operators & and |: FLAG_OPERATORS. Enums.hpp 114, 209, 258, 415,
    1197, 1341, 1351, 1361, 1371, 1484. *)
Definition flag_enumerations : list enumeration := [
  enum_SlotFlags;
  enum_TokenInfoFlags;
  enum_SessionFlags;
  enum_AttributeFlags;
  enum_MechanismFlags;
  enum_InterfaceFlags;
  enum_FunctionListFlags;
  enum_InitializeArgsFlags;
  enum_WaitForSlotEventFlags;
  enum_OtpParamFlags
].
