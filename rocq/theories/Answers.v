(** The answers of the functions: which return values PKCS #11 lists for each function
    (version 2.40, section 5), and which ones the functions give. Codes are written as
    numbers of pkcs11.h here, so that nothing of the model is used but the calls. *)
From Verif Require Import Base Ops Object Store Sys Api.
From Coq Require Import String.
Local Open Scope string_scope.
Local Open Scope Z_scope.
Local Open Scope list_scope.

Definition name (c : api) : string :=
  match c with
  | A_Initialize _ => "C_Initialize" | A_Finalize _ => "C_Finalize" | A_GetInfo _ => "C_GetInfo"
  | A_GetFunctionList _ => "C_GetFunctionList" | A_GetSlotList _ _ _ => "C_GetSlotList"
  | A_GetSlotInfo _ _ => "C_GetSlotInfo" | A_GetTokenInfo _ _ _ _ => "C_GetTokenInfo"
  | A_GetMechanismList _ _ _ => "C_GetMechanismList" | A_GetMechanismInfo _ _ _ => "C_GetMechanismInfo"
  | A_InitToken _ _ _ => "C_InitToken" | A_InitPIN _ _ => "C_InitPIN" | A_SetPIN _ _ _ => "C_SetPIN"
  | A_OpenSession _ _ _ => "C_OpenSession" | A_CloseSession _ => "C_CloseSession"
  | A_CloseAllSessions _ => "C_CloseAllSessions" | A_GetSessionInfo _ _ => "C_GetSessionInfo"
  | A_GetOperationState _ _ _ => "C_GetOperationState" | A_SetOperationState _ _ _ _ => "C_SetOperationState"
  | A_Login _ _ _ _ => "C_Login" | A_Logout _ => "C_Logout"
  | A_CreateObject _ _ _ => "C_CreateObject" | A_CopyObject _ _ _ _ => "C_CopyObject"
  | A_DestroyObject _ _ => "C_DestroyObject" | A_GetObjectSize _ _ _ => "C_GetObjectSize"
  | A_GetAttributeValue _ _ _ => "C_GetAttributeValue" | A_SetAttributeValue _ _ _ => "C_SetAttributeValue"
  | A_FindObjectsInit _ _ => "C_FindObjectsInit" | A_FindObjects _ _ _ _ => "C_FindObjects"
  | A_FindObjectsFinal _ => "C_FindObjectsFinal"
  | A_EncryptInit _ _ _ => "C_EncryptInit" | A_Encrypt _ _ _ _ _ => "C_Encrypt"
  | A_EncryptUpdate _ _ _ _ => "C_EncryptUpdate" | A_EncryptFinal _ _ _ => "C_EncryptFinal"
  | A_DecryptInit _ _ _ => "C_DecryptInit" | A_Decrypt _ _ _ _ _ => "C_Decrypt"
  | A_DecryptUpdate _ _ _ _ => "C_DecryptUpdate" | A_DecryptFinal _ _ _ => "C_DecryptFinal"
  | A_DigestInit _ _ => "C_DigestInit" | A_Digest _ _ _ _ => "C_Digest" | A_DigestUpdate _ _ => "C_DigestUpdate"
  | A_DigestKey _ _ => "C_DigestKey" | A_DigestFinal _ _ _ => "C_DigestFinal"
  | A_SignInit _ _ _ => "C_SignInit" | A_Sign _ _ _ _ _ => "C_Sign" | A_SignUpdate _ _ => "C_SignUpdate"
  | A_SignFinal _ _ _ => "C_SignFinal" | A_SignRecoverInit _ _ _ => "C_SignRecoverInit"
  | A_SignRecover _ _ _ _ => "C_SignRecover"
  | A_VerifyInit _ _ _ => "C_VerifyInit" | A_Verify _ _ _ => "C_Verify" | A_VerifyUpdate _ _ => "C_VerifyUpdate"
  | A_VerifyFinal _ _ => "C_VerifyFinal" | A_VerifyRecoverInit _ _ _ => "C_VerifyRecoverInit"
  | A_VerifyRecover _ _ _ _ => "C_VerifyRecover"
  | A_DigestEncryptUpdate _ _ _ _ => "C_DigestEncryptUpdate" | A_DecryptDigestUpdate _ _ _ _ => "C_DecryptDigestUpdate"
  | A_SignEncryptUpdate _ _ _ _ => "C_SignEncryptUpdate" | A_DecryptVerifyUpdate _ _ _ _ => "C_DecryptVerifyUpdate"
  | A_GenerateKey _ _ _ _ _ => "C_GenerateKey" | A_GenerateKeyPair _ _ _ _ _ _ _ => "C_GenerateKeyPair"
  | A_WrapKey _ _ _ _ _ _ => "C_WrapKey" | A_UnwrapKey _ _ _ _ _ _ => "C_UnwrapKey"
  | A_DeriveKey _ _ _ _ _ _ => "C_DeriveKey" | A_SeedRandom _ _ _ => "C_SeedRandom"
  | A_GenerateRandom _ _ _ _ => "C_GenerateRandom" | A_GetFunctionStatus _ => "C_GetFunctionStatus"
  | A_CancelFunction _ => "C_CancelFunction" | A_WaitForSlotEvent _ _ _ => "C_WaitForSlotEvent"
  end.
Definition look (t : list (string * list Z)) (n : string) : list Z :=
  match find (fun p => String.eqb (fst p) n) t with Some p => snd p | None => [] end.

(** ** PKCS #11 *)
(** CKR_OK; CKR_HOST_MEMORY, CKR_GENERAL_ERROR, CKR_FUNCTION_FAILED: every function (5.1.1);
    CKR_FUNCTION_NOT_SUPPORTED: every function a library does not have. *)
Definition any : list Z := [0; 2; 5; 6; 0x54].
(** CKR_CRYPTOKI_NOT_INITIALIZED, CKR_ARGUMENTS_BAD *)
Definition lib' : list Z := any ++ [0x190; 7].
(** a slot: CKR_SLOT_ID_INVALID, CKR_DEVICE_*, CKR_TOKEN_NOT_PRESENT, _NOT_RECOGNIZED *)
Definition slot' : list Z := lib' ++ [3; 0x30; 0x31; 0x32; 0xE0; 0xE1].
(** a session: CKR_SESSION_HANDLE_INVALID, CKR_SESSION_CLOSED, CKR_DEVICE_*, CKR_TOKEN_NOT_PRESENT *)
Definition sess' : list Z := lib' ++ [0xB3; 0xB0; 0x30; 0x31; 0x32; 0xE0].
(** CKR_FUNCTION_CANCELED *)
Definition run' : list Z := sess' ++ [0x50].
(** templates: CKR_ATTRIBUTE_READ_ONLY, _TYPE_INVALID, _VALUE_INVALID, CKR_TEMPLATE_INCONSISTENT,
    CKR_SESSION_READ_ONLY, CKR_TOKEN_WRITE_PROTECTED, CKR_USER_NOT_LOGGED_IN, CKR_PIN_EXPIRED *)
Definition tmpl' : list Z := sess' ++ [0x10; 0x12; 0x13; 0xD1; 0xB5; 0xE2; 0x101; 0xA3].
(** Init of an operation with a key: CKR_KEY_FUNCTION_NOT_PERMITTED, CKR_KEY_HANDLE_INVALID,
    CKR_KEY_SIZE_RANGE, CKR_KEY_TYPE_INCONSISTENT, CKR_MECHANISM_INVALID, CKR_MECHANISM_PARAM_INVALID,
    CKR_OPERATION_ACTIVE, CKR_PIN_EXPIRED, CKR_USER_NOT_LOGGED_IN *)
Definition init' : list Z := run' ++ [0x68; 0x60; 0x62; 0x63; 0x70; 0x71; 0x90; 0xA3; 0x101].
(** data: CKR_OPERATION_NOT_INITIALIZED; with output: CKR_BUFFER_TOO_SMALL *)
Definition data' : list Z := run' ++ [0x91; 0x101].
Definition outp' : list Z := data' ++ [0x150].
(** key management: CKR_MECHANISM_*, CKR_OPERATION_ACTIVE; new keys: CKR_TEMPLATE_INCOMPLETE,
    CKR_CURVE_NOT_SUPPORTED, CKR_DOMAIN_PARAMS_INVALID *)
Definition mgmt' : list Z := run' ++ [0x70; 0x71; 0x90; 0xA3; 0x101].
Definition newk' : list Z := mgmt' ++ tmpl' ++ [0xD0; 0x140; 0x130].
Definition allowed : list (string * list Z) :=
  [("C_Initialize", any ++ [7; 9; 0xA; 0x191]); ("C_Finalize", lib'); ("C_GetInfo", lib');
   ("C_GetFunctionList", any ++ [7]); ("C_GetSlotList", lib' ++ [0x150]); ("C_GetSlotInfo", lib' ++ [3; 0x30]);
   ("C_GetTokenInfo", slot'); ("C_WaitForSlotEvent", lib' ++ [8]); ("C_GetMechanismList", slot' ++ [0x150]);
   ("C_GetMechanismInfo", slot' ++ [0x70]);
   ("C_InitToken", slot' ++ [0x50; 0xA0; 0xA4; 0xB6; 0xE2]);
   ("C_InitPIN", run' ++ [0xA1; 0xA2; 0xB5; 0xE2; 0x101]);
   ("C_SetPIN", run' ++ [0xA0; 0xA1; 0xA2; 0xA4; 0xB5; 0xE2]);
   ("C_OpenSession", slot' ++ [0xB1; 0xB4; 0xB8; 0xE2]); ("C_CloseSession", sess'); ("C_CloseAllSessions", slot');
   ("C_GetSessionInfo", sess'); ("C_GetOperationState", sess' ++ [0x150; 0x91; 0x180]);
   ("C_SetOperationState", sess' ++ [0x64; 0x65; 0x66; 0x160]);
   ("C_Login", run' ++ [0x91; 0xA0; 0xA4; 0xB7; 0x100; 0x104; 0x102; 0x105; 0x103]); ("C_Logout", sess' ++ [0x101]);
   ("C_CreateObject", tmpl' ++ [0xD0; 0x140; 0x130]); ("C_CopyObject", tmpl' ++ [0x1B; 0x82]);
   ("C_DestroyObject", sess' ++ [0x1B; 0x82; 0xA3; 0xB5; 0xE2]); ("C_GetObjectSize", sess' ++ [0x170; 0x82]);
   ("C_GetAttributeValue", sess' ++ [0x11; 0x12; 0x150; 0x82]); ("C_SetAttributeValue", tmpl' ++ [0x1B; 0x82]);
   ("C_FindObjectsInit", sess' ++ [0x12; 0x13; 0x90; 0xA3]); ("C_FindObjects", sess' ++ [0x91]); ("C_FindObjectsFinal", sess' ++ [0x91]);
   ("C_EncryptInit", init'); ("C_Encrypt", outp' ++ [0x20; 0x21]); ("C_EncryptUpdate", outp' ++ [0x21]); ("C_EncryptFinal", outp' ++ [0x21]);
   ("C_DecryptInit", init'); ("C_Decrypt", outp' ++ [0x40; 0x41]); ("C_DecryptUpdate", outp' ++ [0x40; 0x41]); ("C_DecryptFinal", outp' ++ [0x40; 0x41]);
   ("C_DigestInit", mgmt'); ("C_Digest", outp'); ("C_DigestUpdate", data'); ("C_DigestKey", data' ++ [0x60; 0x67; 0x62]); ("C_DigestFinal", outp');
   ("C_SignInit", init'); ("C_Sign", outp' ++ [0x20; 0x21; 0x200]); ("C_SignUpdate", data' ++ [0x21]); ("C_SignFinal", outp' ++ [0x21; 0x200]);
   ("C_SignRecoverInit", init'); ("C_SignRecover", outp' ++ [0x20; 0x21]);
   ("C_VerifyInit", init'); ("C_Verify", data' ++ [0x20; 0x21; 0xC0; 0xC1]); ("C_VerifyUpdate", data' ++ [0x21]); ("C_VerifyFinal", data' ++ [0x21; 0xC0; 0xC1]);
   ("C_VerifyRecoverInit", init'); ("C_VerifyRecover", outp' ++ [0x20; 0x21; 0xC0; 0xC1]);
   ("C_DigestEncryptUpdate", outp' ++ [0x21]); ("C_DecryptDigestUpdate", outp' ++ [0x40; 0x41]);
   ("C_SignEncryptUpdate", outp' ++ [0x21]); ("C_DecryptVerifyUpdate", outp' ++ [0x21; 0x40; 0x41]);
   ("C_GenerateKey", newk'); ("C_GenerateKeyPair", newk');
   ("C_WrapKey", mgmt' ++ [0x150; 0x60; 0x69; 0x62; 0x6A; 0x113; 0x114; 0x115]);
   ("C_UnwrapKey", newk' ++ [0x150; 0xF0; 0xF1; 0xF2; 0x110; 0x112]);
   ("C_DeriveKey", newk' ++ [0x60; 0x62; 0x63]);
   ("C_SeedRandom", run' ++ [0x90; 0x120; 0x121; 0x101]); ("C_GenerateRandom", run' ++ [0x90; 0x121; 0x101]);
   ("C_GetFunctionStatus", sess' ++ [0x51]); ("C_CancelFunction", sess' ++ [0x51])].

(** ** What the functions answer *)
Definition S_ : list Z := [0x190; 0xB3].                       (* library, session *)
Definition L_ : list Z := [0x190; 3].                          (* library, slot *)
Definition set_ : list Z := [0; 6; 0x12; 0x13; 0x31; 0x150].   (* SetAttributeValue of a new object *)
Definition ini_ : list Z := S_ ++ [0; 6; 7; 0x63; 0x70; 0x71; 0x82].
Definition dat_ : list Z := S_ ++ [0; 6; 7; 0x70; 0x91; 0x150].
Definition answers : list (string * list Z) :=
  [("C_Initialize", [0]); ("C_Finalize", [0]); ("C_GetInfo", [0; 7; 0x190]); ("C_GetFunctionList", [0; 7]);
   ("C_GetSlotList", [0; 7; 0x150; 0x190]); ("C_GetSlotInfo", L_ ++ [0; 7]); ("C_GetTokenInfo", L_ ++ [0; 7]);
   ("C_WaitForSlotEvent", [0x54; 0x190]); ("C_GetMechanismList", L_ ++ [0; 7; 0x150]); ("C_GetMechanismInfo", L_ ++ [0; 7; 0x70]);
   ("C_InitToken", L_ ++ [0; 7; 0xA0; 0xB6]); ("C_InitPIN", S_ ++ [0; 6; 7; 0xA0; 0x101]); ("C_SetPIN", S_ ++ [0; 6; 7; 0xA0; 0xB5; 0x102]);
   ("C_OpenSession", L_ ++ [0; 7; 0xB1; 0xB4; 0xB8]); ("C_CloseSession", S_ ++ [0]); ("C_CloseAllSessions", L_ ++ [0]);
   ("C_GetSessionInfo", S_ ++ [0; 7]); ("C_GetOperationState", S_ ++ [7; 0x180]); ("C_SetOperationState", S_ ++ [7; 0x160]);
   ("C_Login", S_ ++ [0; 7; 0x91; 0xA0; 0xB7; 0x100; 0x102; 0x103]); ("C_Logout", S_ ++ [0]);
   ("C_CreateObject", S_ ++ set_ ++ [7; 0xB5; 0xD0]); ("C_CopyObject", S_ ++ set_ ++ [7; 0x82; 0xB5; UNAVAILABLE]);
   ("C_DestroyObject", S_ ++ [0; 0x82; 0xB5]); ("C_GetObjectSize", S_ ++ [0; 7; 0x82]);
   ("C_GetAttributeValue", S_ ++ [0; 6; 7; 0x12; 0x82; 0x150; UNAVAILABLE]); ("C_SetAttributeValue", S_ ++ set_ ++ [7; 0x82; 0xB5]);
   ("C_FindObjectsInit", S_ ++ [0; 7; 0x13; 0x90]); ("C_FindObjects", S_ ++ [0; 7]); ("C_FindObjectsFinal", S_ ++ [0]);
   ("C_EncryptInit", ini_); ("C_Encrypt", dat_); ("C_EncryptUpdate", dat_); ("C_EncryptFinal", S_ ++ [0; 7; 0x21; 0x70; 0x91; 0x150]);
   ("C_DecryptInit", ini_); ("C_Decrypt", dat_); ("C_DecryptUpdate", S_ ++ [0; 7; 0x70; 0x91; 0x150]); ("C_DecryptFinal", dat_ ++ [0x21]);
   ("C_DigestInit", S_ ++ [7; 0x70]); ("C_Digest", S_ ++ [7; 0x91]); ("C_DigestUpdate", S_ ++ [7; 0x91]);
   ("C_DigestKey", S_ ++ [0x82; 0x91]); ("C_DigestFinal", S_ ++ [7; 0x91]);
   ("C_SignInit", ini_); ("C_Sign", dat_); ("C_SignUpdate", S_ ++ [0; 7; 0x70; 0x91]); ("C_SignFinal", S_ ++ [0; 7; 0x70; 0x91; 0x150]);
   ("C_SignRecoverInit", S_ ++ [7; 0x70; 0x82]); ("C_SignRecover", S_ ++ [7; 0x91]);
   ("C_VerifyInit", ini_); ("C_Verify", S_ ++ [0; 6; 7; 0x70; 0x91; 0xC0]); ("C_VerifyUpdate", S_ ++ [0; 7; 0x70; 0x91]);
   ("C_VerifyFinal", S_ ++ [0; 7; 0x70; 0x91; 0xC0]); ("C_VerifyRecoverInit", S_ ++ [7; 0x70; 0x82]); ("C_VerifyRecover", S_ ++ [7; 0x91]);
   ("C_DigestEncryptUpdate", S_ ++ [7; 0x91]); ("C_DecryptDigestUpdate", S_ ++ [7; 0x91]);
   ("C_SignEncryptUpdate", S_ ++ [7; 0x91]); ("C_DecryptVerifyUpdate", S_ ++ [7; 0x91]);
   ("C_GenerateKey", S_ ++ [0; 6; 7; 0x12; 0x13; 0x70; 0x71; 0xB5; 0x150]); ("C_GenerateKeyPair", S_ ++ set_ ++ [7; 0x70; 0x71; 0xB5]);
   ("C_WrapKey", S_ ++ [0; 6; 7; 0x69; 0x70; 0x71; 0x82; 0xB5; 0x113; 0x115; 0x150]);
   ("C_UnwrapKey", S_ ++ set_ ++ [7; 0x69; 0x70; 0x71; 0xB5; 0xD0; 0xF0; 0xF2; 0x110]);
   ("C_DeriveKey", S_ ++ set_ ++ [7; 0x70; 0x71; 0x82; 0xB5; 0xD0]);
   ("C_SeedRandom", S_ ++ [0; 6; 7; 0x31]); ("C_GenerateRandom", S_ ++ [0; 6; 7; 0x31]);
   ("C_GetFunctionStatus", S_ ++ [0x51]); ("C_CancelFunction", S_ ++ [0x51])].
(** The answers of a function that PKCS #11 does not list for it. *)
Definition beyond (n : string) : list Z := filter (fun r => negb (existsb (Z.eqb r) (look allowed n))) (look answers n).
(** Those answers, function by function: CKR_PIN_INCORRECT (0xA0), CKR_USER_PIN_NOT_INITIALIZED
    (0x102), CKR_BUFFER_TOO_SMALL (0x150), CK_UNAVAILABLE_INFORMATION (no return value at all),
    CKR_OBJECT_HANDLE_INVALID (0x82), CKR_MECHANISM_INVALID (0x70), CKR_DATA_LEN_RANGE (0x21),
    CKR_SESSION_READ_ONLY (0xB5), CKR_KEY_NOT_WRAPPABLE (0x69). *)
Definition deviations : list (string * list Z) :=
  [("C_InitPIN", [0xA0]); ("C_SetPIN", [0x102]); ("C_CreateObject", [0x150]); ("C_CopyObject", [0x150; 2^64 - 1]);
   ("C_GetAttributeValue", [2^64 - 1]); ("C_SetAttributeValue", [0x150]);
   ("C_EncryptInit", [0x82]); ("C_Encrypt", [0x70]); ("C_EncryptUpdate", [0x70]); ("C_EncryptFinal", [0x70]);
   ("C_DecryptInit", [0x82]); ("C_Decrypt", [0x70]); ("C_DecryptUpdate", [0x70]); ("C_DecryptFinal", [0x70; 0x21]);
   ("C_DigestKey", [0x82]);
   ("C_SignInit", [0x82]); ("C_Sign", [0x70]); ("C_SignUpdate", [0x70]); ("C_SignFinal", [0x70]); ("C_SignRecoverInit", [0x82]);
   ("C_VerifyInit", [0x82]); ("C_Verify", [0x70]); ("C_VerifyUpdate", [0x70]); ("C_VerifyFinal", [0x70]); ("C_VerifyRecoverInit", [0x82]);
   ("C_GenerateKey", [0x150]); ("C_GenerateKeyPair", [0x150]);
   ("C_WrapKey", [0x82; 0xB5]); ("C_UnwrapKey", [0x69]); ("C_DeriveKey", [0x150; 0x82])].
