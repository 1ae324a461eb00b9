(** C112: every function answers only with return values PKCS #11 lists for it. *)
From Verif Require Import Base Cbc Ops ToyEnv Object PropObject Mech Info Store Sys ToySys Api PropApi OpsSpec OpsProofs3 OpLift Answers AnswersProofs AnswersProofs2.
From Coq Require Import String.
Local Open Scope string_scope.
Local Open Scope Z_scope.
Local Open Scope list_scope.

(** ** Histories that show the answers *)
(** A world in which some calls of the crypto library fail: numbers read from the byte 254 or 253,
    keys and data beginning with 255. *)
Definition ff (l : list N) : bool := (hd 0 l =? 255)%N.
Definition aoe : oenv :=
  mkOE (fun l => if (hd 0 l =? 254)%N then MEMORY_E else if (hd 0 l =? 253)%N then BAD_FUNC_ARG else 0)
       (oe_curve toe) (oe_set_curve toe) (oe_oid toe) (oe_ecsize toe) (oe_import toe) (fun c p => if (nth 1 p 0 =? 255)%N then (-1, []) else oe_export toe c p)
       (fun p g => if (hd 0 p =? 254)%N then (MEMORY_E, (0%N, 0%N)) else oe_dh_set toe p g).
Definition aev : env :=
  mkEnv (mkCipher toy_E toy_D true true) (e_aes_ok toy) (e_gcm_ok toy) (e_gcm_enc toy) (e_gcm_dec toy) (fun _ k => negb (ff k)) (e_hmac toy) (e_hmac_tail toy)
    (e_pk_enc toy) (e_pk_dec toy) (e_pk_sign toy) (fun m k p s d => if ff d then Err BAD_FUNC_ARG else e_pk_verify toy m k p s d).
Definition aw : world := mkW aev aoe tse (w_pk tw) (w_klen tw) (fun r => if (r_e r =? 1)%N then (-1, []) else w_p8 tw r) (w_p8_dec tw).
Fixpoint trace (s : sys) (l : list api) : list (string * Z) :=
  match l with
  | [] => []
  | c :: r => match exec aw (rnd 1) s c with Ok (s', o) => (name c, a_rv o) :: trace s' r | _ => [] end
  end.
Definition U : ptr unit := At tt.
Definition D (l : list N) : ptr bytes := At l.
Definition info0 : sess_info := mkSessInfo 0 0 0 0.
(** One call of each function but C_Initialize and C_Finalize. *)
Definition probe (h ho slot : Z) : list api :=
  [A_GetInfo U; A_GetFunctionList U; A_GetSlotList 0 U (At 4); A_GetSlotInfo slot U; A_GetTokenInfo slot U 0 None;
   A_GetMechanismList slot Null (At 0); A_GetMechanismInfo slot CKM_RSA_PKCS U; A_InitToken slot (D [1]%N) (D lab); A_InitPIN h (D [1]%N); A_SetPIN h (D [1]%N) (D upin);
   A_OpenSession slot 0 U; A_GetSessionInfo h (At info0); A_GetOperationState h U U; A_SetOperationState h U 0 0;
   A_Login h 7 (D upin) None; A_Logout h; A_CreateObject h (At []) U; A_CopyObject h ho (At []) U; A_GetObjectSize h ho U;
   A_GetAttributeValue h ho (At []); A_SetAttributeValue h ho (At []); A_FindObjectsInit h (At []); A_FindObjects h U 1 U; A_FindObjectsFinal h;
   A_EncryptInit h (At (M_OTHER 0, MPnull)) ho; A_Encrypt h (D []) U (At 0) []; A_EncryptUpdate h (D []) U (At 0); A_EncryptFinal h U (At 0);
   A_DecryptInit h (At (M_OTHER 0, MPnull)) ho; A_Decrypt h (D []) U (At 0) []; A_DecryptUpdate h (D []) U (At 0); A_DecryptFinal h U (At 0);
   A_DigestInit h U; A_Digest h (D [1]%N) U (At 0); A_DigestUpdate h (D [1]%N); A_DigestKey h ho; A_DigestFinal h U (At 0);
   A_SignInit h (At (M_OTHER 0, MPnull)) ho; A_Sign h (D []) U (At 0) []; A_SignUpdate h (D []); A_SignFinal h U (At 0); A_SignRecoverInit h U ho; A_SignRecover h (D [1]%N) U (At 0);
   A_VerifyInit h (At (M_OTHER 0, MPnull)) ho; A_Verify h (D []) (D []); A_VerifyUpdate h (D []); A_VerifyFinal h (D []); A_VerifyRecoverInit h U ho; A_VerifyRecover h (D [1]%N) U (At 0);
   A_DigestEncryptUpdate h (D [1]%N) U (At 0); A_DecryptDigestUpdate h (D [1]%N) U (At 0); A_SignEncryptUpdate h (D [1]%N) U (At 0); A_DecryptVerifyUpdate h (D [1]%N) U (At 0);
   A_GenerateKey h (At (mkGM false false)) (At []) U []; A_GenerateKeyPair h (At (mkPM KP_other false)) (At []) (At []) U U None; A_WrapKey h (At (M_OTHER 0, MPnull)) ho ho U (At 0);
   A_UnwrapKey h (At (M_OTHER 0, MPnull)) ho (D [1]%N) (At []) U; A_DeriveKey h (At (mkDM D_other DPnull)) ho (At []) U None;
   A_SeedRandom h (D [1]%N) 0; A_GenerateRandom h (At 1) 0 (fun _ => []); A_GetFunctionStatus h; A_CancelFunction h; A_WaitForSlotEvent 0 U Null; A_DestroyObject h ho; A_CloseSession h; A_CloseAllSessions slot].
(** The functions with pointers that must not be NULL. *)
Definition nulls (h ho slot : Z) : list api :=
  [A_GetInfo Null; A_GetFunctionList Null; A_GetSlotList 0 U Null; A_GetSlotInfo slot Null; A_GetTokenInfo slot Null 0 None;
   A_GetMechanismList slot Null Null; A_GetMechanismInfo slot CKM_RSA_PKCS Null; A_InitToken slot Null (D lab); A_InitPIN h Null; A_SetPIN h Null (D upin);
   A_OpenSession slot RW Null; A_GetSessionInfo h Null; A_GetOperationState h U Null; A_SetOperationState h Null 0 0;
   A_Login h 7 Null None; A_CreateObject h Null U; A_CopyObject h ho Null U; A_GetObjectSize h ho Null;
   A_GetAttributeValue h ho Null; A_SetAttributeValue h ho Null; A_FindObjectsInit h Null; A_FindObjects h Null 1 U;
   A_EncryptInit h Null ho; A_Encrypt h Null U (At 0) []; A_EncryptUpdate h Null U (At 0); A_EncryptFinal h U Null;
   A_DecryptInit h Null ho; A_Decrypt h Null U (At 0) []; A_DecryptUpdate h Null U (At 0); A_DecryptFinal h U Null;
   A_DigestInit h Null; A_Digest h Null U (At 0); A_DigestUpdate h Null; A_DigestFinal h U Null;
   A_SignInit h Null ho; A_Sign h Null U (At 0) []; A_SignUpdate h Null; A_SignFinal h U Null; A_SignRecoverInit h Null ho; A_SignRecover h Null U (At 0);
   A_VerifyInit h Null ho; A_Verify h Null (D []); A_VerifyUpdate h Null; A_VerifyFinal h Null; A_VerifyRecoverInit h Null ho; A_VerifyRecover h Null U (At 0);
   A_DigestEncryptUpdate h Null U (At 0); A_DecryptDigestUpdate h Null U (At 0); A_SignEncryptUpdate h Null U (At 0); A_DecryptVerifyUpdate h Null U (At 0);
   A_GenerateKey h Null (At []) U []; A_GenerateKeyPair h Null (At []) (At []) U U None; A_WrapKey h Null ho ho U (At 0);
   A_UnwrapKey h Null ho (D [1]%N) (At []) U; A_DeriveKey h Null ho (At []) U None; A_SeedRandom h Null 0; A_GenerateRandom h Null 0 (fun _ => [])].
Definition I_ : api := A_Initialize Null.
Definition open (f : Z) : api := A_OpenSession 1 f U.
(** Library and token ready, both PINs set, session H2. *)
Definition start : list api :=
  [I_; A_InitToken 1 (D sopin) (D lab); open RW; A_Login H2 CKU_SO (D sopin) (Some 0); A_InitPIN H2 (D upin); A_Logout H2; A_Login H2 CKU_USER (D upin) (Some 0)].
Definition create (t : template) : api := A_CreateObject H2 (At t) U.
Definition key (cls ty : Z) (t : template) : template := mkA CKA_CLASS (ULONG cls) :: mkA CKA_KEY_TYPE (ULONG ty) :: mkA CKA_EXTRACTABLE TRUE :: t.
Definition aes (v : list N) : template := key CKO_SECRET_KEY CKK_AES [mkA CKA_VALUE (AV v)].
Definition gen_ (v : list N) : template := key CKO_SECRET_KEY CKK_GENERIC_SECRET [mkA CKA_VALUE (AV v)].
Definition k16 : list N := repeat 7%N 16.
Definition d16 : ptr bytes := D (repeat 1%N 16).
Definition bad_bool : attr := mkA CKA_PRIVATE (AV [2%N]).
Definition tok (v : aval) : attr := mkA CKA_TOKEN v.
Definition cert (t : template) : template := mkA CKA_CLASS (ULONG CKO_CERTIFICATE) :: mkA CKA_CERTIFICATE_TYPE (ULONG 1) :: t.

Definition cbc : ptr (mech * mparam) := At (M_AES_CBC, MPraw (repeat 0%N 16)).
Definition pad_ : ptr (mech * mparam) := At (M_AES_CBC_PAD, MPraw (repeat 0%N 16)).
Definition gcm_ (bits : Z) : ptr (mech * mparam) := At (M_AES_GCM, MPgcm (repeat 0%N 12) None bits).
Definition x509 : ptr (mech * mparam) := At (M_RSA_X_509, MPnull).
Definition mac : ptr (mech * mparam) := At (M_HMAC H_SHA256, MPnull).
Definition b16 : ptr Z := At 16.
Definition rsa1 : gen := GRsa (mkRsa 33 7 3 11 1 7 2 3).
(** Objects 1: AES; 2: AES key of no good length; 3: secret; 4: secret beginning with 255; 5, 6: RSA; 7: RSA
    key that cannot be encoded. *)
Definition objects : list api :=
  [create (aes k16); create (aes [1]%N); create (gen_ k16); create (gen_ [255]%N);
   A_GenerateKeyPair H2 (At (mkPM KP_RSA false)) (At []) (At []) U U (Some rsa1);
   create (key CKO_PRIVATE_KEY CKK_RSA [mkA CKA_MODULUS (AV [33]%N); mkA CKA_PUBLIC_EXPONENT (AV [1]%N)])].
(** 1, 2: DH; 3, 4: RSA with numbers that cannot be read again. *)
Definition others : list api :=
  [A_GenerateKeyPair H2 (At (mkPM KP_DH false)) (At [mkA CKA_PRIME (AV [23]%N); mkA CKA_BASE (AV [5]%N)]) (At []) U U (Some (GDh [6]%N [8]%N));
   create (key CKO_PUBLIC_KEY CKK_RSA [mkA CKA_MODULUS (AV [0; 254]%N)]); create (key CKO_PUBLIC_KEY CKK_RSA [mkA CKA_MODULUS (AV [0; 253]%N)])].
Definition bad_templates : list template :=
  [[mkA 0x12345 TRUE]; [bad_bool]; [mkA CKA_PRIVATE (AV [])]; [mkA CKA_LABEL (ANull (2^31))]].
Definition histories : list (list api) :=
  [[I_; A_Finalize Null] ++ probe 99 9 1;
   [I_] ++ probe 99 9 9;
   start ++ nulls H2 9 1;
   start ++ probe H2 9 1;
   start ++ objects ++ probe H2 3 1;
   [I_; A_GetSlotInfo 1 U; A_GetTokenInfo 1 U 0 None; A_GetMechanismInfo 1 9999 U; A_GetMechanismList 1 U (At 0); A_GetSlotList 0 U (At 0); A_InitToken 1 (D sopin) (D lab); open RW; A_InitToken 1 (D sopin) (D lab);
    A_InitPIN H2 (D upin); A_SetPIN H2 (D sopin) (D upin); A_Login H2 CKU_CONTEXT_SPECIFIC (D sopin) (Some 0); A_Login H2 CKU_USER (D upin) (Some 0); A_Login H2 CKU_SO (D wrong) (Some 0); open RO; A_Login H2 CKU_SO (D sopin) (Some 0);
    A_SetPIN H1 (D sopin) (D upin); A_CloseSession H1; A_Login H2 CKU_SO (D sopin) (Some 0); A_Login H2 CKU_SO (D sopin) (Some 0); open RO; A_InitPIN H2 (D [1]%N); A_InitPIN H2 (D upin); A_SetPIN H2 (D sopin) (D sopin);
    A_FindObjectsInit H2 (At []); A_FindObjectsInit H2 (At []); A_FindObjectsFinal H2; A_FindObjectsInit H2 (At [tok (AV [])]);
    A_SeedRandom H2 (D [1]%N) (-125); A_SeedRandom H2 (D [1]%N) (-1); A_GenerateRandom H2 (At 1) (-125) (fun _ => []); A_GenerateRandom H2 (At 1) (-1) (fun _ => [])];
   [I_] ++ repeat (open RW) 71;
   (* objects *)
   start ++ [create []; create (aes k16); create (key CKO_PUBLIC_KEY CKK_RSA [mkA CKA_MODULUS (AV [254]%N)])] ++ map (fun t => create (aes k16 ++ t)) bad_templates
     ++ map (fun t => A_SetAttributeValue H2 1 (At t)) bad_templates ++ [open RO; A_CreateObject H1 (At (aes k16)) U; A_CopyObject H1 1 (At []) U; A_SetAttributeValue H1 1 (At []); A_DestroyObject H1 1;
       A_CopyObject H2 1 (At []) U; A_CopyObject H2 1 (At [tok (AV [])]) U; A_CopyObject H2 1 (At [mkA 0x12345 TRUE]) U; A_CopyObject H2 1 (At [mkA CKA_PRIVATE (AV [])]) U; A_CopyObject H2 1 (At [mkA CKA_APPLICATION TRUE]) U;
       A_GetAttributeValue H2 1 (At []); A_GetAttributeValue H2 1 (At [mkA 0x12345 TRUE]); A_GetAttributeValue H2 1 (At [mkA CKA_PRIVATE (AV [])]); A_GetAttributeValue H2 1 (At [mkA CKA_APPLICATION TRUE]);
       A_GetObjectSize H2 1 U; A_DestroyObject H2 1];
   start ++ others ++ [A_SetAttributeValue H2 3 (At [mkA CKA_MODULUS (AV [254]%N)]); A_SetAttributeValue H2 3 (At [])];
   start ++ others ++ [A_CopyObject H2 3 (At [mkA CKA_MODULUS (AV [0]%N)]) U; A_CopyObject H2 4 (At [mkA CKA_MODULUS (AV [0]%N)]) U];
   start ++ [create (cert []); A_SetAttributeValue H2 1 (At [mkA CKA_CLASS (ULONG CKO_PUBLIC_KEY)]); A_SetAttributeValue H2 1 (At [])];
   start ++ [create (cert [tok TRUE]); A_SetPIN H2 (D upin) (D upin); A_Logout H2; A_Login H2 CKU_SO (D sopin) (Some 0); A_InitPIN H2 (D upin);
     create [mkA CKA_CLASS (ULONG CKO_PUBLIC_KEY); mkA CKA_KEY_TYPE (ULONG CKK_EC); mkA CKA_EC_PARAMS (AV ([6; 8] ++ p256)%N); mkA CKA_EC_POINT (AV ([4; 65; 4] ++ repeat 255 64)%N)]; A_GetAttributeValue H2 1 (At [mkA CKA_EC_POINT (AV (repeat 0%N 100))])];
   (* operations *)
   start ++ objects ++ [A_EncryptInit H2 cbc 3; A_EncryptInit H2 (At (M_AES_CBC, MPnull)) 1; A_EncryptInit H2 cbc 2; A_EncryptInit H2 cbc 1; A_Encrypt H2 d16 U b16 []; A_Encrypt H2 d16 U b16 []; A_EncryptUpdate H2 d16 U b16; A_EncryptFinal H2 U b16;
     A_EncryptInit H2 cbc 1; A_Encrypt H2 d16 U (At 1) []; A_EncryptUpdate H2 d16 U (At 1); A_EncryptUpdate H2 d16 U b16; A_EncryptUpdate H2 (D [1]%N) U b16; A_EncryptFinal H2 U b16; A_EncryptInit H2 cbc 1; A_Encrypt H2 (D [1]%N) U b16 [];
     A_EncryptInit H2 pad_ 1; A_EncryptFinal H2 U (At 1); A_EncryptFinal H2 U b16; A_EncryptInit H2 (gcm_ (-8)) 1; A_EncryptUpdate H2 d16 U b16];
   start ++ objects ++ [A_EncryptInit H2 x509 5; A_EncryptUpdate H2 d16 U b16; A_EncryptFinal H2 U b16; A_SignInit H2 mac 3; A_Encrypt H2 d16 U b16 []];
   start ++ objects ++ [A_DecryptInit H2 cbc 3; A_DecryptInit H2 (At (M_AES_CBC, MPnull)) 1; A_DecryptInit H2 cbc 2; A_DecryptInit H2 cbc 1; A_Decrypt H2 d16 U b16 []; A_Decrypt H2 d16 U b16 []; A_DecryptUpdate H2 d16 U b16; A_DecryptFinal H2 U b16;
     A_DecryptInit H2 cbc 1; A_Decrypt H2 d16 U (At 1) []; A_DecryptUpdate H2 d16 U (At 1); A_DecryptUpdate H2 d16 U b16; A_DecryptUpdate H2 (D [1]%N) U b16; A_DecryptFinal H2 U b16; A_DecryptInit H2 cbc 1; A_Decrypt H2 (D [1]%N) U b16 [];
     A_DecryptInit H2 (gcm_ 128) 1; A_DecryptUpdate H2 (D (repeat 1%N 20)) U b16; A_DecryptFinal H2 U (At 1); A_DecryptFinal H2 U b16];
   start ++ objects ++ [A_DecryptInit H2 cbc 1; A_DecryptFinal H2 U b16; A_DecryptInit H2 x509 5; A_DecryptUpdate H2 d16 U b16; A_DecryptFinal H2 U b16; A_SignInit H2 mac 3; A_Decrypt H2 d16 U b16 []];
   start ++ objects ++ [A_SignInit H2 mac 1; A_SignInit H2 (At (M_HMAC H_SHA256, MPraw [])) 3; A_SignInit H2 mac 4; A_SignInit H2 mac 3; A_Sign H2 d16 U (At 1) []; A_SignUpdate H2 d16; A_SignFinal H2 U (At 1); A_SignFinal H2 U (At 32);
     A_SignInit H2 mac 3; A_Sign H2 d16 U (At 32) []; A_SignUpdate H2 d16; A_SignInit H2 x509 5; A_Sign H2 (D (repeat 1%N 300)) U (At 256) []; A_SignUpdate H2 d16; A_SignFinal H2 U (At 32); A_EncryptInit H2 cbc 1; A_Sign H2 d16 U b16 []];
   start ++ objects ++ [A_VerifyInit H2 mac 1; A_VerifyInit H2 (At (M_HMAC H_SHA256, MPraw [])) 3; A_VerifyInit H2 mac 4; A_VerifyInit H2 mac 3; A_Verify H2 d16 (D (repeat 0%N 32)); A_VerifyInit H2 mac 3; A_VerifyUpdate H2 d16; A_VerifyFinal H2 (D (repeat 0%N 32));
     A_VerifyInit H2 mac 3; A_VerifyFinal H2 (D (toy_hmac H_SHA256 k16 [])); A_VerifyInit H2 x509 5; A_Verify H2 (D [255]%N) (D [1]%N); A_Verify H2 (D [1]%N) (D [6]%N); A_VerifyUpdate H2 d16; A_VerifyFinal H2 (D []); A_EncryptInit H2 cbc 1; A_Verify H2 d16 d16];
   (* key management *)
   start ++ map (fun t => A_GenerateKey H2 (At (mkGM true false)) (At t) U k16) ([mkA CKA_VALUE_LEN (ULONG 16)] :: [mkA CKA_VALUE_LEN (ULONG 5)] :: bad_templates)
     ++ [A_GenerateKey H2 (At (mkGM true true)) (At []) U k16; open RO; A_GenerateKey H1 (At (mkGM true false)) (At []) U k16; A_GenerateKeyPair H2 (At (mkPM KP_RSA true)) (At []) (At []) U U None; A_GenerateKeyPair H1 (At (mkPM KP_RSA false)) (At []) (At []) U U None;
       A_GenerateKeyPair H2 (At (mkPM KP_RSA false)) (At []) (At []) U U None; A_GenerateKeyPair H2 (At (mkPM KP_RSA false)) (At [mkA CKA_MODULUS (AV [254]%N)]) (At []) U U None]
     ++ map (fun t => A_GenerateKeyPair H2 (At (mkPM KP_RSA false)) (At t) (At []) U U None) bad_templates;
   start ++ objects ++ [open RO; A_WrapKey H1 pad_ 1 5 U (At 256); A_WrapKey H2 pad_ 1 99 U (At 256); A_WrapKey H2 pad_ 99 6 U (At 256); A_WrapKey H2 pad_ 1 3 U (At 256); A_WrapKey H2 pad_ 1 7 U (At 256); A_WrapKey H2 cbc 1 6 U (At 256);
     A_WrapKey H2 pad_ 3 6 U (At 256); A_WrapKey H2 (At (M_AES_CBC_PAD, MPnull)) 1 6 U (At 256); A_WrapKey H2 pad_ 1 6 U (At 1); A_WrapKey H2 pad_ 1 6 U (At 256)];
   start ++ objects ++ [open RO; A_UnwrapKey H1 pad_ 1 d16 (At []) U; A_UnwrapKey H2 pad_ 99 d16 (At []) U; A_UnwrapKey H2 pad_ 1 d16 (At []) U; A_UnwrapKey H2 pad_ 1 d16 (At (aes k16)) U; A_UnwrapKey H2 cbc 1 d16 (At []) U;
     A_UnwrapKey H2 pad_ 3 d16 (At (key CKO_PRIVATE_KEY CKK_RSA [])) U; A_UnwrapKey H2 (At (M_AES_CBC_PAD, MPnull)) 1 d16 (At (key CKO_PRIVATE_KEY CKK_RSA [])) U; A_UnwrapKey H2 pad_ 1 d16 (At (key CKO_PRIVATE_KEY CKK_RSA [])) U;
     A_UnwrapKey H2 pad_ 1 (D [15; 15; 15; 15; 15; 15; 15; 15; 4; 5; 0; 6; 12; 4; 0; 38]%N) (At (key CKO_PRIVATE_KEY CKK_RSA [])) U; A_UnwrapKey H2 pad_ 1 d16 (At (key CKO_PRIVATE_KEY CKK_RSA [mkA CKA_MODULUS (AV [254]%N)])) U; A_UnwrapKey H2 pad_ 2 d16 (At (key CKO_PRIVATE_KEY CKK_RSA [])) U]
     ++ map (fun t => A_UnwrapKey H2 pad_ 1 (D [15; 15; 15; 15; 15; 15; 15; 15; 4; 5; 0; 6; 12; 4; 0; 38]%N) (At (key CKO_PRIVATE_KEY CKK_RSA t)) U) bad_templates;
   start ++ others ++ [A_DeriveKey H2 (At (mkDM D_DH DPnull)) 2 (At []) U None; A_DeriveKey H2 (At (mkDM D_DH (DPraw [1]%N))) 2 (At []) U None; A_DeriveKey H2 (At (mkDM D_DH (DPraw [1]%N))) 99 (At []) U None; A_DeriveKey H2 (At (mkDM D_DH (DPraw [1]%N))) 2 (At []) U (Some k16);
     A_DeriveKey H2 (At (mkDM D_DH (DPraw [1]%N))) 2 (At (gen_ k16)) U (Some k16); A_DeriveKey H2 (At (mkDM D_DH (DPraw [1]%N))) 2 (At (key CKO_PUBLIC_KEY CKK_RSA [mkA CKA_MODULUS (AV [254]%N)])) U (Some k16)]
     ++ map (fun t => A_DeriveKey H2 (At (mkDM D_DH (DPraw [1]%N))) 2 (At (gen_ k16 ++ t)) U (Some k16)) bad_templates;
   start ++ [A_GenerateKeyPair H2 (At (mkPM KP_DH false)) (At (tok TRUE :: [mkA CKA_PRIME (AV [23]%N); mkA CKA_BASE (AV [5]%N)])) (At []) U U (Some (GDh [6]%N [8]%N)); open RO; A_DeriveKey H1 (At (mkDM D_DH (DPraw [1]%N))) (2^28+1) (At (gen_ k16)) U (Some k16)]
  ].
Definition shown : list (string * Z) := flat_map (trace (sys0 nofiles)) histories.
Definition missing : list (string * Z) :=
  filter (fun p => negb (existsb (fun q => andb (String.eqb (fst p) (fst q)) (snd p =? snd q)) shown)) (flat_map (fun e => map (fun r => (fst e, r)) (snd e)) answers).
Definition cut : list nat := map (fun l => (List.length l - List.length (trace (sys0 nofiles) l))%nat) histories.

(** ** The claim *)
(** Every answer is one that PKCS #11 lists for the function. *)
Definition C112_claim : Prop :=
  forall w d s rnd c s' o, env_sizes (w_ev w) -> areach w (sys0 d) s -> exec w rnd s c = Ok (s', o) -> In (a_rv o) (look allowed (name c)).

Lemma aev_sizes : env_sizes aev.
Proof. destruct toy_sizes. constructor; assumption. Qed.
Definition can (n : string) (r : Z) : Prop :=
  exists w d s rnd c s' o, env_sizes (w_ev w) /\ areach w (sys0 d) s /\ exec w rnd s c = Ok (s', o) /\ name c = n /\ a_rv o = r.
Lemma trace_can l : forall s n r, areach aw (sys0 nofiles) s -> In (n, r) (trace s l) -> can n r.
Proof.
  induction l as [|c l IH]; intros s n r R H; [destruct H|]. cbn [trace] in H. destruct (exec aw (rnd 1) s c) as [[s1 o]| |] eqn:E; [|destruct H..].
  destruct H as [H|H]; [|eapply IH; [eapply areach_call; eauto|exact H]]. injection H as <- <-. exists aw, nofiles, s, (rnd 1), c, s1, o. split; [exact aev_sizes|]. auto.
Qed.
Lemma none_missing : missing = [].
Proof. vm_compute. reflexivity. Qed.
Lemma look_in t n r : In r (look t n) -> In (n, r) (flat_map (fun e => map (fun r => (fst e, r)) (snd e)) t).
Proof.
  unfold look. destruct (find _ t) as [[m l]|] eqn:F; [|intros []]. apply find_some in F as [F E]. cbn in E. apply String.eqb_eq in E. subst m. intros H. apply in_flat_map. exists (n, l). split; [exact F|]. cbn. apply in_map_iff. eauto.
Qed.
Lemma shows n r : In r (look answers n) -> can n r.
Proof.
  intros H. apply look_in in H. assert (S : In (n, r) shown).
  { pose proof none_missing as M. unfold missing in M. set (all := flat_map _ _) in *. clearbody all.
    destruct (existsb (fun q => andb (String.eqb (fst (n, r)) (fst q)) (snd (n, r) =? snd q)) shown) eqn:E.
    - apply existsb_exists in E as ([n1 r1] & I & Q). cbn in Q. apply andb_prop in Q as [Q1 Q2]. apply String.eqb_eq in Q1. apply Z.eqb_eq in Q2. subst. exact I.
    - exfalso. assert (X : In (n, r) (filter (fun p => negb (existsb (fun q => andb (String.eqb (fst p) (fst q)) (snd p =? snd q)) shown)) all)) by (apply filter_In; split; [exact H|rewrite E; reflexivity]).
      rewrite M in X. exact X. }
  unfold shown in S. apply in_flat_map in S as (l & _ & S). eapply trace_can; [apply areach_0|exact S].
Qed.
(** The answers of each function, no more and no fewer. *)
Theorem C112_partial n r : can n r <-> In r (look answers n).
Proof.
  split; [|apply shows]. intros (w & d & s & rnd & c & s' & o & Z & R & E & <- & <-). apply inb_In.
  apply C94_reach in R. exact (answers_upper w rnd s c (reach_part w Z d s R) s' o E).
Qed.
Print Assumptions C112_partial.
(** Which of them PKCS #11 does not list, function by function; UNAVAILABLE is no return value at
    all (CK_UNAVAILABLE_INFORMATION). *)
Theorem C112_beyond_partial n r : (can n r /\ ~ In r (look allowed n)) <-> In r (look deviations n).
Proof.
  rewrite C112_partial. assert (K : forall t m, In r (look t n) -> m = map fst t -> In n m).
  { intros t m H ->. unfold look in H. destruct (find _ t) as [[a b]|] eqn:F; [|destruct H]. apply find_some in F as [F E]. cbn in E. apply String.eqb_eq in E. subst a. apply in_map_iff. eexists; split; [|exact F]. reflexivity. }
  assert (T : forallb (fun n => andb (sub (beyond n) (look deviations n)) (sub (look deviations n) (beyond n))) (map fst answers ++ map fst deviations) = true) by (vm_compute; reflexivity).
  assert (B : forall n, In r (beyond n) <-> In r (look answers n) /\ ~ In r (look allowed n)).
  { intros m. unfold beyond. rewrite filter_In, Bool.negb_true_iff. change (existsb (Z.eqb r) (look allowed m)) with (inb r (look allowed m)). rewrite <- (inb_In r (look allowed m)), Bool.not_true_iff_false. tauto. }
  rewrite forallb_forall in T. rewrite <- B. split; intros H.
  - assert (N : In n (map fst answers)) by (eapply K; [apply B in H as [H _]; exact H|reflexivity]). specialize (T n (in_or_app _ _ _ (or_introl N))). apply andb_prop in T as [T _]. apply inb_In. apply inb_In in H. eapply sub_ok; eauto.
  - assert (N : In n (map fst deviations)) by (eapply K; [exact H|reflexivity]). specialize (T n (in_or_app _ _ _ (or_intror N))). apply andb_prop in T as [_ T]. apply inb_In. apply inb_In in H. eapply sub_ok; eauto.
Qed.
Print Assumptions C112_beyond_partial.
Theorem C112_refuted : ~ C112_claim.
Proof.
  intros C. assert (D : In 0xA0 (look deviations "C_InitPIN")) by (vm_compute; auto). apply C112_beyond_partial in D as ((w & d & s & rnd & c & s' & o & Z & R & E & N & V) & D).
  apply D. rewrite <- N, <- V. exact (C w d s rnd c s' o Z R E).
Qed.
Print Assumptions C112_refuted.
