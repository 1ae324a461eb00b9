(** Slot list, mechanism list and mechanism info: slot.c 45-62, 218-540 and
    internal.c 3523-3547, in the build with every algorithm enabled. *)
From Verif Require Import Base Ops.

(** pkcs11.h 211-237. *)
Definition CKM_RSA_PKCS_KEY_PAIR_GEN : Z := 0.
Definition CKM_RSA_PKCS : Z := 1.
Definition CKM_RSA_X_509 : Z := 3.
Definition CKM_RSA_PKCS_OAEP : Z := 9.
Definition CKM_RSA_PKCS_PSS : Z := 13.
Definition CKM_DH_PKCS_KEY_PAIR_GEN : Z := 32.
Definition CKM_DH_PKCS_DERIVE : Z := 33.
Definition CKM_MD5_HMAC : Z := 529.
Definition CKM_SHA1_HMAC : Z := 545.
Definition CKM_SHA224_HMAC : Z := 598.
Definition CKM_SHA256_HMAC : Z := 593.
Definition CKM_SHA384_HMAC : Z := 609.
Definition CKM_SHA512_HMAC : Z := 625.
Definition CKM_EC_KEY_PAIR_GEN : Z := 4160.
Definition CKM_ECDSA : Z := 4161.
Definition CKM_ECDH1_DERIVE : Z := 4176.
Definition CKM_AES_KEY_GEN : Z := 4224.
Definition CKM_AES_CBC : Z := 4226.
Definition CKM_AES_CBC_PAD : Z := 4229.
Definition CKM_AES_GCM : Z := 4231.

(** mechanismList: slot.c 219-273. *)
Definition mechanismList : list Z :=
  [CKM_RSA_PKCS_KEY_PAIR_GEN; CKM_RSA_X_509; CKM_RSA_PKCS; CKM_RSA_PKCS_OAEP;
   CKM_RSA_PKCS_PSS; CKM_EC_KEY_PAIR_GEN; CKM_ECDSA; CKM_ECDH1_DERIVE;
   CKM_DH_PKCS_KEY_PAIR_GEN; CKM_DH_PKCS_DERIVE; CKM_AES_CBC; CKM_AES_CBC_PAD;
   CKM_AES_GCM; CKM_MD5_HMAC; CKM_SHA1_HMAC; CKM_SHA224_HMAC; CKM_SHA256_HMAC;
   CKM_SHA384_HMAC; CKM_SHA512_HMAC].
Definition mechanismCnt : Z := zlen mechanismList.

(** The caller's list argument: NULL, or an array of *pulCount entries. *)
Inductive listbuf := LNull | LBuf (count : Z).
(** return value, *pulCount afterwards, entries written. *)
Record listout := mkLO { lo_rv : Z; lo_count : Z; lo_written : list Z }.

(** C_GetMechanismList: slot.c 293-319 (library initialised, valid slot). *)
Definition C_GetMechanismList (b : listbuf) : listout :=
  match b with
  | LNull => mkLO CKR_OK mechanismCnt []
  | LBuf n => if (n <? mechanismCnt)%Z then mkLO CKR_BUFFER_TOO_SMALL n []
              else mkLO CKR_OK mechanismCnt mechanismList
  end.

Definition slotCnt : Z := 1.
(** C_GetSlotList: slot.c 45-62 and WP11_GetSlotList: internal.c 3523-3547. The
    count is compared as an int. *)
Definition C_GetSlotList (b : listbuf) : listout :=
  match b with
  | LNull => mkLO CKR_OK slotCnt []
  | LBuf n => if (i32 n <? slotCnt)%Z then mkLO CKR_BUFFER_TOO_SMALL n []
              else mkLO CKR_OK slotCnt [1%Z]
  end.

(** Flags: pkcs11.h 330-341. *)
Record flags := mkF {
  f_encrypt : bool; f_decrypt : bool; f_sign : bool; f_verify : bool;
  f_keypair : bool; f_derive : bool; f_wrap : bool; f_unwrap : bool
}.
Definition F0 := mkF false false false false false false false false.
Definition F_kp := mkF false false false false true false false false.
Definition F_der := mkF false false false false false true false false.
Definition F_enc := mkF true true false false false false false false.
Definition F_sig := mkF false false true true false false false false.
Definition F_encsig := mkF true true true true false false false false.
Definition F_x509 := mkF true true true true false false true true.

(** C_GetMechanismInfo: slot.c 321-540: (min size, max size, flags), or
    CKR_MECHANISM_INVALID. *)
Definition C_GetMechanismInfo (t : Z) : Z * option (Z * Z * flags) :=
  let is x := (t =? x)%Z in
  let ok i := (CKR_OK, Some i) in
  (if is CKM_RSA_PKCS_KEY_PAIR_GEN then ok (1024, 4096, F_kp)
  else if is CKM_RSA_X_509 then ok (1024, 4096, F_x509)
  else if is CKM_RSA_PKCS then ok (1024, 4096, F_encsig)
  else if is CKM_RSA_PKCS_OAEP then ok (1024, 4096, F_enc)
  else if is CKM_RSA_PKCS_PSS then ok (256, 521, F_sig)
  else if is CKM_EC_KEY_PAIR_GEN then ok (256, 521, F_kp)
  else if is CKM_ECDSA then ok (256, 521, F_sig)
  else if is CKM_ECDH1_DERIVE then ok (256, 521, F_der)
  else if is CKM_DH_PKCS_KEY_PAIR_GEN then ok (1024, 4096, F_kp)
  else if is CKM_DH_PKCS_DERIVE then ok (1024, 4096, F_der)
  else if orb (is CKM_AES_CBC_PAD) (is CKM_AES_CBC) then ok (16, 32, F_enc)
  else if is CKM_AES_GCM then ok (16, 32, F_enc)
  else if is CKM_MD5_HMAC then ok (16, 512, F_sig)
  else if is CKM_SHA1_HMAC then ok (20, 512, F_sig)
  else if is CKM_SHA224_HMAC then ok (28, 512, F_sig)
  else if is CKM_SHA256_HMAC then ok (32, 512, F_sig)
  else if is CKM_SHA384_HMAC then ok (48, 512, F_sig)
  else if is CKM_SHA512_HMAC then ok (64, 512, F_sig)
  else (CKR_MECHANISM_INVALID, None))%Z.

(** Mechanism identifiers as seen by the operation model. *)
Definition mech_of (t : Z) : mech :=
  let is x := (t =? x)%Z in
  if is CKM_RSA_X_509 then M_RSA_X_509
  else if is CKM_RSA_PKCS then M_RSA_PKCS
  else if is CKM_RSA_PKCS_OAEP then M_RSA_OAEP
  else if is CKM_RSA_PKCS_PSS then M_RSA_PSS
  else if is CKM_ECDSA then M_ECDSA
  else if is CKM_AES_CBC then M_AES_CBC
  else if is CKM_AES_CBC_PAD then M_AES_CBC_PAD
  else if is CKM_AES_GCM then M_AES_GCM
  else if is CKM_MD5_HMAC then M_HMAC H_MD5
  else if is CKM_SHA1_HMAC then M_HMAC H_SHA1
  else if is CKM_SHA224_HMAC then M_HMAC H_SHA224
  else if is CKM_SHA256_HMAC then M_HMAC H_SHA256
  else if is CKM_SHA384_HMAC then M_HMAC H_SHA384
  else if is CKM_SHA512_HMAC then M_HMAC H_SHA512
  else M_OTHER t.

(** The mechanism switches of the key management calls: any other value gives
    CKR_MECHANISM_INVALID. C_GenerateKey crypto.c 3638-3671, C_GenerateKeyPair
    3728-3811, C_WrapKey 3936-3961, C_UnwrapKey 4025-4027 (and 4055-4076),
    C_DeriveKey 4190-4248. *)
Definition genkey_accepts (t : Z) : bool := (t =? CKM_AES_KEY_GEN)%Z.
Definition keypair_accepts (t : Z) : bool :=
  existsb (Z.eqb t) [CKM_RSA_PKCS_KEY_PAIR_GEN; CKM_EC_KEY_PAIR_GEN; CKM_DH_PKCS_KEY_PAIR_GEN].
Definition wrap_accepts (t : Z) : bool := (t =? CKM_AES_CBC_PAD)%Z.
Definition unwrap_accepts (t : Z) : bool := (t =? CKM_AES_CBC_PAD)%Z.
Definition derive_accepts (t : Z) : bool :=
  existsb (Z.eqb t) [CKM_ECDH1_DERIVE; CKM_DH_PKCS_DERIVE].
