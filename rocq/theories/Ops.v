(** Cryptographic operations of one session: C_EncryptInit .. C_VerifyFinal
    (crypto.c 1165-3400) and the functions they call in internal.c.

    What is a parameter (record [env]): the wolfCrypt primitives (block cipher,
    AES-GCM, HMAC, RSA, ECDSA) and the memory overlap of the HMAC member of the
    session's [params] union with the partial-block bytes of its CBC member.
    Simplifications: memory allocations succeed; pointers that the caller must
    supply are not NULL (only the output buffer may be, [Query]); lengths passed
    by the caller are the true lengths of the buffers. *)
From Verif Require Import Base Cbc.

(** pkcs11.h 239-320 *)
Definition CKR_OK : Z := 0.
Definition CKR_FUNCTION_FAILED : Z := 6.
Definition CKR_ARGUMENTS_BAD : Z := 7.
Definition CKR_DATA_LEN_RANGE : Z := 33.               (* 0x21 *)
Definition CKR_DEVICE_MEMORY : Z := 49.                (* 0x31 *)
Definition CKR_KEY_TYPE_INCONSISTENT : Z := 99.        (* 0x63 *)
Definition CKR_MECHANISM_INVALID : Z := 112.           (* 0x70 *)
Definition CKR_MECHANISM_PARAM_INVALID : Z := 113.     (* 0x71 *)
Definition CKR_OBJECT_HANDLE_INVALID : Z := 130.       (* 0x82 *)
Definition CKR_OPERATION_NOT_INITIALIZED : Z := 145.   (* 0x91 *)
Definition CKR_SIGNATURE_INVALID : Z := 192.           (* 0xC0 *)
Definition CKR_BUFFER_TOO_SMALL : Z := 336.            (* 0x150 *)

(** Mechanisms: pkcs11.h 211-237. [M_OTHER] stands for every other value
    (a zeroed session has CKM_RSA_PKCS_KEY_PAIR_GEN = 0). *)
Inductive hash := H_MD5 | H_SHA1 | H_SHA224 | H_SHA256 | H_SHA384 | H_SHA512.
Inductive mech :=
  | M_RSA_X_509 | M_RSA_PKCS | M_RSA_OAEP | M_RSA_PSS | M_ECDSA
  | M_HMAC (h : hash) | M_AES_CBC | M_AES_CBC_PAD | M_AES_GCM
  | M_OTHER (n : Z).

(** Key types: pkcs11.h 132-137. *)
Definition CKK_RSA : Z := 0.
Definition CKK_DH : Z := 2.
Definition CKK_EC : Z := 3.
Definition CKK_GENERIC_SECRET : Z := 16.
Definition CKK_AES : Z := 31.

(** Operation codes: internal.h 113-134. *)
Definition INIT_AES_CBC_ENC : Z := 1.
Definition INIT_AES_CBC_DEC : Z := 2.
Definition INIT_AES_GCM_ENC : Z := 3.
Definition INIT_AES_GCM_DEC : Z := 4.
Definition INIT_AES_CBC_PAD_ENC : Z := 5.
Definition INIT_AES_CBC_PAD_DEC : Z := 6.
Definition INIT_HMAC_SIGN : Z := 16.
Definition INIT_HMAC_VERIFY : Z := 17.
Definition INIT_RSA_X_509_ENC : Z := 32.
Definition INIT_RSA_X_509_DEC : Z := 33.
Definition INIT_RSA_PKCS_ENC : Z := 34.
Definition INIT_RSA_PKCS_DEC : Z := 35.
Definition INIT_RSA_OAEP_ENC : Z := 36.
Definition INIT_RSA_OAEP_DEC : Z := 37.
Definition INIT_RSA_PKCS_SIGN : Z := 48.
Definition INIT_RSA_PKCS_VERIFY : Z := 49.
Definition INIT_RSA_PSS_SIGN : Z := 50.
Definition INIT_RSA_PSS_VERIFY : Z := 51.
Definition INIT_RSA_X_509_SIGN : Z := 52.
Definition INIT_RSA_X_509_VERIFY : Z := 53.
Definition INIT_ECDSA_SIGN : Z := 64.
Definition INIT_ECDSA_VERIFY : Z := 65.

(** Key object as the operations see it (struct WP11_Object, internal.c
    161-204): type, symmetric key bytes, opaque public-key material and the
    value of WP11_Rsa_KeyLen / WP11_Ec_SigLen (internal.c 6571-6574, 7325-7328). *)
Record keyobj := mkKey {
  ko_type : Z;
  ko_data : list N;
  ko_pk : list N;
  ko_len : Z
}.

(** Parameters of RSA-OAEP / RSA-PSS: internal.c 215-233. After use the label
    pointer is NULL while labelSz stays. *)
Record oaep := mkOaep { oa_hash : Z; oa_mgf : Z; oa_label : option (list N); oa_labelSz : Z }.
Record pss := mkPss { ps_hash : Z; ps_mgf : Z; ps_salt : Z }.
(** struct WP11_GcmParams: internal.c 248-260. *)
Record gcm := mkGcm {
  g_iv : list N;
  g_aad : option (list N);      (* NULL or the allocated copy *)
  g_aadSz : Z;
  g_tagBits : Z;                (* int *)
  g_authTag : list N;           (* authTag[16] *)
  g_enc : list N                (* cached ciphertext; encSz = its length *)
}.
(** struct WP11_Hmac: internal.c 265-268; the wolfCrypt object is its hash
    type, key and the data hashed so far. *)
Record hmacst := mkHm { hm_hash : hash; hm_key : list N; hm_data : list N; hm_sz : Z }.

Inductive pkparams := PKnone | PKoaep (o : oaep) | PKpss (p : pss).

Record env := mkEnv {
  e_ci : cipher;
  e_aes_ok : list N -> bool;                     (* wc_AesSetKey accepts the key *)
  e_gcm_ok : list N -> bool;                     (* wc_AesGcmSetKey *)
  (* wc_AesGcmEncrypt: key iv aad aadSz plaintext tagSz *)
  e_gcm_enc : list N -> list N -> option (list N) -> Z -> list N -> Z -> res (list N * list N);
  (* wc_AesGcmDecrypt: key iv aad aadSz ciphertext tag *)
  e_gcm_dec : list N -> list N -> option (list N) -> Z -> list N -> list N -> res (list N);
  e_hmac_ok : hash -> list N -> bool;            (* wc_HmacSetKey *)
  e_hmac : hash -> list N -> list N -> list N;   (* hash key data *)
  (* content of partial[16], partialSz after the HMAC code wrote its union member *)
  e_hmac_tail : hmacst -> list N * nat -> list N * nat;
  (* RSA/ECDSA primitives: mechanism, key, parameters, randomness, input *)
  e_pk_enc : mech -> keyobj -> pkparams -> list N -> list N -> res (list N);
  e_pk_dec : mech -> keyobj -> pkparams -> list N -> list N -> res (list N);
  e_pk_sign : mech -> keyobj -> pkparams -> list N -> list N -> res (list N);
  e_pk_verify : mech -> keyobj -> pkparams -> list N -> list N -> res bool
}.

(** wc_HmacSizeByType. *)
Definition hmac_sz (h : hash) : Z :=
  match h with
  | H_MD5 => 16 | H_SHA1 => 20 | H_SHA224 => 28 | H_SHA256 => 32
  | H_SHA384 => 48 | H_SHA512 => 64
  end.

(** The [params] union of struct WP11_Session (internal.c 282-302). The partial
    block of the CBC member lies behind the end of the OAEP, PSS and GCM members
    and keeps its content while those are in use; it is held separately in
    [os_part]. [PClobber]: contents not those of any member (a failed Init wrote
    to another member). *)
Inductive params :=
  | PZero
  | PCbc (a : aes)
  | PGcm (g : gcm)
  | PHmac (h : hmacst)
  | POaep (o : oaep)
  | PPss (p : pss)
  | PClobber.

(** The operation part of struct WP11_Session: internal.c 271-307. [os_curr] is
    the object pointer (an identity that may dangle). *)
Record opst := mkOp {
  os_init : Z;
  os_mech : mech;
  os_curr : option nat;
  os_params : params;
  os_part : list N * nat
}.

(** A zeroed session: wp11_Session_New, internal.c 525-545 (XMEMSET). *)
Definition op_zero : opst := mkOp 0 (M_OTHER 0) None PZero (zero_block, 0).

Definition set_init (st : opst) (i : Z) :=
  mkOp i (os_mech st) (os_curr st) (os_params st) (os_part st).
Definition set_params (st : opst) (p : params) :=
  mkOp (os_init st) (os_mech st) (os_curr st) p (os_part st).
Definition set_part (st : opst) (q : list N * nat) :=
  mkOp (os_init st) (os_mech st) (os_curr st) (os_params st) q.

(** Output buffer argument: NULL, or a buffer of n bytes with *pulLen = n. *)
Inductive outbuf := Query | Buf (n : Z).
Definition buf_in (b : outbuf) : Z := match b with Query => 0%Z | Buf n => n end.

(** Observable result of a call: return value, *pulLen afterwards (as passed in
    when not written) and the bytes written to the output buffer. *)
Record outc := mkOut { o_rv : Z; o_len : Z; o_out : list N }.
Definition fail (b : outbuf) (rv : Z) : outc := mkOut rv (buf_in b) [].

(** (int)ulLen passed as word32: only the low 32 bits of the length survive. *)
Definition trunc32 (d : list N) : list N := firstn (Z.to_nat (u32 (zlen d))) d.

(** C integer division by 8 (towards zero), then conversion to word32. *)
Definition tag_bytes (g : gcm) : Z := Z.quot (g_tagBits g) 8.

Section WithEnv.
Variable ev : env.
Variable objs : nat -> option keyobj.     (* live objects; None = freed *)
Let ci := e_ci ev.

Definition deref (i : nat) : res keyobj :=
  match objs i with Some k => Ok k | None => Undef UB_use_after_free end.

Definition get_cbc (st : opst) : res cbc :=
  match os_params st with
  | PCbc a => Ok (mkCbc a (fst (os_part st)) (snd (os_part st)))
  | _ => Undef UB_union
  end.
Definition put_cbc (st : opst) (p : cbc) : opst :=
  set_part (set_params st (PCbc (cb_aes p))) (cb_partial p, cb_psz p).
Definition get_gcm (st : opst) : res gcm :=
  match os_params st with PGcm g => Ok g | _ => Undef UB_union end.
Definition get_hmac (st : opst) : res hmacst :=
  match os_params st with PHmac h => Ok h | _ => Undef UB_union end.
Definition get_pk (m : mech) (st : opst) : res pkparams :=
  match m with
  | M_RSA_OAEP => match os_params st with POaep o => Ok (PKoaep o) | _ => Undef UB_union end
  | M_RSA_PSS => match os_params st with PPss p => Ok (PKpss p) | _ => Undef UB_union end
  | _ => Ok PKnone
  end.

(** Mechanism parameter block given to *Init (pParameter, ulParameterLen).
    A block of the wrong size is represented by a wrong constructor; a wrong
    block that happens to have the right size is not represented. *)
Inductive mparam :=
  | MPnull
  | MPraw (b : list N)
  | MPoaep (src_ok : bool) (hashAlg mgf : Z) (label : option (list N))
  | MPpss (hashAlg mgf sLen : Z)
  | MPgcm (iv : list N) (aad : option (list N)) (tagBits : Z).

(** wp11_hash_type: internal.c 4410-4437 (CKM_SHA1 .. CKM_SHA512). *)
Definition hash_known (h : Z) : bool :=
  existsb (Z.eqb h) [544; 597; 592; 608; 624]%Z.
(** wp11_mgf: internal.c 4447-4474 (CKG_MGF1_SHA1 = 1, SHA256 = 2, SHA384 = 3,
    SHA512 = 4, SHA224 = 5). *)
Definition mgf_known (m : Z) : bool := existsb (Z.eqb m) [1; 2; 3; 4; 5]%Z.

(** WP11_Session_SetOaepParams: internal.c 4490-4515. Result: ret = 0?, params.
    The member is zeroed first, so on failure it holds zeroes (and the hash type
    when only the mask generation function was unknown). *)
Definition SetOaepParams (hashAlg mgf : Z) (label : option (list N)) : bool * params :=
  if andb (hash_known hashAlg) (mgf_known mgf) then
    (true, POaep (mkOaep hashAlg mgf label
       (match label with None => 0%Z | Some l => i32 (zlen l) end)))
  else (false, POaep (mkOaep (if hash_known hashAlg then hashAlg else 0%Z) 0 None 0)).

(** WP11_Session_SetPssParams: internal.c 4530-4548 (the salt length is bounded
    by RSA_PSS_SALT_MAX_SZ = 62 from above only). *)
Definition SetPssParams (hashAlg mgf sLen : Z) : bool * params :=
  if andb (hash_known hashAlg) (mgf_known mgf) then
    if (62 <? i32 sLen)%Z then (false, PPss (mkPss hashAlg mgf 0))
    else (true, PPss (mkPss hashAlg mgf (i32 sLen)))
  else (false, PPss (mkPss (if hash_known hashAlg then hashAlg else 0%Z) 0 (i32 sLen))).

(** WP11_Session_SetCbcParams: internal.c 4562-4583. partial and partialSz are
    not touched. On failure the Aes member has been overwritten. *)
Definition SetCbcParams (key iv : list N) : bool * params :=
  if e_aes_ok ev key then (true, PCbc (mkAes key iv)) else (false, PClobber).

(** WP11_Session_SetGcmParams: internal.c 4599-4629. A negative length
    passed to XMEMCPY or XMALLOC is undefined. *)
Definition SetGcmParams (old : params) (iv : list N) (aad : option (list N))
    (tagBits : Z) : res (bool * params) :=
  if orb (128 <? i32 tagBits)%Z (16 <? i32 (zlen iv))%Z then Ok (false, old)
  else if (i32 (zlen iv) <? 0)%Z then Undef UB_write_overflow
  else match aad with
       | Some a => if (i32 (zlen a) <? 0)%Z then Undef UB_write_overflow
                   else Ok (true, PGcm (mkGcm iv (Some a) (i32 (zlen a)) (i32 tagBits) zero_block []))
       | None => Ok (true, PGcm (mkGcm iv None 0 (i32 tagBits) zero_block []))
       end.

(** WP11_Hmac_Init: internal.c 8370-8393. *)
Definition Hmac_Init (h : hash) (key : list N) : bool * params :=
  if e_hmac_ok ev h key then (true, PHmac (mkHm h key [] (hmac_sz h)))
  else (false, PClobber).

(** Common tail of the *Init functions: set mechanism, object and operation
    code (e.g. crypto.c 1297-1301). *)
Definition init_done (st : opst) (m : mech) (k : nat) (i : Z) (p : params) : opst :=
  mkOp i m (Some k) p (os_part st).

Definition no_param (mp : mparam) : bool := match mp with MPnull => true | _ => false end.

Definition rsa_noparam (st : opst) (m : mech) (k : nat) (ty : Z) (mp : mparam) (i : Z)
  : opst * Z :=
  if negb (ty =? CKK_RSA)%Z then (st, CKR_KEY_TYPE_INCONSISTENT)
  else if negb (no_param mp) then (st, CKR_MECHANISM_PARAM_INVALID)
  else (init_done st m k i (os_params st), CKR_OK).

Definition oaep_init (st : opst) (k : nat) (ty : Z) (mp : mparam) (i : Z) : opst * Z :=
  if negb (ty =? CKK_RSA)%Z then (st, CKR_KEY_TYPE_INCONSISTENT)
  else match mp with
       | MPoaep src h mgf l =>
           if negb src then (st, CKR_MECHANISM_PARAM_INVALID)
           else match SetOaepParams h mgf l with
                | (true, p) => (init_done st M_RSA_OAEP k i p, CKR_OK)
                | (false, p) => (set_params st p, CKR_MECHANISM_PARAM_INVALID)
                end
       | _ => (st, CKR_MECHANISM_PARAM_INVALID)
       end.

Definition pss_init (st : opst) (k : nat) (ty : Z) (mp : mparam) (i : Z) : opst * Z :=
  if negb (ty =? CKK_RSA)%Z then (st, CKR_KEY_TYPE_INCONSISTENT)
  else match mp with
       | MPpss h mgf s =>
           match SetPssParams h mgf s with
           | (true, p) => (init_done st M_RSA_PSS k i p, CKR_OK)
           | (false, p) => (set_params st p, CKR_MECHANISM_PARAM_INVALID)
           end
       | _ => (st, CKR_MECHANISM_PARAM_INVALID)
       end.

Definition cbc_init (st : opst) (m : mech) (k : nat) (ko : keyobj) (mp : mparam) (i : Z)
  : opst * Z :=
  if negb (ko_type ko =? CKK_AES)%Z then (st, CKR_KEY_TYPE_INCONSISTENT)
  else match mp with
       | MPraw iv =>
           if negb (zlen iv =? 16)%Z then (st, CKR_MECHANISM_PARAM_INVALID)
           else match SetCbcParams (ko_data ko) iv with
                | (true, p) => (init_done st m k i p, CKR_OK)
                | (false, p) => (set_params st p, CKR_FUNCTION_FAILED)
                end
       | _ => (st, CKR_MECHANISM_PARAM_INVALID)
       end.

Definition gcm_init (st : opst) (k : nat) (ko : keyobj) (mp : mparam) (i : Z)
  : res (opst * Z) :=
  if negb (ko_type ko =? CKK_AES)%Z then Ok (st, CKR_KEY_TYPE_INCONSISTENT)
  else match mp with
       | MPgcm iv aad tb =>
           '(ok, p) <- SetGcmParams (os_params st) iv aad tb ;;
           Ok (if ok : bool then (init_done st M_AES_GCM k i p, CKR_OK)
               else (set_params st p, CKR_MECHANISM_PARAM_INVALID))
       | _ => Ok (st, CKR_MECHANISM_PARAM_INVALID)
       end.

Definition hmac_init (st : opst) (h : hash) (k : nat) (ko : keyobj) (mp : mparam) (i : Z)
  : opst * Z :=
  if negb (ko_type ko =? CKK_GENERIC_SECRET)%Z then (st, CKR_KEY_TYPE_INCONSISTENT)
  else if negb (no_param mp) then (st, CKR_MECHANISM_PARAM_INVALID)
  else
    let tail := e_hmac_tail ev (mkHm h (ko_data ko) [] (hmac_sz h)) (os_part st) in
    match Hmac_Init h (ko_data ko) with
    | (true, p) => (set_part (init_done st (M_HMAC h) k i p) tail, CKR_OK)
    | (false, p) => (set_part (set_params st p) tail, CKR_FUNCTION_FAILED)
    end.

Definition ecdsa_init (st : opst) (k : nat) (ty : Z) (mp : mparam) (i : Z) : opst * Z :=
  if negb (ty =? CKK_EC)%Z then (st, CKR_KEY_TYPE_INCONSISTENT)
  else if negb (no_param mp) then (st, CKR_MECHANISM_PARAM_INVALID)
  else (init_done st M_ECDSA k i (os_params st), CKR_OK).

(** C_EncryptInit: crypto.c 1165-1302, from the object found by
    WP11_Object_Find on ([k] its identity, [ko] its content). *)
Definition C_EncryptInit (st : opst) (m : mech) (mp : mparam) (k : nat) (ko : keyobj)
  : res (opst * Z) :=
  match m with
  | M_RSA_X_509 => Ok (rsa_noparam st m k (ko_type ko) mp INIT_RSA_X_509_ENC)
  | M_RSA_PKCS => Ok (rsa_noparam st m k (ko_type ko) mp INIT_RSA_PKCS_ENC)
  | M_RSA_OAEP => Ok (oaep_init st k (ko_type ko) mp INIT_RSA_OAEP_ENC)
  | M_AES_CBC => Ok (cbc_init st m k ko mp INIT_AES_CBC_ENC)
  | M_AES_CBC_PAD => Ok (cbc_init st m k ko mp INIT_AES_CBC_PAD_ENC)
  | M_AES_GCM => gcm_init st k ko mp INIT_AES_GCM_ENC
  | _ => Ok (st, CKR_MECHANISM_INVALID)
  end.

(** C_DecryptInit: crypto.c 1740-1872. *)
Definition C_DecryptInit (st : opst) (m : mech) (mp : mparam) (k : nat) (ko : keyobj)
  : res (opst * Z) :=
  match m with
  | M_RSA_X_509 => Ok (rsa_noparam st m k (ko_type ko) mp INIT_RSA_X_509_DEC)
  | M_RSA_PKCS => Ok (rsa_noparam st m k (ko_type ko) mp INIT_RSA_PKCS_DEC)
  | M_RSA_OAEP => Ok (oaep_init st k (ko_type ko) mp INIT_RSA_OAEP_DEC)
  | M_AES_CBC => Ok (cbc_init st m k ko mp INIT_AES_CBC_DEC)
  | M_AES_CBC_PAD => Ok (cbc_init st m k ko mp INIT_AES_CBC_PAD_DEC)
  | M_AES_GCM => gcm_init st k ko mp INIT_AES_GCM_DEC
  | _ => Ok (st, CKR_MECHANISM_INVALID)
  end.

(** C_SignInit: crypto.c 2465-2579. *)
Definition C_SignInit (st : opst) (m : mech) (mp : mparam) (k : nat) (ko : keyobj)
  : res (opst * Z) :=
  match m with
  | M_RSA_X_509 => Ok (rsa_noparam st m k (ko_type ko) mp INIT_RSA_X_509_SIGN)
  | M_RSA_PKCS => Ok (rsa_noparam st m k (ko_type ko) mp INIT_RSA_PKCS_SIGN)
  | M_RSA_PSS => Ok (pss_init st k (ko_type ko) mp INIT_RSA_PSS_SIGN)
  | M_ECDSA => Ok (ecdsa_init st k (ko_type ko) mp INIT_ECDSA_SIGN)
  | M_HMAC h => Ok (hmac_init st h k ko mp INIT_HMAC_SIGN)
  | _ => Ok (st, CKR_MECHANISM_INVALID)
  end.

(** C_VerifyInit: crypto.c 2995-3109. *)
Definition C_VerifyInit (st : opst) (m : mech) (mp : mparam) (k : nat) (ko : keyobj)
  : res (opst * Z) :=
  match m with
  | M_RSA_X_509 => Ok (rsa_noparam st m k (ko_type ko) mp INIT_RSA_X_509_VERIFY)
  | M_RSA_PKCS => Ok (rsa_noparam st m k (ko_type ko) mp INIT_RSA_PKCS_VERIFY)
  | M_RSA_PSS => Ok (pss_init st k (ko_type ko) mp INIT_RSA_PSS_VERIFY)
  | M_ECDSA => Ok (ecdsa_init st k (ko_type ko) mp INIT_ECDSA_VERIFY)
  | M_HMAC h => Ok (hmac_init st h k ko mp INIT_HMAC_VERIFY)
  | _ => Ok (st, CKR_MECHANISM_INVALID)
  end.

(** The length protocol used by all data calls (e.g. crypto.c 1418-1424): NULL
    buffer: report [need]; [need] greater than the low 32 bits of the caller's
    length: CKR_BUFFER_TOO_SMALL; otherwise go on. *)
Definition sized (st : opst) (need : Z) (b : outbuf) (k : res (opst * outc))
  : res (opst * outc) :=
  match b with
  | Query => Ok (st, mkOut CKR_OK need [])
  | Buf n => if (u32 n <? need)%Z then Ok (st, fail b CKR_BUFFER_TOO_SMALL) else k
  end.

Definition not_init (st : opst) (b : outbuf) : res (opst * outc) :=
  Ok (st, fail b CKR_OPERATION_NOT_INITIALIZED).

(** Shared prologue: the current object must exist (crypto.c 1343-1345). *)
Definition with_obj (st : opst) (b : outbuf) (f : nat -> res (opst * outc))
  : res (opst * outc) :=
  match os_curr st with None => not_init st b | Some k => f k end.

Definition need_init (st : opst) (i : Z) (b : outbuf) (f : res (opst * outc))
  : res (opst * outc) :=
  if (os_init st =? i)%Z then f else not_init st b.

(** Turn the result of an internal function into the outcome of the C_ call
    (e.g. crypto.c 1426-1430); [st_err] is the session state left behind on error. *)
Definition conclude (b : outbuf) (st_err : opst) (r : res (opst * Z * list N))
  : res (opst * outc) :=
  match r with
  | Ok (st', len, out) => Ok (st', mkOut CKR_OK len out)
  | Err _ => Ok (st_err, fail b CKR_FUNCTION_FAILED)
  | Undef u => Undef u
  end.

(** RSA label handling after a successful OAEP operation (internal.c 6750-6782,
    6797-6842): the label is freed and the pointer cleared, labelSz stays. *)
Definition pk_after (m : mech) (st : opst) : opst :=
  match m, os_params st with
  | M_RSA_OAEP, POaep o => set_params st (POaep (mkOaep (oa_hash o) (oa_mgf o) None (oa_labelSz o)))
  | _, _ => st
  end.

(** RSA cases of C_Encrypt / C_Decrypt (crypto.c 1350-1409, 1920-1982):
    session->init is not cleared. *)
Definition pk_crypt (f : mech -> keyobj -> pkparams -> list N -> list N -> res (list N))
    (m : mech) (i : Z) (st : opst) (k : nat) (rnd data : list N) (b : outbuf)
  : res (opst * outc) :=
  need_init st i b (
    ko <- deref k ;;
    sized st (ko_len ko) b (
      pp <- get_pk m st ;;
      conclude b st (
        o <- f m ko pp rnd (trunc32 data) ;;
        Ok (pk_after m st, zlen o, o)))).

(** WP11_AesGcm_Encrypt: internal.c 8054-8090. The tag is written behind the
    ciphertext; the AAD is dropped whether or not encryption succeeded. *)
Definition drop_aad (g : gcm) : gcm :=
  mkGcm (g_iv g) None (g_aadSz g) (g_tagBits g) (g_authTag g) (g_enc g).
Definition gcm_call_enc (g : gcm) (ko : keyobj) (plain : list N)
  : res (list N * list N) :=
  if e_gcm_ok ev (ko_data ko)
  then e_gcm_enc ev (ko_data ko) (g_iv g) (g_aad g) (g_aadSz g) plain (u32 (tag_bytes g))
  else Err BAD_FUNC_ARG.
(** WP11_AesGcm_Decrypt: internal.c 8186-8228. A tag that would start before
    the data is an out-of-bounds read (when the tag size is positive). *)
Definition gcm_call_dec (g : gcm) (ko : keyobj) (enc : list N) : res (list N) :=
  let t := u32 (tag_bytes g) in
  if negb (e_gcm_ok ev (ko_data ko)) then Err BAD_FUNC_ARG
  else if (16 <? t)%Z then Err BAD_FUNC_ARG      (* rejected by wc_AesGcmDecrypt *)
  else if (zlen enc <? t)%Z then Undef UB_read_overflow
  else
    let n := Z.to_nat (zlen enc - t) in
    e_gcm_dec ev (ko_data ko) (g_iv g) (g_aad g) (g_aadSz g) (firstn n enc) (skipn n enc).

(** C_Encrypt: crypto.c 1325-1484. *)
Definition C_Encrypt (st : opst) (rnd data : list N) (b : outbuf) : res (opst * outc) :=
  with_obj st b (fun k =>
  match os_mech st with
  | M_RSA_X_509 => pk_crypt (e_pk_enc ev) M_RSA_X_509 INIT_RSA_X_509_ENC st k rnd data b
  | M_RSA_PKCS => pk_crypt (e_pk_enc ev) M_RSA_PKCS INIT_RSA_PKCS_ENC st k rnd data b
  | M_RSA_OAEP => pk_crypt (e_pk_enc ev) M_RSA_OAEP INIT_RSA_OAEP_ENC st k rnd data b
  | M_AES_CBC =>                                              (* 1414-1431 *)
      need_init st INIT_AES_CBC_ENC b (
        sized st (u32 (zlen data)) b (
          p <- get_cbc st ;;
          conclude b (set_init st 0) (
            '(out, len, p') <- WP11_AesCbc_Encrypt ci p (trunc32 data) ;;
            Ok (set_init (put_cbc st p') 0, len, out))))
  | M_AES_CBC_PAD =>                                          (* 1432-1451 *)
      need_init st INIT_AES_CBC_PAD_ENC b (
        sized st (u32 (zlen data)) b (
          p <- get_cbc st ;;
          conclude b st (
            '(out, p') <- WP11_AesCbcPad_Encrypt ci p (trunc32 data) ;;
            Ok (set_init (put_cbc st p') 0, zlen out, out))))
  | M_AES_GCM =>                                              (* 1454-1473 *)
      need_init st INIT_AES_GCM_ENC b (
        g <- get_gcm st ;;
        sized st (u32 (zlen data + tag_bytes g)) b (
          ko <- deref k ;;
          let st' := set_params st (PGcm (drop_aad g)) in
          conclude b st' (
            '(c, t) <- gcm_call_enc g ko (trunc32 data) ;;
            Ok (st', u32 (zlen (trunc32 data) + u32 (tag_bytes g)), c ++ t))))
  | _ => Ok (st, fail b CKR_MECHANISM_INVALID)
  end).

(** x & ~0xf on word32. *)
Definition align16 (z : Z) : Z := (z - z mod 16)%Z.

(** C_EncryptUpdate: crypto.c 1507-1606. *)
Definition C_EncryptUpdate (st : opst) (data : list N) (b : outbuf) : res (opst * outc) :=
  with_obj st b (fun k =>
  match os_mech st with
  | M_AES_CBC =>                                              (* 1532-1551 *)
      need_init st INIT_AES_CBC_ENC b (
        p <- get_cbc st ;;
        sized st (align16 (u32 (zlen data + WP11_AesCbc_PartLen p))) b (
          conclude b st (
            '(out, p') <- WP11_AesCbc_EncryptUpdate ci p (trunc32 data) ;;
            Ok (put_cbc st p', zlen out, out))))
  | M_AES_CBC_PAD =>                                          (* 1552-1573 *)
      need_init st INIT_AES_CBC_PAD_ENC b (
        p <- get_cbc st ;;
        sized st (align16 (u32 (zlen data + WP11_AesCbc_PartLen p))) b (
          conclude b st (
            '(out, p') <- WP11_AesCbcPad_EncryptUpdate ci p (trunc32 data) ;;
            Ok (put_cbc st p', zlen out, out))))
  | M_AES_GCM =>                                              (* 1576-1594; internal.c 8106-8142 *)
      need_init st INIT_AES_GCM_ENC b (
        sized st (u32 (zlen data)) b (
          g <- get_gcm st ;;
          ko <- deref k ;;
          conclude b (set_params st (PGcm (drop_aad g))) (
            '(c, t) <- gcm_call_enc g ko (trunc32 data) ;;
            let g' := mkGcm (g_iv g) None (g_aadSz g) (g_tagBits g)
                            (blit (g_authTag g) 0 t) (g_enc g) in
            Ok (set_params st (PGcm g'), zlen c, c))))
  | _ => Ok (st, fail b CKR_MECHANISM_INVALID)
  end).

(** C_EncryptFinal: crypto.c 1627-1718. *)
Definition C_EncryptFinal (st : opst) (b : outbuf) : res (opst * outc) :=
  with_obj st b (fun k =>
  match os_mech st with
  | M_AES_CBC =>                                              (* 1652-1668 *)
      need_init st INIT_AES_CBC_ENC b (
        p <- get_cbc st ;;
        let st' := set_init (put_cbc st (WP11_AesCbc_Final p)) 0 in
        if negb (WP11_AesCbc_PartLen p =? 0)%Z
        then Ok (st', fail b CKR_DATA_LEN_RANGE)
        else match b with
             | Query => Ok (st, mkOut CKR_OK 0 [])
             | Buf _ => Ok (st', mkOut CKR_OK 0 [])
             end)
  | M_AES_CBC_PAD =>                                          (* 1669-1687: *pulLen is not set *)
      need_init st INIT_AES_CBC_PAD_ENC b (
        sized st 16 b (
          p <- get_cbc st ;;
          conclude b (set_init st 0) (
            '(out, p') <- WP11_AesCbcPad_EncryptFinal ci p ;;
            Ok (set_init (put_cbc st p') 0, buf_in b, out))))
  | M_AES_GCM =>                                              (* 1690-1708; internal.c 8155-8170 *)
      need_init st INIT_AES_GCM_ENC b (
        g <- get_gcm st ;;
        let t := u32 (tag_bytes g) in
        sized st t b (
          if (16 <? t)%Z then Undef UB_read_overflow
          else Ok (st, mkOut CKR_OK t (firstn (Z.to_nat t) (g_authTag g)))))
  | _ => Ok (st, fail b CKR_MECHANISM_INVALID)
  end).

(** C_Decrypt: crypto.c 1896-2055. *)
Definition C_Decrypt (st : opst) (rnd data : list N) (b : outbuf) : res (opst * outc) :=
  with_obj st b (fun k =>
  match os_mech st with
  | M_RSA_X_509 => pk_crypt (e_pk_dec ev) M_RSA_X_509 INIT_RSA_X_509_DEC st k rnd data b
  | M_RSA_PKCS => pk_crypt (e_pk_dec ev) M_RSA_PKCS INIT_RSA_PKCS_DEC st k rnd data b
  | M_RSA_OAEP => pk_crypt (e_pk_dec ev) M_RSA_OAEP INIT_RSA_OAEP_DEC st k rnd data b
  | M_AES_CBC =>                                              (* 1986-2003 *)
      need_init st INIT_AES_CBC_DEC b (
        sized st (u32 (zlen data)) b (
          p <- get_cbc st ;;
          conclude b (set_init st 0) (
            '(out, len, p') <- WP11_AesCbc_Decrypt ci p (trunc32 data) ;;
            Ok (set_init (put_cbc st p') 0, len, out))))
  | M_AES_CBC_PAD =>                                          (* 2004-2022: no size check *)
      need_init st INIT_AES_CBC_PAD_DEC b (
        match b with
        | Query => Ok (st, mkOut CKR_OK (u32 (u32 (zlen data) - 1)) [])
        | Buf _ =>
            p <- get_cbc st ;;
            conclude b (set_part (set_init st 0) (fst (os_part st), 0)) (
              '(out, p') <- WP11_AesCbcPad_Decrypt ci p (trunc32 data) ;;
              Ok (set_init (put_cbc st p') 0, zlen out, out))
        end)
  | M_AES_GCM =>                                              (* 2025-2044 *)
      need_init st INIT_AES_GCM_DEC b (
        g <- get_gcm st ;;
        sized st (u32 (zlen data - tag_bytes g)) b (
          ko <- deref k ;;
          let st' := set_params st (PGcm (drop_aad g)) in
          conclude b st' (
            p <- gcm_call_dec g ko (trunc32 data) ;;
            Ok (st', zlen p, p))))
  | _ => Ok (st, fail b CKR_MECHANISM_INVALID)
  end).

(** Length estimate of C_DecryptUpdate for CBC-PAD: crypto.c 2132-2138. *)
Definition pad_dec_need (z : Z) : Z :=
  if negb (z mod 16 =? 0)%Z then align16 z
  else if (0 <? z)%Z then (z - 16)%Z else z.

(** C_DecryptUpdate: crypto.c 2079-2179. *)
Definition C_DecryptUpdate (st : opst) (data : list N) (b : outbuf) : res (opst * outc) :=
  with_obj st b (fun k =>
  match os_mech st with
  | M_AES_CBC =>                                              (* 2105-2125 *)
      need_init st INIT_AES_CBC_DEC b (
        p <- get_cbc st ;;
        sized st (align16 (u32 (zlen data + WP11_AesCbc_PartLen p))) b (
          conclude b st (
            '(out, p') <- WP11_AesCbc_DecryptUpdate ci p (trunc32 data) ;;
            Ok (put_cbc st p', zlen out, out))))
  | M_AES_CBC_PAD =>                                          (* 2126-2152 *)
      need_init st INIT_AES_CBC_PAD_DEC b (
        p <- get_cbc st ;;
        sized st (pad_dec_need (u32 (zlen data + WP11_AesCbc_PartLen p))) b (
          conclude b st (
            '(out, p') <- WP11_AesCbcPad_DecryptUpdate ci p (trunc32 data) ;;
            Ok (put_cbc st p', zlen out, out))))
  | M_AES_GCM =>                                              (* 2155-2168; internal.c 8242-8275 *)
      need_init st INIT_AES_GCM_DEC b (
        match b with
        | Query => Ok (st, mkOut CKR_OK 0 [])
        | Buf _ =>
            g <- get_gcm st ;;
            if (2^31 <=? zlen (g_enc g) + zlen (trunc32 data))%Z then Undef UB_write_overflow
            else
              let g' := mkGcm (g_iv g) (g_aad g) (g_aadSz g) (g_tagBits g) (g_authTag g)
                              (g_enc g ++ trunc32 data) in
              Ok (set_params st (PGcm g'), mkOut CKR_OK 0 [])
        end)
  | _ => Ok (st, fail b CKR_MECHANISM_INVALID)
  end).

(** C_DecryptFinal: crypto.c 2200-2292. *)
Definition C_DecryptFinal (st : opst) (b : outbuf) : res (opst * outc) :=
  with_obj st b (fun k =>
  match os_mech st with
  | M_AES_CBC =>                                              (* 2224-2240 *)
      need_init st INIT_AES_CBC_DEC b (
        p <- get_cbc st ;;
        let st' := set_init (put_cbc st (WP11_AesCbc_Final p)) 0 in
        if negb (WP11_AesCbc_PartLen p =? 0)%Z
        then Ok (st', fail b CKR_DATA_LEN_RANGE)
        else match b with
             | Query => Ok (st, mkOut CKR_OK 0 [])
             | Buf _ => Ok (st', mkOut CKR_OK 0 [])
             end)
  | M_AES_CBC_PAD =>                                          (* 2241-2260: no size check *)
      need_init st INIT_AES_CBC_PAD_DEC b (
        p <- get_cbc st ;;
        if negb (WP11_AesCbc_PartLen p =? 16)%Z
        then Ok (set_init (put_cbc st (WP11_AesCbc_Final p)) 0, fail b CKR_DATA_LEN_RANGE)
        else match b with
             | Query => Ok (st, mkOut CKR_OK 15 [])
             | Buf _ =>                                       (* 2253: *pulLen = 15 first *)
                 conclude (Buf 15) (set_part (set_init st 0) (fst (os_part st), 0)) (
                   '(out, p') <- WP11_AesCbcPad_DecryptFinal ci p ;;
                   Ok (set_init (put_cbc st p') 0, zlen out, out))
             end)
  | M_AES_GCM =>                                              (* 2263-2281; internal.c 8289-8303 *)
      need_init st INIT_AES_GCM_DEC b (
        g <- get_gcm st ;;
        sized st (u32 (zlen (g_enc g) - tag_bytes g)) b (
          ko <- deref k ;;
          let g' := mkGcm (g_iv g) None (g_aadSz g) (g_tagBits g) (g_authTag g) [] in
          conclude b (set_params st (PGcm g')) (
            p <- gcm_call_dec g ko (g_enc g) ;;
            Ok (set_params st (PGcm g'), zlen p, p))))
  | _ => Ok (st, fail b CKR_MECHANISM_INVALID)
  end).

(** RSA / ECDSA cases of C_Sign (crypto.c 2626-2698): session->init is not
    cleared; *pulSignatureLen is written also on failure. *)
Definition pk_sign (m : mech) (i : Z) (st : opst) (k : nat) (rnd data : list N) (b : outbuf)
  : res (opst * outc) :=
  need_init st i b (
    ko <- deref k ;;
    sized st (ko_len ko) b (
      pp <- get_pk m st ;;
      match e_pk_sign ev m ko pp rnd (trunc32 data) with
      | Ok o => Ok (st, mkOut CKR_OK (zlen o) o)
      | Err _ => Ok (st, mkOut CKR_FUNCTION_FAILED (ko_len ko) [])
      | Undef u => Undef u
      end)).

(** State after WP11_Hmac_Sign / SignFinal (internal.c 8407-8425, 8483-8499):
    operation over; wolfCrypt object freed. *)
Definition hmac_done (st : opst) (h : hmacst) : opst :=
  set_part (set_init (set_params st (PHmac (mkHm (hm_hash h) [] [] (hm_sz h)))) 0)
    (e_hmac_tail ev (mkHm (hm_hash h) [] [] (hm_sz h)) (os_part st)).

(** C_Sign: crypto.c 2602-2745. *)
Definition C_Sign (st : opst) (rnd data : list N) (b : outbuf) : res (opst * outc) :=
  with_obj st b (fun k =>
  match os_mech st with
  | M_RSA_X_509 => pk_sign M_RSA_X_509 INIT_RSA_X_509_SIGN st k rnd data b
  | M_RSA_PKCS => pk_sign M_RSA_PKCS INIT_RSA_PKCS_SIGN st k rnd data b
  | M_RSA_PSS => pk_sign M_RSA_PSS INIT_RSA_PSS_SIGN st k rnd data b
  | M_ECDSA => pk_sign M_ECDSA INIT_ECDSA_SIGN st k rnd data b
  | M_HMAC _ =>
      need_init st INIT_HMAC_SIGN b (
        h <- get_hmac st ;;
        sized st (hm_sz h) b (
          let sig := e_hmac ev (hm_hash h) (hm_key h) (hm_data h ++ trunc32 data) in
          Ok (hmac_done st h, mkOut CKR_OK (hm_sz h) sig)))
  | _ => Ok (st, fail b CKR_MECHANISM_INVALID)
  end).

(** WP11_Hmac_Update: internal.c 8463-8471. *)
Definition hmac_update (st : opst) (data : list N) : res (opst * outc) :=
  h <- get_hmac st ;;
  let h' := mkHm (hm_hash h) (hm_key h) (hm_data h ++ trunc32 data) (hm_sz h) in
  Ok (set_part (set_params st (PHmac h')) (e_hmac_tail ev h' (os_part st)),
      mkOut CKR_OK 0 []).

(** C_SignUpdate: crypto.c 2762-2816. *)
Definition C_SignUpdate (st : opst) (data : list N) : res (opst * outc) :=
  with_obj st Query (fun k =>
  match os_mech st with
  | M_HMAC _ => need_init st INIT_HMAC_SIGN Query (hmac_update st data)
  | _ => Ok (st, fail Query CKR_MECHANISM_INVALID)
  end).

(** C_SignFinal: crypto.c 2838-2903. *)
Definition C_SignFinal (st : opst) (b : outbuf) : res (opst * outc) :=
  with_obj st b (fun k =>
  match os_mech st with
  | M_HMAC _ =>
      need_init st INIT_HMAC_SIGN b (
        h <- get_hmac st ;;
        sized st (hm_sz h) b (
          let sig := e_hmac ev (hm_hash h) (hm_key h) (hm_data h) in
          Ok (hmac_done st h, mkOut CKR_OK (hm_sz h) sig)))
  | _ => Ok (st, fail b CKR_MECHANISM_INVALID)
  end).

Fixpoint list_eqb (a b : list N) : bool :=
  match a, b with
  | [], [] => true
  | x :: a', y :: b' => andb (N.eqb x y) (list_eqb a' b')
  | _, _ => false
  end.

(** genSigLen == sigLen && XMEMCMP(sig, genSig, sigLen) == 0
    (internal.c 8449, 8522). *)
Definition sig_match (sig gen : list N) (genLen : Z) : bool :=
  andb (genLen =? u32 (zlen sig))%Z
       (list_eqb (firstn (Z.to_nat (u32 (zlen sig))) sig)
                 (firstn (Z.to_nat (u32 (zlen sig))) gen)).

Definition verdict (ok : bool) : outc :=
  mkOut (if ok then CKR_OK else CKR_SIGNATURE_INVALID) 0 [].

Definition pk_verify (m : mech) (i : Z) (st : opst) (k : nat) (data sig : list N)
  : res (opst * outc) :=
  need_init st i Query (
    ko <- deref k ;;
    pp <- get_pk m st ;;
    match e_pk_verify ev m ko pp (trunc32 sig) (trunc32 data) with
    | Ok ok => Ok (st, verdict ok)
    | Err _ => Ok (st, fail Query CKR_FUNCTION_FAILED)
    | Undef u => Undef u
    end).

(** C_Verify: crypto.c 3129-3229. *)
Definition C_Verify (st : opst) (data sig : list N) : res (opst * outc) :=
  with_obj st Query (fun k =>
  match os_mech st with
  | M_RSA_X_509 => pk_verify M_RSA_X_509 INIT_RSA_X_509_VERIFY st k data sig
  | M_RSA_PKCS => pk_verify M_RSA_PKCS INIT_RSA_PKCS_VERIFY st k data sig
  | M_RSA_PSS => pk_verify M_RSA_PSS INIT_RSA_PSS_VERIFY st k data sig
  | M_ECDSA => pk_verify M_ECDSA INIT_ECDSA_VERIFY st k data sig
  | M_HMAC _ =>
      need_init st INIT_HMAC_VERIFY Query (
        h <- get_hmac st ;;
        let gen := e_hmac ev (hm_hash h) (hm_key h) (hm_data h ++ trunc32 data) in
        Ok (hmac_done st h, verdict (sig_match sig gen (hm_sz h))))
  | _ => Ok (st, fail Query CKR_MECHANISM_INVALID)
  end).

(** C_VerifyUpdate: crypto.c 3246-3300. *)
Definition C_VerifyUpdate (st : opst) (data : list N) : res (opst * outc) :=
  with_obj st Query (fun k =>
  match os_mech st with
  | M_HMAC _ => need_init st INIT_HMAC_VERIFY Query (hmac_update st data)
  | _ => Ok (st, fail Query CKR_MECHANISM_INVALID)
  end).

(** C_VerifyFinal: crypto.c 3318-3376. *)
Definition C_VerifyFinal (st : opst) (sig : list N) : res (opst * outc) :=
  with_obj st Query (fun k =>
  match os_mech st with
  | M_HMAC _ =>
      need_init st INIT_HMAC_VERIFY Query (
        h <- get_hmac st ;;
        let gen := e_hmac ev (hm_hash h) (hm_key h) (hm_data h) in
        Ok (hmac_done st h, verdict (sig_match sig gen (hm_sz h))))
  | _ => Ok (st, fail Query CKR_MECHANISM_INVALID)
  end).

(** wp11_Session_Final as far as operations are concerned: internal.c 592-623.
    A NULL-able pointer read from a union member that was not written is
    undefined behaviour (XFREE of garbage). *)
Definition op_session_final (st : opst) : res opst :=
  let st1 := mkOp (os_init st) (os_mech st) None (os_params st) (os_part st) in
  match os_mech st with
  | M_RSA_OAEP =>
      match os_params st with
      | POaep o => Ok (set_params st1 (POaep (mkOaep (oa_hash o) (oa_mgf o) None (oa_labelSz o))))
      | _ => Undef UB_union
      end
  | M_AES_CBC | M_AES_CBC_PAD => Ok (if (os_init st =? 0)%Z then st1 else set_init st1 0)
  | M_AES_GCM =>
      match os_params st with
      | PGcm g => Ok (set_params st1 (PGcm (mkGcm (g_iv g) None (g_aadSz g) (g_tagBits g) (g_authTag g) [])))
      | _ => Undef UB_union
      end
  | _ => Ok st1
  end.

(** One call of the operation interface, and sequences of calls. *)
Inductive call :=
  | KEncryptInit (m : mech) (mp : mparam) (k : nat)
  | KDecryptInit (m : mech) (mp : mparam) (k : nat)
  | KSignInit (m : mech) (mp : mparam) (k : nat)
  | KVerifyInit (m : mech) (mp : mparam) (k : nat)
  | KEncrypt (rnd data : list N) (b : outbuf)
  | KEncryptUpdate (data : list N) (b : outbuf)
  | KEncryptFinal (b : outbuf)
  | KDecrypt (rnd data : list N) (b : outbuf)
  | KDecryptUpdate (data : list N) (b : outbuf)
  | KDecryptFinal (b : outbuf)
  | KSign (rnd data : list N) (b : outbuf)
  | KSignUpdate (data : list N)
  | KSignFinal (b : outbuf)
  | KVerify (data sig : list N)
  | KVerifyUpdate (data : list N)
  | KVerifyFinal (sig : list N)
  | KReopen.                             (* C_CloseSession, C_OpenSession *)

(** *Init calls look the key up first: an unknown handle is refused
    (e.g. crypto.c 1181-1183). *)
Definition init_call (f : opst -> mech -> mparam -> nat -> keyobj -> res (opst * Z))
    (st : opst) (m : mech) (mp : mparam) (k : nat) : res (opst * outc) :=
  match objs k with
  | None => Ok (st, fail Query CKR_OBJECT_HANDLE_INVALID)
  | Some ko => '(st', rv) <- f st m mp k ko ;; Ok (st', fail Query rv)
  end.

Definition step (st : opst) (c : call) : res (opst * outc) :=
  match c with
  | KEncryptInit m mp k => init_call C_EncryptInit st m mp k
  | KDecryptInit m mp k => init_call C_DecryptInit st m mp k
  | KSignInit m mp k => init_call C_SignInit st m mp k
  | KVerifyInit m mp k => init_call C_VerifyInit st m mp k
  | KEncrypt r d b => C_Encrypt st r d b
  | KEncryptUpdate d b => C_EncryptUpdate st d b
  | KEncryptFinal b => C_EncryptFinal st b
  | KDecrypt r d b => C_Decrypt st r d b
  | KDecryptUpdate d b => C_DecryptUpdate st d b
  | KDecryptFinal b => C_DecryptFinal st b
  | KSign r d b => C_Sign st r d b
  | KSignUpdate d => C_SignUpdate st d
  | KSignFinal b => C_SignFinal st b
  | KVerify d s => C_Verify st d s
  | KVerifyUpdate d => C_VerifyUpdate st d
  | KVerifyFinal s => C_VerifyFinal st s
  | KReopen => st' <- op_session_final st ;; Ok (st', fail Query CKR_OK)
  end.

(** A call sequence; outcomes in order. Stops at undefined behaviour. *)
Fixpoint run (st : opst) (cs : list call) : res (opst * list outc) :=
  match cs with
  | [] => Ok (st, [])
  | c :: cs' =>
      '(st1, o) <- step st c ;;
      '(st2, os) <- run st1 cs' ;;
      Ok (st2, o :: os)
  end.

End WithEnv.
