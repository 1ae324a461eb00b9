(** Objects and attributes: internal.c 1454-1490 and 5020-6450, crypto.c 40-860.

    Attribute values are byte strings shorter than 2^31 (the code casts lengths to
    int); CK_ULONG values are stored little-endian (the hosts the library is built
    for). Memory allocation succeeds. wolfCrypt calls are oracles collected in
    [oenv]. The data union of WP11_Object is a sum type: using another member than
    the one last written is the outcome [Undef UB_union], except on a fresh object
    (all zero). *)
From Verif Require Import Base Ops.

(** ** Constants: pkcs11.h 110-209 *)
Definition CKO_CERTIFICATE : Z := 1.
Definition CKO_PUBLIC_KEY : Z := 2.
Definition CKO_PRIVATE_KEY : Z := 3.
Definition CKO_SECRET_KEY : Z := 4.

Definition CKA_CLASS : Z := 0x0.
Definition CKA_TOKEN : Z := 0x1.
Definition CKA_PRIVATE : Z := 0x2.
Definition CKA_LABEL : Z := 0x3.
Definition CKA_APPLICATION : Z := 0x10.
Definition CKA_VALUE : Z := 0x11.
Definition CKA_OBJECT_ID : Z := 0x12.
Definition CKA_CERTIFICATE_TYPE : Z := 0x80.
Definition CKA_ISSUER : Z := 0x81.
Definition CKA_SERIAL_NUMBER : Z := 0x82.
Definition CKA_AC_ISSUER : Z := 0x83.
Definition CKA_OWNER : Z := 0x84.
Definition CKA_ATTR_TYPES : Z := 0x85.
Definition CKA_TRUSTED : Z := 0x86.
Definition CKA_CERTIFICATE_CATEGORY : Z := 0x87.
Definition CKA_JAVA_MIDP_SECURITY_DOMAIN : Z := 0x88.
Definition CKA_URL : Z := 0x89.
Definition CKA_HASH_OF_SUBJECT_PUBLIC_KEY : Z := 0x8A.
Definition CKA_HASH_OF_ISSUER_PUBLIC_KEY : Z := 0x8B.
Definition CKA_NAME_HASH_ALGORITHM : Z := 0x8C.
Definition CKA_CHECK_VALUE : Z := 0x90.
Definition CKA_KEY_TYPE : Z := 0x100.
Definition CKA_SUBJECT : Z := 0x101.
Definition CKA_ID : Z := 0x102.
Definition CKA_SENSITIVE : Z := 0x103.
Definition CKA_ENCRYPT : Z := 0x104.
Definition CKA_DECRYPT : Z := 0x105.
Definition CKA_WRAP : Z := 0x106.
Definition CKA_UNWRAP : Z := 0x107.
Definition CKA_SIGN : Z := 0x108.
Definition CKA_SIGN_RECOVER : Z := 0x109.
Definition CKA_VERIFY : Z := 0x10A.
Definition CKA_VERIFY_RECOVER : Z := 0x10B.
Definition CKA_DERIVE : Z := 0x10C.
Definition CKA_START_DATE : Z := 0x110.
Definition CKA_END_DATE : Z := 0x111.
Definition CKA_MODULUS : Z := 0x120.
Definition CKA_MODULUS_BITS : Z := 0x121.
Definition CKA_PUBLIC_EXPONENT : Z := 0x122.
Definition CKA_PRIVATE_EXPONENT : Z := 0x123.
Definition CKA_PRIME_1 : Z := 0x124.
Definition CKA_PRIME_2 : Z := 0x125.
Definition CKA_EXPONENT_1 : Z := 0x126.
Definition CKA_EXPONENT_2 : Z := 0x127.
Definition CKA_COEFFICIENT : Z := 0x128.
Definition CKA_PUBLIC_KEY_INFO : Z := 0x129.
Definition CKA_PRIME : Z := 0x130.
Definition CKA_BASE : Z := 0x132.
Definition CKA_PRIME_BITS : Z := 0x133.
Definition CKA_VALUE_BITS : Z := 0x160.
Definition CKA_VALUE_LEN : Z := 0x161.
Definition CKA_EXTRACTABLE : Z := 0x162.
Definition CKA_LOCAL : Z := 0x163.
Definition CKA_NEVER_EXTRACTABLE : Z := 0x164.
Definition CKA_ALWAYS_SENSITIVE : Z := 0x165.
Definition CKA_KEY_GEN_MECHANISM : Z := 0x166.
Definition CKA_MODIFIABLE : Z := 0x170.
Definition CKA_COPYABLE : Z := 0x171.
Definition CKA_DESTROYABLE : Z := 0x172.
Definition CKA_EC_PARAMS : Z := 0x180.
Definition CKA_EC_POINT : Z := 0x181.
Definition CKA_ALWAYS_AUTHENTICATE : Z := 0x202.
Definition CKA_WRAP_WITH_TRUSTED : Z := 0x210.
Definition CKA_HW_FEATURE_TYPE : Z := 0x300.
Definition CKA_RESET_ON_INIT : Z := 0x301.
Definition CKA_HAS_RESET : Z := 0x302.
Definition CKA_WRAP_TEMPLATE : Z := 0x40000211.
Definition CKA_UNWRAP_TEMPLATE : Z := 0x40000212.
Definition CKA_DERIVE_TEMPLATE : Z := 0x40000213.
Definition CKA_ALLOWED_MECHANISMS : Z := 0x40000600.

Definition CKR_ATTRIBUTE_TYPE_INVALID : Z := 0x12.
Definition CKR_ATTRIBUTE_VALUE_INVALID : Z := 0x13.
Definition CKR_SESSION_READ_ONLY : Z := 0xB5.
Definition CKR_TEMPLATE_INCOMPLETE : Z := 0xD0.
(** ~0UL: pkcs11.h *)
Definition UNAVAILABLE : Z := 2^64 - 1.

(** WP11_FLAG_*: internal.h 102-110. *)
Definition FL_PRIVATE : Z := 0x1.
Definition FL_SENSITIVE : Z := 0x2.
Definition FL_EXTRACTABLE : Z := 0x4.
Definition FL_MODIFIABLE : Z := 0x8.
Definition FL_ALWAYS_SENSITIVE : Z := 0x10.
Definition FL_NEVER_EXTRACTABLE : Z := 0x20.
Definition FL_ALWAYS_AUTHENTICATE : Z := 0x40.
Definition FL_WRAP_WITH_TRUSTED : Z := 0x80.
Definition FL_TRUSTED : Z := 0x100.
(** CKF_*: pkcs11.h 68-79. *)
Definition CKF_ENCRYPT : Z := 0x100.
Definition CKF_DECRYPT : Z := 0x200.
Definition CKF_SIGN : Z := 0x800.
Definition CKF_SIGN_RECOVER : Z := 0x1000.
Definition CKF_VERIFY : Z := 0x2000.
Definition CKF_VERIFY_RECOVER : Z := 0x4000.
Definition CKF_WRAP : Z := 0x20000.
Definition CKF_UNWRAP : Z := 0x40000.
Definition CKF_DERIVE : Z := 0x80000.

Definition SYM_BUF : nat := 512.       (* WP11_MAX_SYM_KEY_SZ: internal.c 77, DH compiled in *)
Definition DH_BUF : nat := 512.        (* WP11_MAX_DH_KEY_SZ: internal.c 73 *)
Definition CERT_BUF : nat := 4096.      (* WP11_MAX_CERT_SZ: internal.c 85 *)

(** ** Key data *)
Record rsak := mkRsa {
  r_n : N; r_d : N; r_p : N; r_q : N; r_dP : N; r_dQ : N; r_u : N; r_e : N
}.
Definition rsa0 : rsak := mkRsa 0 0 0 0 0 0 0 0.
(** ecc_key: curve, type (0, ECC_PUBLICKEY 1, ECC_PRIVATEKEY 2,
    ECC_PRIVATEKEY_ONLY 3), private value, public point. *)
Record eck := mkEc { ec_curve : option Z; ec_kind : Z; ec_k : N; ec_pt : list N }.
Definition ec0 : eck := mkEc None 0 0 [].

Inductive kdata :=
  | KZero
  | KSym (len : Z) (buf : list N)          (* symmKey.len, symmKey.data (512 bytes) *)
  | KDh (p g : N) (len : Z) (buf : list N) (* params, len, key (512 bytes) *)
  | KCert (len : Z) (buf : list N)         (* cert.len, cert.data (4096); cert.type is never read *)
  | KRsa (r : rsak)
  | KEc (e : eck).

(** keyId/label: a pointer and a length. [SNull n] is a NULL pointer with the
    length field at n (n > 0 after a failed allocation: SetLabel frees first and
    does not reset the length). *)
Inductive sval := SV (b : list N) | SNull (len : Z).
Definition s_len (s : sval) : Z := match s with SV b => zlen b | SNull n => n end.

(** WP11_Object: internal.c 157-205. [o_uid] identifies the allocation. *)
Record obj := mkObj {
  o_uid : nat; o_type : Z; o_class : Z; o_handle : Z; o_size : Z; o_kgm : Z;
  o_onTok : bool; o_local : bool; o_flag : Z; o_opFlag : Z;
  o_start : list N; o_end : list N; o_keyId : sval; o_label : sval;
  o_data : kdata;
  o_iv : list N; o_keyData : option (list N); o_enc : bool
}.

Definition zeros (n : nat) : list N := repeat 0%N n.

(** wp11_Object_New: internal.c 1454-1475. *)
Definition obj_new (uid : nat) (ty : Z) : obj :=
  mkObj uid ty 0 0 0 UNAVAILABLE false false 0 0 (zeros 8) (zeros 8) (SNull 0) (SNull 0) KZero (zeros 12) None false.

Definition set_class (o : obj) (c : Z) : obj :=
  mkObj (o_uid o) (o_type o) c (o_handle o) (o_size o) (o_kgm o) (o_onTok o) (o_local o)
    (o_flag o) (o_opFlag o) (o_start o) (o_end o) (o_keyId o) (o_label o) (o_data o) (o_iv o)
    (o_keyData o) (o_enc o).
Definition set_size (o : obj) (n : Z) : obj :=
  mkObj (o_uid o) (o_type o) (o_class o) (o_handle o) n (o_kgm o) (o_onTok o) (o_local o)
    (o_flag o) (o_opFlag o) (o_start o) (o_end o) (o_keyId o) (o_label o) (o_data o) (o_iv o)
    (o_keyData o) (o_enc o).
Definition set_data (o : obj) (d : kdata) : obj :=
  mkObj (o_uid o) (o_type o) (o_class o) (o_handle o) (o_size o) (o_kgm o) (o_onTok o) (o_local o)
    (o_flag o) (o_opFlag o) (o_start o) (o_end o) (o_keyId o) (o_label o) d (o_iv o)
    (o_keyData o) (o_enc o).
Definition set_flag (o : obj) (f : Z) : obj :=
  mkObj (o_uid o) (o_type o) (o_class o) (o_handle o) (o_size o) (o_kgm o) (o_onTok o) (o_local o)
    f (o_opFlag o) (o_start o) (o_end o) (o_keyId o) (o_label o) (o_data o) (o_iv o)
    (o_keyData o) (o_enc o).
Definition set_opFlag (o : obj) (f : Z) : obj :=
  mkObj (o_uid o) (o_type o) (o_class o) (o_handle o) (o_size o) (o_kgm o) (o_onTok o) (o_local o)
    (o_flag o) f (o_start o) (o_end o) (o_keyId o) (o_label o) (o_data o) (o_iv o)
    (o_keyData o) (o_enc o).
Definition set_start (o : obj) (d : list N) : obj :=
  mkObj (o_uid o) (o_type o) (o_class o) (o_handle o) (o_size o) (o_kgm o) (o_onTok o) (o_local o)
    (o_flag o) (o_opFlag o) d (o_end o) (o_keyId o) (o_label o) (o_data o) (o_iv o)
    (o_keyData o) (o_enc o).
Definition set_end (o : obj) (d : list N) : obj :=
  mkObj (o_uid o) (o_type o) (o_class o) (o_handle o) (o_size o) (o_kgm o) (o_onTok o) (o_local o)
    (o_flag o) (o_opFlag o) (o_start o) d (o_keyId o) (o_label o) (o_data o) (o_iv o)
    (o_keyData o) (o_enc o).
Definition set_keyId (o : obj) (d : sval) : obj :=
  mkObj (o_uid o) (o_type o) (o_class o) (o_handle o) (o_size o) (o_kgm o) (o_onTok o) (o_local o)
    (o_flag o) (o_opFlag o) (o_start o) (o_end o) d (o_label o) (o_data o) (o_iv o)
    (o_keyData o) (o_enc o).
Definition set_label (o : obj) (d : sval) : obj :=
  mkObj (o_uid o) (o_type o) (o_class o) (o_handle o) (o_size o) (o_kgm o) (o_onTok o) (o_local o)
    (o_flag o) (o_opFlag o) (o_start o) (o_end o) (o_keyId o) d (o_data o) (o_iv o)
    (o_keyData o) (o_enc o).
Definition set_handle (o : obj) (h : Z) : obj :=
  mkObj (o_uid o) (o_type o) (o_class o) h (o_size o) (o_kgm o) (o_onTok o) (o_local o)
    (o_flag o) (o_opFlag o) (o_start o) (o_end o) (o_keyId o) (o_label o) (o_data o) (o_iv o)
    (o_keyData o) (o_enc o).
Definition set_onTok (o : obj) (b : bool) : obj :=
  mkObj (o_uid o) (o_type o) (o_class o) (o_handle o) (o_size o) (o_kgm o) b (o_local o)
    (o_flag o) (o_opFlag o) (o_start o) (o_end o) (o_keyId o) (o_label o) (o_data o) (o_iv o)
    (o_keyData o) (o_enc o).
(** local and keyGenMech together, as the key generators set them. *)
Definition set_gen (o : obj) (m : Z) : obj :=
  mkObj (o_uid o) (o_type o) (o_class o) (o_handle o) (o_size o) m (o_onTok o) true
    (o_flag o) (o_opFlag o) (o_start o) (o_end o) (o_keyId o) (o_label o) (o_data o) (o_iv o)
    (o_keyData o) (o_enc o).
Definition set_store (o : obj) (iv : list N) (kd : option (list N)) (en : bool) : obj :=
  mkObj (o_uid o) (o_type o) (o_class o) (o_handle o) (o_size o) (o_kgm o) (o_onTok o) (o_local o)
    (o_flag o) (o_opFlag o) (o_start o) (o_end o) (o_keyId o) (o_label o) (o_data o) iv kd en.

(** ** wolfCrypt oracles. Integer results are 0 or an error code. *)
Record oenv := mkOE {
  oe_mp_read : list N -> Z;                   (* mp_read_unsigned_bin *)
  oe_curve : list N -> option Z;              (* wc_ecc_get_curve_id_from_oid *)
  oe_set_curve : Z -> Z;                      (* wc_ecc_set_curve *)
  oe_oid : Z -> list N;                       (* dp->oid *)
  oe_ecsize : Z -> Z;                         (* dp->size *)
  oe_import : eck -> list N -> Z * eck;       (* wc_ecc_import_x963_ex *)
  oe_export : Z -> list N -> Z * list N;      (* wc_ecc_export_x963: curve, public point *)
  oe_dh_set : list N -> list N -> Z * (N * N) (* wc_DhSetKey *)
}.

(** ** Templates *)
(** pValue and ulValueLen of a CK_ATTRIBUTE: a buffer of exactly ulValueLen bytes,
    a NULL pointer with some length, or a buffer whose ulValueLen is
    CK_UNAVAILABLE_INFORMATION (as C_GetAttributeValue leaves it). *)
Inductive aval := AV (b : list N) | ANull (len : Z) | AUnav (b : list N).
Record attr := mkA { a_type : Z; a_val : aval }.
Definition template := list attr.
Definition v_len (v : aval) : Z :=
  match v with AV b => zlen b | ANull n => n | AUnav _ => UNAVAILABLE end.
Definition a_len (a : attr) : Z := v_len (a_val a).

(** *(CK_ULONG* )pValue (64 bits) *)
Fixpoint le (l : list N) : Z := match l with [] => 0%Z | b :: t => (Z.of_N b + 256 * le t)%Z end.
Definition ulong_of (b : list N) : Z := u64 (le (firstn 8 b)).
Fixpoint to_le (n : nat) (v : Z) : list N :=
  match n with O => [] | S m => Z.to_N (v mod 256) :: to_le m (v / 256) end.
Definition bool_of (b : list N) : bool := negb (nth 0 b 0%N =? 0)%N.

(** FindAttributeType: crypto.c 206-217: the last match wins. *)
Definition find_last (t : template) (ty : Z) : option attr :=
  find (fun a => a_type a =? ty)%Z (rev t).

Inductive akind := AK_ulong | AK_bool | AK_data | AK_date.
(** attrType: crypto.c 124-190. *)
Definition attr_table : list (Z * akind) :=
  [ (CKA_CLASS, AK_ulong); (CKA_TOKEN, AK_data); (CKA_PRIVATE, AK_bool); (CKA_LABEL, AK_data);
    (CKA_APPLICATION, AK_data); (CKA_VALUE, AK_data); (CKA_OBJECT_ID, AK_data); (CKA_OWNER, AK_data);
    (CKA_TRUSTED, AK_bool); (CKA_KEY_TYPE, AK_ulong); (CKA_SUBJECT, AK_data); (CKA_ID, AK_data);
    (CKA_SENSITIVE, AK_bool); (CKA_ENCRYPT, AK_bool); (CKA_DECRYPT, AK_bool); (CKA_WRAP, AK_bool);
    (CKA_UNWRAP, AK_bool); (CKA_SIGN, AK_bool); (CKA_SIGN_RECOVER, AK_bool); (CKA_VERIFY, AK_bool);
    (CKA_VERIFY_RECOVER, AK_bool); (CKA_DERIVE, AK_bool); (CKA_START_DATE, AK_date);
    (CKA_END_DATE, AK_date); (CKA_MODULUS, AK_data); (CKA_MODULUS_BITS, AK_ulong);
    (CKA_PUBLIC_EXPONENT, AK_data); (CKA_PRIVATE_EXPONENT, AK_data); (CKA_PRIME_1, AK_data);
    (CKA_PRIME_2, AK_data); (CKA_EXPONENT_1, AK_data); (CKA_EXPONENT_2, AK_data);
    (CKA_COEFFICIENT, AK_data); (CKA_PUBLIC_KEY_INFO, AK_data); (CKA_PRIME, AK_data);
    (CKA_BASE, AK_data); (CKA_PRIME_BITS, AK_ulong); (CKA_VALUE_BITS, AK_ulong);
    (CKA_VALUE_LEN, AK_ulong); (CKA_EXTRACTABLE, AK_bool); (CKA_LOCAL, AK_bool);
    (CKA_NEVER_EXTRACTABLE, AK_bool); (CKA_ALWAYS_SENSITIVE, AK_bool);
    (CKA_KEY_GEN_MECHANISM, AK_ulong); (CKA_MODIFIABLE, AK_bool); (CKA_COPYABLE, AK_bool);
    (CKA_DESTROYABLE, AK_bool); (CKA_EC_PARAMS, AK_data); (CKA_EC_POINT, AK_data);
    (CKA_ALWAYS_AUTHENTICATE, AK_bool); (CKA_WRAP_WITH_TRUSTED, AK_bool);
    (CKA_HW_FEATURE_TYPE, AK_ulong); (CKA_RESET_ON_INIT, AK_bool); (CKA_HAS_RESET, AK_bool);
    (CKA_WRAP_TEMPLATE, AK_data); (CKA_UNWRAP_TEMPLATE, AK_data); (CKA_DERIVE_TEMPLATE, AK_data);
    (CKA_ALLOWED_MECHANISMS, AK_data); (CKA_CERTIFICATE_TYPE, AK_ulong);
    (CKA_CERTIFICATE_CATEGORY, AK_ulong); (CKA_ID, AK_data); (CKA_ISSUER, AK_data);
    (CKA_SERIAL_NUMBER, AK_data); (CKA_PUBLIC_KEY_INFO, AK_data); (CKA_URL, AK_data);
    (CKA_HASH_OF_SUBJECT_PUBLIC_KEY, AK_data); (CKA_HASH_OF_ISSUER_PUBLIC_KEY, AK_data);
    (CKA_NAME_HASH_ALGORITHM, AK_ulong) ].
Definition kind_of (ty : Z) : option akind :=
  match find (fun p => fst p =? ty)%Z attr_table with Some p => Some (snd p) | None => None end.

(** CheckAttributes: crypto.c 248-295. *)
Definition check_attr (set : bool) (a : attr) : Z :=
  let fixed n := match a_val a with
    | ANull _ => if set then CKR_ATTRIBUTE_VALUE_INVALID else CKR_OK
    | v => if (v_len v =? n)%Z then CKR_OK else CKR_BUFFER_TOO_SMALL
    end in
  match kind_of (a_type a) with
  | None => CKR_ATTRIBUTE_TYPE_INVALID
  | Some AK_ulong => fixed 8%Z
  | Some AK_bool =>
      let r := fixed 1%Z in
      if negb (r =? CKR_OK)%Z then r
      else match a_val a with
           | AV b => if andb set (1 <? nth 0 b 0)%N then CKR_ATTRIBUTE_VALUE_INVALID else CKR_OK
           | _ => CKR_OK
           end
  | Some AK_date => fixed 8%Z
  | Some AK_data => if andb set (a_len a =? UNAVAILABLE)%Z then CKR_ATTRIBUTE_VALUE_INVALID
                    else CKR_OK
  end.
Fixpoint check_attrs (set : bool) (t : template) : Z :=
  match t with
  | [] => CKR_OK
  | a :: r => let c := check_attr set a in
              if (c =? CKR_OK)%Z then check_attrs set r else c
  end.

(** ** Setting key data. [vals] holds, per parameter of the table for the type,
    the first matching template value (SetAttributeValue crypto.c 377-389). *)
Definition rsaParams : list Z :=
  [CKA_MODULUS; CKA_PRIVATE_EXPONENT; CKA_PRIME_1; CKA_PRIME_2; CKA_EXPONENT_1;
   CKA_EXPONENT_2; CKA_COEFFICIENT; CKA_PUBLIC_EXPONENT; CKA_MODULUS_BITS].
Definition ecParams : list Z := [CKA_EC_PARAMS; CKA_VALUE; CKA_EC_POINT].
Definition dhParams : list Z := [CKA_PRIME; CKA_BASE; CKA_VALUE].
Definition secretParams : list Z := [CKA_VALUE_LEN; CKA_VALUE].
Definition certParams : list Z := [CKA_CERTIFICATE_TYPE; CKA_VALUE].

Definition be_n (l : list N) : N := fold_left (fun a b => a * 256 + b)%N l 0%N.

Section WithEnv.
Variable oe : oenv.

(** SetMPI: internal.c 5020-5031. The integer keeps its value (0 after init) when
    no data is given. *)
Definition set_mpi (v : option (list N)) : Z * N :=
  match v with
  | None => (0%Z, 0%N)
  | Some b => let c := oe_mp_read oe b in if (c =? 0)%Z then (0%Z, be_n b) else (c, 0%N)
  end.

(** WP11_Object_SetRsaKey: internal.c 5045-5104. On failure the key is freed
    (all integers zero). *)
Definition SetRsaKey (o : obj) (v : list (option (list N))) : Z * obj :=
  let g i := set_mpi (nth i v None) in
  let fail c := (c, set_data o (KRsa rsa0)) in
  let '(c0, n) := g 0 in if negb (c0 =? 0)%Z then fail c0 else
  let '(c1, d) := g 1 in if negb (c1 =? 0)%Z then fail c1 else
  let '(c2, p) := g 2 in if negb (c2 =? 0)%Z then fail c2 else
  let '(c3, q) := g 3 in if negb (c3 =? 0)%Z then fail c3 else
  let '(c4, dP) := g 4 in if negb (c4 =? 0)%Z then fail c4 else
  let '(c5, dQ) := g 5 in if negb (c5 =? 0)%Z then fail c5 else
  let '(c6, u) := g 6 in if negb (c6 =? 0)%Z then fail c6 else
  let '(c7, e) := g 7 in if negb (c7 =? 0)%Z then fail c7 else
  let o' := set_data o (KRsa (mkRsa n d p q dP dQ u e)) in
  match nth 8 v None with
  | None => (0%Z, o')
  | Some b => if (zlen b =? 8)%Z then (0%Z, set_size o' (u32 (ulong_of b)))
              else if (zlen b =? 0)%Z then (0%Z, o') else fail BUFFER_E
  end.

(** EcSetParams: internal.c 5151-5178. *)
Definition ASN_PARSE_E : Z := -140.
Definition EcSetParams (k : eck) (der : list N) : Z * eck :=
  if (zlen der <? 2)%Z then (BUFFER_E, k)
  else if negb (nth 0 der 0 =? 6)%N then (ASN_PARSE_E, k)
  else if negb (Z.of_N (nth 1 der 0%N) =? zlen der - 2)%Z then (BUFFER_E, k)
  else match oe_curve oe (skipn 2 der) with
       | None => (BAD_FUNC_ARG, k)
       | Some id => let c := oe_set_curve oe id in
                    if (c =? 0)%Z then (0%Z, mkEc (Some id) (ec_kind k) (ec_k k) (ec_pt k)) else (c, k)
       end.

(** EcSetPoint: internal.c 5193-5220. *)
Definition EcSetPoint (k : eck) (der : list N) : res (Z * eck) :=
  if (zlen der <? 3)%Z then Ok (BUFFER_E, k)
  else if negb (nth 0 der 0 =? 4)%N then Ok (ASN_PARSE_E, k)
  else
    let long := (128 <=? nth 1 der 0)%N in
    if andb long (negb (nth 1 der 0 =? 129)%N) then Ok (ASN_PARSE_E, k)
    else
      let i := if long then 2 else 1 in
      if negb (Z.of_N (nth i der 0%N) =? zlen der - Z.of_nat (i + 1))%Z then Ok (BUFFER_E, k)
      else match ec_curve k with
           | None => Undef UB_null_deref
           | Some _ => Ok (oe_import oe k (skipn (i + 1) der))
           end.

(** WP11_Object_SetEcKey: internal.c 5232-5271. *)
Definition SetEcKey (o : obj) (v : list (option (list N))) : res (Z * obj) :=
  let fail c k := Ok (c, set_data o (KEc (mkEc (ec_curve k) 0 0 []))) in
  let '(c0, k0) := match nth 0 v None with None => (0%Z, ec0) | Some b => EcSetParams ec0 b end in
  if negb (c0 =? 0)%Z then fail c0 k0 else
  let '(c1, k1) := match nth 1 v None with
                   | None => (0%Z, k0)
                   | Some b => let '(c, x) := set_mpi (Some b) in
                               (c, mkEc (ec_curve k0) 3 x (ec_pt k0))
                   end in
  if negb (c1 =? 0)%Z then fail c1 k1 else
  match nth 2 v None with
  | None => Ok (0%Z, set_data o (KEc k1))
  | Some b =>
      let k2 := mkEc (ec_curve k1) (if (ec_kind k1 =? 3)%Z then 2 else 1)%Z (ec_k k1) (ec_pt k1) in
      '(c2, k3) <- EcSetPoint k2 b ;;
      if negb (c2 =? 0)%Z then fail c2 k3 else Ok (0%Z, set_data o (KEc k3))
  end.

(** Overwrite the start of a fixed-size buffer. *)
Definition overlay (buf d : list N) : list N := d ++ skipn (length d) buf.

(** Views of the data union. *)
Definition as_sym (o : obj) : res (Z * list N) :=
  match o_data o with KSym l b => Ok (l, b) | KZero => Ok (0%Z, zeros SYM_BUF) | _ => Undef UB_union end.
Definition as_dh (o : obj) : res (N * N * Z * list N) :=
  match o_data o with KDh p g l b => Ok (p, g, l, b) | KZero => Ok (0%N, 0%N, 0%Z, zeros DH_BUF)
  | _ => Undef UB_union end.
Definition as_cert (o : obj) : res (Z * list N) :=
  match o_data o with KCert l b => Ok (l, b) | KZero => Ok (0%Z, zeros CERT_BUF) | _ => Undef UB_union end.
Definition as_rsa (o : obj) : res rsak :=
  match o_data o with KRsa r => Ok r | KZero => Ok rsa0 | _ => Undef UB_union end.
Definition as_ec (o : obj) : res eck :=
  match o_data o with KEc e => Ok e | KZero => Ok ec0 | _ => Undef UB_union end.

(** WP11_Object_SetDhKey: internal.c 5291-5322. wc_InitDhKey clears the
    parameters; the key buffer is only overwritten, never cleared. *)
Definition SetDhKey (o : obj) (v : list (option (list N))) : res (Z * obj) :=
  '(_, _, l, buf) <- as_dh o ;;
  let '(c0, (p, g)) := match nth 0 v None, nth 1 v None with
                       | Some pb, Some gb => oe_dh_set oe pb gb
                       | _, _ => (0%Z, (0%N, 0%N))
                       end in
  if negb (c0 =? 0)%Z then Ok (c0, set_data o (KDh 0 0 l buf)) else
  match nth 2 v None with
  | None => Ok (0%Z, set_data o (KDh p g l buf))
  | Some b => if (Z.of_nat DH_BUF <? zlen b)%Z then Ok (BAD_FUNC_ARG, set_data o (KDh 0 0 l buf))
              else Ok (0%Z, set_data o (KDh p g (zlen b) (overlay buf b)))
  end.

(** WP11_Object_SetSecretKey: internal.c 5338-5380. *)
Definition SetSecretKey (o : obj) (v : list (option (list N))) : res (Z * obj) :=
  let fail c l := Ok (c, set_data o (KSym l (zeros SYM_BUF))) in
  let lenv := nth 0 v None in
  let bad := match lenv with
    | Some b => orb (negb (zlen b =? 8)%Z)
                    (andb (o_type o =? CKK_AES)%Z
                       (negb (orb (ulong_of b =? 16) (orb (ulong_of b =? 24) (ulong_of b =? 32)))))%Z
    | None => false end in
  if bad then fail BAD_FUNC_ARG 0%Z else
  let klen := match lenv with Some b => u32 (ulong_of b) | None => 0%Z end in
  match nth 1 v None with
  | None => fail 0%Z klen
  | Some b =>
      if andb (negb (klen =? 0)%Z) (zlen b <? klen)%Z then fail BUFFER_E klen else
      let klen' := if (klen =? 0)%Z then u32 (zlen b) else klen in
      if (Z.of_nat SYM_BUF <? klen')%Z then Undef UB_write_overflow
      else Ok (0%Z, set_data o (KSym klen' (overlay (zeros SYM_BUF) (firstn (Z.to_nat klen') b))))
  end.

(** WP11_Object_SetCert: internal.c 5382-5416. *)
Definition SetCert (o : obj) (v : list (option (list N))) : Z * obj :=
  let fail c := (c, set_data o (KCert 0 (zeros CERT_BUF))) in
  let bad := match nth 0 v None with Some b => negb (zlen b =? 8)%Z | None => false end in
  if bad then fail BAD_FUNC_ARG else
  match nth 1 v None with
  | None => fail 0%Z
  | Some b => if (Z.of_nat CERT_BUF <? zlen b)%Z then fail BUFFER_E
              else (0%Z, set_data o (KCert (zlen b) (overlay (zeros CERT_BUF) b)))
  end.

(** ** Reading attributes. A read is given [None] (size query: pValue NULL, the
    length on entry is not looked at) or [Some n] (a buffer of n bytes) and yields
    the return code, the length on exit ([None]: unchanged) and the bytes written
    from the start of the buffer. *)
Definition gres := (Z * option Z * list N)%type.

(** GetMPIData, GetBool, GetULong, GetData: internal.c 5491-5600. *)
Definition get_data (d : list N) (buf : option Z) : gres :=
  match buf with
  | None => (0%Z, Some (zlen d), [])
  | Some n => if (n <? zlen d)%Z then (BUFFER_E, None, []) else (0%Z, Some (zlen d), d)
  end.
Definition get_bool (b : bool) := get_data [if b then 1%N else 0%N].
Definition get_ulong (v : Z) := get_data (to_le 8 v).
(** Big-endian bytes without leading zeroes: mp_to_unsigned_bin. *)
Fixpoint be_of_fuel (fuel : nat) (n : N) (acc : list N) : list N :=
  match fuel with
  | O => acc
  | S f => if (n =? 0)%N then acc else be_of_fuel f (n / 256)%N ((n mod 256)%N :: acc)
  end.
Definition be_of (n : N) : list N := be_of_fuel (N.to_nat (N.size n)) n [].
Definition get_mpi (n : N) := get_data (be_of n).
(** GetOpFlagBool: internal.c 5547-5551. *)
Definition has_flag (fl f : Z) : bool := (Z.land fl f =? f)%Z.
Definition get_opflag (o : obj) (f : Z) := get_bool (has_flag (o_opFlag o) f).
(** A fixed buffer of which the first l bytes are the value. *)
Definition get_buf (l : Z) (b : list N) (buf : option Z) : res gres :=
  match buf with
  | None => Ok (0%Z, Some l, [])
  | Some n => if (n <? l)%Z then Ok (BUFFER_E, None, [])
              else if (zlen b <? l)%Z then Undef UB_read_overflow
              else Ok (0%Z, Some l, firstn (Z.to_nat l) b)
  end.
(** keyId/label. *)
Definition get_sval (s : sval) (buf : option Z) : res gres :=
  match s with
  | SV b => Ok (get_data b buf)
  | SNull l => match buf with
               | None => Ok (0%Z, Some l, [])
               | Some n => if (n <? l)%Z then Ok (BUFFER_E, None, [])
                           else if (l =? 0)%Z then Ok (0%Z, Some 0%Z, []) else Undef UB_null_deref
               end
  end.
(** Dates: 6000-6013. *)
Definition get_date (d : list N) (buf : option Z) : gres :=
  if (nth 0 d 0 =? 0)%N then (0%Z, Some 0%Z, []) else get_data d buf.
(** *len = CK_UNAVAILABLE_INFORMATION; ret 0 *)
Definition g_unavail : gres := (0%Z, Some UNAVAILABLE, []).
Definition g_na : gres := (NOT_AVAILABLE_E, None, []).

(** noPriv: internal.c 5624, 5767, 5821, 5870. *)
Definition noPriv (o : obj) : bool :=
  orb (negb (Z.land (o_flag o) FL_SENSITIVE =? 0)%Z) (Z.land (o_flag o) FL_EXTRACTABLE =? 0)%Z.

(** RsaObject_GetAttr: internal.c 5620-5690. *)
Definition RsaGetAttr (o : obj) (ty : Z) (buf : option Z) : res gres :=
  r <- as_rsa o ;;
  let np := orb (noPriv o) (r_d r =? 0)%N in
  let priv x := Ok (if np then g_unavail else get_mpi x buf) in
  if (ty =? CKA_MODULUS)%Z then Ok (get_mpi (r_n r) buf)
  else if (ty =? CKA_PRIVATE_EXPONENT)%Z then priv (r_d r)
  else if (ty =? CKA_PRIME_1)%Z then priv (r_p r)
  else if (ty =? CKA_PRIME_2)%Z then priv (r_q r)
  else if (ty =? CKA_EXPONENT_1)%Z then priv (r_dP r)
  else if (ty =? CKA_EXPONENT_2)%Z then priv (r_dQ r)
  else if (ty =? CKA_COEFFICIENT)%Z then priv (r_u r)
  else if (ty =? CKA_PUBLIC_EXPONENT)%Z then Ok (get_mpi (r_e r) buf)
  else if (ty =? CKA_MODULUS_BITS)%Z then Ok (get_ulong (Z.of_N (N.size (r_n r))) buf)
  else Ok g_na.

(** GetEcParams: internal.c 5698-5716. *)
Definition GetEcParams (k : eck) (buf : option Z) : res gres :=
  match ec_curve k with
  | None => Undef UB_null_deref
  | Some id =>
      let oid := oe_oid oe id in
      let n := N.of_nat (length oid) in
      let dataLen := (zlen oid + 2)%Z in
      match buf with
      | None => Ok (0%Z, Some dataLen, [])
      | Some m => if (m <? dataLen)%Z then Ok (BUFFER_E, None, [])
                  else Ok (0%Z, Some dataLen,
                           6%N :: (n mod 256)%N :: firstn (N.to_nat (n mod 256)) oid)
      end
  end.

(** GetEcPoint: internal.c 5727-5752. The check leaves out the DER header. *)
Definition GetEcPoint (k : eck) (buf : option Z) : res gres :=
  match ec_curve k with
  | None => Undef UB_null_deref
  | Some id =>
      let dataLen := u32 (oe_ecsize oe id * 2 + 1) in
      let longLen := (128 <=? dataLen)%Z in
      let total := (dataLen + 2 + (if longLen then 1 else 0))%Z in
      match buf with
      | None => Ok (0%Z, Some total, [])
      | Some m =>
          if (m <? dataLen)%Z then Ok (BUFFER_E, None, []) else
          let hdr := 4%N :: (if longLen then [129%N] else []) ++ [Z.to_N (dataLen mod 256)] in
          let '(c, pt) := oe_export oe id (ec_pt k) in
          let w := hdr ++ (if (c =? 0)%Z then pt else []) in
          if (m <? zlen w)%Z then Undef UB_write_overflow else Ok (c, Some total, w)
      end
  end.

(** EcObject_GetAttr: internal.c 5763-5800. *)
Definition EcGetAttr (o : obj) (ty : Z) (buf : option Z) : res gres :=
  k <- as_ec o ;;
  let np := orb (noPriv o) (ec_kind k =? 1)%Z in
  let noPub := (ec_kind k =? 3)%Z in
  if (ty =? CKA_EC_PARAMS)%Z then GetEcParams k buf
  else if (ty =? CKA_VALUE)%Z then Ok (if np then g_unavail else get_mpi (ec_k k) buf)
  else if (ty =? CKA_EC_POINT)%Z then (if noPub then Ok g_unavail else GetEcPoint k buf)
  else Ok g_na.

(** DhObject_GetAttr: internal.c 5817-5854. *)
Definition DhGetAttr (o : obj) (ty : Z) (buf : option Z) : res gres :=
  '(p, g, l, b) <- as_dh o ;;
  if (ty =? CKA_PRIME)%Z then Ok (get_mpi p buf)
  else if (ty =? CKA_BASE)%Z then Ok (get_mpi g buf)
  else if (ty =? CKA_VALUE)%Z then
    (if orb (negb (o_class o =? CKO_PRIVATE_KEY)%Z) (negb (noPriv o)) then get_buf l b buf
     else Ok g_unavail)
  else Ok g_na.

(** SecretObject_GetAttr: internal.c 5866-5893. *)
Definition SecretGetAttr (o : obj) (ty : Z) (buf : option Z) : res gres :=
  '(l, b) <- as_sym o ;;
  if (ty =? CKA_VALUE)%Z then (if noPriv o then Ok g_unavail else get_buf l b buf)
  else if (ty =? CKA_VALUE_LEN)%Z then Ok (get_ulong l buf)
  else Ok g_na.

(** The usage and protection attributes and the flag each reads: 5922-5956, 5983-6008. *)
Definition get_flag_of (ty : Z) : option Z :=
  if (ty =? CKA_PRIVATE)%Z then Some FL_PRIVATE
  else if (ty =? CKA_SENSITIVE)%Z then Some FL_SENSITIVE
  else if (ty =? CKA_EXTRACTABLE)%Z then Some FL_EXTRACTABLE
  else if (ty =? CKA_MODIFIABLE)%Z then Some FL_MODIFIABLE
  else if (ty =? CKA_ALWAYS_SENSITIVE)%Z then Some FL_ALWAYS_SENSITIVE
  else if (ty =? CKA_NEVER_EXTRACTABLE)%Z then Some FL_NEVER_EXTRACTABLE
  else if (ty =? CKA_ALWAYS_AUTHENTICATE)%Z then Some FL_ALWAYS_AUTHENTICATE
  else if (ty =? CKA_WRAP_WITH_TRUSTED)%Z then Some FL_WRAP_WITH_TRUSTED
  else if (ty =? CKA_TRUSTED)%Z then Some FL_TRUSTED
  else if (ty =? CKA_ENCRYPT)%Z then Some CKF_ENCRYPT
  else if (ty =? CKA_DECRYPT)%Z then Some CKF_DECRYPT
  else if (ty =? CKA_VERIFY)%Z then Some CKF_VERIFY
  else if (ty =? CKA_VERIFY_RECOVER)%Z then Some CKF_VERIFY_RECOVER
  else if (ty =? CKA_SIGN)%Z then Some CKF_SIGN
  else if (ty =? CKA_SIGN_RECOVER)%Z then Some CKF_SIGN_RECOVER
  else if (ty =? CKA_WRAP)%Z then Some CKF_WRAP
  else if (ty =? CKA_UNWRAP)%Z then Some CKF_UNWRAP
  else if (ty =? CKA_DERIVE)%Z then Some CKF_DERIVE
  else None.

(** WP11_Object_GetAttr: internal.c 5906-6070. *)
Definition GetAttr (o : obj) (ty : Z) (buf : option Z) : res gres :=
  match get_flag_of ty with
  | Some f => Ok (get_opflag o f buf)
  | None =>
  if (ty =? CKA_CLASS)%Z then Ok (get_ulong (o_class o) buf)
  else if (ty =? CKA_LABEL)%Z then get_sval (o_label o) buf
  else if (ty =? CKA_TOKEN)%Z then Ok (get_bool (o_onTok o) buf)
  else if (ty =? CKA_COPYABLE)%Z then Ok (get_bool false buf)
  else if (ty =? CKA_DESTROYABLE)%Z then Ok (get_bool true buf)
  else if (ty =? CKA_APPLICATION)%Z then Ok g_na
  else if (ty =? CKA_ID)%Z then get_sval (o_keyId o) buf
  else if (ty =? CKA_KEY_TYPE)%Z then Ok (get_ulong (o_type o) buf)
  else if (ty =? CKA_START_DATE)%Z then Ok (get_date (o_start o) buf)
  else if (ty =? CKA_END_DATE)%Z then Ok (get_date (o_end o) buf)
  else if (ty =? CKA_LOCAL)%Z then Ok (get_bool (o_local o) buf)
  else if (ty =? CKA_KEY_GEN_MECHANISM)%Z then Ok (get_ulong (o_kgm o) buf)
  else if (ty =? CKA_ALLOWED_MECHANISMS)%Z then Ok g_na
  else if (ty =? CKA_SUBJECT)%Z then Ok g_na
  else if andb (o_class o =? CKO_CERTIFICATE)%Z (ty =? CKA_VALUE)%Z then
    ('(l, b) <- as_cert o ;; get_buf l b buf)
  else if (o_type o =? CKK_RSA)%Z then RsaGetAttr o ty buf
  else if (o_type o =? CKK_EC)%Z then EcGetAttr o ty buf
  else if (o_type o =? CKK_DH)%Z then DhGetAttr o ty buf
  else if orb (o_type o =? CKK_AES)%Z (o_type o =? CKK_GENERIC_SECRET)%Z then SecretGetAttr o ty buf
  else Ok g_na
  end.

(** The argument GetAttr gets for a template entry. *)
Definition buf_of (v : aval) : option Z :=
  match v with ANull _ => None | _ => Some (v_len v) end.
(** The template entry after the call. *)
Definition put (v : aval) (r : gres) : aval :=
  let '(_, l, w) := r in
  match l with
  | None => v
  | Some n =>
      match v with
      | ANull _ => ANull n
      | AV b | AUnav b => if (n =? UNAVAILABLE)%Z then AUnav b
                          else AV (firstn (Z.to_nat n) (overlay b w))
      end
  end.

(** C_GetAttributeValue after the handle checks: crypto.c 968-996. Result: the
    return value and the template as the caller sees it afterwards. *)
Definition get_rv (c : Z) : Z :=
  if (c =? 0)%Z then CKR_OK
  else if (c =? BAD_FUNC_ARG)%Z then CKR_ATTRIBUTE_TYPE_INVALID
  else if (c =? BUFFER_E)%Z then CKR_BUFFER_TOO_SMALL
  else if (c =? NOT_AVAILABLE_E)%Z then UNAVAILABLE
  else CKR_FUNCTION_FAILED.
Fixpoint get_loop (o : obj) (t : template) : res (Z * template) :=
  match t with
  | [] => Ok (CKR_OK, [])
  | a :: r =>
      g <- GetAttr o (a_type a) (buf_of (a_val a)) ;;
      let a' := mkA (a_type a) (put (a_val a) g) in
      let rv := get_rv (fst (fst g)) in
      if (rv =? CKR_OK)%Z
      then ('(rv', r') <- get_loop o r ;; Ok (rv', a' :: r'))
      else Ok (rv, a' :: r)
  end.
Definition GetAttributeValue (o : obj) (t : template) : res (Z * template) :=
  let c := check_attrs false t in
  if (c =? CKR_OK)%Z then get_loop o t else Ok (c, t).

(** WP11_Object_MatchAttr: internal.c 6411-6437. A size no allocation can satisfy
    matches nothing. *)
Definition MatchAttr (o : obj) (a : attr) : res bool :=
  let n := a_len a in
  if (2^63 <=? n)%Z then Ok false else
  '(c, l, w) <- GetAttr o (a_type a) (Some n) ;;
  let attrLen := match l with Some x => x | None => n end in
  if andb (c =? 0)%Z (attrLen =? n)%Z then
    match a_val a with
    | AV b => Ok (if list_eq_dec N.eq_dec w b then true else false)
    | _ => if (n =? 0)%Z then Ok true else Undef UB_null_deref
    end
  else Ok false.

(** ** Setting attributes *)
(** WP11_Object_SetOpFlag, WP11_Object_SetFlag: internal.c 6083-6089, 6154-6160. *)
Definition put_flag (fl f : Z) (set : bool) : Z := if set then Z.lor fl f else Z.ldiff fl f.

(** WP11_Object_SetKeyId, WP11_Object_SetLabel: internal.c 6100-6146. *)
Definition new_sval (old : sval) (v : aval) : res (Z * sval) :=
  match v with
  | AV b => Ok (0%Z, SV b)
  | _ => let n := i32 (v_len v) in
         if (n <? 0)%Z then Ok (MEMORY_E, SNull (s_len old))
         else if (n =? 0)%Z then Ok (0%Z, SV []) else Undef UB_null_deref
  end.

(** *(CK_BBOOL* )data, *(CK_ULONG* )data; the value has passed CheckAttributes. *)
Definition v_bytes (v : aval) : list N := match v with AV b => b | AUnav b => b | ANull _ => [] end.
Definition v_bool (v : aval) : bool := bool_of (v_bytes v).

(** The usage attributes and the flag each sets in opFlag: 6231-6258. *)
Definition set_opflag_of (ty : Z) : option Z :=
  if (ty =? CKA_DECRYPT)%Z then Some CKF_DECRYPT
  else if (ty =? CKA_ENCRYPT)%Z then Some CKF_ENCRYPT
  else if (ty =? CKA_SIGN)%Z then Some CKF_SIGN
  else if (ty =? CKA_VERIFY)%Z then Some CKF_VERIFY
  else if (ty =? CKA_SIGN_RECOVER)%Z then Some CKF_SIGN_RECOVER
  else if (ty =? CKA_VERIFY_RECOVER)%Z then Some CKF_VERIFY_RECOVER
  else if (ty =? CKA_WRAP)%Z then Some CKF_WRAP
  else if (ty =? CKA_UNWRAP)%Z then Some CKF_WRAP
  else if (ty =? CKA_DERIVE)%Z then Some CKF_DERIVE
  else None.
(** The protection attributes and the flag each sets in flag: 6265-6298. *)
Definition set_flag_of (ty : Z) : option Z :=
  if (ty =? CKA_PRIVATE)%Z then Some FL_PRIVATE
  else if (ty =? CKA_SENSITIVE)%Z then Some FL_SENSITIVE
  else if (ty =? CKA_EXTRACTABLE)%Z then Some FL_EXTRACTABLE
  else if (ty =? CKA_MODIFIABLE)%Z then Some FL_MODIFIABLE
  else if (ty =? CKA_ALWAYS_SENSITIVE)%Z then Some FL_ALWAYS_SENSITIVE
  else if (ty =? CKA_NEVER_EXTRACTABLE)%Z then Some FL_NEVER_EXTRACTABLE
  else if (ty =? CKA_ALWAYS_AUTHENTICATE)%Z then Some FL_ALWAYS_AUTHENTICATE
  else if (ty =? CKA_WRAP_WITH_TRUSTED)%Z then Some FL_WRAP_WITH_TRUSTED
  else if (ty =? CKA_TRUSTED)%Z then Some FL_TRUSTED
  else None.
Definition mem (x : Z) (l : list Z) : bool := existsb (fun y => (x =? y)%Z) l.
(** Attributes accepted without effect on certificates: 6376-6392. *)
Definition certOnly : list Z :=
  [CKA_SUBJECT; CKA_ISSUER; CKA_SERIAL_NUMBER; CKA_AC_ISSUER; CKA_ATTR_TYPES;
   CKA_CERTIFICATE_CATEGORY; CKA_JAVA_MIDP_SECURITY_DOMAIN; CKA_URL;
   CKA_HASH_OF_SUBJECT_PUBLIC_KEY; CKA_HASH_OF_ISSUER_PUBLIC_KEY; CKA_NAME_HASH_ALGORITHM;
   CKA_CHECK_VALUE].

(** WP11_Object_SetAttr: internal.c 6217-6395. *)
Definition SetAttr (o : obj) (a : attr) : res (Z * obj) :=
  let ty := a_type a in
  let v := a_val a in
  let when (b : bool) := Ok (if b then 0%Z else BAD_FUNC_ARG, o) in
  match set_opflag_of ty with
  | Some f => Ok (0%Z, set_opFlag o (put_flag (o_opFlag o) f (v_bool v)))
  | None =>
  match set_flag_of ty with
  | Some f => Ok (0%Z, set_flag o (put_flag (o_flag o) f (v_bool v)))
  | None =>
  if (ty =? CKA_CLASS)%Z then Ok (0%Z, set_class o (ulong_of (v_bytes v)))
  else if (ty =? CKA_ID)%Z then ('(c, s) <- new_sval (o_keyId o) v ;; Ok (c, set_keyId o s))
  else if (ty =? CKA_LABEL)%Z then ('(c, s) <- new_sval (o_label o) v ;; Ok (c, set_label o s))
  else if (ty =? CKA_START_DATE)%Z then
    (if (v_len v =? 8)%Z then Ok (0%Z, set_start o (v_bytes v)) else Ok (BUFFER_E, o))
  else if (ty =? CKA_END_DATE)%Z then
    (if (v_len v =? 8)%Z then Ok (0%Z, set_end o (v_bytes v)) else Ok (BUFFER_E, o))
  else if mem ty rsaParams then when (o_type o =? CKK_RSA)%Z
  else if mem ty [CKA_EC_PARAMS; CKA_EC_POINT] then when (o_type o =? CKK_EC)%Z
  else if mem ty [CKA_PRIME; CKA_BASE] then when (o_type o =? CKK_DH)%Z
  else if (ty =? CKA_VALUE_LEN)%Z then when (mem (o_type o) [CKK_DH; CKK_AES; CKK_GENERIC_SECRET])
  else if (ty =? CKA_VALUE)%Z then
    when (orb (o_class o =? CKO_CERTIFICATE)%Z
              (mem (o_type o) [CKK_EC; CKK_DH; CKK_AES; CKK_GENERIC_SECRET]))
  else if mem ty [CKA_KEY_TYPE; CKA_TOKEN; CKA_CERTIFICATE_TYPE] then Ok (0%Z, o)
  else if mem ty certOnly then when (o_class o =? CKO_CERTIFICATE)%Z
  else when false
  end
  end.

(** crypto.c 427-440. *)
Definition set_rv (c : Z) : Z :=
  if (c =? 0)%Z then CKR_OK
  else if (c =? BAD_FUNC_ARG)%Z then CKR_ATTRIBUTE_VALUE_INVALID
  else if (c =? BUFFER_E)%Z then CKR_BUFFER_TOO_SMALL
  else CKR_FUNCTION_FAILED.
Fixpoint set_loop (o : obj) (t : template) : res (Z * obj) :=
  match t with
  | [] => Ok (CKR_OK, o)
  | a :: r => '(c, o') <- SetAttr o a ;;
              if (set_rv c =? CKR_OK)%Z then set_loop o' r else Ok (set_rv c, o')
  end.

(** crypto.c 377-389: the first template entry of each parameter; [None] when its
    pValue is NULL. *)
Definition find_first (t : template) (ty : Z) : option attr :=
  find (fun a => a_type a =? ty)%Z t.
Fixpoint param_vals (t : template) (ps : list Z) : option (list (option (list N))) :=
  match ps with
  | [] => Some []
  | p :: r =>
      match find_first t p with
      | Some (mkA _ (ANull _)) => None
      | Some a => match param_vals t r with Some l => Some (Some (v_bytes (a_val a)) :: l) | None => None end
      | None => match param_vals t r with Some l => Some (None :: l) | None => None end
      end
  end.
(** crypto.c 337-374 *)
Definition params_of (o : obj) : option (list Z) :=
  if (o_class o =? CKO_CERTIFICATE)%Z then Some certParams
  else if (o_type o =? CKK_RSA)%Z then Some rsaParams
  else if (o_type o =? CKK_EC)%Z then Some ecParams
  else if (o_type o =? CKK_DH)%Z then Some dhParams
  else if orb (o_type o =? CKK_AES)%Z (o_type o =? CKK_GENERIC_SECRET)%Z then Some secretParams
  else None.
(** crypto.c 391-424 *)
Definition SetKey (o : obj) (v : list (option (list N))) : res (Z * obj) :=
  if (o_class o =? CKO_CERTIFICATE)%Z then Ok (SetCert o v)
  else if (o_type o =? CKK_RSA)%Z then Ok (SetRsaKey o v)
  else if (o_type o =? CKK_EC)%Z then SetEcKey o v
  else if (o_type o =? CKK_DH)%Z then SetDhKey o v
  else SetSecretKey o v.

(** SetAttributeValue: crypto.c 315-442. [rw]: WP11_Session_IsRW. *)
Definition SetAttributeValue (rw : bool) (o : obj) (t : template) : res (Z * obj) :=
  if negb rw then Ok (CKR_SESSION_READ_ONLY, o) else
  let c := check_attrs true t in
  if negb (c =? CKR_OK)%Z then Ok (c, o) else
  match params_of o with
  | None => Ok (CKR_OBJECT_HANDLE_INVALID, o)
  | Some ps =>
      match param_vals t ps with
      | None => Ok (CKR_ATTRIBUTE_VALUE_INVALID, o)
      | Some v =>
          '(c, o1) <- SetKey o v ;;
          if (c =? MEMORY_E)%Z then Ok (CKR_DEVICE_MEMORY, o1)
          else if negb (c =? 0)%Z then Ok (CKR_FUNCTION_FAILED, o1)
          else set_loop o1 t
      end
  end.

(** NewObject: crypto.c 457-486. The object is freed on failure. *)
Definition NewObject (rw : bool) (uid : nat) (ty cls : Z) (t : template) : res (Z * option obj) :=
  '(rv, o) <- SetAttributeValue rw (set_class (obj_new uid ty) cls) t ;;
  Ok (rv, if (rv =? CKR_OK)%Z then Some o else None).

(** A ULONG in the template: the value, or the error of crypto.c 672-700. *)
Definition tmpl_ulong (a : attr) : option Z :=
  match a_val a with
  | AV b => if (zlen b =? 8)%Z then Some (ulong_of b) else None
  | _ => None
  end.

(** CreateObject: crypto.c 664-718. *)
Definition CreateObject (rw : bool) (uid : nat) (t : template) : res (Z * option obj) :=
  let body (cls : Z) :=
    let '(ty, good) := if (cls =? CKO_CERTIFICATE)%Z then (CKA_CERTIFICATE_TYPE, [0; 1; 2]%Z)
      else (CKA_KEY_TYPE, [CKK_RSA; CKK_EC; CKK_DH; CKK_AES; CKK_GENERIC_SECRET]) in
    match find_last t ty with
    | None => Ok (CKR_TEMPLATE_INCOMPLETE, None)
    | Some a => match tmpl_ulong a with
                | None => Ok (CKR_ATTRIBUTE_VALUE_INVALID, None)
                | Some k => if mem k good then NewObject rw uid k cls t
                            else Ok (CKR_ATTRIBUTE_VALUE_INVALID, None)
                end
    end in
  match find_last t CKA_CLASS with
  | None => body UNAVAILABLE
  | Some a => match tmpl_ulong a with
              | None => Ok (CKR_ATTRIBUTE_VALUE_INVALID, None)
              | Some cls => body cls
              end
  end.

(** CKA_TOKEN of a template: AddObject crypto.c 506-513, C_CopyObject 812-819.
    [Some n]: the byte value (0 without the attribute); [None]: refused. *)
Definition tmpl_token (t : template) : option N :=
  match find_last t CKA_TOKEN with
  | None => Some 0%N
  | Some a => match a_val a with AV [b] => Some b | _ => None end
  end.

(** C_CopyObject, up to adding the object: crypto.c 805-838. The new object starts
    with class 0; the template is overwritten with the source's values and then
    applied. Result: return value, the caller's template, the CKA_TOKEN byte and
    the new object. *)
Definition CopyObject (rw : bool) (uid : nat) (src : obj) (t : template)
  : res (Z * template * option (N * obj)) :=
  match tmpl_token t with
  | None => Ok (CKR_ATTRIBUTE_VALUE_INVALID, t, None)
  | Some tok =>
      '(rv, t') <- GetAttributeValue src t ;;
      if negb (rv =? CKR_OK)%Z then Ok (rv, t', None) else
      '(rv2, o) <- SetAttributeValue rw (obj_new uid (o_type src)) t' ;;
      Ok (rv2, t', if (rv2 =? CKR_OK)%Z then Some (tok, o) else None)
  end.
End WithEnv.
