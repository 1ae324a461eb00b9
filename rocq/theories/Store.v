(** Token and object storage: internal.c 1454-3245.

    Files are byte strings named by kind and object id (there is one slot, so the
    token id is fixed). A store function yields the list of file operations it
    performs, in order; [apply] executes them. Opening for writing truncates
    (Store_Open, fopen "w") and is assumed to succeed; every write is flushed.
    A file header is one write operation here, several in the code: crash points
    are taken at byte granularity, so nothing is lost. Memory allocation succeeds
    (negative sizes fail). The DER codecs, AES-GCM and the PIN hash are oracles
    collected in [senv]; a size query returns the length of the encoding. *)
From Verif Require Import Base Codec Ops Object.

Record senv := mkSE {
  se_hash : list N -> list N -> list N;              (* HashPIN pin seed: 32 bytes; internal.c 3744-3768 *)
  se_enc : list N -> list N -> list N -> list N;     (* wp11_EncryptData key iv plain: ct ++ tag *)
  se_dec : list N -> list N -> list N -> Z * list N; (* wp11_DecryptData key iv (ct ++ tag) *)
  se_rsa_priv : rsak -> Z * list N;                  (* wc_RsaKeyToDer *)
  se_rsa_pub : rsak -> Z * list N;                   (* wc_RsaKeyToPublicDer *)
  se_rsa_priv_dec : list N -> Z * rsak;              (* wc_RsaPrivateKeyDecode *)
  se_rsa_pub_dec : list N -> rsak -> Z * rsak;       (* wc_RsaPublicKeyDecode *)
  se_ec_priv : eck -> Z * list N;                    (* wc_EccPrivateKeyToDer *)
  se_ec_pub : eck -> Z * list N;                     (* wc_EccPublicKeyToDer *)
  se_ec_priv_dec : list N -> Z * eck;                (* wc_EccPrivateKeyDecode *)
  se_ec_pub_dec : list N -> eck -> Z * eck;          (* wc_EccPublicKeyDecode *)
  se_dh_der : N -> N -> Z * list N;                  (* wc_DhParamsToDer *)
  se_dh_dec : list N -> Z * (N * N)                  (* wc_DhKeyDecode *)
}.

(** ** Token: internal.c 305-330 *)
(** One role's PIN state (soPin.../userPin... fields). *)
Record pin := mkPin {
  p_hash : list N;      (* soPin/userPin, PIN_HASH_SZ = 32 bytes *)
  p_len : Z;            (* soPinLen/userPinLen *)
  p_seed : list N;      (* 16 bytes *)
  p_fail : Z;           (* soFailedLogin/userFailedLogin *)
  p_last : Z;           (* ...LastFailedLogin *)
  p_tmo : Z             (* ...FailLoginTimeout *)
}.
Definition pin0 : pin := mkPin (zeros 32) 0 (zeros 16) 0 0 0.

Record token := mkTok {
  t_label : list N;     (* 32 bytes *)
  t_init : bool;        (* state = WP11_TOKEN_STATE_INITIALIZED *)
  t_so : pin; t_user : pin;
  t_seed : list N;      (* 16 bytes *)
  t_key : list N;       (* 32 bytes *)
  t_login : Z;          (* loginState *)
  t_objs : list obj     (* head first; objCnt is its length *)
}.

(** CKS_* session states: pkcs11.h *)
Definition RO_PUBLIC : Z := 0.
Definition RO_USER : Z := 1.
Definition RW_PUBLIC : Z := 2.
Definition RW_USER : Z := 3.
Definition RW_SO : Z := 4.

(** wp11_Token_Init on a zeroed token: internal.c 2978-2994. *)
Definition tok_init (label : list N) : token :=
  mkTok label true pin0 pin0 (zeros 16) (zeros 32) RW_PUBLIC [].
(** The token after wp11_Slot_Init: internal.c 3371-3402 (state UNKNOWN). *)
Definition tok_fresh : token := 
  mkTok (zeros 32) false pin0 pin0 (zeros 16) (zeros 32) RW_PUBLIC [].

Definition set_objs (t : token) (l : list obj) : token :=
  mkTok (t_label t) (t_init t) (t_so t) (t_user t) (t_seed t) (t_key t) (t_login t) l.
Definition set_login (t : token) (s : Z) : token :=
  mkTok (t_label t) (t_init t) (t_so t) (t_user t) (t_seed t) (t_key t) s (t_objs t).
Definition set_so (t : token) (p : pin) : token :=
  mkTok (t_label t) (t_init t) p (t_user t) (t_seed t) (t_key t) (t_login t) (t_objs t).
Definition set_user (t : token) (p : pin) : token :=
  mkTok (t_label t) (t_init t) (t_so t) p (t_seed t) (t_key t) (t_login t) (t_objs t).
Definition set_key (t : token) (k : list N) : token :=
  mkTok (t_label t) (t_init t) (t_so t) (t_user t) (t_seed t) k (t_login t) (t_objs t).
Definition set_seed (t : token) (s : list N) : token :=
  mkTok (t_label t) (t_init t) (t_so t) (t_user t) s (t_key t) (t_login t) (t_objs t).

(** ** Files *)
Inductive fkind := F_TOKEN | F_OBJECT | F_SYMMKEY | F_RSA_PRIV | F_RSA_PUB | F_ECC_PRIV | F_ECC_PUB
  | F_DH_PRIV | F_DH_PUB | F_CERT.
Definition fkind_eqb (a b : fkind) : bool :=
  match a, b with
  | F_TOKEN, F_TOKEN | F_OBJECT, F_OBJECT | F_SYMMKEY, F_SYMMKEY | F_RSA_PRIV, F_RSA_PRIV
  | F_RSA_PUB, F_RSA_PUB | F_ECC_PRIV, F_ECC_PRIV | F_ECC_PUB, F_ECC_PUB | F_DH_PRIV, F_DH_PRIV
  | F_DH_PUB, F_DH_PUB | F_CERT, F_CERT => true
  | _, _ => false
  end.
(** The name of a file: kind and object id (0 for the token): internal.c 790-845. *)
Definition fname := (fkind * nat)%type.
Definition fname_eqb (a b : fname) : bool := andb (fkind_eqb (fst a) (fst b)) (snd a =? snd b)%nat.
Definition fs := fname -> option (list N).
Definition fs_set (d : fs) (f : fname) (v : list N) : fs :=
  fun g => if fname_eqb g f then Some v else d g.

(** One storage call: open for writing, or append. *)
Inductive wop := WOpen (f : fname) | WWrite (f : fname) (b : list N).
Definition apply1 (d : fs) (w : wop) : fs :=
  match w with
  | WOpen f => fs_set d f []
  | WWrite f b => fs_set d f (match d f with Some c => c | None => [] end ++ b)
  end.
Definition apply (d : fs) (l : list wop) : fs := fold_left apply1 l d.

(** Everything that can be on disk when the process stops while performing
    [l]: a number of complete operations and a prefix of one write. *)
Inductive crash (d : fs) : list wop -> fs -> Prop :=
  | crash_now l : crash d l d
  | crash_mid f b k l : crash d (WWrite f b :: l) (apply1 d (WWrite f (firstn k b)))
  | crash_step w l d' : crash (apply1 d w) l d' -> crash d (w :: l) d'.

Section WithEnv.
Variable se : senv.

Definition is_sym (o : obj) : bool := orb (o_type o =? CKK_AES)%Z (o_type o =? CKK_GENERIC_SECRET)%Z.
Definition is_cert (o : obj) : bool := (o_class o =? CKO_CERTIFICATE)%Z.
Definition is_priv (o : obj) : bool := (o_class o =? CKO_PRIVATE_KEY)%Z.

(** The file holding the key data of an object: internal.c 1887-1893, 2081-2087,
    2389-2395, 2541, 1609 and (Unstore) 2930-2966. *)
Definition key_kind (o : obj) : option fkind :=
  if is_cert o then Some F_CERT
  else if (o_type o =? CKK_RSA)%Z then Some (if is_priv o then F_RSA_PRIV else F_RSA_PUB)
  else if (o_type o =? CKK_EC)%Z then Some (if is_priv o then F_ECC_PRIV else F_ECC_PUB)
  else if (o_type o =? CKK_DH)%Z then Some (if is_priv o then F_DH_PRIV else F_DH_PUB)
  else if is_sym o then Some F_SYMMKEY
  else None.

(** The first [len] bytes of a 512-byte key buffer. *)
Definition take_buf (l : Z) (b : list N) : res (list N) :=
  if orb (l <? 0)%Z (orb (Z.of_nat SYM_BUF <? l)%Z (zlen b <? l)%Z) then Undef UB_read_overflow else Ok (firstn (Z.to_nat l) b).

(** ** Encoding: wp11_Object_Encode_RsaKey 1678-1735, EccKey 1972-2029, DhKey
    2149-2179, SymmKey 2471-2494. [key] is token.key. An object whose class is
    neither private nor public gets an uninitialised buffer. *)
Definition enc_asym (key : list N) (o : obj) (priv pub : Z * list N) : res (Z * obj) :=
  let '(c, der) := if is_priv o then priv else pub in
  if (c <? 0)%Z then Ok (c, set_store o (o_iv o) None (o_enc o))
  else if is_priv o then Ok (0%Z, set_store o (o_iv o) (Some (se_enc se key (o_iv o) der)) (o_enc o))
  else if (o_class o =? CKO_PUBLIC_KEY)%Z then Ok (0%Z, set_store o (o_iv o) (Some der) (o_enc o))
  else Undef UB_read_overflow.
Definition EncodeKey (key : list N) (o : obj) : res (Z * obj) :=
  if (o_type o =? CKK_RSA)%Z then
    r <- as_rsa o ;; enc_asym key o (se_rsa_priv se r) (se_rsa_pub se r)
  else if (o_type o =? CKK_EC)%Z then
    e <- as_ec o ;; enc_asym key o (se_ec_priv se e) (se_ec_pub se e)
  else if (o_type o =? CKK_DH)%Z then
    '(_, _, l, b) <- as_dh o ;; d <- take_buf l b ;;
    Ok (0%Z, set_store o (o_iv o) (Some (if is_priv o then se_enc se key (o_iv o) d else d)) (o_enc o))
  else if is_sym o then
    '(l, b) <- as_sym o ;; d <- take_buf l b ;;
    Ok (0%Z, set_store o (o_iv o) (Some (se_enc se key (o_iv o) d)) (o_enc o))
  else Ok (NOT_AVAILABLE_E, o).

(** Clearing of the key when protecting: internal.c 2869-2904. *)
Definition protect_key (o : obj) : obj :=
  if (o_type o =? CKK_RSA)%Z then
    if is_priv o then set_store (set_data o (KRsa rsa0)) (o_iv o) (o_keyData o) true else o
  else if (o_type o =? CKK_EC)%Z then
    if is_priv o then set_store (set_data o (KEc ec0)) (o_iv o) (o_keyData o) true else o
  else if (o_type o =? CKK_DH)%Z then
    if is_priv o then
      let d := match o_data o with
               | KDh p g l b => KDh p g l (overlay b (zeros (Z.to_nat l)))
               | x => x end in
      set_store (set_data o d) (o_iv o) (o_keyData o) true
    else o
  else if is_sym o then
    let d := match o_data o with
             | KSym l b => KSym l (overlay b (zeros (Z.to_nat l)))
             | x => x end in
    set_store (set_data o d) (o_iv o) (o_keyData o) true
  else o.
(** wp11_Object_Encode: internal.c 2857-2909. *)
Definition Encode (key : list N) (protect : bool) (o : obj) : res (Z * obj) :=
  if is_cert o then Ok (0%Z, o) else
  '(c, o1) <- EncodeKey key o ;;
  Ok (c, if andb protect (c =? 0)%Z then protect_key o1 else o1).

(** ** Decoding: wp11_Object_Decode_RsaKey 1632-1667, EccKey 1923-1961, DhKey
    2118-2138, SymmKey 2448-2462. A failing decode leaves the key as it was (the
    partially written key is not modelled; the object is marked encoded). *)
Definition fin (o : obj) (c : Z) (d : kdata) : Z * obj :=
  if (c =? 0)%Z then (0%Z, set_store (set_data o d) (o_iv o) (o_keyData o) false)
  else (c, set_store o (o_iv o) (o_keyData o) true).
Definition kd_bytes (o : obj) : list N := match o_keyData o with Some b => b | None => [] end.
(** Decrypt keyData; the data has keyDataLen - 16 bytes. *)
Definition dec_kd (key : list N) (o : obj) : Z * list N := se_dec se key (o_iv o) (kd_bytes o).
(** Decryption straight into the 512-byte buffer. *)
Definition dec_into (key : list N) (o : obj) : res (Z * list N) :=
  match o_keyData o with
  | None => Undef UB_null_deref
  | Some kd => if (zlen kd <? 16)%Z then Undef UB_read_overflow
               else if (Z.of_nat SYM_BUF <? zlen kd - 16)%Z then Undef UB_write_overflow
               else Ok (dec_kd key o)
  end.
Definition DecodeKey (key : list N) (o : obj) : res (Z * obj) :=
  if (o_type o =? CKK_RSA)%Z then
    r <- as_rsa o ;;
    Ok (if is_priv o then
          if (zlen (kd_bytes o) <? 16)%Z then fin o MEMORY_E KZero else
          let '(c, der) := dec_kd key o in
          if negb (c =? 0)%Z then fin o c KZero else
          let '(c2, r') := se_rsa_priv_dec se der in fin o c2 (KRsa r')
        else let '(c, r') := se_rsa_pub_dec se (kd_bytes o) r in fin o c (KRsa r'))
  else if (o_type o =? CKK_EC)%Z then
    e <- as_ec o ;;
    Ok (if is_priv o then
          if (zlen (kd_bytes o) <? 16)%Z then fin o MEMORY_E KZero else
          let '(c, der) := dec_kd key o in
          if negb (c =? 0)%Z then fin o c KZero else
          let '(c2, e') := se_ec_priv_dec se der in fin o c2 (KEc e')
        else let '(c, e') := se_ec_pub_dec se (kd_bytes o) e in fin o c (KEc e'))
  else if (o_type o =? CKK_DH)%Z then
    '(p, g, l, b) <- as_dh o ;;
    if is_priv o then
      '(c, d) <- dec_into key o ;; Ok (fin o c (KDh p g (zlen d) (overlay b d)))
    else if (Z.of_nat DH_BUF <? zlen (kd_bytes o))%Z then Undef UB_write_overflow
    else Ok (fin o 0 (KDh p g (zlen (kd_bytes o)) (overlay b (kd_bytes o))))
  else if is_sym o then
    '(l, b) <- as_sym o ;;
    '(c, d) <- dec_into key o ;; Ok (fin o c (KSym (zlen d) (overlay b d)))
  else Ok (NOT_AVAILABLE_E, o).
(** wp11_Object_Decode: internal.c 2806-2847. *)
Definition Decode (key : list N) (o : obj) : res (Z * obj) :=
  if is_cert o then Ok (0%Z, set_store o (o_iv o) (o_keyData o) false) else
  '(c, o') <- DecodeKey key o ;;
  Ok (if (c =? AES_GCM_AUTH_E)%Z then 0%Z else c, o').

(** ** Storing *)
Definition s_bytes (s : sval) : list N := match s with SV b => b | SNull _ => [] end.
Definition b2n (b : bool) : N := if b then 1%N else 0%N.

(** The object file: wp11_Object_Store, internal.c 2694-2748. *)
Definition obj_header (o : obj) : res (list N) :=
  iv <- w_fixed (o_iv o) 12 ;;
  sd <- w_fixed (o_start o) 8 ;;
  ed <- w_fixed (o_end o) 8 ;;
  ki <- w_array (s_bytes (o_keyId o)) (s_len (o_keyId o)) ;;
  la <- w_array (s_bytes (o_label o)) (s_len (o_label o)) ;;
  Ok (iv ++ w_ulong (o_handle o) ++ w_ulong (o_class o) ++ w_ulong (o_kgm o)
      ++ w_bool (b2n (o_onTok o)) ++ w_bool (b2n (o_local o))
      ++ w_word32 (o_flag o) ++ w_word32 (o_opFlag o) ++ sd ++ ed ++ ki ++ la).

(** Result of a store function: code, the object as it is left, the operations. *)
Definition sres := (Z * obj * list wop)%type.

(** wp11_Object_Store_RsaKey 1883-1910, EccKey 2077-2105, SymmKey 2534-2556:
    write keyData, encoding it first if there is none. *)
Definition store_kd (key : list N) (f : fname) (o : obj) : res sres :=
  '(c, o1) <- match o_keyData o with None => EncodeKey key o | Some _ => Ok (0%Z, o) end ;;
  if negb (c =? 0)%Z then Ok (c, o1, [WOpen f]) else
  d <- w_array (kd_bytes o1) (zlen (kd_bytes o1)) ;;
  Ok (0%Z, o1, [WOpen f; WWrite f d]).
(** Cert 1599-1620, DhKey 2382-2438 and the dispatch 2759-2791. *)
Definition store_key (key : list N) (id : nat) (o : obj) : res sres :=
  if is_cert o then
    '(l, b) <- as_cert o ;;
    if (l <=? 0)%Z then Ok (BAD_FUNC_ARG, o, []) else
    d <- w_array b l ;; Ok (0%Z, o, [WOpen (F_CERT, id); WWrite (F_CERT, id) d])
  else match key_kind o with
  | None => Ok (NOT_AVAILABLE_E, o, [])
  | Some k =>
      if (o_type o =? CKK_DH)%Z then
        '(c, o1, ws) <- store_kd key (k, id) o ;;
        if negb (c =? 0)%Z then Ok (c, o1, ws) else
        '(p, g, _, _) <- as_dh o1 ;;
        let '(c2, der) := se_dh_der se p g in
        if (c2 <? 0)%Z then Ok (c2, o1, ws) else
        d <- w_array der (zlen der) ;;
        Ok (0%Z, o1, ws ++ [WWrite (k, id) d])
      else store_kd key (k, id) o
  end.
(** [n] bytes of a stream of RNG output (a finite list stands for the stream that
    goes on with zeros). *)
Definition rbytes (n : nat) (l : list N) : list N := firstn n (l ++ zeros n).
(** wp11_Object_Store: internal.c 2689-2794. [rnd] is the RNG output, used as a
    new IV when there is no keyData. *)
Definition store_obj (key rnd : list N) (id : nat) (o : obj) : res sres :=
  h <- obj_header o ;;
  let o1 := match o_keyData o with
            | None => if orb (is_priv o) (is_sym o) then set_store o (rbytes 12 rnd) None (o_enc o) else o
            | Some _ => o end in
  '(c, o2, ws) <- store_key key id o1 ;;
  Ok (c, o2, [WOpen (F_OBJECT, id); WWrite (F_OBJECT, id) h] ++ ws).

(** The token file: wp11_Token_Store, internal.c 3157-3245. *)
Definition pin_bytes (p : pin) : res (list N) :=
  h <- w_array (p_hash p) (p_len p) ;;
  s <- w_fixed (p_seed p) 16 ;;
  Ok (h ++ s ++ w_int (p_fail p) ++ w_time (p_last p) ++ w_time (p_tmo p)).
Definition tok_header (t : token) : res (list N) :=
  la <- w_fixed (t_label t) 32 ;;
  so <- pin_bytes (t_so t) ;;
  us <- pin_bytes (t_user t) ;;
  sd <- w_fixed (t_seed t) 16 ;;
  Ok (la ++ so ++ us ++ sd ++ w_int (zlen (t_objs t)) ++ flat_map (fun o => w_ulong (o_type o)) (t_objs t)).
(** Objects head first; the head has the highest id; stop at the first error. *)
Fixpoint store_objs (key : list N) (rnd : nat -> list N) (l : list obj) : res (Z * list obj * list wop) :=
  match l with
  | [] => Ok (0%Z, [], [])
  | o :: r =>
      '(c, o1, ws) <- store_obj key (rnd (length r)) (length r) o ;;
      if negb (c =? 0)%Z then Ok (c, o1 :: r, ws) else
      '(c2, r1, ws2) <- store_objs key rnd r ;;
      Ok (c2, o1 :: r1, ws ++ ws2)
  end.
Definition Token_Store (rnd : nat -> list N) (t : token) : res (Z * token * list wop) :=
  h <- tok_header t ;;
  '(c, l, ws) <- store_objs (t_key t) rnd (t_objs t) ;;
  Ok (c, set_objs t l, [WOpen (F_TOKEN, 0); WWrite (F_TOKEN, 0) h] ++ ws).

(** wp11_Object_Unstore: internal.c 2920-2970. An object of no storable kind makes
    the second open fail and the first file be closed twice: see RemoveObject. *)
Definition Unstore (id : nat) (o : obj) : list wop :=
  WOpen (F_OBJECT, id) :: match key_kind o with Some k => [WOpen (k, id)] | None => [] end.

(** ** Loading *)
(** wp11_Object_Load: internal.c 2569-2643 (the object file). *)
Definition read_obj_file (uid : nat) (ty : Z) (f : list N) : res (obj * list N) :=
  '(iv, f) <- r_fixed 12 f ;;
  '(h, f) <- r_ulong f ;;
  '(cl, f) <- r_ulong f ;;
  '(kg, f) <- r_ulong f ;;
  '(ot, f) <- r_bool f ;;
  '(lo, f) <- r_bool f ;;
  '(fl, f) <- r_word32 f ;;
  '(op, f) <- r_word32 f ;;
  '(sd, f) <- r_fixed 8 f ;;
  '(ed, f) <- r_fixed 8 f ;;
  '(ki, f) <- r_alloc f ;;
  '(la, f) <- r_alloc f ;;
  Ok (mkObj uid ty cl h 0 kg (negb (ot =? 0)%N) (negb (lo =? 0)%N) fl op sd ed (SV ki) (SV la) KZero iv None false, f).
Definition open_read (d : fs) (f : fname) : res (list N) :=
  match d f with Some b => Ok b | None => Err NOT_AVAILABLE_E end.
(** The key file: Load_Cert 1571-1586, RsaKey 1848-1870, EccKey 2042-2064, DhKey
    2192-2229, SymmKey 2506-2522; dispatch 2644-2673. *)
Definition read_key_file (o : obj) (f : list N) : res (obj * list N) :=
  '(kd, f1) <- r_alloc f ;;
  let o1 := set_store o (o_iv o) (Some kd) (o_enc o) in
  if andb (negb (is_cert o)) (o_type o =? CKK_DH)%Z then
    '(der, f2) <- r_alloc f1 ;;
    let '(c, (p, g)) := se_dh_dec se der in
    if negb (c =? 0)%Z then Err c else Ok (set_data o1 (KDh p g 0 (zeros DH_BUF)), f2)
  else Ok (o1, f1).
Definition load_obj (d : fs) (uid : nat) (ty : Z) (id : nat) : res obj :=
  f <- open_read d (F_OBJECT, id) ;;
  '(o, _) <- read_obj_file uid ty f ;;
  match key_kind o with
  | None => Err NOT_AVAILABLE_E
  | Some k => kf <- open_read d (k, id) ;; '(o', _) <- read_key_file o kf ;; Ok o'
  end.
(** The token file: wp11_Token_Load, internal.c 3038-3118. *)
Definition read_pin (f : list N) : res (pin * list N) :=
  '(h, f) <- r_array 32 f ;;
  '(s, f) <- r_fixed 16 f ;;
  '(n, f) <- r_int f ;;
  '(la, f) <- r_time f ;;
  '(tm, f) <- r_time f ;;
  Ok (mkPin (overlay (zeros 32) h) (zlen h) s n la tm, f).
Fixpoint read_types (n : nat) (f : list N) : res (list Z * list N) :=
  match n with
  | O => Ok ([], f)
  | S m => '(ty, f) <- r_ulong f ;; '(l, f) <- read_types m f ;; Ok (ty :: l, f)
  end.
Record tfile := mkTF { tf_label : list N; tf_so : pin; tf_user : pin; tf_seed : list N; tf_types : list Z }.
Definition read_tok_file (f : list N) : res (tfile * list N) :=
  '(la, f) <- r_fixed 32 f ;;
  '(so, f) <- read_pin f ;;
  '(us, f) <- read_pin f ;;
  '(sd, f) <- r_fixed 16 f ;;
  '(n, f) <- r_int f ;;
  '(tys, f) <- read_types (Z.to_nat n) f ;;
  Ok (mkTF la so us sd tys, f).
(** Objects head first: ids objCnt-1 down to 0 (3121-3126). *)
Fixpoint load_objs (d : fs) (uid : nat) (tys : list Z) : res (list obj) :=
  match tys with
  | [] => Ok []
  | ty :: r => o <- load_obj d uid ty (length r) ;; l <- load_objs d (S uid) r ;; Ok (o :: l)
  end.
Definition load_all (d : fs) (uid : nat) (f : list N) : res token :=
  '(tf, _) <- read_tok_file f ;;
  l <- load_objs d uid (tf_types tf) ;;
  Ok (mkTok (tf_label tf) true (tf_so tf) (tf_user tf) (tf_seed tf) (zeros 32) RW_PUBLIC l).
(** wp11_Token_Load: internal.c 3028-3145: 0 in every case. A failed load leaves a
    cleared token in state INITIALIZED. *)
Definition Token_Load (d : fs) (uid : nat) : res token :=
  match d (F_TOKEN, 0) with
  | None => Ok tok_fresh
  | Some f => match load_all d uid f with
              | Ok t => Ok t
              | Err _ => Ok (tok_init (zeros 32))
              | Undef u => Undef u
              end
  end.
End WithEnv.
