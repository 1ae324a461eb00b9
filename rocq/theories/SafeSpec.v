(** When a call is made with care: what a caller has to respect so that no call
    runs into undefined behaviour. Each clause rules out one way the code goes
    wrong; PropSafe.v shows for most of them what happens without it. *)
From Verif Require Import Base Ops Object Store StoreSpec Sys.

(** ** Attributes *)
(** Attributes every object answers from its own fields (internal.c 5911-6028). *)
Definition plain : list Z :=
  [CKA_CLASS; CKA_LABEL; CKA_TOKEN; CKA_PRIVATE; CKA_SENSITIVE; CKA_EXTRACTABLE; CKA_MODIFIABLE;
   CKA_ALWAYS_SENSITIVE; CKA_NEVER_EXTRACTABLE; CKA_ALWAYS_AUTHENTICATE; CKA_WRAP_WITH_TRUSTED; CKA_TRUSTED;
   CKA_ENCRYPT; CKA_DECRYPT; CKA_VERIFY; CKA_VERIFY_RECOVER; CKA_SIGN; CKA_SIGN_RECOVER; CKA_WRAP; CKA_UNWRAP;
   CKA_DERIVE; CKA_COPYABLE; CKA_DESTROYABLE; CKA_APPLICATION; CKA_ID; CKA_KEY_TYPE; CKA_START_DATE;
   CKA_END_DATE; CKA_LOCAL; CKA_KEY_GEN_MECHANISM; CKA_ALLOWED_MECHANISMS; CKA_SUBJECT].
Definition cert (o : obj) : Prop := o_class o = CKO_CERTIFICATE.
(** Bytes a DER OCTET STRING with an uncompressed point of the curve takes. *)
Definition point_room (oe : oenv) (id : Z) : Z :=
  let d := u32 (oe_ecsize oe id * 2 + 1) in (d + (if (d <? 128)%Z then 2 else 3))%Z.
Definition roomy (v : aval) (n : Z) : Prop :=
  match v with AV b => (n <= zlen b)%Z | _ => True end.
(** An attribute that may be asked for: of a certificate only its value; the curve
    and the point of an EC key only when the key has a curve, the point only with
    a buffer that holds it. *)
Definition readable (oe : oenv) (o : obj) (a : attr) : Prop :=
  In (a_type a) plain \/
  if (o_class o =? CKO_CERTIFICATE)%Z then a_type a = CKA_VALUE
  else o_type o = CKK_EC -> (a_type a = CKA_EC_PARAMS \/ a_type a = CKA_EC_POINT) ->
       exists k id, o_data o = KEc k /\ ec_curve k = Some id /\
                    (a_type a = CKA_EC_POINT -> roomy (a_val a) (point_room oe id)).
(** No NULL pointers. *)
Definition given (t : template) : Prop := forall a, In a t -> exists b, a_val a = AV b.
Definition has (t : template) (ty : Z) : Prop := exists v, In (mkA ty v) t.
Definition secret_type (ty : Z) : Prop := ty = CKK_AES \/ ty = CKK_GENERIC_SECRET.
(** A template for an object of class [cls] and type [ty]: it does not turn the
    object into a certificate or a certificate into a key, gives an EC point only
    with its curve, and no secret of more than 512 bytes. *)
Record apt (cls ty : Z) (t : template) : Prop := mkApt {
  apt_given : given t;
  apt_class : forall b, In (mkA CKA_CLASS (AV b)) t -> ulong_of b = cls;
  apt_point : ty = CKK_EC -> has t CKA_EC_POINT -> has t CKA_EC_PARAMS;
  apt_len : secret_type ty -> forall b, In (mkA CKA_VALUE_LEN (AV b)) t -> (ulong_of b <= 512)%Z;
  apt_value : secret_type ty -> forall b, In (mkA CKA_VALUE (AV b)) t -> (zlen b <= 512)%Z
}.
(** Asymmetric keys on the token are private or public keys; the CKA_TOKEN byte is
    0 or odd. *)
Definition keyclass (cls ty : Z) : Prop :=
  ty = CKK_RSA \/ ty = CKK_EC -> cls = CKO_CERTIFICATE \/ cls = CKO_PRIVATE_KEY \/ cls = CKO_PUBLIC_KEY.
Definition placed (cls ty : Z) (t : template) : Prop :=
  forall b, tmpl_token t = Some b -> b = 0%N \/ (N.odd b = true /\ keyclass cls ty).
Definition ulong_in (t : template) (ty : Z) : option Z :=
  match find_last t ty with Some a => tmpl_ulong a | None => None end.
(** Class and type a creation template asks for (crypto.c 664-705). *)
Definition asks (t : template) (cls ty : Z) : Prop :=
  (ulong_in t CKA_CLASS = Some cls \/ (find_last t CKA_CLASS = None /\ cls = UNAVAILABLE)) /\
  ulong_in t (if (cls =? CKO_CERTIFICATE)%Z then CKA_CERTIFICATE_TYPE else CKA_KEY_TYPE) = Some ty.
Definition create_ok (t : template) : Prop :=
  forall cls ty, asks t cls ty -> apt cls ty t /\ placed cls ty t.

(** ** Operations *)
(** The parameters given to an Init call are ones it accepts, whatever the call
    (a refused Init overwrites parameters in use); a CBC operation starts with the
    count of kept bytes in order. *)
Definition fit (ev : env) (st : opst) (m : mech) (mp : mparam) (key : list N) : Prop :=
  match m, mp with
  | M_RSA_OAEP, MPoaep true h g _ => hash_known h = true /\ mgf_known g = true
  | M_RSA_PSS, MPpss h g sl => hash_known h = true /\ mgf_known g = true /\ (i32 sl <= 62)%Z
  | M_AES_CBC, MPraw _ | M_AES_CBC_PAD, MPraw _ => e_aes_ok ev key = true /\ (snd (os_part st) <= 16)%nat
  | M_AES_GCM, MPgcm iv aad tb => (zlen iv < 2^31)%Z /\ (0 <= tb < 2^31)%Z /\
      match aad with Some a => (zlen a < 2^31)%Z | None => True end
  | M_HMAC h, MPnull => e_hmac_ok ev h key = true
  | _, _ => True
  end.
Definition small (d : list N) : Prop := (zlen d < 2^31)%Z.
(** Input of the other calls: shorter than 2^31 bytes; a GCM ciphertext not shorter
    than its tag. *)
Definition gcm_tag (st : opst) : Z := match os_params st with PGcm g => g_tagBits g / 8 | _ => 0 end.
Definition gcm_kept (st : opst) : list N := match os_params st with PGcm g => g_enc g | _ => [] end.
Definition fed (st : opst) (c : call) : Prop :=
  match c with
  | KEncrypt _ d _ | KEncryptUpdate d _ => small d
  | KDecrypt _ d _ => small d /\ (os_mech st = M_AES_GCM -> (gcm_tag st <= zlen d)%Z)
  | KDecryptUpdate d _ => small d /\ (os_mech st = M_AES_GCM -> small (gcm_kept st ++ d))
  | KDecryptFinal _ => os_mech st = M_AES_GCM -> (gcm_tag st <= zlen (gcm_kept st))%Z
  | _ => True
  end.
Definition init_of (c : call) : option (mech * mparam) :=
  match c with
  | KEncryptInit m mp _ | KDecryptInit m mp _ | KSignInit m mp _ | KVerifyInit m mp _ => Some (m, mp)
  | _ => None
  end.
(** The symmetric key of an object. *)
Definition key_of (o : obj) : list N := match o_data o with KSym l b => firstn (Z.to_nat l) b | _ => [] end.

(** ** Calls *)
Section W.
Variable w : world.
(** Objects on the token as the store code needs them: the encoded key is as long
    as the encoding of a key of at most 512 bytes. *)
Definition encoded_ok (o : obj) : Prop :=
  o_class o = CKO_CERTIFICATE \/
  (keyclass (o_class o) (o_type o) /\
   (secret_type (o_type o) \/ o_type o = CKK_DH ->
    exists kd, o_keyData o = Some kd /\
      if andb (o_type o =? CKK_DH)%Z (negb (o_class o =? CKO_PRIVATE_KEY)%Z) then (zlen kd <= 512)%Z
      else (16 <= zlen kd <= 528)%Z)).
(** The files, as C_Initialize will read them, hold objects in order. *)
Definition files_ok (s : sys) : Prop :=
  forall uid t, Token_Load (w_se w) (s_fs s) uid = Ok t -> Forall (fun o => encoded_ok o /\ o_onTok o = true) (t_objs t).

Definition exports (g : option gen) : Prop :=
  match g with
  | Some (GRsa r) => (0 <= fst (se_rsa_priv (w_se w) r))%Z
  | Some (GEc k pt) => forall c, (0 <= fst (se_ec_priv (w_se w) (mkEc (Some c) 2 k pt)))%Z
  | _ => True
  end.
Definition kp_type (m : kpmech) : Z := match m with KP_RSA => CKK_RSA | KP_EC => CKK_EC | _ => CKK_DH end.

Definition careful (s : sys) (c : op) : Prop :=
  match c with
  | OInitialize => s_count s = 0%Z -> files_ok s
  | OInitToken _ _ label => (32 <= zlen label)%Z
  | OCreateObject _ t => create_ok t
  | OCopyObject h ho t => forall x o, sess_get s h = Some x -> find_obj s x ho = Some o ->
      ~ cert o /\ given t /\ (forall a, In a t -> readable (w_oe w) o a) /\
      (o_type o = CKK_EC -> has t CKA_EC_POINT -> has t CKA_EC_PARAMS) /\
      placed (o_class o) (o_type o) t /\
      (forall b, tmpl_token t = Some b -> b <> 0%N -> o_type o = CKK_RSA \/ o_type o = CKK_EC -> has t CKA_CLASS)
  | OGetAttributeValue h ho t => forall x o, sess_get s h = Some x -> find_obj s x ho = Some o ->
      forall a, In a t -> readable (w_oe w) o a
  | OSetAttributeValue h ho t => forall x o, sess_get s h = Some x -> find_obj s x ho = Some o ->
      apt (o_class o) (o_type o) t
  | OFindObjectsInit h t => given t /\
      forall x o a, sess_get s h = Some x -> In o (t_objs (s_tok s) ++ ss_objs x) -> visible (s_tok s) o = true ->
        In a t -> readable (w_oe w) o a
  | OGenerateKey _ _ t _ => apt CKO_SECRET_KEY CKK_AES t /\ placed CKO_SECRET_KEY CKK_AES t
  | OGenerateKeyPair h m tp tq g =>
      apt CKO_PUBLIC_KEY (kp_type m) tp /\ placed CKO_PUBLIC_KEY (kp_type m) tp /\
      apt CKO_PRIVATE_KEY (kp_type m) tq /\ placed CKO_PRIVATE_KEY (kp_type m) tq /\ tmpl_token tq <> None /\
      (m = KP_EC -> has tp CKA_EC_PARAMS) /\ exports g /\ (zlen (t_objs (s_tok s)) + 2 <= TOK_OBJ_MAX)%Z /\
      (forall x, sess_get s h = Some x -> (zlen (ss_objs x) + 2 <= SESS_OBJ_MAX)%Z)
  | OWrapKey h m mp hw hk _ => forall x k wk, sess_get s h = Some x -> find_obj s x hk = Some k ->
      find_obj s x hw = Some wk ->
      ~ cert wk /\ fit (w_ev w) (ss_op x) m mp (key_of wk) /\ (forall r, small (snd (w_p8 w r)))
  | OUnwrapKey h m mp hu wr t => apt CKO_PRIVATE_KEY CKK_RSA t /\ placed CKO_PRIVATE_KEY CKK_RSA t /\ small wr /\
      forall x uk, sess_get s h = Some x -> find_obj s x hu = Some uk ->
      ~ cert uk /\ fit (w_ev w) (ss_op x) m mp (key_of uk)
  | ODeriveKey h m hb sec t =>
      (forall x b, sess_get s h = Some x -> find_obj s x hb = Some b ->
         ~ cert b /\ o_type b = match m with D_ECDH => CKK_EC | _ => CKK_DH end) /\
      create_ok t /\ (forall cls ty, asks t cls ty -> cls <> CKO_CERTIFICATE /\ secret_type ty) /\
      ~ has t CKA_VALUE /\
      (forall d, sec = Some d -> (zlen d <= 512)%Z /\
         forall b, In (mkA CKA_VALUE_LEN (AV b)) t -> ulong_of b = 0%Z \/ (zlen d <= ulong_of b)%Z)
  | OCrypto h c hk => forall x, sess_get s h = Some x ->
      match init_of c with
      | Some (m, mp) => forall o, find_obj s x hk = Some o -> ~ cert o /\ fit (w_ev w) (ss_op x) m mp (key_of o)
      | None => fed (ss_op x) c /\
          (forall u, os_curr (ss_op x) = Some u ->
             (os_init (ss_op x) <> 0%Z -> find_uid s u <> None) /\ (forall o, find_uid s u = Some o -> ~ cert o))
      end
  | _ => True
  end.
(** What is assumed of wolfCrypt: the laws of StoreSpec.v, plain text that is as long
    as the ciphertext without its tag, import of a point that leaves the curve as
    it is, exported points of the size of the curve, and no undefined behaviour. *)
Record honest : Prop := mkHonest {
  ho_laws : laws (w_se w);
  ho_plain : forall k iv c, (16 <= zlen c)%Z -> fst (se_dec (w_se w) k iv c) = 0%Z ->
    zlen (snd (se_dec (w_se w) k iv c)) = (zlen c - 16)%Z;
  ho_import : forall k b, fst (oe_import (w_oe w) k b) = 0%Z -> ec_curve (snd (oe_import (w_oe w) k b)) = ec_curve k;
  ho_export : forall id pt, fst (oe_export (w_oe w) id pt) = 0%Z ->
    (zlen (snd (oe_export (w_oe w) id pt)) <= u32 (oe_ecsize (w_oe w) id * 2 + 1))%Z;
  ho_genc : forall key iv aad asz p t u, e_gcm_enc (w_ev w) key iv aad asz p t <> Undef u;
  ho_gdec : forall key iv aad asz c t u, e_gcm_dec (w_ev w) key iv aad asz c t <> Undef u;
  ho_enc : forall m k p r d u, e_pk_enc (w_ev w) m k p r d <> Undef u;
  ho_dec : forall m k p r d u, e_pk_dec (w_ev w) m k p r d <> Undef u;
  ho_sign : forall m k p r d u, e_pk_sign (w_ev w) m k p r d <> Undef u;
  ho_verify : forall m k p g d u, e_pk_verify (w_ev w) m k p g d <> Undef u
}.
(** States reached by careful calls. *)
Inductive carefully (s0 : sys) : sys -> Prop :=
  | carefully_0 : carefully s0 s0
  | carefully_step s rnd c s' o : carefully s0 s -> careful s c -> step w rnd s c = Ok (s', o) -> carefully s0 s'.
End W.
