(** What the storage theorems assume of the codecs and AES-GCM, and what they say
    about keys and tokens; independent of the storage code. *)
From Verif Require Import Base Ops Object Store.

(** The PIN hash has 32 bytes; AES-GCM decryption inverts encryption and the tag
    has 16 bytes; decoding an encoded key gives that key back (the public
    decoders the public part). *)
Record laws (se : senv) : Prop := mkLaws {
  l_hash : forall p s, length (se_hash se p s) = 32%nat;
  l_gcm : forall k iv p, se_dec se k iv (se_enc se k iv p) = (0%Z, p);
  l_tag : forall k iv p, zlen (se_enc se k iv p) = (zlen p + 16)%Z;
  l_rsa_priv : forall r, (0 <= fst (se_rsa_priv se r))%Z -> se_rsa_priv_dec se (snd (se_rsa_priv se r)) = (0%Z, r);
  l_rsa_pub : forall r r0, (0 <= fst (se_rsa_pub se r))%Z -> exists r',
    se_rsa_pub_dec se (snd (se_rsa_pub se r)) r0 = (0%Z, r') /\ r_n r' = r_n r /\ r_e r' = r_e r;
  l_ec_priv : forall e, (0 <= fst (se_ec_priv se e))%Z -> exists e',
    se_ec_priv_dec se (snd (se_ec_priv se e)) = (0%Z, e') /\ ec_curve e' = ec_curve e /\ ec_k e' = ec_k e;
  l_ec_pub : forall e e0, (0 <= fst (se_ec_pub se e))%Z -> exists e',
    se_ec_pub_dec se (snd (se_ec_pub se e)) e0 = (0%Z, e') /\ ec_curve e' = ec_curve e /\ ec_pt e' = ec_pt e;
  l_dh : forall p g, (0 <= fst (se_dh_der se p g))%Z -> se_dh_dec se (snd (se_dh_der se p g)) = (0%Z, (p, g))
}.

(** Two key objects hold the same key: for a private RSA key all its numbers, for
    a public one modulus and exponent; for EC the curve with the private value or
    the public point; for DH the parameters and the value; for a secret key its
    bytes. *)
Definition same_key (o o' : obj) : Prop :=
  o_type o' = o_type o /\ o_class o' = o_class o /\
  if (o_type o =? CKK_RSA)%Z then
    exists r r', as_rsa o = Ok r /\ as_rsa o' = Ok r' /\ r_n r' = r_n r /\ r_e r' = r_e r /\
      (o_class o = CKO_PRIVATE_KEY -> r' = r)
  else if (o_type o =? CKK_EC)%Z then
    exists e e', as_ec o = Ok e /\ as_ec o' = Ok e' /\ ec_curve e' = ec_curve e /\
      (o_class o = CKO_PRIVATE_KEY -> ec_k e' = ec_k e) /\ (o_class o <> CKO_PRIVATE_KEY -> ec_pt e' = ec_pt e)
  else if (o_type o =? CKK_DH)%Z then
    exists p g l b b', as_dh o = Ok (p, g, l, b) /\ as_dh o' = Ok (p, g, l, b') /\
      firstn (Z.to_nat l) b' = firstn (Z.to_nat l) b
  else exists l b b', as_sym o = Ok (l, b) /\ as_sym o' = Ok (l, b') /\
      firstn (Z.to_nat l) b' = firstn (Z.to_nat l) b.

(** A private or secret key of sound size, or a public key; its encoding exists. *)
Definition live_key (se : senv) (o : obj) : Prop :=
  let enc (x : Z * list N) := (0 <= fst x)%Z /\ (zlen (snd x) < 2^30)%Z in
  o_class o <> CKO_CERTIFICATE /\
  if (o_type o =? CKK_RSA)%Z then
    exists r, as_rsa o = Ok r /\ if (o_class o =? CKO_PRIVATE_KEY)%Z then enc (se_rsa_priv se r)
                                 else o_class o = CKO_PUBLIC_KEY /\ enc (se_rsa_pub se r)
  else if (o_type o =? CKK_EC)%Z then
    exists e, as_ec o = Ok e /\ if (o_class o =? CKO_PRIVATE_KEY)%Z then enc (se_ec_priv se e)
                                else o_class o = CKO_PUBLIC_KEY /\ enc (se_ec_pub se e)
  else if (o_type o =? CKK_DH)%Z then
    exists p g l b, as_dh o = Ok (p, g, l, b) /\ (0 <= l <= 512)%Z /\ length b = 512%nat /\ enc (se_dh_der se p g)
  else (o_type o = CKK_AES \/ o_type o = CKK_GENERIC_SECRET) /\
    exists l b, as_sym o = Ok (l, b) /\ (0 <= l <= 512)%Z /\ length b = 512%nat.

(** The part of a PIN record, an object and a token that is to survive. *)
Definition pin_view (p : pin) := (firstn (Z.to_nat (p_len p)) (p_hash p), p_len p, p_seed p, p_fail p, p_last p, p_tmo p).
Definition sbytes (v : sval) : list N := match v with SV b => b | SNull _ => [] end.
Definition obj_view (o : obj) :=
  (o_type o, o_class o, o_handle o, o_kgm o, o_onTok o, o_local o, o_flag o, o_opFlag o, o_start o, o_end o,
   sbytes (o_keyId o), sbytes (o_label o)).
Definition tok_view (t : token) :=
  (t_label t, t_init t, pin_view (t_so t), pin_view (t_user t), t_seed t, map obj_view (t_objs t)).

(** Sizes and counters within the C types: attribute values below 2^31 bytes, a
    pointer NULL only with length 0, 32-bit counters, 64-bit times. *)
Definition fits_val (v : sval) : Prop := match v with SV b => (zlen b < 2^31)%Z | SNull n => n = 0%Z end.
Definition fits_pin (p : pin) : Prop :=
  (- 2^31 <= p_fail p < 2^31)%Z /\ (- 2^63 <= p_last p < 2^63)%Z /\ (- 2^63 <= p_tmo p < 2^63)%Z.
Definition fits (t : token) : Prop :=
  fits_pin (t_so t) /\ fits_pin (t_user t) /\ Forall (fun o => fits_val (o_keyId o) /\ fits_val (o_label o)) (t_objs t).

(** The DER encodings of keys are shorter than 2^30 bytes. *)
Record small_der (se : senv) : Prop := mkSmall {
  sm_rsa r : (0 <= fst (se_rsa_priv se r))%Z -> (zlen (snd (se_rsa_priv se r)) < 2^30)%Z;
  sm_ec e : (0 <= fst (se_ec_priv se e))%Z -> (zlen (snd (se_ec_priv se e)) < 2^30)%Z;
  sm_dh p g : (0 <= fst (se_dh_der se p g))%Z -> (zlen (snd (se_dh_der se p g)) < 2^30)%Z
}.
