(** The lemmas behind PropOps.v: statements in terms of the specifications. *)
From Verif Require Import Base Cbc CbcProofs CbcSpec Ops OpsSpec OpsCbcProofs OpsProofs OpsProofs2 OpsProofs3 OpsProofs4.

Section P.
Variable ev : env.
Variable objs : nat -> option keyobj.
Notation step := (step ev objs).
Notation run := (run ev objs).
Notation ci := (e_ci ev).

Lemma C31_enc_lemma st k ko iv blks cbs nf n :
  cipher_ok ci ->
  objs k = Some ko -> ko_type ko = CKK_AES -> e_aes_ok ev (ko_data ko) = true ->
  length iv = 16 -> fresh st ->
  are_blocks blks -> concat (map fst cbs) = concat blks -> fits cbs ->
  (zlen (concat blks) <= n < 2^32)%Z ->
  let ct := concat (spec_cbc_enc (ci_E ci (ko_data ko)) iv blks) in
  (exists st' outs,
    run st (KEncryptInit M_AES_CBC (MPraw iv) k :: enc_upds cbs ++ [KEncryptFinal (Buf nf)])
      = Ok (st', outs) /\ Forall good outs /\ concat (map o_out outs) = ct) /\
  (exists st',
    run st [KEncryptInit M_AES_CBC (MPraw iv) k; KEncrypt [] (concat blks) (Buf n)] =
    Ok (st', [ok0; mkOut CKR_OK (zlen ct) ct])).
Proof.
  intros [HE _] Hk Ht Ha Hl Hf Hb Hc Hfit Hn ct. split.
  - destruct (cbc_stream_encrypt ev objs st k ko iv blks cbs nf Hk Ht Ha Hl Hf Hb Hc Hfit) as (s & o & R & G & _ & C).
    exists s, o. auto.
  - apply cbc_oneshot_encrypt; auto.
Qed.

Lemma C31_dec_lemma st k ko iv blks cbs nf n :
  (forall b, length b = 16 -> length (ci_D ci (ko_data ko) b) = 16) ->
  objs k = Some ko -> ko_type ko = CKK_AES -> e_aes_ok ev (ko_data ko) = true ->
  length iv = 16 -> fresh st ->
  are_blocks blks -> concat (map fst cbs) = concat blks -> fits cbs ->
  (zlen (concat blks) <= n < 2^32)%Z ->
  let pt := concat (spec_cbc_dec (ci_D ci (ko_data ko)) iv blks) in
  (exists st' outs,
    run st (KDecryptInit M_AES_CBC (MPraw iv) k :: dec_upds cbs ++ [KDecryptFinal (Buf nf)])
      = Ok (st', outs) /\ Forall good outs /\ concat (map o_out outs) = pt) /\
  (exists st',
    run st [KDecryptInit M_AES_CBC (MPraw iv) k; KDecrypt [] (concat blks) (Buf n)] =
    Ok (st', [ok0; mkOut CKR_OK (zlen pt) pt])).
Proof.
  intros HD Hk Ht Ha Hl Hf Hb Hc Hfit Hn pt. split.
  - destruct (cbc_stream_decrypt ev objs st k ko iv blks cbs nf Hk Ht Ha Hl Hf Hb Hc Hfit) as (s & o & R & G & _ & C).
    exists s, o. auto.
  - apply cbc_oneshot_decrypt; auto.
Qed.

Lemma blocks_len16 bs : are_blocks bs -> length (concat bs) = 16 * length bs.
Proof. induction 1 as [|b bs Hb _ IH]; cbn [concat length]; [reflexivity|]. rewrite app_length, Hb, IH. lia. Qed.

Lemma pkcs7_unique m p q : pkcs7 m p -> pkcs7 m q -> p = q.
Proof.
  intros (a & Ha & -> & Hp) (b & Hb & -> & Hq).
  rewrite app_length, repeat_length in Hp, Hq.
  assert (a = b); [|subst; reflexivity].
  pose proof (Nat.div_mod (length m + a) 16 ltac:(lia)). pose proof (Nat.div_mod (length m + b) 16 ltac:(lia)). lia.
Qed.

(** The reference ciphertext of CBC-PAD. *)
Definition cbcpad_spec (E : list N -> list N) (iv msg ct : list N) : Prop :=
  exists bs, are_blocks bs /\ pkcs7 msg (concat bs) /\ ct = concat (spec_cbc_enc E iv bs).

Lemma cbcpad_spec_eq key iv msg ct :
  cbcpad_spec (ci_E ci key) iv msg ct <->
  ct = fst (cbc_enc_blocks ci (length (pad16 msg) / 16) key iv (pad16 msg)).
Proof.
  assert (S : forall bs, are_blocks bs -> concat bs = pad16 msg ->
    fst (cbc_enc_blocks ci (length (pad16 msg) / 16) key iv (pad16 msg)) =
    concat (spec_cbc_enc (ci_E ci key) iv bs)).
  { intros bs Hb E. rewrite <- E. rewrite (blocks_len16 bs Hb), Nat.mul_comm, Nat.div_mul by lia.
    apply enc_blocks_spec. exact Hb. }
  split.
  - intros (bs & Hb & Hp & ->). symmetry. apply S; auto.
    eapply pkcs7_unique; [exact Hp|apply pad16_pkcs7].
  - intros ->. destruct (pad16_pkcs7 msg) as (a & A1 & A2 & A3).
    destruct (split_blocks (pad16 msg) A3) as (bs & Hb & Hc).
    exists bs. split; [exact Hb|]. split; [rewrite Hc; apply pad16_pkcs7|]. apply S; auto.
Qed.

Lemma C32_enc_lemma st k ko iv cbs nf ct n rnd :
  objs k = Some ko -> ko_type ko = CKK_AES -> e_aes_ok ev (ko_data ko) = true ->
  length iv = 16 -> fresh st -> fits cbs -> (16 <= nf < 2^32)%Z ->
  let msg := concat (map fst cbs) in
  (zlen msg < 2^31)%Z -> (zlen msg <= n < 2^32)%Z ->
  cbcpad_spec (ci_E ci (ko_data ko)) iv msg ct ->
  (exists st' outs,
    run st (KEncryptInit M_AES_CBC_PAD (MPraw iv) k :: enc_upds cbs ++ [KEncryptFinal (Buf nf)])
      = Ok (st', outs) /\ Forall okrv outs /\ concat (map o_out outs) = ct) /\
  (exists st',
    run st [KEncryptInit M_AES_CBC_PAD (MPraw iv) k; KEncrypt rnd msg (Buf n)] =
    Ok (st', [ok0; mkOut CKR_OK (zlen ct) ct])).
Proof.
  intros Hk Ht Ha Hl Hf Hfit Hnf msg Hm Hn Hs. apply cbcpad_spec_eq in Hs. subst ct. split.
  - destruct (pad_stream_encrypt ev objs st k ko iv cbs nf Hk Ht Ha Hl Hf Hfit Hnf) as (s & o & R & G & _ & C).
    exists s, o. auto.
  - apply pad_oneshot_encrypt; auto.
Qed.

Lemma C32_dec_lemma st k ko iv cbs nf msg n rnd :
  cipher_ok ci ->
  objs k = Some ko -> ko_type ko = CKK_AES -> e_aes_ok ev (ko_data ko) = true ->
  length iv = 16 -> fresh st -> fits cbs ->
  let ct := concat (map fst cbs) in
  (zlen ct < 2^31)%Z ->
  cbcpad_spec (ci_E ci (ko_data ko)) iv msg ct ->
  (exists st' outs,
    run st (KDecryptInit M_AES_CBC_PAD (MPraw iv) k :: dec_upds cbs ++ [KDecryptFinal (Buf nf)])
      = Ok (st', outs) /\ Forall good outs /\ concat (map o_out outs) = msg) /\
  (exists st',
    run st [KDecryptInit M_AES_CBC_PAD (MPraw iv) k; KDecrypt rnd ct (Buf n)] =
    Ok (st', [ok0; mkOut CKR_OK (zlen msg) msg])).
Proof.
  intros Hci Hk Ht Ha Hl Hf Hfit ct Hct Hs. apply cbcpad_spec_eq in Hs. split.
  - destruct (pad_stream_decrypt ev objs st k ko iv cbs nf msg Hci Hk Ht Ha Hl Hf Hfit Hs) as (s & o & R & G & _ & C).
    exists s, o. auto.
  - rewrite Hs. apply pad_oneshot_decrypt; auto. rewrite <- Hs. exact Hct.
Qed.

(** Every message has exactly one reference ciphertext. *)
Lemma cbcpad_spec_total key iv msg : exists ct, cbcpad_spec (ci_E ci key) iv msg ct.
Proof. eexists. apply cbcpad_spec_eq. reflexivity. Qed.

(** ** Where [fresh] comes from *)
Definition cbc_mech (m : mech) : bool :=
  match m with M_AES_CBC | M_AES_CBC_PAD => true | _ => false end.

Lemma part_step st c st' o :
  (forall h q, e_hmac_tail ev h q = q) ->
  cbc_mech (os_mech st) = false -> step st c = Ok (st', o) -> os_part st' = os_part st.
Proof.
  intros Ht Hm H.
  destruct c; cbn [Ops.step] in H;
    try (unfold init_call in H; destruct (objs k) as [ko|] eqn:Ho; [|inv_step; reflexivity];
         unfold C_EncryptInit, C_DecryptInit, C_SignInit, C_VerifyInit in H; destruct m;
         unfold rsa_noparam, oaep_init, pss_init, cbc_init, gcm_init, hmac_init, ecdsa_init,
           SetGcmParams, SetOaepParams, SetPssParams, SetCbcParams, Hmac_Init in H;
         rewrite ?Ht in H; inv_step; inv_pair; reflexivity).
  all: try (unfold C_Encrypt, C_EncryptUpdate, C_EncryptFinal, C_Decrypt, C_DecryptUpdate,
      C_DecryptFinal, C_Sign, C_SignUpdate, C_SignFinal, C_Verify, C_VerifyUpdate,
      C_VerifyFinal, with_obj in H;
    destruct (os_curr st) eqn:Hc; unfold not_init in H; [|inv_step; reflexivity];
    destruct (os_mech st) eqn:Hmm; try discriminate Hm;
    unfold need_init, not_init, pk_crypt, pk_sign, pk_verify, need_init, not_init, sized, conclude,
      hmac_update, hmac_done in H; rewrite ?Ht in H;
    inv_step; try reflexivity; try (cbn; apply Ht); unfold pk_after;
    repeat match goal with |- context [match ?x with _ => _ end] => destruct x end; reflexivity).
  unfold op_session_final in H. destruct (os_mech st) eqn:Hmm; try discriminate Hm; inv_step; reflexivity.
Qed.

Lemma last_mech_snoc acc h c o :
  last_mech acc (h ++ [(c, o)]) =
  match init_mech c with
  | Some m => if (o_rv o =? CKR_OK)%Z then m else last_mech acc h
  | None => last_mech acc h
  end.
Proof. revert acc. induction h as [|[a b] h IH]; intros acc; cbn; [reflexivity|apply IH]. Qed.

(** History with no successful CBC Init so far: the partial block is empty. *)
Lemma fresh_run cs st os st0 :
  (forall h q, e_hmac_tail ev h q = q) ->
  fresh st0 -> cbc_mech (os_mech st0) = false ->
  run st0 cs = Ok (st, os) ->
  Forall (fun co => forall m, init_mech (fst co) = Some m -> cbc_mech m = true -> o_rv (snd co) <> CKR_OK)
    (combine cs os) ->
  fresh st /\ cbc_mech (os_mech st) = false.
Proof.
  intros Ht. revert st0 os. induction cs as [|c cs IH]; intros st0 os Hf Hm R F; cbn [Ops.run] in R.
  - inv_step. auto.
  - destruct (step st0 c) as [[st1 o1]|e|u] eqn:E; cbn [bind] in R; try discriminate.
    destruct (Ops.run ev objs st1 cs) as [[st2 os2]|e|u] eqn:E2; cbn [bind] in R; try discriminate.
    injection R as <- <-. cbn [combine] in F. inversion_clear F as [|? ? F1 F2]. cbn [fst snd] in F1.
    apply IH with (st0 := st1) (os := os2); auto.
    + unfold fresh. rewrite (part_step _ _ _ _ Ht Hm E). exact Hf.
    + assert (X : os_mech st1 = os_mech st0 \/ (exists m, init_mech c = Some m /\ o_rv o1 = CKR_OK /\ os_mech st1 = m)).
      { rewrite (mech_step ev objs _ _ _ _ E).
        cbn [last_mech]. destruct (init_mech c) as [m|] eqn:Ei; [|left; reflexivity].
        destruct (o_rv o1 =? CKR_OK)%Z eqn:Er; [|left; reflexivity].
        right. exists m. apply Z.eqb_eq in Er. auto. }
      destruct X as [->|(m & M1 & M2 & ->)]; [exact Hm|].
      destruct (cbc_mech m) eqn:Ec; [|reflexivity]. exfalso. exact (F1 m M1 Ec M2).
Qed.

(** Finishing a multi-part CBC operation empties the partial block. *)
Lemma fresh_final cs st os c n st' o :
  env_sizes ev ->
  run op_zero cs = Ok (st, os) -> cbc_mech (last_mech (M_OTHER 0) (combine cs os)) = true ->
  c = KEncryptFinal (Buf n) \/ c = KDecryptFinal (Buf n) ->
  step st c = Ok (st', o) -> o_rv o = CKR_OK -> fresh st'.
Proof.
  intros He R Hm Hc H Ho.
  assert (I : inv34 st) by (eapply (inv34_run ev objs He); [apply inv34_zero|exact R]).
  assert (Mm : last_mech (M_OTHER 0) (combine cs os) = os_mech st).
  { change (M_OTHER 0) with (os_mech op_zero). symmetry. eapply mech_run. exact R. }
  rewrite Mm in Hm.
  destruct Hc as [-> | ->]; cbn [Ops.step] in H;
    unfold C_EncryptFinal, C_DecryptFinal, with_obj, need_init, not_init, sized, conclude in H;
    (destruct (os_curr st); [|inv_step; discriminate]);
    (destruct (os_mech st) eqn:Hmm; try discriminate Hm);
    inv_step; try discriminate;
    repeat match goal with X : get_cbc ?s = Ok ?p, I : inv34 ?s |- _ =>
      destruct (get_cbc_inv s p I X) as [(? & ? & ?) ?]; clear X end;
    try (split; cbn; [assumption|reflexivity]).
  - match goal with X : WP11_AesCbcPad_EncryptFinal _ ?p = Ok _ |- _ =>
      unfold WP11_AesCbcPad_EncryptFinal in X;
      destruct (wc_AesCbcEncrypt ci (cb_aes p) (pad_block (cb_partial p) (cb_psz p))) as [[? ?]| |]; cbn [bind] in X; try discriminate X;
      injection X as <- <- end.
    split; [|reflexivity]. cbn. apply pad_block_length; assumption.
  - match goal with X : WP11_AesCbcPad_DecryptFinal _ ?p = Ok (_, ?q) |- _ =>
      assert (cb_psz q = 0) by (unfold WP11_AesCbcPad_DecryptFinal in X;
         destruct (wc_AesCbcDecrypt ci (cb_aes p) (firstn (cb_psz p) (cb_partial p))) as [[? ?]| |]; cbn [bind] in X; try discriminate X;
         injection X as <- <-; reflexivity);
      apply (paddecfin_len ev He) in X; [destruct X as [_ (X & _)]|repeat split; assumption] end.
    split; assumption.
Qed.

(** ** C65: the reported length is the number of bytes written *)
Definition len_exempt (m : mech) (c : call) : bool :=
  match m, c with
  | M_AES_CBC_PAD, KEncryptFinal _ => true                     (* *pulLen not set *)
  | M_AES_CBC, KEncrypt _ d _ | M_AES_CBC, KDecrypt _ d _ => negb (length d mod 16 =? 0)
  | _, _ => false
  end.

Lemma zlen_app (a b : list N) : zlen (a ++ b) = (zlen a + zlen b)%Z.
Proof. unfold zlen. rewrite app_length. lia. Qed.
Lemma zlen_nil : @zlen N [] = 0%Z. Proof. reflexivity. Qed.

(** The stored GCM tag is the 16-byte array. *)
Definition tag16_inv (st : opst) : Prop :=
  match os_params st with PGcm g => length (g_authTag g) = 16 | _ => True end.

Lemma tag16_step st c st' o :
  env_sizes ev -> tag16_inv st -> step st c = Ok (st', o) -> tag16_inv st'.
Proof.
  intros He I H.
  assert (HG : forall g, get_gcm st = Ok g -> length (g_authTag g) = 16).
  { intros g G. unfold get_gcm in G. unfold tag16_inv in I. destruct (os_params st); try discriminate.
    injection G as <-. exact I. }
  destruct c; cbn [Ops.step] in H;
    try (unfold init_call in H; destruct (objs k) as [ko|] eqn:Ho; [|inv_step; exact I];
         unfold C_EncryptInit, C_DecryptInit, C_SignInit, C_VerifyInit in H; destruct m;
         unfold rsa_noparam, oaep_init, pss_init, cbc_init, gcm_init, hmac_init, ecdsa_init,
           SetGcmParams, SetOaepParams, SetPssParams, SetCbcParams, Hmac_Init in H;
         inv_step; inv_pair; first [exact I | exact Logic.I | reflexivity]).
  all: try (unfold C_Encrypt, C_EncryptUpdate, C_EncryptFinal, C_Decrypt, C_DecryptUpdate,
      C_DecryptFinal, C_Sign, C_SignUpdate, C_SignFinal, C_Verify, C_VerifyUpdate,
      C_VerifyFinal, with_obj in H;
    destruct (os_curr st) eqn:Hc; unfold not_init in H; [|inv_step; exact I];
    destruct (os_mech st) eqn:Hmm;
    unfold need_init, not_init, pk_crypt, pk_sign, pk_verify, need_init, not_init, sized, conclude,
      hmac_update, hmac_done in H;
    inv_step;
    first [ exact I | exact Logic.I
          | unfold tag16_inv; cbn; apply HG; reflexivity
          | unfold tag16_inv; cbn [os_params set_params g_authTag]; match goal with E : gcm_call_enc _ _ _ _ = Ok _ |- _ => unfold gcm_call_enc in E; inv_step;
              apply (es_genc _ He) in E; destruct E as (_ & ? & ?); unfold zlen in *; rewrite blit_length;
              [apply HG; reflexivity|rewrite (HG _ eq_refl); lia] end
          | unfold tag16_inv, pk_after in *; destruct (os_params st) eqn:EP; cbn; rewrite ?EP;
            first [exact Logic.I | exact I] ]).
  unfold op_session_final in H. unfold tag16_inv in *. destruct (os_mech st) eqn:Hmm; inv_step; cbn;
    try exact I; try exact Logic.I.
  all: destruct (os_init st =? 0)%Z; exact I.
Qed.

Lemma tag16_run st cs st' os :
  env_sizes ev -> tag16_inv st -> run st cs = Ok (st', os) -> tag16_inv st'.
Proof.
  intros He. revert st os. induction cs as [|c cs IH]; intros st os I H; cbn [Ops.run] in H.
  - inv_step. exact I.
  - destruct (step st c) as [[st1 o]|e|u] eqn:E; cbn [bind] in H; try discriminate.
    destruct (Ops.run ev objs st1 cs) as [[st2 os2]|e|u] eqn:E2; cbn [bind] in H; try discriminate.
    injection H as <- <-. eapply IH; [|exact E2]. eapply tag16_step; eauto.
Qed.

Lemma C65_lemma cs st os c n st' o :
  env_sizes ev ->
  run op_zero cs = Ok (st, os) -> out_arg c = Some (Buf n) -> (zlen (in_data c) < 2^31)%Z ->
  len_exempt (last_mech (M_OTHER 0) (combine cs os)) c = false ->
  step st c = Ok (st', o) -> o_rv o = CKR_OK -> o_len o = zlen (o_out o).
Proof.
  intros He R Hb Hd Hx H Ho.
  assert (I : inv34 st) by (eapply (inv34_run ev objs He); [apply inv34_zero|exact R]).
  assert (Mm : last_mech (M_OTHER 0) (combine cs os) = os_mech st).
  { change (M_OTHER 0) with (os_mech op_zero). symmetry. eapply mech_run. exact R. }
  assert (T : tag16_inv st) by (eapply tag16_run; [exact He| |exact R]; exact Logic.I).
  assert (HG : forall g, get_gcm st = Ok g -> length (g_authTag g) = 16).
  { intros g G. unfold get_gcm in G. unfold tag16_inv in T. destruct (os_params st); try discriminate.
    injection G as <-. exact T. }
  rewrite Mm in Hx. clear Mm R.
  assert (HS : forall h, get_hmac st = Ok h -> hm_sz h = hmac_sz (hm_hash h)).
  { intros h G. destruct I as (_ & _ & I3). unfold get_hmac in G. destruct (os_params st); try discriminate. injection G as <-. exact I3. }
  assert (HR : forall p, get_cbc st = Ok p -> length (aes_reg (cb_aes p)) = 16).
  { intros p G. apply (get_cbc_inv _ _ I G). }
  destruct c; try discriminate Hb; cbn [out_arg] in Hb; injection Hb as ->; cbn [in_data] in Hd;
    cbn [Ops.step] in H;
    unfold C_Encrypt, C_EncryptUpdate, C_EncryptFinal, C_Decrypt, C_DecryptUpdate,
      C_DecryptFinal, C_Sign, C_SignUpdate, C_SignFinal, with_obj in H;
    (destruct (os_curr st); [|unfold not_init in H; inv_step; discriminate]);
    destruct (os_mech st) eqn:Hmm; cbn [len_exempt] in Hx; try discriminate Hx;
    unfold need_init, not_init, pk_crypt, pk_sign, need_init, not_init, sized, conclude,
      WP11_AesCbc_Encrypt, WP11_AesCbc_Decrypt in H;
    inv_step; try discriminate Ho; try reflexivity;
    try (match goal with G : get_hmac _ = Ok ?h |- _ => cbn [o_len o_out]; rewrite (HS _ G), (es_hmac _ He); reflexivity end).
  all: rewrite ?trunc32_small in * by lia; cbn [o_len o_out].
  - apply negb_false_iff, Nat.eqb_eq in Hx.
    match goal with E : wc_AesCbcEncrypt _ _ _ = Ok _ |- _ => apply (wenc_len ev He) in E; [|apply HR; reflexivity] end.
    unfold zlen. pose proof (Nat.div_mod (length data) 16 ltac:(lia)). lia.
  - match goal with E : gcm_call_enc _ _ _ _ = Ok _ |- _ => unfold gcm_call_enc in E; inv_step;
      apply (es_genc _ He) in E; destruct E as (Y1 & Y2 & Y3) end.
    rewrite zlen_app, Y2. assert (0 <= u32 (tag_bytes a))%Z by (rewrite <- Y2; apply zlen_nonneg).
    unfold zlen in *. rewrite Y1. unfold u32 at 1. rewrite Z.mod_small; lia.
  - pose proof (HG _ eq_refl). unfold zlen. rewrite firstn_length.
    match goal with X : (16 <? u32 (tag_bytes a))%Z = false |- _ => apply Z.ltb_ge in X end.
    assert (0 <= u32 (tag_bytes a))%Z by (unfold u32; apply Z.mod_pos_bound; lia). lia.
  - apply negb_false_iff, Nat.eqb_eq in Hx.
    match goal with E : wc_AesCbcDecrypt _ _ _ = Ok _ |- _ => apply (wdec_len ev He) in E; [|apply HR; reflexivity] end.
    unfold zlen. pose proof (Nat.div_mod (length data) 16 ltac:(lia)). lia.
  - rewrite (HS _ eq_refl), (es_hmac _ He). reflexivity.
  - rewrite (HS _ eq_refl), (es_hmac _ He). reflexivity.
Qed.

(** ** Failed Init calls *)
Lemma early_failure_unchanged st c st' o kd :
  init_kind c = Some kd -> step st c = Ok (st', o) ->
  o_rv o = CKR_OBJECT_HANDLE_INVALID \/ o_rv o = CKR_KEY_TYPE_INCONSISTENT \/
  o_rv o = CKR_MECHANISM_INVALID -> st' = st.
Proof.
  intros Hk H Ho.
  destruct c; try discriminate Hk; cbn [Ops.step] in H; unfold init_call in H;
    (destruct (objs k) as [ko|] eqn:Hobj; [|inv_step; reflexivity]);
    unfold C_EncryptInit, C_DecryptInit, C_SignInit, C_VerifyInit in H; destruct m;
    unfold rsa_noparam, oaep_init, pss_init, cbc_init, gcm_init, hmac_init, ecdsa_init, SetGcmParams in H;
    inv_step; inv_pair; try reflexivity; destruct Ho as [Ho|[Ho|Ho]]; discriminate Ho.
Qed.

Lemma refused_same_op st st' d kd o1 :
  data_kind d = Some kd -> same_op st st' ->
  step st d = Ok (st, o1) -> refused o1 -> exists o2, step st' d = Ok (st', o2) /\ refused o2.
Proof.
  intros Hk (S1 & S2 & S3) H [Ho2 Ho1].
  destruct d; try discriminate Hk; cbn [Ops.step] in *;
    unfold C_Encrypt, C_EncryptUpdate, C_EncryptFinal, C_Decrypt, C_DecryptUpdate,
      C_DecryptFinal, C_Sign, C_SignUpdate, C_SignFinal, C_Verify, C_VerifyUpdate,
      C_VerifyFinal, with_obj in *; rewrite S1, S2;
    (destruct (os_curr st); [|eexists; split; [reflexivity|split; [|left]; reflexivity]]);
    destruct (os_mech st);
    try (eexists; split; [reflexivity|split; [|right]; reflexivity]);
    unfold pk_crypt, pk_sign, pk_verify, need_init in *; rewrite S3;
    (destruct (os_init st =? _)%Z; [|eexists; split; [reflexivity|split; [|left]; reflexivity]]);
    exfalso;
    unfold not_init, sized, conclude, hmac_update in H;
    inv_step; cbn in Ho1; destruct Ho1 as [Ho1|Ho1]; try discriminate Ho1;
    match goal with X : context [verdict ?b] |- _ => destruct b; discriminate end.
Qed.

Lemma C60_crypto_lemma st c st' o kd d kd' o1 :
  init_kind c = Some kd -> step st c = Ok (st', o) -> o_rv o <> CKR_OK ->
  data_kind d = Some kd' -> step st d = Ok (st, o1) -> refused o1 ->
  exists o2, step st' d = Ok (st', o2) /\ refused o2.
Proof.
  intros Hk H Ho Hd H1 R. eapply refused_same_op; eauto. eapply failed_init_keeps_op; eauto.
Qed.
End P.
