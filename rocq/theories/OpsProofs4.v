(** Independence of history (C39) and rejected ciphertexts (C33), proofs. *)
From Verif Require Import Base Cbc CbcProofs CbcSpec Ops OpsSpec OpsCbcProofs OpsProofs OpsProofs2.

Local Ltac Zify.zify_post_hook ::= Z.div_mod_to_equations.

Section P.
Variable ev : env.
Variable objs : nat -> option keyobj.
Notation step := (step ev objs).
Notation run := (run ev objs).
Notation ci := (e_ci ev).

Definition noncbc (m : mech) : bool :=
  match m with M_AES_CBC | M_AES_CBC_PAD => false | _ => true end.
Definition uses_params (m : mech) : bool :=
  match m with M_AES_GCM | M_HMAC _ | M_RSA_OAEP | M_RSA_PSS => true | _ => false end.

Definition sim (s t : opst) : Prop :=
  os_init s = os_init t /\ os_mech s = os_mech t /\ os_curr s = os_curr t /\
  noncbc (os_mech s) = true /\ (uses_params (os_mech s) = true -> os_params s = os_params t).

Definition rsim (a b : res (opst * outc)) : Prop :=
  match a, b with
  | Ok (s, o), Ok (t, o') => o = o' /\ sim s t
  | Err e, Err e' => e = e'
  | Undef u, Undef u' => u = u'
  | _, _ => False
  end.

Lemma rsim_ok s t o : sim s t -> rsim (Ok (s, o)) (Ok (t, o)).
Proof. intros H. split; auto. Qed.

Lemma rsim_bind A (r : res A) f g : (forall x, r = Ok x -> rsim (f x) (g x)) -> rsim (bind r f) (bind r g).
Proof. intros H. destruct r; cbn; auto. Qed.

Lemma rsim_sized s t n b f g : sim s t -> rsim f g -> rsim (sized s n b f) (sized t n b g).
Proof.
  intros H1 H2. unfold sized. destruct b; [apply rsim_ok; auto|].
  destruct (_ <? _)%Z; [apply rsim_ok; auto|auto].
Qed.
Lemma rsim_need s t i b f g : sim s t -> rsim f g -> rsim (need_init s i b f) (need_init t i b g).
Proof.
  intros H1 H2. unfold need_init, not_init. destruct H1 as (H & H1). rewrite <- H.
  destruct (_ =? _)%Z; auto. apply rsim_ok. split; auto.
Qed.

Definition csim (a b : res (opst * Z * list N)) : Prop :=
  match a, b with
  | Ok (s, l, o), Ok (t, l', o') => l = l' /\ o = o' /\ sim s t
  | Err e, Err e' => e = e'
  | Undef u, Undef u' => u = u'
  | _, _ => False
  end.
Lemma rsim_conclude b s t x y : sim s t -> csim x y -> rsim (conclude b s x) (conclude b t y).
Proof.
  intros H1 H2. unfold conclude, csim in *.
  destruct x as [[[s1 l] o]|e|u], y as [[[t1 l'] o']|e'|u']; try contradiction.
  - destruct H2 as (-> & -> & H2). apply rsim_ok; auto.
  - apply rsim_ok. exact H1.
  - exact H2.
Qed.
Lemma csim_bind A (r : res A) f g : (forall x, r = Ok x -> csim (f x) (g x)) -> csim (bind r f) (bind r g).
Proof. intros H. destruct r; cbn; auto. Qed.

Lemma sim_set s t p :
  sim s t -> sim (set_params s p) (set_params t p).
Proof. intros (A & B & C & D & E). repeat split; auto. Qed.

Lemma get_pk_sim m s t : sim s t -> os_mech s = m -> get_pk m s = get_pk m t.
Proof.
  intros (A & B & C & D & E) <-. unfold get_pk. destruct (os_mech s); auto;
    rewrite (E eq_refl); reflexivity.
Qed.

Lemma pk_after_sim m s t : sim s t -> os_mech s = m -> sim (pk_after m s) (pk_after m t).
Proof.
  intros H <-. unfold pk_after. destruct (os_mech s) eqn:Em; auto.
  destruct H as (A & B & C & D & E). rewrite Em in E. rewrite <- (E eq_refl).
  assert (S : sim s t) by (repeat split; auto; rewrite Em; auto).
  destruct (os_params s); try exact S. apply sim_set. exact S.
Qed.

Lemma pk_crypt_sim f m i s t k rnd data b :
  sim s t -> os_mech s = m ->
  rsim (pk_crypt objs f m i s k rnd data b) (pk_crypt objs f m i t k rnd data b).
Proof.
  intros H Hm. unfold pk_crypt. apply rsim_need; auto. apply rsim_bind; intros ko _.
  apply rsim_sized; auto. rewrite (get_pk_sim m s t H Hm). apply rsim_bind; intros pp _.
  apply rsim_conclude; auto. apply csim_bind; intros o _.
  split; [reflexivity|]. split; [reflexivity|]. apply pk_after_sim; auto.
Qed.
Lemma pk_sign_sim m i s t k rnd data b :
  sim s t -> os_mech s = m ->
  rsim (pk_sign ev objs m i s k rnd data b) (pk_sign ev objs m i t k rnd data b).
Proof.
  intros H Hm. unfold pk_sign. apply rsim_need; auto. apply rsim_bind; intros ko _.
  apply rsim_sized; auto. rewrite (get_pk_sim m s t H Hm). apply rsim_bind; intros pp _.
  destruct (e_pk_sign _ _ _ _ _ _); try reflexivity; apply rsim_ok; auto.
Qed.
Lemma pk_verify_sim m i s t k data sig :
  sim s t -> os_mech s = m ->
  rsim (pk_verify ev objs m i s k data sig) (pk_verify ev objs m i t k data sig).
Proof.
  intros H Hm. unfold pk_verify. apply rsim_need; auto. apply rsim_bind; intros ko _.
  rewrite (get_pk_sim m s t H Hm). apply rsim_bind; intros pp _.
  destruct (e_pk_verify _ _ _ _ _ _); try reflexivity; apply rsim_ok; auto.
Qed.

Lemma with_obj_sim s t b f g :
  sim s t -> (forall k, rsim (f k) (g k)) -> rsim (with_obj s b f) (with_obj t b g).
Proof.
  intros H Hf. unfold with_obj, not_init. pose proof H as (_ & _ & <- & _).
  destruct (os_curr s); auto. apply rsim_ok; auto.
Qed.

Lemma get_gcm_sim s t : sim s t -> os_mech s = M_AES_GCM -> get_gcm s = get_gcm t.
Proof. intros (A & B & C & D & E) Hm. unfold get_gcm. rewrite Hm in E. rewrite (E eq_refl). reflexivity. Qed.
Lemma get_hmac_sim s t h : sim s t -> os_mech s = M_HMAC h -> get_hmac s = get_hmac t.
Proof. intros (A & B & C & D & E) Hm. unfold get_hmac. rewrite Hm in E. rewrite (E eq_refl). reflexivity. Qed.

Lemma hmac_done_sim s t h : sim s t -> sim (hmac_done ev s h) (hmac_done ev t h).
Proof. intros (A & B & C & D & E). repeat split; auto. Qed.
Lemma hmac_update_sim s t d h :
  sim s t -> os_mech s = M_HMAC h -> rsim (hmac_update ev s d) (hmac_update ev t d).
Proof.
  intros H Hm. unfold hmac_update. rewrite (get_hmac_sim s t h H Hm). apply rsim_bind; intros x _.
  apply rsim_ok. destruct H as (A & B & C & D & E). repeat split; auto.
Qed.

Ltac rs :=
  repeat first
  [ apply pk_crypt_sim; assumption
  | apply pk_sign_sim; assumption
  | apply pk_verify_sim; assumption
  | apply rsim_need; [assumption|]
  | apply rsim_bind; intros
  | apply rsim_sized; [assumption|]
  | apply rsim_conclude; [first [assumption|apply sim_set; assumption]|]
  | apply csim_bind; intros
  | apply rsim_ok; assumption ].

Lemma step_sim s t c kd : data_kind c = Some kd -> sim s t -> rsim (step s c) (step t c).
Proof.
  intros Hk H.
  assert (Hm : os_mech t = os_mech s) by (symmetry; apply H).
  assert (Hn : noncbc (os_mech s) = true) by apply H.
  destruct c; try discriminate Hk; cbn [Ops.step];
    unfold C_Encrypt, C_EncryptUpdate, C_EncryptFinal, C_Decrypt, C_DecryptUpdate, C_DecryptFinal,
      C_Sign, C_SignUpdate, C_SignFinal, C_Verify, C_VerifyUpdate, C_VerifyFinal;
    apply with_obj_sim; auto; intros k; rewrite Hm; destruct (os_mech s) eqn:Em;
    try discriminate Hn; rs; rewrite <- ?(get_gcm_sim s t H Em); rewrite <- ?(get_hmac_sim s t _ H Em); rs.
  all: try (match goal with |- csim (let (_, _) := ?x in _) _ => destruct x end;
            split; [reflexivity|]; split; [reflexivity|]; apply sim_set; assumption).
  all: try (split; [reflexivity|]; split; [reflexivity|]; apply sim_set; assumption).
  all: try (destruct (16 <? _)%Z; [reflexivity|apply rsim_ok; assumption]).
  all: try (apply rsim_ok; apply hmac_done_sim; assumption).
  all: try (eapply hmac_update_sim; eassumption).
  all: try (destruct b; [apply rsim_ok; assumption|]; apply rsim_bind; intros;
            destruct (_ <=? _)%Z; [reflexivity|apply rsim_ok; apply sim_set; assumption]).
Qed.

Lemma run_sim cs : forall s t s' os,
  Forall (fun c => data_kind c <> None) cs -> sim s t ->
  run s cs = Ok (s', os) -> exists t', run t cs = Ok (t', os).
Proof.
  induction cs as [|c cs IH]; intros s t s' os HF H R; cbn [Ops.run] in *.
  - injection R as <- <-. eauto.
  - inversion_clear HF as [|? ? H1 H2]. destruct (data_kind c) as [kd|] eqn:Hk; [|congruence].
    pose proof (step_sim s t c kd Hk H) as S.
    destruct (step s c) as [[s1 o]|e|u]; cbn [bind] in R; try discriminate.
    destruct (step t c) as [[t1 o']|e|u]; try contradiction. destruct S as [<- S]. cbn [bind].
    destruct (run s1 cs) as [[s2 os2]|e|u] eqn:E2; cbn [bind] in R; try discriminate.
    injection R as <- <-. destruct (IH _ _ _ _ H2 S E2) as [t' ->]. cbn [bind]. eauto.
Qed.

Lemma init_sim s t c m s1 o :
  init_mech c = Some m -> noncbc m = true -> step s c = Ok (s1, o) -> o_rv o = CKR_OK ->
  exists t1, step t c = Ok (t1, o) /\ sim s1 t1.
Proof.
  intros Hk Hn H Hrv.
  destruct c; try discriminate Hk; cbn [init_mech] in Hk; injection Hk as ->;
    cbn [Ops.step] in *; unfold init_call in *;
    (destruct (objs k) as [ko|] eqn:Ho; [|inv_step; discriminate]);
    unfold C_EncryptInit, C_DecryptInit, C_SignInit, C_VerifyInit in *; destruct m; try discriminate Hn;
    unfold rsa_noparam, oaep_init, pss_init, cbc_init, gcm_init, hmac_init, ecdsa_init,
      SetGcmParams, SetOaepParams, SetPssParams, Hmac_Init in *;
    inv_step; inv_pair; try discriminate; cbn [bind];
    try (eexists; split; [reflexivity|]; repeat split; cbn; auto; discriminate).
Qed.

Lemma C39_lemma s t ci m cs s' o os :
  init_mech ci = Some m -> noncbc m = true ->
  Forall (fun c => data_kind c <> None) cs ->
  run s (ci :: cs) = Ok (s', o :: os) -> o_rv o = CKR_OK ->
  exists t', run t (ci :: cs) = Ok (t', o :: os).
Proof.
  intros Hm Hn HF R Hrv. cbn [Ops.run] in *.
  destruct (step s ci) as [[s1 o1]|e|u] eqn:E1; cbn [bind] in R; try discriminate.
  destruct (run s1 cs) as [[s2 os2]|e|u] eqn:E2; cbn [bind] in R; try discriminate.
  injection R as <- <- <-.
  destruct (init_sim s t ci m s1 o1 Hm Hn E1 Hrv) as (t1 & -> & S). cbn [bind].
  destruct (run_sim cs _ _ _ _ HF S E2) as [t' ->]. cbn [bind]. eauto.
Qed.

(** ** C33: wrong total length *)
Lemma C33_lemma st k ko iv cbs nf :
  objs k = Some ko -> ko_type ko = CKK_AES -> e_aes_ok ev (ko_data ko) = true ->
  length iv = 16 -> fresh st -> fits cbs ->
  (length (concat (map fst cbs)) = 0 \/ length (concat (map fst cbs)) mod 16 <> 0) ->
  exists st' outs,
    run st (KDecryptInit M_AES_CBC_PAD (MPraw iv) k :: dec_upds cbs ++ [KDecryptFinal (Buf nf)])
      = Ok (st', outs ++ [mkOut CKR_DATA_LEN_RANGE nf []]) /\
    Forall good outs.
Proof.
  intros Hk Ht Ha Hl [Hf1 Hf2] Hfit Hbad.
  cbn [Ops.run].
  rewrite (step_init_dec ev objs M_AES_CBC_PAD st k ko iv INIT_AES_CBC_PAD_DEC) by auto. cbn [bind].
  set (st1 := init_done _ _ _ _ _).
  set (a := mkAes (ko_data ko) iv).
  assert (Hact : active st1 M_AES_CBC_PAD INIT_AES_CBC_PAD_DEC k) by (repeat split).
  assert (Hpar : os_params st1 = PCbc a) by reflexivity.
  assert (Hpart : ok_dpart (cbc_of st1 a)).
  { split; cbn; [exact Hf1|rewrite Hf2; change BLK with 16; lia]. }
  destruct (pad_dec_updates_spec ci (map fst cbs) (cbc_of st1 a) Hpart (fits_chunks _ Hfit))
    as (p1 & E1 & Hp1 & Hpend & Hkey & Hreg).
  assert (Hpn : pend (cbc_of st1 a) = []) by (apply pend_nil; exact Hf2).
  rewrite Hpn in *. cbn [app] in *.
  set (all := concat (map fst cbs)) in *.
  rewrite run_app.
  destruct (api_updates ev objs (fun c b => KDecryptUpdate c b) (WP11_AesCbcPad_DecryptUpdate ci)
              M_AES_CBC_PAD INIT_AES_CBC_PAD_DEC ok_dpart) with (cbs := cbs) (st := st1) (a := a) (k := k)
              (o := fst (cbc_dec_blocks ci (rel (length all)) (aes_key (cb_aes (cbc_of st1 a)))
                          (aes_reg (cb_aes (cbc_of st1 a))) all)) (p' := p1)
    as (outs & R & C & G & L); try assumption.
  { intros. eapply step_pad_dec; try eassumption. destruct H1 as [_ X]. exact X. }
  { apply pad_dec_update_pres. }
  assert (Hpsz : cb_psz p1 = length all - rel (length all) * 16).
  { destruct Hp1 as [H1 H2]. rewrite <- (pend_length p1) by lia.
    rewrite Hpend, skipn_length. change BLK with 16. lia. }
  assert (Hn16 : cb_psz p1 <> 16).
  { rewrite Hpsz. unfold rel. change BLK with 16. lia. }
  unfold dec_upds. rewrite R. cbn [bind Ops.run Ops.step].
  unfold C_DecryptFinal, with_obj, need_init.
  cbn [put_cbc set_part set_params os_curr os_mech os_init st1 init_done].
  cbn [Z.eqb INIT_AES_CBC_PAD_DEC Pos.eqb].
  unfold get_cbc, put_cbc, set_part, set_params. cbn [os_params os_part fst snd bind].
  unfold WP11_AesCbc_PartLen. cbn [cb_psz].
  replace (Z.of_nat (cb_psz p1) =? 16)%Z with false by lia.
  cbn [negb bind].
  eexists _, (ok0 :: outs). split; [reflexivity|]. constructor; [apply good_ok0|exact G].
Qed.

(** ** C32, one-shot calls *)
Lemma pad_oneshot_encrypt st k ko iv msg n rnd :
  objs k = Some ko -> ko_type ko = CKK_AES -> e_aes_ok ev (ko_data ko) = true ->
  length iv = 16 -> fresh st -> (zlen msg < 2^31)%Z -> (zlen msg <= n < 2^32)%Z ->
  exists st',
    run st [KEncryptInit M_AES_CBC_PAD (MPraw iv) k; KEncrypt rnd msg (Buf n)] =
    Ok (st', [ok0; mkOut CKR_OK
      (zlen (fst (cbc_enc_blocks ci (length (pad16 msg) / 16) (ko_data ko) iv (pad16 msg))))
      (fst (cbc_enc_blocks ci (length (pad16 msg) / 16) (ko_data ko) iv (pad16 msg)))]).
Proof.
  intros Hk Ht Ha Hl [Hf1 Hf2] Hm Hn. pose proof (zlen_nonneg _ msg).
  cbn [Ops.run].
  rewrite (step_init_enc ev objs M_AES_CBC_PAD st k ko iv INIT_AES_CBC_PAD_ENC) by auto. cbn [bind].
  set (st1 := init_done _ _ _ _ _). set (a := mkAes (ko_data ko) iv).
  assert (Hpart : ok_part (cbc_of st1 a)).
  { split; cbn; [exact Hf1|rewrite Hf2; change BLK with 16; lia]. }
  destruct (pad_enc_spec ci [msg] (cbc_of st1 a) Hpart) as (o1 & p1 & o2 & p2 & E1 & E2 & E3 & _).
  { constructor; [exact Hm|constructor]. }
  assert (Hpn : pend (cbc_of st1 a) = []) by (apply pend_nil; exact Hf2).
  rewrite Hpn in *. cbn [app concat] in *. rewrite app_nil_r in *. change BLK with 16 in E3.
  fold (pad16 msg) in E3. cbn [cbc_of cb_aes a aes_key aes_reg] in E3.
  cbn [Ops.step]. unfold C_Encrypt, with_obj, need_init.
  cbn [st1 init_done os_curr os_mech os_init Z.eqb INIT_AES_CBC_PAD_ENC Pos.eqb].
  unfold sized. rewrite !u32_small by lia. destruct (Z.ltb_spec n (zlen msg)); [lia|].
  unfold get_cbc. cbn [os_params os_part bind]. rewrite trunc32_small by lia.
  change (os_params st1) with (PCbc a). cbn [bind]. fold (cbc_of st1 a).
  rewrite pad_enc_oneshot, E1. cbn [bind]. rewrite E2. cbn [bind conclude].
  rewrite E3. eexists. reflexivity.
Qed.

Local Ltac badgood R G :=
  injection R as _ <-;
  repeat match type of G with Forall _ (_ :: _) => apply Forall_cons_iff in G;
    let X := fresh in destruct G as [X G]; destruct X as [X _]; try discriminate X end.

Lemma pad_oneshot_decrypt st k ko iv msg n rnd :
  cipher_ok ci ->
  objs k = Some ko -> ko_type ko = CKK_AES -> e_aes_ok ev (ko_data ko) = true ->
  length iv = 16 -> fresh st ->
  let ct := fst (cbc_enc_blocks ci (length (pad16 msg) / 16) (ko_data ko) iv (pad16 msg)) in
  (zlen ct < 2^31)%Z ->
  exists st',
    run st [KDecryptInit M_AES_CBC_PAD (MPraw iv) k; KDecrypt rnd ct (Buf n)] =
    Ok (st', [ok0; mkOut CKR_OK (zlen msg) msg]).
Proof.
  intros Hci Hk Ht Ha Hl [Hf1 Hf2] ct Hct. pose proof (zlen_nonneg _ ct).
  assert (Hfit : fits [(ct, zlen ct + 15)%Z]).
  { constructor; [cbn [fst snd]; lia|constructor]. }
  destruct (pad_stream_decrypt ev objs st k ko iv [(ct, zlen ct + 15)%Z] 16 msg Hci Hk Ht Ha Hl (conj Hf1 Hf2) Hfit)
    as (st' & outs & R & G & _ & C).
  { cbn [map fst concat]. apply app_nil_r. }
  cbn [dec_upds map fst snd app Ops.run] in R. cbn [Ops.run].
  rewrite (step_init_dec ev objs M_AES_CBC_PAD st k ko iv INIT_AES_CBC_PAD_DEC) in * by auto. cbn [bind] in *.
  set (st1 := init_done _ _ _ _ _) in *. set (a := mkAes (ko_data ko) iv) in *.
  assert (Hact : active st1 M_AES_CBC_PAD INIT_AES_CBC_PAD_DEC k) by (repeat split).
  assert (Hpar : os_params st1 = PCbc a) by reflexivity.
  rewrite (step_pad_dec ev objs st1 a ct (zlen ct + 15) k Hact Hpar) in R; try lia.
  2:{ cbn. rewrite Hf2. lia. }
  cbn [Ops.step]. unfold C_Decrypt, with_obj, need_init.
  cbn [st1 init_done os_curr os_mech os_init Z.eqb INIT_AES_CBC_PAD_DEC Pos.eqb].
  unfold get_cbc. cbn [os_params os_part bind]. rewrite trunc32_small by lia.
  change (os_params st1) with (PCbc a). cbn [bind]. fold (cbc_of st1 a).
  unfold WP11_AesCbcPad_Decrypt.
  destruct (WP11_AesCbcPad_DecryptUpdate ci (cbc_of st1 a) ct) as [[o1 p1]|e|u]; cbn [bind conclude] in R.
  2:{ match type of R with bind (bind ?x _) _ = _ => destruct x as [[? ?]|?|?]; cbn [bind] in R; try discriminate end.
      badgood R G. }
  2:{ discriminate. }
  cbn [Ops.run Ops.step] in R. unfold C_DecryptFinal, with_obj, need_init in R.
  cbn [put_cbc set_part set_params os_curr os_mech os_init st1 init_done] in R.
  cbn [Z.eqb INIT_AES_CBC_PAD_DEC Pos.eqb] in R.
  unfold get_cbc, put_cbc, set_part, set_params in R. cbn [os_params os_part fst snd bind] in R.
  replace (mkCbc (cb_aes p1) (cb_partial p1) (cb_psz p1)) with p1 in R by (destruct p1; reflexivity).
  destruct (negb _).
  { cbn [bind] in R. badgood R G. }
  cbn [bind]. destruct (WP11_AesCbcPad_DecryptFinal ci p1) as [[o2 p2]|e|u]; cbn [bind conclude] in R.
  2:{ badgood R G. }
  2:{ discriminate. }
  injection R as _ <-. cbn [map o_out concat app ok0] in C. rewrite app_nil_r in C.
  cbn [bind conclude]. rewrite C. eexists. reflexivity.
Qed.

End P.
