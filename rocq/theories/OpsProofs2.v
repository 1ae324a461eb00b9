(** Properties of operation histories (proofs, part 2). *)
From Verif Require Import Base Cbc CbcProofs CbcSpec Ops OpsSpec OpsCbcProofs OpsProofs.

Local Ltac Zify.zify_post_hook ::= Z.div_mod_to_equations.

Section P.
Variable ev : env.
Variable objs : nat -> option keyobj.
Notation step := (step ev objs).
Notation run := (run ev objs).
Notation ci := (e_ci ev).

(** ** C38: finishing calls *)
Lemma finishing_kind c : finishing c = true -> exists kd, data_kind c = Some kd.
Proof. destruct c; cbn; intros; try discriminate; eauto. Qed.

Lemma finishing_ends st c st' o :
  ending (os_mech st) = true -> finishing c = true ->
  step st c = Ok (st', o) -> o_rv o = CKR_OK -> os_init st' = 0%Z.
Proof.
  intros He Hf H Hrv.
  destruct c; try discriminate Hf; try (destruct b; [discriminate Hf|]); cbn [Ops.step] in H;
    unfold C_Encrypt, C_EncryptFinal, C_Decrypt, C_DecryptFinal, C_Sign, C_SignFinal,
      C_Verify, C_VerifyFinal, with_obj, need_init, not_init, sized, conclude in H;
    (destruct (os_curr st); [|inv_step; discriminate]);
    destruct (os_mech st); try discriminate He; inv_step; try reflexivity; try discriminate.
Qed.

(** A successful finishing call had a matching mechanism, so a further call of
    the same kind meets the operation-code test. *)
Definition kind_mech (kd : kind) (m : mech) : bool :=
  match kd, m with
  | KdEnc, (M_AES_CBC | M_AES_CBC_PAD) | KdDec, (M_AES_CBC | M_AES_CBC_PAD) => true
  | KdSign, M_HMAC _ | KdVerify, M_HMAC _ => true
  | _, _ => false
  end.

Lemma finishing_mech st c st' o kd :
  ending (os_mech st) = true -> data_kind c = Some kd ->
  step st c = Ok (st', o) -> o_rv o = CKR_OK -> kind_mech kd (os_mech st) = true.
Proof.
  intros He Hk H Hrv.
  destruct c; try discriminate Hk; cbn in Hk; injection Hk as <-; cbn [Ops.step] in H;
    unfold C_Encrypt, C_EncryptUpdate, C_EncryptFinal, C_Decrypt, C_DecryptUpdate,
      C_DecryptFinal, C_Sign, C_SignUpdate, C_SignFinal, C_Verify, C_VerifyUpdate,
      C_VerifyFinal, with_obj, not_init in H;
    (destruct (os_curr st); [|inv_step; discriminate]);
    destruct (os_mech st); try discriminate He; try reflexivity;
    inv_step; discriminate.
Qed.

Lemma ended_not_init st c kd k :
  os_init st = 0%Z -> os_curr st = Some k -> kind_mech kd (os_mech st) = true ->
  data_kind c = Some kd ->
  exists o, step st c = Ok (st, o) /\ o_rv o = CKR_OPERATION_NOT_INITIALIZED /\ o_out o = [].
Proof.
  intros Hi Hc Hm Hk.
  destruct c; try discriminate Hk; cbn in Hk; injection Hk as <-; cbn [Ops.step];
    unfold C_Encrypt, C_EncryptUpdate, C_EncryptFinal, C_Decrypt, C_DecryptUpdate,
      C_DecryptFinal, C_Sign, C_SignUpdate, C_SignFinal, C_Verify, C_VerifyUpdate,
      C_VerifyFinal, with_obj, need_init, not_init; rewrite Hc;
    destruct (os_mech st); try discriminate Hm; rewrite Hi; cbn;
    eexists; (split; [reflexivity|]); split; reflexivity.
Qed.

Lemma step_curr st c st' o kd :
  data_kind c = Some kd -> step st c = Ok (st', o) -> o_rv o = CKR_OK -> exists k, os_curr st = Some k.
Proof.
  intros Hk H Hrv. destruct (os_curr st) as [k|] eqn:E; [eauto|].
  destruct (wrong_kind_refused ev objs st c kd Hk) as (o' & H' & [_ R]); [left; exact E|].
  rewrite H in H'. injection H' as -> <-. rewrite Hrv in R. destruct R; discriminate.
Qed.

Lemma init_sets_mech st c st' o m :
  init_mech c = Some m -> step st c = Ok (st', o) ->
  os_mech st' = if (o_rv o =? CKR_OK)%Z then m else os_mech st.
Proof.
  intros Hk H.
  destruct c; try discriminate Hk; cbn [init_mech] in Hk; injection Hk as ->;
    cbn [Ops.step] in H; unfold init_call in H;
    (destruct (objs k) as [ko|] eqn:Ho; [|inv_step; reflexivity]);
    unfold C_EncryptInit, C_DecryptInit, C_SignInit, C_VerifyInit in H; destruct m;
    unfold rsa_noparam, oaep_init, pss_init, cbc_init, gcm_init, hmac_init, ecdsa_init,
      SetGcmParams in H;
    inv_step; inv_pair; reflexivity.
Qed.

Lemma reopen_mech st st' : op_session_final st = Ok st' -> os_mech st' = os_mech st.
Proof.
  unfold op_session_final. intros H. destruct (os_mech st) eqn:E; inv_step; try exact E;
    destruct (os_init st =? 0)%Z; cbn; congruence.
Qed.

Lemma mech_step st c st' o :
  step st c = Ok (st', o) -> os_mech st' = last_mech (os_mech st) [(c, o)].
Proof.
  intros H. cbn [last_mech].
  destruct (init_mech c) as [m|] eqn:Hm.
  - apply (init_sets_mech _ _ _ _ _ Hm H).
  - destruct (call_cases c) as [[kd Hk]|[[kd Hk]| ->]].
    + destruct c; discriminate.
    + apply (step_data_frame _ _ _ _ _ _ _ Hk H).
    + cbn [Ops.step] in H. inv_step. apply reopen_mech. assumption.
Qed.

Lemma mech_run st cs st' os :
  run st cs = Ok (st', os) -> os_mech st' = last_mech (os_mech st) (combine cs os).
Proof.
  revert st os. induction cs as [|c cs IH]; intros st os H; cbn [Ops.run] in H.
  - inv_step. reflexivity.
  - destruct (step st c) as [[st1 o]|e|u] eqn:E; cbn [bind] in H; try discriminate.
    destruct (run st1 cs) as [[st2 os2]|e|u] eqn:E2; cbn [bind] in H; try discriminate.
    injection H as <- <-. rewrite (IH _ _ E2), (mech_step _ _ _ _ E). reflexivity.
Qed.

Lemma C38_lemma cs st os fin st1 o1 nxt :
  run op_zero cs = Ok (st, os) ->
  ending (last_mech (M_OTHER 0) (combine cs os)) = true ->
  finishing fin = true -> step st fin = Ok (st1, o1) -> o_rv o1 = CKR_OK ->
  data_kind nxt = data_kind fin ->
  exists o2, step st1 nxt = Ok (st1, o2) /\
             o_rv o2 = CKR_OPERATION_NOT_INITIALIZED /\ o_out o2 = [].
Proof.
  intros R He Hf H Hrv Hk.
  change (M_OTHER 0) with (os_mech op_zero) in He. rewrite <- (mech_run _ _ _ _ R) in He.
  destruct (finishing_kind _ Hf) as [kd Hkd]. rewrite Hkd in Hk.
  destruct (step_data_frame _ _ _ _ _ _ _ Hkd H) as (F1 & F2 & _).
  destruct (step_curr _ _ _ _ _ Hkd H Hrv) as [k Hc].
  eapply ended_not_init; try eassumption.
  - eapply finishing_ends; eassumption.
  - rewrite F1. exact Hc.
  - rewrite F2. eapply finishing_mech; eassumption.
Qed.

(** ** C41 HMAC *)
Lemma hmac_init_ok st h k ko i :
  ko_type ko = CKK_GENERIC_SECRET -> e_hmac_ok ev h (ko_data ko) = true ->
  exists q, hmac_init ev st h k ko MPnull i =
    (mkOp i (M_HMAC h) (Some k) (PHmac (mkHm h (ko_data ko) [] (hmac_sz h))) q, CKR_OK).
Proof.
  intros Ht Hok. unfold hmac_init. rewrite Ht. cbn [Z.eqb CKK_GENERIC_SECRET Pos.eqb negb no_param].
  unfold Hmac_Init. rewrite Hok. eexists. reflexivity.
Qed.

Lemma hmac_updates chunks : forall h k d i q (sg : bool),
  Forall (fun c => (zlen c < 2^32)%Z) chunks ->
  i = (if sg then INIT_HMAC_SIGN else INIT_HMAC_VERIFY) ->
  exists q' outs,
    run (mkOp i (M_HMAC h) (Some k) (PHmac d) q)
        (map (if sg then KSignUpdate else KVerifyUpdate) chunks) =
    Ok (mkOp i (M_HMAC h) (Some k)
          (PHmac (mkHm (hm_hash d) (hm_key d) (hm_data d ++ concat chunks) (hm_sz d))) q', outs) /\
    Forall (fun o => o = mkOut CKR_OK 0 []) outs /\ length outs = length chunks.
Proof.
  induction chunks as [|c cs IH]; intros h k d i q sg HF Hi.
  - exists q, []. cbn [map Ops.run concat]. rewrite app_nil_r. destruct d; repeat split; constructor.
  - inversion_clear HF as [|? ? H1 H2]. cbn [map Ops.run].
    assert (E : step (mkOp i (M_HMAC h) (Some k) (PHmac d) q) ((if sg then KSignUpdate else KVerifyUpdate) c) =
       hmac_update ev (mkOp i (M_HMAC h) (Some k) (PHmac d) q) c).
    { subst i. destruct sg; reflexivity. }
    rewrite E. unfold hmac_update. cbn [get_hmac os_params bind]. rewrite trunc32_small by exact H1.
    unfold set_part, set_params. cbn [os_init os_mech os_curr os_part os_params].
    destruct (IH h k (mkHm (hm_hash d) (hm_key d) (hm_data d ++ c) (hm_sz d)) i
      (e_hmac_tail ev (mkHm (hm_hash d) (hm_key d) (hm_data d ++ c) (hm_sz d)) q) sg H2 Hi)
      as (q' & outs & R & F & L).
    rewrite R. cbn [bind hm_hash hm_key hm_data hm_sz].
    exists q', (mkOut CKR_OK 0 [] :: outs). cbn [concat]. rewrite app_assoc.
    split; [reflexivity|]. split; [constructor; auto|]. cbn. lia.
Qed.

Lemma hmac_sz_bound h : (0 < hmac_sz h <= 64)%Z.
Proof. destruct h; cbn; lia. Qed.

Lemma hmac_stream_sign st h k ko chunks n :
  objs k = Some ko -> ko_type ko = CKK_GENERIC_SECRET -> e_hmac_ok ev h (ko_data ko) = true ->
  Forall (fun c => (zlen c < 2^32)%Z) chunks -> (hmac_sz h <= n < 2^32)%Z ->
  exists st' outs,
    run st (KSignInit (M_HMAC h) MPnull k :: map KSignUpdate chunks ++ [KSignFinal (Buf n)]) =
    Ok (st', outs ++ [mkOut CKR_OK (hmac_sz h) (e_hmac ev h (ko_data ko) (concat chunks))]) /\
    Forall (fun o => o = mkOut CKR_OK 0 []) outs.
Proof.
  intros Hk Ht Hok HF Hn.
  destruct (hmac_init_ok st h k ko INIT_HMAC_SIGN Ht Hok) as [q E].
  cbn [Ops.run Ops.step]. unfold init_call, C_SignInit. rewrite Hk, E. cbn [bind].
  rewrite run_app.
  destruct (hmac_updates chunks h k (mkHm h (ko_data ko) [] (hmac_sz h)) INIT_HMAC_SIGN q true HF eq_refl)
    as (q' & outs & R & F & L).
  rewrite R. cbn [bind Ops.run Ops.step hm_hash hm_key hm_data hm_sz app].
  unfold C_SignFinal, with_obj, need_init. cbn [os_curr os_mech os_init].
  cbn [Z.eqb INIT_HMAC_SIGN Pos.eqb get_hmac os_params bind hm_sz].
  unfold sized. pose proof (hmac_sz_bound h).
  replace (u32 n <? hmac_sz h)%Z with false.
  2:{ symmetry. apply Z.ltb_ge. rewrite u32_small by lia. lia. }
  cbn [bind hm_hash hm_key hm_data].
  eexists _, (fail Query CKR_OK :: outs). split; [reflexivity|]. constructor; [reflexivity|exact F].
Qed.

Lemma hmac_oneshot_sign st h k ko data n rnd :
  objs k = Some ko -> ko_type ko = CKK_GENERIC_SECRET -> e_hmac_ok ev h (ko_data ko) = true ->
  (zlen data < 2^32)%Z -> (hmac_sz h <= n < 2^32)%Z ->
  exists st',
    run st [KSignInit (M_HMAC h) MPnull k; KSign rnd data (Buf n)] =
    Ok (st', [mkOut CKR_OK 0 []; mkOut CKR_OK (hmac_sz h) (e_hmac ev h (ko_data ko) data)]).
Proof.
  intros Hk Ht Hok HF Hn.
  destruct (hmac_init_ok st h k ko INIT_HMAC_SIGN Ht Hok) as [q E].
  cbn [Ops.run Ops.step]. unfold init_call, C_SignInit. rewrite Hk, E. cbn [bind].
  unfold C_Sign, with_obj, need_init. cbn [os_curr os_mech os_init].
  cbn [Z.eqb INIT_HMAC_SIGN Pos.eqb get_hmac os_params bind hm_sz].
  unfold sized. pose proof (hmac_sz_bound h).
  replace (u32 n <? hmac_sz h)%Z with false.
  2:{ symmetry. apply Z.ltb_ge. rewrite u32_small by lia. lia. }
  cbn [bind hm_hash hm_key hm_data app]. rewrite trunc32_small by exact HF.
  eexists. reflexivity.
Qed.

Lemma list_eqb_spec a b : list_eqb a b = true <-> a = b.
Proof.
  revert b; induction a as [|x a IH]; intros [|y b]; cbn; split; intros H; try discriminate; auto.
  - apply andb_prop in H. destruct H as [H1 H2]. apply N.eqb_eq in H1. apply IH in H2. congruence.
  - injection H as -> ->. rewrite N.eqb_refl. cbn. apply IH. reflexivity.
Qed.

Lemma sig_match_spec sig gen sz :
  zlen gen = sz -> (0 <= sz < 2^32)%Z -> (zlen sig < 2^32)%Z ->
  sig_match sig gen sz = true <-> sig = gen.
Proof.
  intros Hg Hs Hsig. pose proof (zlen_nonneg _ sig). unfold sig_match.
  rewrite u32_small by lia.
  split.
  - intros X. apply andb_prop in X. destruct X as [X1 X2].
    apply Z.eqb_eq in X1. apply list_eqb_spec in X2. unfold zlen in *. rewrite Nat2Z.id in X2.
    rewrite firstn_all in X2. rewrite X2. apply firstn_all2. lia.
  - intros ->. rewrite Hg, Z.eqb_refl. cbn. apply list_eqb_spec. reflexivity.
Qed.

Lemma hmac_stream_verify st h k ko chunks sig :
  (forall d, zlen (e_hmac ev h (ko_data ko) d) = hmac_sz h) ->
  objs k = Some ko -> ko_type ko = CKK_GENERIC_SECRET -> e_hmac_ok ev h (ko_data ko) = true ->
  Forall (fun c => (zlen c < 2^32)%Z) chunks -> (zlen sig < 2^32)%Z ->
  exists st' outs rv,
    run st (KVerifyInit (M_HMAC h) MPnull k :: map KVerifyUpdate chunks ++ [KVerifyFinal sig]) =
    Ok (st', outs ++ [mkOut rv 0 []]) /\
    Forall (fun o => o = mkOut CKR_OK 0 []) outs /\
    (rv = CKR_OK \/ rv = CKR_SIGNATURE_INVALID) /\
    (rv = CKR_OK <-> sig = e_hmac ev h (ko_data ko) (concat chunks)).
Proof.
  intros Hsz Hk Ht Hok HF Hs.
  destruct (hmac_init_ok st h k ko INIT_HMAC_VERIFY Ht Hok) as [q E].
  cbn [Ops.run Ops.step]. unfold init_call, C_VerifyInit. rewrite Hk, E. cbn [bind].
  rewrite run_app.
  destruct (hmac_updates chunks h k (mkHm h (ko_data ko) [] (hmac_sz h)) INIT_HMAC_VERIFY q false HF eq_refl)
    as (q' & outs & R & F & L).
  rewrite R. cbn [bind Ops.run Ops.step hm_hash hm_key hm_data hm_sz app].
  unfold C_VerifyFinal, with_obj, need_init. cbn [os_curr os_mech os_init].
  cbn [Z.eqb INIT_HMAC_VERIFY Pos.eqb get_hmac os_params bind hm_hash hm_key hm_data hm_sz].
  pose proof (hmac_sz_bound h) as Hb.
  pose proof (sig_match_spec sig (e_hmac ev h (ko_data ko) (concat chunks)) (hmac_sz h)
    (Hsz _) ltac:(lia) Hs) as SM.
  eexists _, (fail Query CKR_OK :: outs), _. split; [reflexivity|].
  split; [constructor; [reflexivity|exact F]|].
  destruct (sig_match _ _ _) eqn:Em; cbn [verdict].
  - split; [auto|]. split; intros _; [apply SM; reflexivity|reflexivity].
  - split; [auto|]. split; intros X; [discriminate|]. apply SM in X. discriminate.
Qed.

Lemma hmac_oneshot_verify st h k ko data sig :
  (forall d, zlen (e_hmac ev h (ko_data ko) d) = hmac_sz h) ->
  objs k = Some ko -> ko_type ko = CKK_GENERIC_SECRET -> e_hmac_ok ev h (ko_data ko) = true ->
  (zlen data < 2^32)%Z -> (zlen sig < 2^32)%Z ->
  exists st' rv,
    run st [KVerifyInit (M_HMAC h) MPnull k; KVerify data sig] =
    Ok (st', [mkOut CKR_OK 0 []; mkOut rv 0 []]) /\
    (rv = CKR_OK \/ rv = CKR_SIGNATURE_INVALID) /\
    (rv = CKR_OK <-> sig = e_hmac ev h (ko_data ko) data).
Proof.
  intros Hsz Hk Ht Hok HF Hs.
  destruct (hmac_init_ok st h k ko INIT_HMAC_VERIFY Ht Hok) as [q E].
  cbn [Ops.run Ops.step]. unfold init_call, C_VerifyInit. rewrite Hk, E. cbn [bind].
  unfold C_Verify, with_obj, need_init. cbn [os_curr os_mech os_init].
  cbn [Z.eqb INIT_HMAC_VERIFY Pos.eqb get_hmac os_params bind hm_hash hm_key hm_data hm_sz app].
  rewrite trunc32_small by exact HF.
  pose proof (hmac_sz_bound h) as Hb.
  pose proof (sig_match_spec sig (e_hmac ev h (ko_data ko) data) (hmac_sz h)
    (Hsz _) ltac:(lia) Hs) as SM.
  eexists _, _. split; [reflexivity|].
  destruct (sig_match _ _ _) eqn:Em; cbn [verdict].
  - split; [auto|]. split; intros _; [apply SM; reflexivity|reflexivity].
  - split; [auto|]. split; intros X; [discriminate|]. apply SM in X. discriminate.
Qed.

(** ** C35 AES-GCM decryption *)
Lemma gcm_init_ok st k ko iv aad tb i :
  ko_type ko = CKK_AES -> (zlen iv <= 16)%Z -> (0 <= tb <= 128)%Z ->
  (match aad with Some a => (zlen a < 2^31)%Z | None => True end) ->
  exists asz,
  gcm_init st k ko (MPgcm iv aad tb) i =
  Ok (mkOp i M_AES_GCM (Some k) (PGcm (mkGcm iv aad asz tb zero_block [])) (os_part st), CKR_OK) /\
  asz = match aad with Some a => zlen a | None => 0%Z end.
Proof.
  intros Ht Hiv Htb Haad. unfold gcm_init. rewrite Ht. cbn [Z.eqb CKK_AES Pos.eqb negb].
  unfold SetGcmParams.
  assert (I : forall z, (0 <= z < 2^31)%Z -> i32 z = z).
  { intros z Hz. unfold i32. rewrite Z.mod_small by lia. destruct (Z.ltb_spec z (2^31)); lia. }
  pose proof (zlen_nonneg _ iv).
  rewrite (I tb), (I (zlen iv)) by lia.
  replace (128 <? tb)%Z with false by lia. replace (16 <? zlen iv)%Z with false by lia.
  replace (zlen iv <? 0)%Z with false by lia. cbn [orb].
  destruct aad as [a|].
  - pose proof (zlen_nonneg _ a). rewrite (I (zlen a)) by lia. replace (zlen a <? 0)%Z with false by lia.
    cbn [bind]. eexists. split; reflexivity.
  - cbn [bind]. eexists. split; reflexivity.
Qed.

Lemma gcm_dec_updates cbs : forall k g q,
  (zlen (g_enc g) + zlen (concat (map fst cbs)) < 2^31)%Z ->
  exists outs,
    run (mkOp INIT_AES_GCM_DEC M_AES_GCM (Some k) (PGcm g) q) (dec_upds cbs) =
    Ok (mkOp INIT_AES_GCM_DEC M_AES_GCM (Some k)
          (PGcm (mkGcm (g_iv g) (g_aad g) (g_aadSz g) (g_tagBits g) (g_authTag g)
                       (g_enc g ++ concat (map fst cbs)))) q, outs) /\
    Forall (fun o => o = mkOut CKR_OK 0 []) outs /\ length outs = length cbs.
Proof.
  induction cbs as [|[c n] cbs IH]; intros k g q Hs.
  - exists []. cbn [map concat dec_upds Ops.run]. rewrite app_nil_r. destruct g; repeat split; constructor.
  - cbn [map concat fst] in Hs. rewrite zlen_app in Hs.
    pose proof (zlen_nonneg _ (g_enc g)). pose proof (zlen_nonneg _ c).
    pose proof (zlen_nonneg _ (concat (map fst cbs))).
    cbn [dec_upds map Ops.run Ops.step fst snd]. fold (dec_upds cbs).
    unfold C_DecryptUpdate, with_obj, need_init.
    cbn [os_curr os_mech os_init Z.eqb INIT_AES_GCM_DEC Pos.eqb get_gcm os_params bind].
    rewrite trunc32_small by lia.
    destruct (Z.leb_spec (2^31) (zlen (g_enc g) + zlen c)); [lia|].
    unfold set_params. cbn [bind os_init os_mech os_curr os_part].
    destruct (IH k (mkGcm (g_iv g) (g_aad g) (g_aadSz g) (g_tagBits g) (g_authTag g) (g_enc g ++ c)) q)
      as (outs & R & F & L).
    { cbn [g_enc]. rewrite zlen_app. lia. }
    rewrite R. cbn [bind g_iv g_aad g_aadSz g_tagBits g_authTag g_enc].
    exists (mkOut CKR_OK 0 [] :: outs). cbn [map concat fst]. rewrite app_assoc.
    split; [reflexivity|]. split; [constructor; auto|]. cbn. lia.
Qed.

Lemma tagbytes tb iv aad asz at_ en : (0 <= tb <= 128)%Z ->
  tag_bytes (mkGcm iv aad asz tb at_ en) = (tb / 8)%Z /\ u32 (tb / 8) = (tb / 8)%Z /\ (0 <= tb / 8 <= 16)%Z.
Proof.
  intros H. unfold tag_bytes. cbn [g_tagBits].
  assert (Z.quot tb 8 = tb / 8)%Z by (apply Z.quot_div_nonneg; lia).
  assert (0 <= tb / 8 <= 16)%Z by lia.
  repeat split; try lia. apply u32_small. lia.
Qed.

(** What decryption of [data] (ciphertext followed by tag) must yield. *)
Definition gcm_open (key iv : list N) (aad : option (list N)) (tb : Z) (data : list N) : res (list N) :=
  let n := Z.to_nat (zlen data - tb / 8) in
  e_gcm_dec ev key iv aad (match aad with Some a => zlen a | None => 0%Z end)
            (firstn n data) (skipn n data).

Definition gcm_expect (r : res (list N)) (n : Z) : outc :=
  match r with
  | Ok p => mkOut CKR_OK (zlen p) p
  | _ => mkOut CKR_FUNCTION_FAILED n []
  end.

Lemma gcm_call_dec_open k ko iv aad asz tb at_ data en :
  objs k = Some ko -> e_gcm_ok ev (ko_data ko) = true -> (0 <= tb <= 128)%Z ->
  asz = match aad with Some a => zlen a | None => 0%Z end ->
  (tb / 8 <= zlen data)%Z ->
  gcm_call_dec ev (mkGcm iv aad asz tb at_ en) ko data = gcm_open (ko_data ko) iv aad tb data.
Proof.
  intros Hk Hok Htb -> Hd. unfold gcm_call_dec, gcm_open.
  destruct (tagbytes tb iv aad (match aad with Some a => zlen a | None => 0%Z end) at_ en Htb) as (T1 & T2 & T3).
  rewrite T1, T2, Hok. cbn [negb].
  destruct (Z.ltb_spec 16 (tb / 8)); [lia|]. destruct (Z.ltb_spec (zlen data) (tb / 8)); [lia|].
  reflexivity.
Qed.

Lemma gcm_stream_decrypt st k ko iv aad tb cbs n :
  objs k = Some ko -> ko_type ko = CKK_AES -> e_gcm_ok ev (ko_data ko) = true ->
  (forall key iv aad asz c t u, e_gcm_dec ev key iv aad asz c t <> Undef u) ->
  (zlen iv <= 16)%Z -> (0 <= tb <= 128)%Z ->
  (match aad with Some a => (zlen a < 2^31)%Z | None => True end) ->
  let data := concat (map fst cbs) in
  (zlen data < 2^31)%Z -> (tb / 8 <= zlen data)%Z -> (zlen data - tb / 8 <= n < 2^32)%Z ->
  exists st' outs,
    run st (KDecryptInit M_AES_GCM (MPgcm iv aad tb) k :: dec_upds cbs ++ [KDecryptFinal (Buf n)]) =
    Ok (st', outs ++ [gcm_expect (gcm_open (ko_data ko) iv aad tb data) n]) /\
    Forall (fun o => o = mkOut CKR_OK 0 []) outs.
Proof.
  intros Hk Ht Hok Hnu Hiv Htb Ha data Hd Hlen Hn.
  destruct (gcm_init_ok st k ko iv aad tb INIT_AES_GCM_DEC Ht Hiv Htb Ha) as (asz & E & Hasz).
  cbn [Ops.run Ops.step]. unfold init_call, C_DecryptInit. rewrite Hk, E. cbn [bind].
  rewrite run_app.
  destruct (gcm_dec_updates cbs k (mkGcm iv aad asz tb zero_block []) (os_part st)) as (outs & R & F & L).
  { cbn [g_enc]. rewrite zlen_nil. fold data. lia. }
  rewrite R. cbn [bind Ops.run Ops.step g_iv g_aad g_aadSz g_tagBits g_authTag g_enc app]. fold data.
  unfold C_DecryptFinal, with_obj, need_init.
  cbn [os_curr os_mech os_init Z.eqb INIT_AES_GCM_DEC Pos.eqb get_gcm os_params bind g_enc].
  destruct (tagbytes tb iv aad asz zero_block data Htb) as (T1 & T2 & T3). rewrite T1.
  unfold sized. rewrite (u32_small (zlen data - tb / 8)), (u32_small n) by lia.
  destruct (Z.ltb_spec n (zlen data - tb / 8)); [lia|].
  unfold deref. rewrite Hk. cbn [bind].
  rewrite (gcm_call_dec_open k) by assumption.
  destruct (gcm_open (ko_data ko) iv aad tb data) as [p|e|u] eqn:Eo; cbn [bind conclude gcm_expect].
  - eexists _, (fail Query CKR_OK :: outs). split; [reflexivity|]. constructor; [reflexivity|exact F].
  - eexists _, (fail Query CKR_OK :: outs). split; [reflexivity|]. constructor; [reflexivity|exact F].
  - exfalso. unfold gcm_open in Eo. eapply Hnu. exact Eo.
Qed.

Lemma gcm_oneshot_decrypt st k ko iv aad tb data n rnd :
  objs k = Some ko -> ko_type ko = CKK_AES -> e_gcm_ok ev (ko_data ko) = true ->
  (forall key iv aad asz c t u, e_gcm_dec ev key iv aad asz c t <> Undef u) ->
  (zlen iv <= 16)%Z -> (0 <= tb <= 128)%Z ->
  (match aad with Some a => (zlen a < 2^31)%Z | None => True end) ->
  (zlen data < 2^31)%Z -> (tb / 8 <= zlen data)%Z -> (zlen data - tb / 8 <= n < 2^32)%Z ->
  exists st',
    run st [KDecryptInit M_AES_GCM (MPgcm iv aad tb) k; KDecrypt rnd data (Buf n)] =
    Ok (st', [mkOut CKR_OK 0 []; gcm_expect (gcm_open (ko_data ko) iv aad tb data) n]).
Proof.
  intros Hk Ht Hok Hnu Hiv Htb Ha Hd Hlen Hn.
  destruct (gcm_init_ok st k ko iv aad tb INIT_AES_GCM_DEC Ht Hiv Htb Ha) as (asz & E & Hasz).
  cbn [Ops.run Ops.step]. unfold init_call, C_DecryptInit. rewrite Hk, E. cbn [bind].
  unfold C_Decrypt, with_obj, need_init.
  cbn [os_curr os_mech os_init Z.eqb INIT_AES_GCM_DEC Pos.eqb get_gcm os_params bind].
  destruct (tagbytes tb iv aad asz zero_block [] Htb) as (T1 & T2 & T3). rewrite T1.
  unfold sized. rewrite (u32_small (zlen data - tb / 8)), (u32_small n) by lia.
  destruct (Z.ltb_spec n (zlen data - tb / 8)); [lia|].
  unfold deref. rewrite Hk. cbn [bind]. rewrite trunc32_small by lia.
  rewrite (gcm_call_dec_open k) by assumption.
  destruct (gcm_open (ko_data ko) iv aad tb data) as [p|e|u] eqn:Eo; cbn [bind conclude gcm_expect].
  - eexists. reflexivity.
  - eexists. reflexivity.
  - exfalso. unfold gcm_open in Eo. eapply Hnu. exact Eo.
Qed.

(** In any state: a GCM decryption call that outputs anything has had a
    successful tag verification producing exactly that output. *)
Lemma gcm_dec_output st c st' o :
  os_mech st = M_AES_GCM -> data_kind c = Some KdDec ->
  step st c = Ok (st', o) -> o_out o <> [] ->
  exists key iv aad asz ct tag, e_gcm_dec ev key iv aad asz ct tag = Ok (o_out o).
Proof.
  intros Hm Hk H Ho.
  destruct c; try discriminate Hk; cbn [Ops.step] in H.
  - unfold C_Decrypt, with_obj, not_init, need_init, not_init in H. rewrite Hm in H.
    inv_step; try (exfalso; apply Ho; reflexivity).
    unfold sized, conclude in H.
    inv_step; try (exfalso; apply Ho; reflexivity).
    match goal with X : gcm_call_dec _ _ _ _ = Ok _ |- _ => unfold gcm_call_dec in X end.
    inv_step. cbn [o_out]. eauto 10.
  - unfold C_DecryptUpdate, with_obj, not_init, need_init, not_init in H. rewrite Hm in H.
    inv_step; exfalso; apply Ho; reflexivity.
  - unfold C_DecryptFinal, with_obj, not_init, need_init, not_init in H. rewrite Hm in H.
    inv_step; try (exfalso; apply Ho; reflexivity).
    unfold sized, conclude in H.
    inv_step; try (exfalso; apply Ho; reflexivity).
    match goal with X : gcm_call_dec _ _ _ _ = Ok _ |- _ => unfold gcm_call_dec in X end.
    inv_step. cbn [o_out]. eauto 10.
Qed.

(** ** C36: one Update followed by Final equals one-shot *)
Lemma gcm_single_update st k ko iv aad tb data n nf rnd no :
  env_sizes ev ->
  objs k = Some ko -> ko_type ko = CKK_AES ->
  (zlen iv <= 16)%Z -> (0 <= tb <= 128)%Z ->
  (match aad with Some a => (zlen a < 2^31)%Z | None => True end) ->
  (zlen data < 2^31)%Z -> (zlen data <= n < 2^32)%Z -> (tb / 8 <= nf < 2^32)%Z ->
  (zlen data + tb / 8 <= no < 2^32)%Z ->
  forall st1 o1,
  run st [KEncryptInit M_AES_GCM (MPgcm iv aad tb) k; KEncrypt rnd data (Buf no)] =
    Ok (st1, [mkOut CKR_OK 0 []; o1]) -> o_rv o1 = CKR_OK ->
  exists st2 o2 o3,
    run st [KEncryptInit M_AES_GCM (MPgcm iv aad tb) k; KEncryptUpdate data (Buf n);
            KEncryptFinal (Buf nf)] = Ok (st2, [mkOut CKR_OK 0 []; o2; o3]) /\
    o_rv o2 = CKR_OK /\ o_rv o3 = CKR_OK /\ o_out o2 ++ o_out o3 = o_out o1.
Proof.
  intros Hs Hk Ht Hiv Htb Ha Hd Hn Hnf Hno st1 o1 R Hrv.
  pose proof (zlen_nonneg _ data).
  destruct (gcm_init_ok st k ko iv aad tb INIT_AES_GCM_ENC Ht Hiv Htb Ha) as (asz & E & Hasz).
  cbn [Ops.run Ops.step] in *. unfold init_call, C_EncryptInit in *. rewrite Hk, E in *. cbn [bind] in *.
  unfold C_Encrypt, with_obj, need_init in R.
  cbn [os_curr os_mech os_init Z.eqb INIT_AES_GCM_ENC Pos.eqb get_gcm os_params bind] in R.
  unfold C_EncryptUpdate, with_obj, need_init.
  cbn [os_curr os_mech os_init Z.eqb INIT_AES_GCM_ENC Pos.eqb get_gcm os_params bind].
  destruct (tagbytes tb iv aad asz zero_block [] Htb) as (T1 & T2 & T3). rewrite T1 in R.
  unfold sized in *. rewrite (u32_small (zlen data + tb / 8)), (u32_small no) in R by lia.
  rewrite (u32_small n), (u32_small (zlen data)) by lia.
  destruct (Z.ltb_spec no (zlen data + tb / 8)); [lia|].
  destruct (Z.ltb_spec n (zlen data)); [lia|].
  unfold deref in *. rewrite Hk in *. cbn [bind] in *. rewrite trunc32_small in * by lia.
  destruct (gcm_call_enc ev (mkGcm iv aad asz tb zero_block []) ko data) as [[c t]|e|u] eqn:Eg;
    cbn [bind conclude] in *.
  2:{ injection R as _ <-. discriminate. }
  2:{ discriminate. }
  unfold gcm_call_enc in Eg. rewrite T1, T2 in Eg. cbn [g_iv g_aad g_aadSz] in Eg.
  destruct (e_gcm_ok ev (ko_data ko)); [|discriminate].
  destruct (es_genc _ Hs _ _ _ _ _ _ _ _ Eg) as (L1 & L2 & L3).
  injection R as _ <-. cbn [o_out o_rv].
  unfold C_EncryptFinal, with_obj, need_init, set_params.
  cbn [os_curr os_mech os_init Z.eqb INIT_AES_GCM_ENC Pos.eqb get_gcm os_params bind g_iv g_aadSz g_tagBits g_authTag g_enc].
  destruct (tagbytes tb iv None asz (blit zero_block 0 t) [] Htb) as (T1' & _). rewrite T1', T2.
  unfold sized. rewrite (u32_small nf) by lia. destruct (Z.ltb_spec nf (tb / 8)); [lia|].
  destruct (Z.ltb_spec 16 (tb / 8)); [lia|]. cbn [bind g_authTag].
  eexists _, _, _. split; [reflexivity|]. cbn [o_rv o_out]. split; [reflexivity|]. split; [reflexivity|].
  f_equal. unfold blit. cbn [firstn app].
  rewrite <- L2. unfold zlen. rewrite Nat2Z.id. apply firstn_app_len. reflexivity.
Qed.

(** What multi-part encryption really computes: every Update is a separate GCM
    encryption under the same IV. *)
Lemma gcm_update_restarts st k ko iv aad tb d1 d2 n1 n2 c1 t1 c2 t2 :
  let asz := match aad with Some a => zlen a | None => 0%Z end in
  objs k = Some ko -> ko_type ko = CKK_AES -> e_gcm_ok ev (ko_data ko) = true ->
  (zlen iv <= 16)%Z -> (0 <= tb <= 128)%Z ->
  (match aad with Some a => (zlen a < 2^31)%Z | None => True end) ->
  (zlen d1 <= n1 < 2^32)%Z -> (zlen d2 <= n2 < 2^32)%Z ->
  e_gcm_enc ev (ko_data ko) iv aad asz d1 (tb / 8) = Ok (c1, t1) ->
  e_gcm_enc ev (ko_data ko) iv None asz d2 (tb / 8) = Ok (c2, t2) ->
  exists st',
    run st [KEncryptInit M_AES_GCM (MPgcm iv aad tb) k; KEncryptUpdate d1 (Buf n1);
            KEncryptUpdate d2 (Buf n2)] =
    Ok (st', [mkOut CKR_OK 0 []; mkOut CKR_OK (zlen c1) c1; mkOut CKR_OK (zlen c2) c2]).
Proof.
  intros asz Hk Ht Hok Hiv Htb Ha Hn1 Hn2 E1 E2.
  pose proof (zlen_nonneg _ d1). pose proof (zlen_nonneg _ d2).
  destruct (gcm_init_ok st k ko iv aad tb INIT_AES_GCM_ENC Ht Hiv Htb Ha) as (asz' & E & Hasz).
  fold asz in Hasz. subst asz'.
  cbn [Ops.run Ops.step]. unfold init_call, C_EncryptInit. rewrite Hk, E. cbn [bind].
  unfold C_EncryptUpdate, with_obj, need_init.
  cbn [os_curr os_mech os_init Z.eqb INIT_AES_GCM_ENC Pos.eqb].
  unfold sized. rewrite (u32_small n1), (u32_small n2), (u32_small (zlen d1)), (u32_small (zlen d2)) by lia.
  destruct (Z.ltb_spec n1 (zlen d1)); [lia|].
  cbn [get_gcm os_params bind]. unfold deref. rewrite Hk. cbn [bind]. rewrite trunc32_small by lia.
  destruct (tagbytes tb iv aad asz zero_block [] Htb) as (T1 & T2 & T3).
  unfold gcm_call_enc at 1. rewrite T1, T2, Hok. cbn [g_iv g_aad g_aadSz]. rewrite E1.
  cbn [bind conclude]. unfold set_params.
  cbn [os_curr os_mech os_init os_params os_part Z.eqb INIT_AES_GCM_ENC Pos.eqb get_gcm bind].
  destruct (Z.ltb_spec n2 (zlen d2)); [lia|]. rewrite Hk. cbn [bind].
  rewrite trunc32_small by lia. cbn [g_iv g_aadSz g_tagBits g_authTag g_enc].
  destruct (tagbytes tb iv None asz (blit zero_block 0 t1) [] Htb) as (T1' & _).
  unfold gcm_call_enc. rewrite T1', T2, Hok. cbn [g_iv g_aad g_aadSz]. rewrite E2.
  cbn [bind conclude]. eexists. reflexivity.
Qed.

End P.
