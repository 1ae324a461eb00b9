(** C128, AES-GCM: what is encrypted under a token key in one history is decrypted under a token key of the same value in any other, across restarts.
    The calls are C_EncryptInit/C_Encrypt (crypto.c 1454-1473) and C_DecryptInit, C_DecryptUpdate and C_DecryptFinal. *)
From Verif Require Import Base Cbc CbcProofs CbcSpec Codec Ops OpsSpec OpsCbcProofs OpsProofs OpsProofs2 OpsProofs3 OpsProofs4 OpsClaims OpsFinal Object ObjectSpec ObjectProofs Store StoreSpec StoreProofs Sys SysProofs SysProofs2 SysProofs3 SysProofs4 WfProofs
  LoginProofs RvProofs ObjFrame ObjProofs HandleProofs DiskHandles FindState UseProofs KeyProofs KeyHeld ToyEnv ToySys PropObject PropSys1 PropSys2 PropSys3 PropStore PropKeys PropKeys2 PropInUse PropFind PropOps PropHold PropMsg PropObj PropImport
  Device DeviceProofs PropDevice Table TableProofs PropTable PropUse PropSurvive PropEndure.
From Verif Require PropArchive.
From Coq Require Import List Bool.
Import ListNotations.
Open Scope nat_scope.
Open Scope list_scope.

(** AES-GCM: ciphertext and tag open to the plaintext they were made of. *)
Definition gcm_opens (ev : env) (key : list N) : Prop := forall iv aad asz p t c tag, e_gcm_enc ev key iv aad asz p t = Ok (c, tag) -> e_gcm_dec ev key iv aad asz c tag = Ok p.

Lemma gcm_enc_run ev u ko st iv aad tb rs data n : env_sizes ev -> ko_type ko = CKK_AES -> e_gcm_ok ev (ko_data ko) = true -> (zlen iv <= 16)%Z -> (0 <= tb <= 128)%Z ->
  match aad with Some a => (zlen a < 2^31)%Z | None => True end -> (zlen data + tb / 8 <= n < 2^32)%Z ->
  exists p o, Ops.run ev (only u ko) st [KEncryptInit M_AES_GCM (MPgcm iv aad tb) u; KEncrypt rs data (Buf n)] = Ok (p, [mkOut CKR_OK 0 []; o]) /\
    (o_rv o = CKR_OK -> exists c tag, e_gcm_enc ev (ko_data ko) iv aad (match aad with Some a => zlen a | None => 0%Z end) data (tb / 8) = Ok (c, tag) /\ o_out o = c ++ tag).
Proof.
  intros Sz T A Li Tb Aa Ln. destruct (gcm_init_ok (only u ko) st u ko iv aad tb INIT_AES_GCM_ENC T Li Tb Aa) as (asz & E & Hasz).
  cbn [Ops.run Ops.step]. unfold init_call. rewrite only_self. cbn [C_EncryptInit]. rewrite E. cbn [bind]. unfold C_Encrypt, with_obj, need_init.
  cbn [os_curr os_mech os_init Z.eqb INIT_AES_GCM_ENC Pos.eqb get_gcm os_params bind].
  destruct (tagbytes tb iv aad asz zero_block [] Tb) as (T1 & T2 & T3). rewrite T1. pose proof (zlen_nonneg _ data).
  unfold sized. rewrite (u32_small (zlen data + tb / 8)), (u32_small n) by lia. destruct (Z.ltb_spec n (zlen data + tb / 8)); [lia|].
  unfold deref. rewrite only_self. cbn [bind]. rewrite trunc32_small by lia. unfold gcm_call_enc. rewrite A, T1, T2. cbn [g_iv g_aad g_aadSz]. rewrite Hasz.
  destruct (e_gcm_enc ev (ko_data ko) iv aad _ data (tb / 8)) as [[c t]| |v] eqn:Q; cbn [bind conclude].
  - do 2 eexists. split; [reflexivity|]. intros _. exists c, t. split; reflexivity.
  - do 2 eexists. split; [reflexivity|]. cbn. discriminate.
  - exfalso. exact (proj1 (es_noub ev Sz) _ _ _ _ _ _ _ Q).
Qed.
Theorem C128_gcm : forall w iv aad tb b d s c sc oc h ho p hs x rs data n outs d2 s2 c2 sc2 oc2 h2 ho2 p2 hs2 x2 cbs n2 outs2, laws (w_se w) -> env_sizes (w_ev w) -> gcm_opens (w_ev w) b -> e_gcm_ok (w_ev w) b = true ->
  (zlen iv <= 16)%Z -> (0 <= tb <= 128)%Z -> match aad with Some a => (zlen a < 2^31)%Z | None => True end -> (zlen data + tb / 8 < 2^31)%Z -> (zlen data + tb / 8 <= n < 2^32)%Z -> (zlen data <= n2 < 2^32)%Z ->
  endured w d s c sc oc h ho p -> has_value w sc h ho 31 b -> t_login (s_tok s) = RW_USER -> sess_get s hs = Some x ->
  endured w d2 s2 c2 sc2 oc2 h2 ho2 p2 -> has_value w sc2 h2 ho2 31 b -> t_login (s_tok s2) = RW_USER -> sess_get s2 hs2 = Some x2 ->
  amid_spared w s hs (KEncryptInit M_AES_GCM (MPgcm iv aad tb) 0) ho [KEncrypt rs data (Buf n)] outs -> map o_rv outs = [CKR_OK] -> concat (map fst cbs) = concat (map o_out outs) ->
  amid_spared w s2 hs2 (KDecryptInit M_AES_GCM (MPgcm iv aad tb) 0) ho2 (dec_upds cbs ++ [KDecryptFinal (Buf n2)]) outs2 ->
  Forall (fun o => o_rv o = CKR_OK) outs2 /\ concat (map o_out outs2) = data.
Proof.
  intros w iv aad tb b d s c sc oc h ho p hs x rs data n outs d2 s2 c2 sc2 oc2 h2 ho2 p2 hs2 x2 cbs n2 outs2 L Sz Op A Li Tb Aa Ld Ln Ln2 En Hv Lg G En2 Hv2 Lg2 G2 Am Ok1 Ec Am2.
  destruct (C128_there _ _ _ _ _ _ _ _ _ _ _ hs x L En Hv Lg G) as (o & Rd). destruct (C128_there _ _ _ _ _ _ _ _ _ _ _ hs2 x2 L En2 Hv2 Lg2 G2) as (o2 & Rd2).
  destruct (gcm_enc_run (w_ev w) (o_uid o) (mkKey 31 b [] 0) (ss_op x) iv aad tb rs data n Sz eq_refl A Li Tb Aa Ln) as (p1 & y & Q & Y).
  rewrite (lift_spared w s hs x ho o _ (KEncryptInit M_AES_GCM (MPgcm iv aad tb) 0) (KEncryptInit M_AES_GCM (MPgcm iv aad tb) (o_uid o)) _ outs _ _ _ Rd eq_refl Am Q eq_refl) in *. clear Q.
  cbn [map] in Ok1. injection Ok1 as Ok1. destruct (Y Ok1) as (ct & tag & E & Eo). cbn [ko_data] in E. cbn [map concat] in Ec. rewrite app_nil_r, Eo in Ec.
  destruct (es_genc _ Sz _ _ _ _ _ _ _ _ E) as (Lc & Lt & _).
  assert (Lz : zlen (concat (map fst cbs)) = (zlen data + tb / 8)%Z) by (rewrite Ec, zlen_app, Lt; unfold zlen; rewrite Lc; reflexivity). pose proof (zlen_nonneg _ data). assert (0 <= tb / 8)%Z by (apply Z.div_pos; lia).
  rewrite (C117_gcm_decrypt w s2 hs2 x2 ho2 o2 _ iv aad tb cbs n2 outs2 Rd2 eq_refl A (proj1 (proj2 (es_noub _ Sz))) Li Tb Aa ltac:(lia) ltac:(lia) ltac:(lia) Am2).
  assert (O : gcm_open (w_ev w) b iv aad tb (concat (map fst cbs)) = Ok data).
  { unfold gcm_open. rewrite Lz. replace (zlen data + tb / 8 - tb / 8)%Z with (zlen data) by lia. rewrite Ec. cbv zeta. replace (Z.to_nat (zlen data)) with (List.length ct) by (unfold zlen; lia). rewrite firstn_app, Nat.sub_diag, firstn_all, skipn_app, Nat.sub_diag, skipn_all. cbn [firstn skipn app]. rewrite app_nil_r. exact (Op _ _ _ _ _ _ _ E). }
  cbn [ko_data]. rewrite O. cbn [gcm_expect]. split.
  - apply Forall_app. split; [clear; induction (List.length cbs); constructor; auto|constructor; auto].
  - rewrite map_app, concat_app. cbn. rewrite app_nil_r. clear. induction (List.length cbs) as [|m IH]; [reflexivity|exact IH].
Qed.
Print Assumptions C128_gcm.

(** ** Histories that meet the hypotheses: the key generated on the token of PropEndure.v; encrypted at once, decrypted after restarts in two parts. *)
Lemma toy_opens key : gcm_opens toy key.
Proof.
  intros iv aad asz p t c tag. cbn. unfold toy_genc, toy_gdec. destruct (orb _ _); [discriminate|]. intros E. injection E as <- <-.
  assert (R : forall l, list_eqb l l = true) by (induction l as [|x l IH]; cbn; [reflexivity|]; rewrite N.eqb_refl; exact IH).
  assert (F : forall (m : nat) (l : list N), firstn (List.length (firstn m l)) l = firstn m l).
  { induction m as [|m IH]; intros [|y l]; cbn; try reflexivity. f_equal. apply IH. }
  rewrite F, R. f_equal. clear. unfold stream. rewrite map_length, combine_length, seq_length, Nat.min_id. generalize 0 at 1 2 as a. induction p as [|y p IH]; intros a; [reflexivity|]. cbn [List.length seq combine map fst snd].
  f_equal; [rewrite N.lxor_assoc, N.lxor_nilpotent; apply N.lxor_0_r|apply IH].
Qed.
Definition g_iv12 : list N := repeat 3%N 12.
Definition g_go : list op := [OFindObjectsInit H2 []; OCrypto H2 (KEncrypt [] msg21 (Buf 40)) 0].
Definition g_ct (c : op) : list N := match run tw (after (story c [])) (numb (OCrypto H2 (KEncryptInit M_AES_GCM (MPgcm g_iv12 (Some [5%N]) 128) 0) KT :: g_go)) with Ok (_, _ :: os) => concat (map (fun y => o_out (snd y)) (mine H2 (numb g_go) os)) | _ => [] end.
Definition g_parts (c : op) : list (list N * Z) := [(firstn 20 (g_ct c), 40%Z); (skipn 20 (g_ct c), 40%Z)].
Definition g_back (c : op) : list op := [dupd H2 (firstn 20 (g_ct c)) 40; OFindObjectsInit H2 []; dupd H2 (skipn 20 (g_ct c)) 40; OCrypto H2 (KDecryptFinal (Buf 40)) 0].
Lemma g_spared s ini l cs outs :
  match run tw s (numb (OCrypto H2 ini KT :: l)) with Ok (_, r :: os) => mine H2 (numb l) os = combine cs outs | _ => False end ->
  (forall c rn, In (c, rn) (numb l) -> goes_on H2 c) -> (forall c, In c l -> spared KT c) -> List.length cs = List.length outs -> amid_spared tw s H2 ini KT cs outs.
Proof.
  intros M F Sp Le. change (numb (OCrypto H2 ini KT :: l)) with ((OCrypto H2 ini KT, rnd 0) :: numb l) in M.
  destruct (run tw s ((OCrypto H2 ini KT, rnd 0) :: numb l)) as [[s' [|r os]]| |] eqn:R; try contradiction. exists (rnd 0), (numb l), s', r, os. split; [exact R|]. split; [|auto].
  intros c rn J. split; [exact (F c rn J)|]. apply in_map_iff in J as (c0 & E & J). injection E as <- _. exact (Sp c0 J).
Qed.
(** The rest of the hypotheses: C128_case. *)
Example C128_gcm_case : env_sizes (w_ev tw) /\ gcm_opens (w_ev tw) (key_of gen_c) /\ e_gcm_ok (w_ev tw) (key_of gen_c) = true /\ List.length (g_ct gen_c) = 37 /\ concat (map fst (g_parts gen_c)) = g_ct gen_c /\
  amid_spared tw (after (story gen_c [])) H2 (KEncryptInit M_AES_GCM (MPgcm g_iv12 (Some [5%N]) 128) 0) KT [KEncrypt [] msg21 (Buf 40)] [mkOut CKR_OK 37 (g_ct gen_c)] /\
  amid_spared tw (after (story gen_c onwards)) H2 (KDecryptInit M_AES_GCM (MPgcm g_iv12 (Some [5%N]) 128) 0) KT (dec_upds (g_parts gen_c) ++ [KDecryptFinal (Buf 40)]) [mkOut CKR_OK 0 []; mkOut CKR_OK 0 []; mkOut CKR_OK 21 msg21].
Proof.
  split; [exact toy_sizes|]. split; [apply toy_opens|]. split; [reflexivity|]. split; [vm_compute; reflexivity|]. split; [vm_compute; reflexivity|]. split.
  - apply g_spared with (l := g_go); [vm_compute; reflexivity|apply goes_by; vm_compute; reflexivity|intros c [<-|[<-|[]]]; exact I|reflexivity].
  - apply g_spared with (l := g_back gen_c); [vm_compute; reflexivity|apply goes_by; vm_compute; reflexivity|intros c [<-|[<-|[<-|[<-|[]]]]]; exact I|reflexivity].
Qed.
