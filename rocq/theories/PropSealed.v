(** C130, encryption: what is encrypted with an RSA public key of the token in one history is decrypted with the matching private key in any other, across restarts.
    The calls are C_EncryptInit/C_Encrypt and C_DecryptInit/C_Decrypt with CKM_RSA_PKCS and CKM_RSA_PKCS_OAEP (crypto.c 1369-1409, 1940-1981).
    And the signatures of CKM_RSA_PKCS_PSS (crypto.c 2662-2680, 3172-3181). *)
From Verif Require Import Base Cbc CbcProofs CbcSpec Codec Ops OpsSpec OpsCbcProofs OpsProofs OpsProofs2 OpsProofs3 OpsProofs4 OpsClaims OpsFinal Object ObjectProofs Store StoreSpec StoreProofs Sys SysProofs SysProofs2 SysProofs3 SysProofs4 WfProofs
  LoginProofs RvProofs ObjFrame ObjProofs HandleProofs DiskHandles FindState UseProofs KeyProofs KeyHeld ToyEnv ToySys PropObject PropSys1 PropSys2 PropSys3 PropStore PropKeys PropKeys2 PropInUse PropFind PropOps PropHold PropMsg PropObj PropImport
  Device DeviceProofs PropDevice Table TableProofs PropTable PropUse PropSurvive PropEndure SurviveAny PropPrivate PropPublic.
From Coq Require Import List Bool.
Import ListNotations.
Open Scope nat_scope.
Open Scope list_scope.

(** A mechanism, the parameters given to the Init call and those that reach the primitive. *)
Inductive sealing : mech -> mparam -> pkparams -> Prop :=
  | seal_pkcs : sealing M_RSA_PKCS MPnull PKnone
  | seal_oaep h g l : hash_known h = true -> mgf_known g = true -> sealing M_RSA_OAEP (MPoaep true h g l) (PKoaep (mkOaep h g l (match l with None => 0%Z | Some b => i32 (zlen b) end))).
(** RSA for the key [r]: what is encrypted with any key of its modulus and exponent is decrypted with it. *)
Definition rsa_unseals (w : world) (m : mech) (pp : pkparams) (r : rsak) : Prop := forall r', r_n r' = r_n r -> r_e r' = r_e r -> forall rs rs2 data,
  match e_pk_enc (w_ev w) m (rsa_key w r') pp rs data with
  | Ok ct => (zlen ct < 2^32)%Z /\ e_pk_dec (w_ev w) m (rsa_key w r) pp rs2 ct = Ok data
  | Err _ => True
  | Undef _ => False end.

Lemma seal_run ev u ko st m mp pp rs data n : sealing m mp pp -> ko_type ko = CKK_RSA -> (zlen data < 2^32)%Z -> (ko_len ko <= n)%Z -> (0 <= n < 2^32)%Z -> (forall u, e_pk_enc ev m ko pp rs data <> Undef u) ->
  exists p o, Ops.run ev (only u ko) st [KEncryptInit m mp u; KEncrypt rs data (Buf n)] = Ok (p, [fail Query CKR_OK; o]) /\ (o_rv o = CKR_OK -> e_pk_enc ev m ko pp rs data = Ok (o_out o)).
Proof.
  intros Se T Ld Ln Rn Nu. destruct Se as [|h g l Hh Hg]; cbn [Ops.run Ops.step]; unfold init_call; rewrite only_self; cbn [C_EncryptInit].
  - unfold rsa_noparam. rewrite T. cbn [Z.eqb negb no_param bind CKK_RSA]. cbv beta iota zeta. unfold C_Encrypt, with_obj. cbn [init_done os_curr set_init os_mech]. unfold pk_crypt, need_init. cbn. unfold deref. rewrite only_self. cbn [bind].
    unfold sized. rewrite (u32_small n Rn). destruct (Z.ltb_spec n (ko_len ko)); [lia|]. cbn [get_pk bind]. rewrite (trunc32_small _ Ld).
    destruct (e_pk_enc ev M_RSA_PKCS ko PKnone rs data) as [ct| |v]; [| |exfalso; exact (Nu v eq_refl)]; cbn [bind conclude]; do 2 eexists; (split; [reflexivity|cbn; intros; congruence || discriminate]).
  - unfold oaep_init. rewrite T. cbn [Z.eqb negb CKK_RSA]. unfold SetOaepParams. rewrite Hh, Hg. cbn [andb bind]. cbv beta iota zeta. unfold C_Encrypt, with_obj. cbn [init_done os_curr set_init os_mech]. unfold pk_crypt, need_init. cbn. unfold deref. rewrite only_self. cbn [bind].
    unfold sized. rewrite (u32_small n Rn). destruct (Z.ltb_spec n (ko_len ko)); [lia|]. cbn [get_pk os_params bind]. rewrite (trunc32_small _ Ld).
    destruct (e_pk_enc ev M_RSA_OAEP ko _ rs data) as [ct| |v]; [| |exfalso; exact (Nu v eq_refl)]; cbn [bind conclude]; do 2 eexists; (split; [reflexivity|cbn; intros; congruence || discriminate]).
Qed.
Lemma unseal_run ev u ko st m mp pp rs ct n data : sealing m mp pp -> ko_type ko = CKK_RSA -> (zlen ct < 2^32)%Z -> (ko_len ko <= n)%Z -> (0 <= n < 2^32)%Z -> e_pk_dec ev m ko pp rs ct = Ok data ->
  exists p, Ops.run ev (only u ko) st [KDecryptInit m mp u; KDecrypt rs ct (Buf n)] = Ok (p, [fail Query CKR_OK; mkOut CKR_OK (zlen data) data]).
Proof.
  intros Se T Ld Ln Rn D. destruct Se as [|h g l Hh Hg]; cbn [Ops.run Ops.step]; unfold init_call; rewrite only_self; cbn [C_DecryptInit].
  - unfold rsa_noparam. rewrite T. cbn [Z.eqb negb no_param bind CKK_RSA]. cbv beta iota zeta. unfold C_Decrypt, with_obj. cbn [init_done os_curr set_init os_mech]. unfold pk_crypt, need_init. cbn. unfold deref. rewrite only_self. cbn [bind].
    unfold sized. rewrite (u32_small n Rn). destruct (Z.ltb_spec n (ko_len ko)); [lia|]. cbn [get_pk bind]. rewrite (trunc32_small _ Ld), D. cbn [bind conclude]. eexists. reflexivity.
  - unfold oaep_init. rewrite T. cbn [Z.eqb negb CKK_RSA]. unfold SetOaepParams. rewrite Hh, Hg. cbn [andb bind]. cbv beta iota zeta. unfold C_Decrypt, with_obj. cbn [init_done os_curr set_init os_mech]. unfold pk_crypt, need_init. cbn. unfold deref. rewrite only_self. cbn [bind].
    unfold sized. rewrite (u32_small n Rn). destruct (Z.ltb_spec n (ko_len ko)); [lia|]. cbn [get_pk os_params bind]. rewrite (trunc32_small _ Ld), D. cbn [bind conclude]. eexists. reflexivity.
Qed.
Theorem C130_unseal : forall w m mp pp d s c s2 o2 h ho r p hs x rs data n outs d' s' c' s2' o2' h' hb r0 p' hs' x' rs' n' outs', sealing m mp pp -> laws (w_se w) -> rsa_der_public w -> rsa_unseals w m pp r ->
  endured w d s c s2 o2 h ho p -> has_private s2 h ho CKK_RSA (KRsa r) -> t_login (s_tok s) = RW_USER -> sess_get s hs = Some x ->
  endured w d' s' c' s2' o2' h' hb p' -> has_public s2' h' hb CKK_RSA (KRsa r0) -> t_login (s_tok s') = RW_USER -> sess_get s' hs' = Some x' ->
  r_n r0 = r_n r -> r_e r0 = r_e r -> (zlen data < 2^32)%Z -> (forall r, (w_klen w (KRsa r) <= n')%Z) -> (0 <= n' < 2^32)%Z -> (w_klen w (KRsa r) <= n)%Z -> (0 <= n < 2^32)%Z ->
  amid_spared w s' hs' (KEncryptInit m mp 0) hb [KEncrypt rs' data (Buf n')] outs' -> map o_rv outs' = [CKR_OK] ->
  amid_spared w s hs (KDecryptInit m mp 0) ho [KDecrypt rs (concat (map o_out outs')) (Buf n)] outs ->
  map o_rv outs = [CKR_OK] /\ map o_out outs = [data].
Proof.
  intros w m mp pp d s c s2 o2 h ho r p hs x rs data n outs d' s' c' s2' o2' h' hb r0 p' hs' x' rs' n' outs' Se L Hp Mt En Pr Lg G En' Pb Lg' G' Q1 Q2 Ld Ln' Rn' Ln Rn Am' Ok1 Am.
  destruct (C129_rsa w d s c s2 o2 h ho r p hs x L En Pr Lg G) as (_ & o1 & Rd1). destruct (C130_rsa w d' s' c' s2' o2' h' hb r0 p' hs' x' L Hp En' Pb Lg' G') as (r' & o & B1 & B2 & _ & Rd).
  pose proof (Mt r' ltac:(congruence) ltac:(congruence) rs' rs data) as M.
  destruct (seal_run (w_ev w) (o_uid o) (rsa_key w r') (ss_op x') m mp pp rs' data n' Se eq_refl Ld (Ln' r') Rn') as (p1 & y & Q & Y); [intros u Hu; rewrite Hu in M; exact M|].
  rewrite (lift_spared w s' hs' x' hb o _ (KEncryptInit m mp 0) (KEncryptInit m mp (o_uid o)) _ outs' _ _ _ Rd eq_refl Am' Q eq_refl) in *. clear Q.
  cbn [map] in Ok1. injection Ok1 as Ok1. rewrite (Y Ok1) in M. destruct M as [Ls D]. cbn [map o_out concat] in Am. rewrite app_nil_r in Am.
  destruct (unseal_run (w_ev w) (o_uid o1) (rsa_key w r) (ss_op x) m mp pp rs _ n data Se eq_refl Ls Ln Rn D) as (p2 & Q).
  rewrite (lift_spared w s hs x ho o1 _ (KDecryptInit m mp 0) (KDecryptInit m mp (o_uid o1)) _ outs _ _ _ Rd1 eq_refl Am Q eq_refl). split; reflexivity.
Qed.
Print Assumptions C130_unseal.

(** ** Histories that meet the hypotheses: the pair of PropPublic.v, encrypted with the public half after the restarts, decrypted with the private half. *)
Definition oaep1 : mparam := MPoaep true 592 2 (Some [7%N]).
Definition oaep1p : pkparams := PKoaep (mkOaep 592 2 (Some [7%N]) 1).
Lemma tw_unseals m pp r : rsa_unseals tw m pp r.
Proof.
  intros r' _ _ rs rs2 data. cbn. unfold toy_pk. cbn. destruct (Z.leb_spec (zlen data) 256) as [L|L]; [|exact I]. assert (Z' : zlen (map (fun x => N.lxor x 7) data) = zlen data) by (unfold zlen; rewrite map_length; reflexivity).
  split; [rewrite Z'; lia|]. rewrite Z'. destruct (Z.leb_spec (zlen data) 256); [|lia]. f_equal. clear. induction data as [|y d IH]; [reflexivity|]. cbn [map]. f_equal; [rewrite N.lxor_assoc, N.lxor_nilpotent; apply N.lxor_0_r|exact IH].
Qed.
Definition enc1 : list op := [OCreateObject H2 tok_aes; OCrypto H2 (KEncrypt [] [9; 8]%N (Buf 300)) 0].
Definition dec1 : list op := [OFindObjectsInit H2 []; OCrypto H2 (KDecrypt [] [14; 15]%N (Buf 300)) 0].
Example C130_unseal_case : (forall r, (w_klen tw (KRsa r) <= 300)%Z) /\ forall m mp pp, (m, mp, pp) = (M_RSA_PKCS, MPnull, PKnone) \/ (m, mp, pp) = (M_RSA_OAEP, oaep1, oaep1p) ->
  sealing m mp pp /\ rsa_unseals tw m pp rsa2 /\
  endured tw nofiles (after (story both_rsa onwards)) both_rsa (after (story both_rsa [])) (OutH2 CKR_OK KT (KT + 1)) H2 KT upin /\ has_public (after (story both_rsa [])) H2 KT CKK_RSA (KRsa pub_rsa2) /\
  endured tw nofiles (after (story both_rsa [])) both_rsa (after (story both_rsa [])) (OutH2 CKR_OK KT (KT + 1)) H2 (KT + 1) upin /\ has_private (after (story both_rsa [])) H2 (KT + 1) CKK_RSA (KRsa rsa2) /\
  amid_spared tw (after (story both_rsa onwards)) H2 (KEncryptInit m mp 0) KT [KEncrypt [] [9; 8]%N (Buf 300)] [mkOut CKR_OK 2 [14; 15]%N] /\
  amid_spared tw (after (story both_rsa [])) H2 (KDecryptInit m mp 0) (KT + 1) [KDecrypt [] [14; 15]%N (Buf 300)] [mkOut CKR_OK 2 [9; 8]%N].
Proof.
  split; [intros r; cbn; lia|]. intros m mp pp T. split; [destruct T as [T|T]; injection T as -> -> ->; [constructor|exact (seal_oaep 592 2 (Some [7%N]) eq_refl eq_refl)]|]. split; [apply tw_unseals|].
  split; [apply both_endured; [left; reflexivity|cbn; auto]|]. split; [exact (public_at both_rsa (or_introl eq_refl))|]. split; [exact private_endured|]. split; [exact private_at|].
  destruct T as [T|T]; injection T as -> -> ->; (split; [apply spared_by with (l := enc1)|apply spared_by with (l := dec1)]); try (vm_compute; reflexivity); try (apply goes_by; vm_compute; reflexivity); try (intros c [<-|[<-|[]]]; exact I).
Qed.

(** ** CKM_RSA_PKCS_PSS *)
(** The parameters given to C_SignInit and C_VerifyInit and those that reach the primitive. *)
Definition pss_par (h g sl : Z) : Prop := hash_known h = true /\ mgf_known g = true /\ (0 <= sl <= 62)%Z.
Definition pss_matches (w : world) (pp : pkparams) (r : rsak) : Prop := forall r', r_n r' = r_n r -> r_e r' = r_e r -> forall rs data,
  match e_pk_sign (w_ev w) M_RSA_PSS (rsa_key w r) pp rs data with
  | Ok sig => (zlen sig < 2^32)%Z /\ e_pk_verify (w_ev w) M_RSA_PSS (rsa_key w r') pp sig data = Ok true
  | Err _ => True
  | Undef _ => False end.
Lemma pss_set h g sl : pss_par h g sl -> SetPssParams h g sl = (true, PPss (mkPss h g sl)).
Proof. intros (Hh & Hg & Hs). unfold SetPssParams. rewrite Hh, Hg. cbn [andb]. assert (E : i32 sl = sl) by (unfold i32, Base.i32; cbn; destruct (Z.leb_spec 0 0); rewrite ?Z.mod_small by lia; destruct (Z.ltb_spec sl (2^31)); lia). rewrite E. destruct (Z.ltb_spec 62 sl); [lia|reflexivity]. Qed.
Lemma pss_sign_run ev u ko st h g sl rs data n : pss_par h g sl -> ko_type ko = CKK_RSA -> (zlen data < 2^32)%Z -> (ko_len ko <= n)%Z -> (0 <= n < 2^32)%Z -> (forall u, e_pk_sign ev M_RSA_PSS ko (PKpss (mkPss h g sl)) rs data <> Undef u) ->
  exists p o, Ops.run ev (only u ko) st [KSignInit M_RSA_PSS (MPpss h g sl) u; KSign rs data (Buf n)] = Ok (p, [fail Query CKR_OK; o]) /\ (o_rv o = CKR_OK -> e_pk_sign ev M_RSA_PSS ko (PKpss (mkPss h g sl)) rs data = Ok (o_out o)).
Proof.
  intros Pa T Ld Ln Rn Nu. cbn [Ops.run Ops.step]; unfold init_call; rewrite only_self; cbn [C_SignInit]. unfold pss_init. rewrite T. cbn [Z.eqb negb CKK_RSA]. rewrite (pss_set _ _ _ Pa). cbn [bind].
  cbv beta iota zeta. unfold C_Sign, with_obj. cbn [init_done os_curr set_init os_mech]. unfold pk_sign, need_init. cbn. unfold deref. rewrite only_self. cbn [bind].
  unfold sized. rewrite (u32_small n Rn). destruct (Z.ltb_spec n (ko_len ko)); [lia|]. cbn [get_pk os_params bind]. rewrite (trunc32_small _ Ld).
  destruct (e_pk_sign ev M_RSA_PSS ko _ rs data) as [ct| |v]; [| |exfalso; exact (Nu v eq_refl)]; cbn [bind]; do 2 eexists; (split; [reflexivity|cbn; intros; congruence || discriminate]).
Qed.
Lemma pss_verify_run ev u ko st h g sl data sig : pss_par h g sl -> ko_type ko = CKK_RSA -> (zlen data < 2^32)%Z -> (zlen sig < 2^32)%Z -> e_pk_verify ev M_RSA_PSS ko (PKpss (mkPss h g sl)) sig data = Ok true ->
  exists p, Ops.run ev (only u ko) st [KVerifyInit M_RSA_PSS (MPpss h g sl) u; KVerify data sig] = Ok (p, [fail Query CKR_OK; fail Query CKR_OK]).
Proof.
  intros Pa T Ld Ls Sg. cbn [Ops.run Ops.step]; unfold init_call; rewrite only_self; cbn [C_VerifyInit]. unfold pss_init. rewrite T. cbn [Z.eqb negb CKK_RSA]. rewrite (pss_set _ _ _ Pa). cbn [bind].
  cbv beta iota zeta. unfold C_Verify, with_obj. cbn [init_done os_curr set_init os_mech]. unfold pk_verify, need_init. cbn. unfold deref. rewrite only_self. cbn [bind].
  cbn [get_pk os_params bind]. rewrite (trunc32_small _ Ld), (trunc32_small _ Ls), Sg. cbn [bind]. eexists. reflexivity.
Qed.
Theorem C130_pss_pair : forall w h0 g sl d s c s2 o2 h ho r p hs x rs data n outs d' s' c' s2' o2' h' hb r0 p' hs' x' outs', pss_par h0 g sl -> laws (w_se w) -> rsa_der_public w -> pss_matches w (PKpss (mkPss h0 g sl)) r ->
  endured w d s c s2 o2 h ho p -> has_private s2 h ho CKK_RSA (KRsa r) -> t_login (s_tok s) = RW_USER -> sess_get s hs = Some x ->
  endured w d' s' c' s2' o2' h' hb p' -> has_public s2' h' hb CKK_RSA (KRsa r0) -> t_login (s_tok s') = RW_USER -> sess_get s' hs' = Some x' ->
  r_n r0 = r_n r -> r_e r0 = r_e r -> (zlen data < 2^32)%Z -> (w_klen w (KRsa r) <= n)%Z -> (0 <= n < 2^32)%Z ->
  amid_spared w s hs (KSignInit M_RSA_PSS (MPpss h0 g sl) 0) ho [KSign rs data (Buf n)] outs -> map o_rv outs = [CKR_OK] ->
  amid_spared w s' hs' (KVerifyInit M_RSA_PSS (MPpss h0 g sl) 0) hb [KVerify data (concat (map o_out outs))] outs' ->
  map o_rv outs' = [CKR_OK].
Proof.
  intros w h0 g sl d s c s2 o2 h ho r p hs x rs data n outs d' s' c' s2' o2' h' hb r0 p' hs' x' outs' Pa L Hp Mt En Pr Lg G En' Pb Lg' G' Q1 Q2 Ld Ln Rn Am Ok1 Am'.
  destruct (C129_rsa w d s c s2 o2 h ho r p hs x L En Pr Lg G) as (_ & o1 & Rd1). destruct (C130_rsa w d' s' c' s2' o2' h' hb r0 p' hs' x' L Hp En' Pb Lg' G') as (r' & o & B1 & B2 & _ & Rd).
  pose proof (Mt r' ltac:(congruence) ltac:(congruence) rs data) as M.
  destruct (pss_sign_run (w_ev w) (o_uid o1) (rsa_key w r) (ss_op x) h0 g sl rs data n Pa eq_refl Ld Ln Rn) as (p1 & y & Q & Y); [intros u Hu; rewrite Hu in M; exact M|].
  rewrite (lift_spared w s hs x ho o1 _ (KSignInit M_RSA_PSS (MPpss h0 g sl) 0) (KSignInit M_RSA_PSS (MPpss h0 g sl) (o_uid o1)) _ outs _ _ _ Rd1 eq_refl Am Q eq_refl) in *. clear Q.
  cbn [map] in Ok1. injection Ok1 as Ok1. rewrite (Y Ok1) in M. destruct M as [Ls Vf]. cbn [map o_out concat] in Am'. rewrite app_nil_r in Am'.
  destruct (pss_verify_run (w_ev w) (o_uid o) (rsa_key w r') (ss_op x') h0 g sl data _ Pa eq_refl Ld Ls Vf) as (p2 & Q).
  rewrite (lift_spared w s' hs' x' hb o _ (KVerifyInit M_RSA_PSS (MPpss h0 g sl) 0) (KVerifyInit M_RSA_PSS (MPpss h0 g sl) (o_uid o)) _ outs' _ _ _ Rd eq_refl Am' Q eq_refl). reflexivity.
Qed.
Print Assumptions C130_pss_pair.
Lemma tw_pss_matches pp r : pss_matches tw pp r.
Proof.
  intros r' _ _ rs data. cbn. unfold toy_pk. cbn. destruct (Z.leb_spec (zlen data) 256) as [L|L]; [|exact I]. split; [unfold zlen in *; rewrite map_length; lia|]. f_equal.
  generalize (map (fun x => N.lxor x 7) data). induction l as [|x l IH]; [reflexivity|]. cbn. rewrite N.eqb_refl. exact IH.
Qed.
(** With C130_unseal_case, which has the pair and its histories. *)
Example C130_pss_case : pss_par 592 2 32 /\ pss_matches tw (PKpss (mkPss 592 2 32)) rsa2 /\
  amid_spared tw (after (story both_rsa [])) H2 (KSignInit M_RSA_PSS (MPpss 592 2 32) 0) (KT + 1) [KSign [] [9; 8]%N (Buf 300)] [mkOut CKR_OK 2 [14; 15]%N] /\
  amid_spared tw (after (story both_rsa onwards)) H2 (KVerifyInit M_RSA_PSS (MPpss 592 2 32) 0) KT [KVerify [9; 8]%N [14; 15]%N] [fail Query CKR_OK].
Proof.
  split; [repeat split; discriminate|]. split; [apply tw_pss_matches|]. split; [apply spared_by with (l := sgn1)|apply spared_by with (l := vfy1)]; try (vm_compute; reflexivity); try (apply goes_by; vm_compute; reflexivity); try (intros c [<-|[<-|[]]]; exact I).
Qed.
