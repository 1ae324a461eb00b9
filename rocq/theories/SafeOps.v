(** Careful calls of the operation interface have no undefined behaviour. *)
From Verif Require Import Base Cbc Ops OpsSpec Object Store Sys SafeSpec.

(** Defined, with a result satisfying P. *)
Definition good {A} (P : A -> Prop) (r : res A) : Prop :=
  match r with Ok a => P a | Err _ => True | Undef _ => False end.
Lemma good_bind {A B} (P : A -> Prop) (Q : B -> Prop) m (f : A -> res B) : good P m -> (forall a, P a -> good Q (f a)) -> good Q (bind m f).
Proof. destruct m; cbn; auto. Qed.
Lemma good_imp {A} (P Q : A -> Prop) r : good P r -> (forall a, P a -> Q a) -> good Q r.
Proof. destruct r; cbn; auto. Qed.
Lemma good_ok {A} (P : A -> Prop) r a : good P r -> r = Ok a -> P a.
Proof. intros G ->. exact G. Qed.

(** The union holds the member of the session's mechanism. *)
Definition opsafe (st : opst) : Prop :=
  match os_mech st with
  | M_RSA_OAEP => exists o, os_params st = POaep o
  | M_RSA_PSS => exists p, os_params st = PPss p
  | M_AES_CBC | M_AES_CBC_PAD => (exists a, os_params st = PCbc a) /\ (snd (os_part st) <= 16)%nat
  | M_AES_GCM => exists g, os_params st = PGcm g /\ (0 <= g_tagBits g <= 128)%Z
  | M_HMAC _ => exists h, os_params st = PHmac h
  | _ => True
  end.
Lemma opsafe_zero : opsafe op_zero.
Proof. exact I. Qed.
Lemma final_safe st : opsafe st -> good opsafe (op_session_final st).
Proof.
  destruct st as [i m c p q]. unfold op_session_final, opsafe. cbn [os_init os_mech os_params os_part]. destruct m; intros H; try exact H; try exact I.
  - destruct H as (o & ->). cbn. eauto.
  - destruct (i =? 0)%Z; exact H.
  - destruct (i =? 0)%Z; exact H.
  - destruct H as (g & -> & T). cbn. eauto.
Qed.

Section O.
Variable ev : env.
Variable objs : nat -> option keyobj.
Notation ci := (e_ci ev).
Notation post := (fun p : opst * outc => opsafe (fst p)).
Notation ipost := (fun p : opst * Z => opsafe (fst p)).

Lemma i32_small z : (0 <= z < 2^31)%Z -> i32 z = z.
Proof. intros H. unfold i32. rewrite Z.mod_small by lia. destruct (Z.ltb_spec z (2^31)); lia. Qed.
Lemma same_safe st : opsafe st -> opsafe (set_params st (os_params st)).
Proof. exact (fun x => x). Qed.
Lemma oaep_safe st k ty mp i key : opsafe st -> fit ev st M_RSA_OAEP mp key -> opsafe (fst (oaep_init st k ty mp i)).
Proof.
  intros S F. unfold oaep_init. destruct (negb _); [exact S|]. destruct mp; try exact S. destruct src_ok; [|exact S]. cbn [negb].
  destruct F as [F1 F2]. unfold SetOaepParams. rewrite F1, F2. cbn. eauto.
Qed.
Lemma pss_safe st k ty mp i key : opsafe st -> fit ev st M_RSA_PSS mp key -> opsafe (fst (pss_init st k ty mp i)).
Proof.
  intros S F. unfold pss_init. destruct (negb _); [exact S|]. destruct mp; try exact S.
  destruct F as (F1 & F2 & F3). unfold SetPssParams. rewrite F1, F2. cbn [andb]. destruct (Z.ltb_spec 62 (i32 sLen)); [lia|]. cbn. eauto.
Qed.
Lemma cbc_safe st m k ko mp i : m = M_AES_CBC \/ m = M_AES_CBC_PAD -> opsafe st -> fit ev st m mp (ko_data ko) -> opsafe (fst (cbc_init ev st m k ko mp i)).
Proof.
  intros M S F. unfold cbc_init. destruct (negb _); [exact S|]. destruct mp; try exact S. destruct (negb (zlen b =? 16)%Z); [exact S|].
  assert (G : e_aes_ok ev (ko_data ko) = true /\ (snd (os_part st) <= 16)%nat) by (destruct M as [-> | ->]; exact F).
  destruct G as [G1 G2]. unfold SetCbcParams. rewrite G1. destruct M as [-> | ->]; cbn; eauto.
Qed.
Lemma gcm_safe st k ko mp i : opsafe st -> fit ev st M_AES_GCM mp (ko_data ko) -> good ipost (gcm_init st k ko mp i).
Proof.
  intros S F. unfold gcm_init. destruct (negb _); [exact S|]. destruct mp; try exact S. destruct F as (F1 & F2 & F3).
  pose proof (zlen_nonneg _ iv) as Z0. unfold SetGcmParams. rewrite !i32_small by lia. destruct (Z.ltb_spec 128 tagBits); [exact S|]. destruct (Z.ltb_spec 16 (zlen iv)); [exact S|]. cbn [orb].
  destruct (Z.ltb_spec (zlen iv) 0); [lia|]. destruct aad as [a|]; cbn [bind].
  - pose proof (zlen_nonneg _ a). rewrite i32_small by lia. destruct (Z.ltb_spec (zlen a) 0); [lia|]. cbn. eexists. split; [reflexivity|]. cbn. lia.
  - cbn. eexists. split; [reflexivity|]. cbn. lia.
Qed.
Lemma hmac_safe st h k ko mp i : opsafe st -> fit ev st (M_HMAC h) mp (ko_data ko) -> opsafe (fst (hmac_init ev st h k ko mp i)).
Proof.
  intros S F. unfold hmac_init. destruct (negb _); [exact S|]. destruct mp; try exact S. cbn [no_param negb]. cbv zeta. unfold Hmac_Init.
  cbn in F. rewrite F. cbn. eauto.
Qed.
Lemma rsa_safe st m k ty mp i : m = M_RSA_X_509 \/ m = M_RSA_PKCS -> opsafe st -> opsafe (fst (rsa_noparam st m k ty mp i)).
Proof. intros M S. unfold rsa_noparam. destruct (negb _); [exact S|]. destruct (negb _); [exact S|]. destruct M as [-> | ->]; exact I. Qed.
Lemma ecdsa_safe st k ty mp i : opsafe st -> opsafe (fst (ecdsa_init st k ty mp i)).
Proof. intros S. unfold ecdsa_init. destruct (negb _); [exact S|]. destruct (negb _); [exact S|]. exact I. Qed.

Lemma init_safe st c m mp : init_of c = Some (m, mp) -> opsafe st ->
  (forall u ko, objs u = Some ko -> fit ev st m mp (ko_data ko)) -> good post (Ops.step ev objs st c).
Proof.
  intros C S F.
  assert (G : forall f k, (forall ko, objs k = Some ko -> good ipost (f st m mp k ko)) -> good post (init_call objs f st m mp k)).
  { intros f k H. unfold init_call. destruct (objs k) as [ko|]; [|exact S]. eapply good_bind; [apply H; reflexivity|]. intros [st' rv] P. exact P. }
  destruct c; cbn [init_of] in C; try discriminate C; injection C as -> ->; cbn [Ops.step]; apply G; intros ko K; specialize (F _ _ K);
    unfold C_EncryptInit, C_DecryptInit, C_SignInit, C_VerifyInit; destruct m; try exact S;
    first [apply gcm_safe; assumption | cbn [good]; first [eapply oaep_safe; eassumption | eapply pss_safe; eassumption | apply cbc_safe; auto
      | apply hmac_safe; assumption | apply rsa_safe; auto | apply ecdsa_safe; assumption]].
Qed.

(** ** The other calls *)
Hypothesis Nu : (forall key iv aad asz p t u, e_gcm_enc ev key iv aad asz p t <> Undef u) /\
            (forall key iv aad asz c t u, e_gcm_dec ev key iv aad asz c t <> Undef u) /\
            (forall m k p r d u, e_pk_enc ev m k p r d <> Undef u) /\
            (forall m k p r d u, e_pk_dec ev m k p r d <> Undef u) /\
            (forall m k p r d u, e_pk_sign ev m k p r d <> Undef u).
Hypothesis Nv : forall m k p g d u, e_pk_verify ev m k p g d <> Undef u.

Lemma sized_safe st n b k : opsafe st -> good post k -> good post (sized st n b k).
Proof. intros S K. unfold sized. destruct b; [exact S|]. destruct (_ <? _)%Z; [exact S|exact K]. Qed.
Lemma need_safe st i b f : opsafe st -> (os_init st = i -> good post f) -> good post (need_init st i b f).
Proof. intros S K. unfold need_init. destruct (Z.eqb_spec (os_init st) i); [auto|exact S]. Qed.
Lemma conclude_safe b st r : opsafe st -> good (fun p => opsafe (fst (fst p))) r -> good post (conclude b st r).
Proof. intros S K. unfold conclude. destruct r as [[[? ?] ?]| |]; [exact K|exact S|exact K]. Qed.
Lemma any {A} (r : res A) : (forall u, r <> Undef u) -> good (fun _ => True) r.
Proof. destruct r; cbn; auto. intros H. exact (H u eq_refl). Qed.

Lemma trunc_small d : small d -> trunc32 d = d.
Proof. intros H. unfold small in H. pose proof (zlen_nonneg _ d). unfold trunc32, u32. rewrite Z.mod_small by lia. apply firstn_all2. unfold zlen. lia. Qed.

(** CBC: the number of kept bytes stays in range. *)
Notation cpost := (fun p : list N * cbc => (cb_psz (snd p) <= 16)%nat).
Lemma aes_enc_ok a d : good (fun _ => True) (wc_AesCbcEncrypt ci a d).
Proof. apply any. intros u. unfold wc_AesCbcEncrypt. destruct (andb _ _); [discriminate|]. destruct (cbc_enc_blocks _ _ _ _ _). discriminate. Qed.
Lemma aes_dec_ok a d : good (fun _ => True) (wc_AesCbcDecrypt ci a d).
Proof. apply any. intros u. unfold wc_AesCbcDecrypt. destruct (andb _ _); [discriminate|]. destruct (cbc_dec_blocks _ _ _ _ _). discriminate. Qed.
Lemma update_safe crypt after p d : (forall a x, good (fun _ => True) (crypt a x)) -> small d -> (cb_psz p <= 16)%nat ->
  good cpost (cbc_update crypt after p d).
Proof.
  intros C D P. unfold small in D. unfold cbc_update. destruct (Z.leb_spec (2^31) (zlen d)); [lia|].
  change BLK with 16%nat. destruct (Nat.ltb_spec 16 (cb_psz p)); [lia|].
  eapply (good_bind (fun v => let '(_, _, _, psz1, _) := v in (psz1 <= 16)%nat)).
  { destruct (0 <? cb_psz p)%nat; [|exact P]. cbv zeta. destruct (_ =? 16)%nat.
    - eapply good_bind; [apply C|]. intros [? ?] _. cbn. lia.
    - cbn [good]. lia. }
  intros [[[[out1 a1] part1] psz1] data1] P1.
  eapply (good_bind (fun v => let '(_, _, data2) := v in (length data2 <= 16)%nat)).
  { cbv zeta. destruct (Nat.ltb_spec 0 (length data1 / 16 * 16)).
    - eapply good_bind; [apply C|]. intros [? ?] _. cbn [good]. rewrite skipn_length. pose proof (Nat.div_mod (length data1) 16). pose proof (Nat.mod_upper_bound (length data1) 16). lia.
    - cbn [good]. pose proof (Nat.div_mod (length data1) 16). pose proof (Nat.mod_upper_bound (length data1) 16). lia. }
  intros [[out2 a2] data2] P2. cbn [good snd]. destruct (0 <? length data2)%nat; cbn [cb_psz]; lia.
Qed.
Lemma pad_enc_safe p d : small d -> (cb_psz p <= 16)%nat -> good cpost (WP11_AesCbcPad_Encrypt ci p d).
Proof.
  intros D P. unfold WP11_AesCbcPad_Encrypt. eapply good_bind; [apply update_safe; [apply aes_enc_ok|exact D|exact P]|]. intros [o1 p1] _.
  eapply (good_bind cpost).
  { unfold WP11_AesCbcPad_EncryptFinal. cbv zeta. eapply good_bind; [apply aes_enc_ok|]. intros [? ?] _. cbn. lia. }
  intros [o2 p2] P2. exact P2.
Qed.
Lemma pad_dec_upd_safe p d : small d -> (cb_psz p <= 16)%nat -> good cpost (WP11_AesCbcPad_DecryptUpdate ci p d).
Proof.
  intros D P. unfold small in D. unfold WP11_AesCbcPad_DecryptUpdate. destruct (Z.leb_spec (2^31) (zlen d)); [lia|].
  change BLK with 16%nat. destruct (Nat.ltb_spec 16 (cb_psz p)); [lia|].
  eapply (good_bind (fun v => let '(_, _, _, psz1, _) := v in (psz1 <= 16)%nat)).
  { destruct (0 <? cb_psz p)%nat; [|exact P]. cbv zeta. destruct (andb _ _).
    - eapply good_bind; [apply aes_dec_ok|]. intros [? ?] _. cbn. lia.
    - cbn [good]. lia. }
  intros [[[[out1 a1] part1] psz1] data1] P1.
  eapply (good_bind (fun v => let '(_, _, data2) := v in (length data2 <= 16)%nat)).
  { cbv zeta. destruct (Nat.ltb_spec 16 (length data1)).
    - eapply good_bind; [apply aes_dec_ok|]. intros [? ?] _. cbn [good]. rewrite skipn_length.
      pose proof (Nat.mod_upper_bound (length data1) 16). destruct (Nat.eqb_spec (length data1 - length data1 mod 16) (length data1)); lia.
    - cbn [good]. lia. }
  intros [[out2 a2] data2] P2. cbn [good snd]. destruct (0 <? length data2)%nat; cbn [cb_psz]; lia.
Qed.
Lemma pad_dec_fin_safe p : good cpost (WP11_AesCbcPad_DecryptFinal ci p).
Proof. unfold WP11_AesCbcPad_DecryptFinal. eapply good_bind; [apply aes_dec_ok|]. intros [? ?] _. cbn. lia. Qed.
Lemma pad_dec_safe p d : small d -> (cb_psz p <= 16)%nat -> good cpost (WP11_AesCbcPad_Decrypt ci p d).
Proof.
  intros D P. unfold WP11_AesCbcPad_Decrypt. eapply good_bind; [apply pad_dec_upd_safe; assumption|]. intros [o1 p1] _.
  eapply good_bind; [apply pad_dec_fin_safe|]. intros [o2 p2] P2. exact P2.
Qed.
Lemma put_safe st p i : os_mech st = M_AES_CBC \/ os_mech st = M_AES_CBC_PAD -> (cb_psz p <= 16)%nat -> opsafe (set_init (put_cbc st p) i).
Proof. intros M P. unfold opsafe. cbn. destruct M as [-> | ->]; eauto. Qed.
Lemma put_safe' st p : os_mech st = M_AES_CBC \/ os_mech st = M_AES_CBC_PAD -> (cb_psz p <= 16)%nat -> opsafe (put_cbc st p).
Proof. intros M P. unfold opsafe. cbn. destruct M as [-> | ->]; eauto. Qed.
Lemma init0_safe st i : opsafe st -> opsafe (set_init st i).
Proof. exact (fun x => x). Qed.
Lemma cbc_get st : os_mech st = M_AES_CBC \/ os_mech st = M_AES_CBC_PAD -> opsafe st -> good (fun p => (cb_psz p <= 16)%nat) (get_cbc st).
Proof. intros M. unfold opsafe, get_cbc. destruct M as [-> | ->]; intros ((a & ->) & P); exact P. Qed.
Lemma gcm_get st : os_mech st = M_AES_GCM -> opsafe st -> good (fun g => os_params st = PGcm g /\ (0 <= g_tagBits g <= 128)%Z) (get_gcm st).
Proof. intros M. unfold opsafe, get_gcm. rewrite M. intros (g & -> & P). cbn. auto. Qed.
Lemma hmac_get st h : os_mech st = M_HMAC h -> opsafe st -> good (fun _ => True) (get_hmac st).
Proof. intros M. unfold opsafe, get_hmac. rewrite M. intros (g & ->). exact I. Qed.
Lemma pk_get st m : os_mech st = m -> opsafe st -> good (fun _ => True) (get_pk m st).
Proof. intros <-. unfold opsafe, get_pk. destruct (os_mech st); intros H; try exact I; destruct H as (g & ->); exact I. Qed.
Lemma gcm_put st g : os_mech st = M_AES_GCM -> (0 <= g_tagBits g <= 128)%Z -> opsafe (set_params st (PGcm g)).
Proof. intros M T. unfold opsafe. cbn. rewrite M. eauto. Qed.
Lemma hmac_put st h x q : os_mech st = M_HMAC h -> opsafe (set_part (set_params st (PHmac x)) q).
Proof. intros M. unfold opsafe. cbn. rewrite M. eauto. Qed.
Lemma hmac_done_safe st h x : os_mech st = M_HMAC h -> opsafe (hmac_done ev st x).
Proof. intros M. unfold opsafe. cbn. rewrite M. eauto. Qed.
Lemma tag_small g : (0 <= g_tagBits g <= 128)%Z -> u32 (tag_bytes g) = (g_tagBits g / 8)%Z /\ (0 <= g_tagBits g / 8 <= 16)%Z.
Proof.
  intros T. unfold tag_bytes. rewrite Z.quot_div_nonneg by lia. assert (0 <= g_tagBits g / 8 <= 16)%Z by (split; [apply Z.div_pos; lia|]; apply Z.div_le_upper_bound; lia).
  split; [|assumption]. unfold u32. apply Z.mod_small. lia.
Qed.
Lemma genc_safe g ko d : good (fun _ => True) (gcm_call_enc ev g ko d).
Proof. unfold gcm_call_enc. destruct (e_gcm_ok _ _); [|exact I]. apply any. intros u. apply Nu. Qed.
Lemma gdec_safe g ko d : (0 <= g_tagBits g <= 128)%Z -> (g_tagBits g / 8 <= zlen d)%Z -> good (fun _ => True) (gcm_call_dec ev g ko d).
Proof.
  intros T L. unfold gcm_call_dec. cbv zeta. destruct (tag_small g T) as [E B]. rewrite E. destruct (negb _); [exact I|]. destruct (_ <? _)%Z; [exact I|].
  destruct (Z.ltb_spec (zlen d) (g_tagBits g / 8)); [lia|]. apply any. intros u. apply Nu.
Qed.

Lemma pk_crypt_safe f m i st k r d b : (forall m k p r d u, f m k p r d <> Undef u) -> (i <> 0)%Z -> os_mech st = m -> opsafe st -> (os_init st <> 0%Z -> objs k <> None) ->
  good post (pk_crypt objs f m i st k r d b).
Proof.
  intros F I0 M S K. unfold pk_crypt. apply need_safe; [exact S|]. intros I1. unfold deref. destruct (objs k) as [ko|]; [|exfalso; apply K; congruence]. cbn [bind].
  apply sized_safe; [exact S|]. eapply good_bind; [apply (pk_get st m M S)|]. intros pp _. apply conclude_safe; [exact S|].
  eapply good_bind; [apply any; intros u; apply F|]. intros o _. cbn. unfold pk_after. destruct m; try exact S. unfold opsafe in S. rewrite M in S. destruct S as (x & ->).
  unfold opsafe. cbn. rewrite M. eauto.
Qed.
Lemma pk_sign_safe m i st k r d b : (i <> 0)%Z -> os_mech st = m -> opsafe st -> (os_init st <> 0%Z -> objs k <> None) ->
  good post (pk_sign ev objs m i st k r d b).
Proof.
  intros I0 M S K. unfold pk_sign. apply need_safe; [exact S|]. intros I1. unfold deref. destruct (objs k) as [ko|]; [|exfalso; apply K; congruence]. cbn [bind].
  apply sized_safe; [exact S|]. eapply good_bind; [apply (pk_get st m M S)|]. intros pp _.
  destruct (e_pk_sign _ _ _ _ _ _) eqn:E; [exact S|exact S|]. apply Nu in E. exact E.
Qed.
Lemma pk_verify_safe m i st k d g : (i <> 0)%Z -> os_mech st = m -> opsafe st -> (os_init st <> 0%Z -> objs k <> None) ->
  good post (pk_verify ev objs m i st k d g).
Proof.
  intros I0 M S K. unfold pk_verify. apply need_safe; [exact S|]. intros I1. unfold deref. destruct (objs k) as [ko|]; [|exfalso; apply K; congruence]. cbn [bind].
  eapply good_bind; [apply (pk_get st m M S)|]. intros pp _.
  destruct (e_pk_verify _ _ _ _ _ _) eqn:E; [exact S|exact S|]. apply Nv in E. exact E.
Qed.
Lemma hmac_upd_safe st h d : os_mech st = M_HMAC h -> opsafe st -> good post (hmac_update ev st d).
Proof. intros M S. unfold hmac_update. eapply good_bind; [eapply hmac_get; eauto|]. intros x _. cbn. eapply hmac_put; eauto. Qed.

Lemma use_safe st c : init_of c = None -> opsafe st -> fed st c -> (forall u, os_curr st = Some u -> os_init st <> 0%Z -> objs u <> None) ->
  good post (Ops.step ev objs st c).
Proof.
  intros C S F K. destruct Nu as (N1 & N2 & N3 & N4 & N5).
  assert (R : forall b f, (forall u, (os_init st <> 0%Z -> objs u <> None) -> good post (f u)) -> good post (with_obj st b f)).
  { intros b f H. unfold with_obj, not_init. destruct (os_curr st) as [u|] eqn:U; [apply H; auto|exact S]. }
  assert (D : forall k, os_init st <> 0%Z -> (os_init st <> 0%Z -> objs k <> None) -> good (fun _ => True) (deref objs k)).
  { intros k I0 H. unfold deref. destruct (objs k); [exact I|]. exact (H I0 eq_refl). }
  destruct c; try discriminate C; cbn [Ops.step fed] in *.
  - apply R. intros u U. destruct (os_mech st) eqn:M; try exact S.
    + apply pk_crypt_safe; auto; discriminate.
    + apply pk_crypt_safe; auto; discriminate.
    + apply pk_crypt_safe; auto; discriminate.
    + apply need_safe; [exact S|]. intros _. apply sized_safe; [exact S|]. eapply good_bind; [apply cbc_get; auto|]. intros p P.
      apply conclude_safe; [exact S|]. eapply (good_bind (fun v => (cb_psz (snd v) <= 16)%nat)).
      { unfold WP11_AesCbc_Encrypt. eapply good_bind; [apply aes_enc_ok|]. intros [? ?] _. exact P. }
      intros [[? ?] p'] P'. apply put_safe; auto.
    + apply need_safe; [exact S|]. intros _. apply sized_safe; [exact S|]. eapply good_bind; [apply cbc_get; auto|]. intros p P.
      apply conclude_safe; [exact S|]. rewrite trunc_small by exact F. eapply good_bind; [apply pad_enc_safe; assumption|]. intros [? p'] P'. apply put_safe; auto.
    + apply need_safe; [exact S|]. intros I1. eapply good_bind; [apply gcm_get; auto|]. intros g [G T]. apply sized_safe; [exact S|].
      eapply good_bind; [apply (D u); [rewrite I1; discriminate|exact U]|]. intros ko _. cbv zeta.
      assert (X : opsafe (set_params st (PGcm (drop_aad g)))) by (apply gcm_put; assumption).
      apply conclude_safe; [exact X|]. eapply good_bind; [apply genc_safe|]. intros [? ?] _. exact X.
  - apply R. intros u U. destruct (os_mech st) eqn:M; try exact S.
    + apply need_safe; [exact S|]. intros _. eapply good_bind; [apply cbc_get; auto|]. intros p P. apply sized_safe; [exact S|].
      apply conclude_safe; [exact S|]. rewrite trunc_small by exact F. eapply good_bind; [apply update_safe; [apply aes_enc_ok|exact F|exact P]|]. intros [? p'] P'. apply put_safe'; auto.
    + apply need_safe; [exact S|]. intros _. eapply good_bind; [apply cbc_get; auto|]. intros p P. apply sized_safe; [exact S|].
      apply conclude_safe; [exact S|]. rewrite trunc_small by exact F. eapply good_bind; [apply update_safe; [apply aes_enc_ok|exact F|exact P]|]. intros [? p'] P'. apply put_safe'; auto.
    + apply need_safe; [exact S|]. intros I1. apply sized_safe; [exact S|]. eapply good_bind; [apply gcm_get; auto|]. intros g [G T].
      eapply good_bind; [apply (D u); [rewrite I1; discriminate|exact U]|]. intros ko _. apply conclude_safe; [apply gcm_put; assumption|].
      eapply good_bind; [apply genc_safe|]. intros [? ?] _. apply gcm_put; assumption.
  - apply R. intros u U. destruct (os_mech st) eqn:M; try exact S.
    + apply need_safe; [exact S|]. intros _. eapply good_bind; [apply cbc_get; auto|]. intros p P. cbv zeta.
      assert (X : opsafe (set_init (put_cbc st (WP11_AesCbc_Final p)) 0)) by (apply put_safe; cbn; auto; lia).
      destruct (negb _); [exact X|]. destruct b; [exact S|exact X].
    + apply need_safe; [exact S|]. intros _. apply sized_safe; [exact S|]. eapply good_bind; [apply cbc_get; auto|]. intros p P.
      apply conclude_safe; [exact S|]. eapply (good_bind cpost).
      { unfold WP11_AesCbcPad_EncryptFinal. cbv zeta. eapply good_bind; [apply aes_enc_ok|]. intros [? ?] _. cbn. lia. }
      intros [? p'] P'. apply put_safe; auto.
    + apply need_safe; [exact S|]. intros I1. eapply good_bind; [apply gcm_get; auto|]. intros g [G T]. cbv zeta. apply sized_safe; [exact S|].
      destruct (tag_small g T) as [-> B]. destruct (Z.ltb_spec 16 (g_tagBits g / 8)); [lia|exact S].
  - destruct F as [F F2]. apply R. intros u U. destruct (os_mech st) eqn:M; try exact S.
    + apply pk_crypt_safe; auto; discriminate.
    + apply pk_crypt_safe; auto; discriminate.
    + apply pk_crypt_safe; auto; discriminate.
    + apply need_safe; [exact S|]. intros _. apply sized_safe; [exact S|]. eapply good_bind; [apply cbc_get; auto|]. intros p P.
      apply conclude_safe; [exact S|]. eapply (good_bind (fun v => (cb_psz (snd v) <= 16)%nat)).
      { unfold WP11_AesCbc_Decrypt. eapply good_bind; [apply aes_dec_ok|]. intros [? ?] _. exact P. }
      intros [[? ?] p'] P'. apply put_safe; auto.
    + apply need_safe; [exact S|]. intros _. destruct b; [exact S|]. eapply good_bind; [apply cbc_get; auto|]. intros p P.
      apply conclude_safe; [unfold opsafe in *; cbn; rewrite M in *; split; [apply S|cbn; lia]|].
      rewrite trunc_small by exact F. eapply good_bind; [apply pad_dec_safe; assumption|]. intros [? p'] P'. apply put_safe; auto.
    + apply need_safe; [exact S|]. intros I1. eapply good_bind; [apply gcm_get; auto|]. intros g [G T]. apply sized_safe; [exact S|].
      eapply good_bind; [apply (D u); [rewrite I1; discriminate|exact U]|]. intros ko _. cbv zeta.
      assert (X : opsafe (set_params st (PGcm (drop_aad g)))) by (apply gcm_put; assumption).
      apply conclude_safe; [exact X|]. rewrite trunc_small by exact F. eapply good_bind; [apply gdec_safe; [exact T|]|].
      { specialize (F2 eq_refl). unfold gcm_tag in F2. rewrite G in F2. exact F2. }
      intros ? _. exact X.
  - destruct F as [F F2]. apply R. intros u U. destruct (os_mech st) eqn:M; try exact S.
    + apply need_safe; [exact S|]. intros _. eapply good_bind; [apply cbc_get; auto|]. intros p P. apply sized_safe; [exact S|].
      apply conclude_safe; [exact S|]. rewrite trunc_small by exact F. eapply good_bind; [apply update_safe; [apply aes_dec_ok|exact F|exact P]|]. intros [? p'] P'. apply put_safe'; auto.
    + apply need_safe; [exact S|]. intros _. eapply good_bind; [apply cbc_get; auto|]. intros p P. apply sized_safe; [exact S|].
      apply conclude_safe; [exact S|]. rewrite trunc_small by exact F. eapply good_bind; [apply pad_dec_upd_safe; assumption|]. intros [? p'] P'. apply put_safe'; auto.
    + apply need_safe; [exact S|]. intros I1. destruct b; [exact S|]. eapply good_bind; [apply gcm_get; auto|]. intros g [G T].
      rewrite trunc_small by exact F. specialize (F2 eq_refl). unfold gcm_kept, small in F2. rewrite G, zlen_app in F2.
      destruct (Z.leb_spec (2^31) (zlen (g_enc g) + zlen data)); [lia|]. apply gcm_put; assumption.
  - apply R. intros u U. destruct (os_mech st) eqn:M; try exact S.
    + apply need_safe; [exact S|]. intros _. eapply good_bind; [apply cbc_get; auto|]. intros p P. cbv zeta.
      assert (X : opsafe (set_init (put_cbc st (WP11_AesCbc_Final p)) 0)) by (apply put_safe; cbn; auto; lia).
      destruct (negb _); [exact X|]. destruct b; [exact S|exact X].
    + apply need_safe; [exact S|]. intros _. eapply good_bind; [apply cbc_get; auto|]. intros p P. cbv zeta.
      assert (X : opsafe (set_init (put_cbc st (WP11_AesCbc_Final p)) 0)) by (apply put_safe; cbn; auto; lia).
      destruct (negb _); [exact X|]. destruct b; [exact S|].
      apply conclude_safe; [unfold opsafe in *; cbn; rewrite M in *; split; [apply S|cbn; lia]|].
      eapply good_bind; [apply pad_dec_fin_safe|]. intros [? p'] P'. apply put_safe; auto.
    + apply need_safe; [exact S|]. intros I1. eapply good_bind; [apply gcm_get; auto|]. intros g [G T]. apply sized_safe; [exact S|].
      eapply good_bind; [apply (D u); [rewrite I1; discriminate|exact U]|]. intros ko _. cbv zeta.
      apply conclude_safe; [apply gcm_put; assumption|]. eapply good_bind; [apply gdec_safe; [exact T|]|].
      { specialize (F eq_refl). unfold gcm_tag, gcm_kept in F. rewrite G in F. exact F. }
      intros ? _. apply gcm_put; assumption.
  - apply R. intros u U. destruct (os_mech st) eqn:M; try exact S; try (apply pk_sign_safe; auto; discriminate).
    apply need_safe; [exact S|]. intros _. eapply good_bind; [eapply hmac_get; eauto|]. intros x _. apply sized_safe; [exact S|]. eapply hmac_done_safe; eauto.
  - apply R. intros u U. destruct (os_mech st) eqn:M; try exact S. apply need_safe; [exact S|]. intros _. eapply hmac_upd_safe; eauto.
  - apply R. intros u U. destruct (os_mech st) eqn:M; try exact S. apply need_safe; [exact S|]. intros _.
    eapply good_bind; [eapply hmac_get; eauto|]. intros x _. apply sized_safe; [exact S|]. eapply hmac_done_safe; eauto.
  - apply R. intros u U. destruct (os_mech st) eqn:M; try exact S; try (apply pk_verify_safe; auto; discriminate).
    apply need_safe; [exact S|]. intros _. eapply good_bind; [eapply hmac_get; eauto|]. intros x _. eapply hmac_done_safe; eauto.
  - apply R. intros u U. destruct (os_mech st) eqn:M; try exact S. apply need_safe; [exact S|]. intros _. eapply hmac_upd_safe; eauto.
  - apply R. intros u U. destruct (os_mech st) eqn:M; try exact S. apply need_safe; [exact S|]. intros _.
    eapply good_bind; [eapply hmac_get; eauto|]. intros x _. eapply hmac_done_safe; eauto.
  - eapply good_bind; [apply final_safe; exact S|]. intros st' S'. exact S'.
Qed.
End O.
