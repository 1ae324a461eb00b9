(** Output buffer bounds (proofs). *)
From Verif Require Import Base Cbc CbcProofs CbcSpec Ops OpsSpec OpsCbcProofs OpsProofs OpsProofs2.

Local Ltac Zify.zify_post_hook ::= Z.div_mod_to_equations.

Lemma dec_blocks_length ci n k r d :
  (forall k b, length b = 16 -> length (ci_D ci k b) = 16) ->
  length r = 16 -> n * 16 <= length d ->
  length (fst (cbc_dec_blocks ci n k r d)) = n * 16 /\
  length (snd (cbc_dec_blocks ci n k r d)) = 16.
Proof.
  intros HD. revert r d; induction n as [|n IH]; intros r d Hr Hd; cbn [cbc_dec_blocks].
  - cbn. auto.
  - change BLK with 16.
    assert (Hf : length (firstn 16 d) = 16) by (rewrite firstn_length; lia).
    assert (Hp : length (xorb_list (ci_D ci k (firstn 16 d)) r) = 16).
    { rewrite xor_length; rewrite HD; auto. }
    specialize (IH _ (skipn 16 d) Hf). rewrite skipn_length in IH.
    destruct (cbc_dec_blocks ci n k _ (skipn 16 d)) as [o r'] eqn:Eo. cbn [fst snd] in *.
    rewrite app_length, Hp. destruct IH; [lia|]. lia.
Qed.

Lemma enc_blocks_length' ci n k r d :
  (forall k b, length b = 16 -> length (ci_E ci k b) = 16) ->
  length r = 16 -> n * 16 <= length d ->
  length (fst (cbc_enc_blocks ci n k r d)) = n * 16 /\
  length (snd (cbc_enc_blocks ci n k r d)) = 16.
Proof.
  intros HE. revert r d; induction n as [|n IH]; intros r d Hr Hd; cbn [cbc_enc_blocks].
  - cbn. auto.
  - change BLK with 16.
    assert (Hp : length (ci_E ci k (xorb_list (firstn 16 d) r)) = 16).
    { apply HE. rewrite xor_length; rewrite firstn_length; lia. }
    specialize (IH _ (skipn 16 d) Hp). rewrite skipn_length in IH.
    destruct (cbc_enc_blocks ci n k _ (skipn 16 d)) as [o r'] eqn:Eo. cbn [fst snd] in *.
    rewrite app_length, Hp. destruct IH; [lia|]. lia.
Qed.

Lemma div_mul_le l : (l / 16) * 16 <= l.
Proof. pose proof (Nat.mul_div_le l 16). lia. Qed.

(** Length-preserving generic block function. *)
Definition bl_ok (bl : nat -> list N -> list N -> list N -> list N * list N) : Prop :=
  (forall k r d, bl 0 k r d = ([], r)) /\
  (forall n m k r d,
    bl (n + m) k r d =
    (fst (bl n k r d) ++ fst (bl m k (snd (bl n k r d)) (skipn (n * BLK) d)),
     snd (bl m k (snd (bl n k r d)) (skipn (n * BLK) d)))) /\
  (forall n k r d d', firstn (n * BLK) d = firstn (n * BLK) d' -> bl n k r d = bl n k r d') /\
  (forall n k r d, length r = 16 -> n * 16 <= length d ->
     length (fst (bl n k r d)) = n * 16 /\ length (snd (bl n k r d)) = 16).

Definition cbc_inv (p : cbc) : Prop :=
  length (cb_partial p) = 16 /\ cb_psz p <= 16 /\ length (aes_reg (cb_aes p)) = 16.

Lemma gcrypt_len bl chk a d o a' :
  bl_ok bl -> length (aes_reg a) = 16 -> gcrypt bl chk a d = Ok (o, a') ->
  length o = (length d / 16) * 16 /\ length (aes_reg a') = 16.
Proof.
  intros (_ & _ & _ & HL) Hr H. unfold gcrypt in H. change BLK with 16 in H.
  destruct (_ && _)%bool; [discriminate|].
  specialize (HL (length d / 16) (aes_key a) (aes_reg a) d Hr (div_mul_le _)).
  destruct (bl _ _ _ _) as [x r]. injection H as <- <-. exact HL.
Qed.

Lemma update_len bl chk after p d o p' :
  bl_ok bl -> (forall x, length x = 16 -> length (after x) = 16) -> cbc_inv p ->
  cbc_update (gcrypt bl chk) after p d = Ok (o, p') ->
  length o = ((cb_psz p + length d) / 16) * 16 /\ cbc_inv p' /\ cb_psz p' < 16.
Proof.
  intros Hbl Haf (I1 & I2 & I3) H.
  assert (S0 : forall q d o q', cbc_inv q -> cb_psz q < 16 ->
    cbc_update (gcrypt bl chk) after q d = Ok (o, q') ->
    length o = ((cb_psz q + length d) / 16) * 16 /\ cbc_inv q' /\ cb_psz q' < 16).
  { clear - Hbl Haf. intros q d o q' (I1 & I2 & I3) L H.
    destruct Hbl as (B0 & BA & BE & BL).
    assert (Hd : (zlen d < 2^31)%Z).
    { unfold cbc_update in H. destruct (Z.leb_spec (2^31) (zlen d)); [discriminate|lia]. }
    destruct (update_spec bl B0 BA BE chk after q d Haf (conj I1 L) Hd) as (p1 & U & [O1 O2] & _ & _ & R).
    rewrite U in H. injection H as <- <-.
    assert (Hl : length (pend q ++ d) = cb_psz q + length d).
    { rewrite app_length, pend_length; change BLK with 16; lia. }
    change BLK with 16 in *.
    specialize (BL (length (pend q ++ d) / 16) (aes_key (cb_aes q)) (aes_reg (cb_aes q)) (pend q ++ d) I3
      (div_mul_le _)). destruct BL as [BL1 BL2].
    rewrite Hl in *. split; [exact BL1|]. unfold cbc_inv. rewrite R. repeat split; auto; lia. }
  destruct (Nat.eq_dec (cb_psz p) 16) as [Hp|Hp].
  2:{ apply (S0 p); auto. repeat split; auto. lia. }
  (* a full partial block: decrypted/encrypted first *)
  unfold cbc_update in H. destruct (Z.leb_spec (2^31) (zlen d)) as [|Hd]; [discriminate|].
  rewrite Hp in H. cbn [Nat.ltb Nat.leb BLK Nat.sub Nat.min firstn length Nat.add] in H.
  change (16 =? BLK) with true in H. cbn [skipn] in H.
  destruct (gcrypt bl chk (cb_aes p) (blit (cb_partial p) 16 [])) as [[o1 a1]|e|u] eqn:Eg; cbn [bind] in H; try discriminate.
  assert (Lb : length (blit (cb_partial p) 16 []) = 16).
  { rewrite blit_length; cbn; lia. }
  destruct (gcrypt_len _ _ _ _ _ _ Hbl I3 Eg) as [L1 R1]. rewrite Lb in L1.
  specialize (S0 (mkCbc a1 (after (blit (cb_partial p) 16 [])) 0) d).
  unfold cbc_update in S0. destruct (Z.leb_spec (2^31) (zlen d)); [lia|].
  cbn [cb_psz cb_aes cb_partial Nat.ltb Nat.leb BLK bind] in S0. cbn [Nat.ltb Nat.leb BLK] in H.
  match type of H with bind ?r _ = _ => destruct r as [[[o2 a2] d2]|e|u] eqn:Er end; cbn [bind] in *; try discriminate.
  injection H as <- <-.
  assert (Q : cbc_inv (mkCbc a1 (after (blit (cb_partial p) 16 [])) 0)).
  { repeat split; cbn [cb_partial cb_psz cb_aes]; auto. lia. }
  destruct (S0 _ _ Q ltac:(lia) eq_refl) as (A & B & C).
  split; [|split; assumption].
  rewrite app_length, Hp. cbn [app Nat.add] in A. rewrite A, L1.
  replace (16 + length d) with (length d + 1 * 16) by lia. rewrite Nat.div_add by lia.
  change (16 / 16 * 16) with 16. lia.
Qed.

Section P.
Variable ev : env.
Variable objs : nat -> option keyobj.
Hypothesis Hes : env_sizes ev.
Notation step := (step ev objs).
Notation run := (run ev objs).
Notation ci := (e_ci ev).

Lemma enc_bl_ok : bl_ok (cbc_enc_blocks ci).
Proof.
  repeat split.
  - intros. apply enc_blocks_add.
  - intros. apply enc_blocks_ext. assumption.
  - apply enc_blocks_length'; auto. apply (es_E _ Hes).
  - apply enc_blocks_length'; auto. apply (es_E _ Hes).
Qed.
Lemma dec_bl_ok : bl_ok (cbc_dec_blocks ci).
Proof.
  repeat split.
  - intros. apply dec_blocks_add.
  - intros. apply dec_blocks_ext. assumption.
  - apply dec_blocks_length; auto. apply (es_D _ Hes).
  - apply dec_blocks_length; auto. apply (es_D _ Hes).
Qed.

Lemma wenc_len a d o a' :
  length (aes_reg a) = 16 -> wc_AesCbcEncrypt ci a d = Ok (o, a') ->
  length o = (length d / 16) * 16 /\ length (aes_reg a') = 16.
Proof. intros Hr H. rewrite enc_is_gcrypt in H. eapply gcrypt_len; eauto. apply enc_bl_ok. Qed.
Lemma wdec_len a d o a' :
  length (aes_reg a) = 16 -> wc_AesCbcDecrypt ci a d = Ok (o, a') ->
  length o = (length d / 16) * 16 /\ length (aes_reg a') = 16.
Proof. intros Hr H. rewrite dec_is_gcrypt in H. eapply gcrypt_len; eauto. apply dec_bl_ok. Qed.

Lemma encupd_len p d o p' :
  cbc_inv p -> WP11_AesCbc_EncryptUpdate ci p d = Ok (o, p') ->
  length o = ((cb_psz p + length d) / 16) * 16 /\ cbc_inv p'.
Proof.
  intros I H. unfold WP11_AesCbc_EncryptUpdate in H. rewrite enc_is_gcrypt in H.
  destruct (update_len _ _ _ _ _ _ _ enc_bl_ok (fun _ _ => zero_block_length) I H) as (A & B & _). auto.
Qed.
Lemma decupd_len p d o p' :
  cbc_inv p -> WP11_AesCbc_DecryptUpdate ci p d = Ok (o, p') ->
  length o = ((cb_psz p + length d) / 16) * 16 /\ cbc_inv p'.
Proof.
  intros I H. unfold WP11_AesCbc_DecryptUpdate in H. rewrite dec_is_gcrypt in H.
  destruct (update_len _ _ (fun part => part) _ _ _ _ dec_bl_ok (fun _ h => h) I H) as (A & B & _). auto.
Qed.
Lemma padupd_len p d o p' :
  cbc_inv p -> WP11_AesCbcPad_DecryptUpdate ci p d = Ok (o, p') ->
  length o = rel (cb_psz p + length d) * 16 /\ cbc_inv p'.
Proof.
  intros (I1 & I2 & I3) H.
  assert (Hd : (zlen d < 2^31)%Z).
  { unfold WP11_AesCbcPad_DecryptUpdate in H. destruct (Z.leb_spec (2^31) (zlen d)); [discriminate|lia]. }
  destruct (pad_dec_update_spec ci p d (conj I1 I2) Hd) as (p1 & U & [O1 O2] & _ & _ & R).
  rewrite U in H. injection H as <- <-.
  assert (Hl : length (pend p ++ d) = cb_psz p + length d).
  { rewrite app_length, pend_length; change BLK with 16; lia. }
  change BLK with 16 in *. rewrite Hl in *.
  destruct (dec_blocks_length ci (rel (cb_psz p + length d)) (aes_key (cb_aes p)) (aes_reg (cb_aes p))
    (pend p ++ d) (es_D _ Hes) I3) as [A B].
  { rewrite Hl. unfold rel. change BLK with 16. pose proof (div_mul_le (cb_psz p + length d - 1)). lia. }
  split; [exact A|]. unfold cbc_inv. rewrite R. repeat split; auto.
Qed.

Lemma padencfin_len p o p' :
  cbc_inv p -> WP11_AesCbcPad_EncryptFinal ci p = Ok (o, p') -> length o = 16 /\ cbc_inv p'.
Proof.
  intros (I1 & I2 & I3) H. unfold WP11_AesCbcPad_EncryptFinal in H.
  assert (Lp : length (pad_block (cb_partial p) (cb_psz p)) = 16) by (apply pad_block_length; assumption).
  destruct (wc_AesCbcEncrypt ci (cb_aes p) _) as [[x a]|e|u] eqn:E; cbn [bind] in H; try discriminate.
  injection H as <- <-.
  destruct (wenc_len _ _ _ _ I3 E) as [A B]. rewrite Lp in A.
  split; [exact A|]. repeat split; cbn; auto. lia.
Qed.

Lemma paddecfin_len p o p' :
  cbc_inv p -> WP11_AesCbcPad_DecryptFinal ci p = Ok (o, p') -> length o <= 16 /\ cbc_inv p'.
Proof.
  intros (I1 & I2 & I3) H. unfold WP11_AesCbcPad_DecryptFinal in H.
  destruct (wc_AesCbcDecrypt ci (cb_aes p) _) as [[x a]|e|u] eqn:E; cbn [bind] in H; try discriminate.
  injection H as <- <-.
  destruct (wdec_len _ _ _ _ I3 E) as [A B].
  rewrite firstn_length in *. assert (length x <= 16).
  { rewrite A, I1. pose proof (div_mul_le (Nat.min (cb_psz p) 16)). lia. }
  assert (Lb : length (blit (cb_partial p) 0 x) = 16) by (rewrite blit_length; lia).
  split; [lia|]. repeat split; cbn [cb_partial cb_psz cb_aes]; auto. lia.
Qed.

Definition inv34 (st : opst) : Prop :=
  length (fst (os_part st)) = 16 /\ snd (os_part st) <= 16 /\
  match os_params st with
  | PCbc a => length (aes_reg a) = 16
  | PGcm g => (zlen (g_enc g) < 2^31)%Z
  | PHmac h => hm_sz h = hmac_sz (hm_hash h)
  | _ => True
  end.

Lemma get_cbc_inv st p : inv34 st -> get_cbc st = Ok p ->
  cbc_inv p /\ cb_psz p = snd (os_part st).
Proof.
  intros (I1 & I2 & I3) H. unfold get_cbc in H.
  destruct (os_params st); try discriminate. injection H as <-. repeat split; auto.
Qed.
Lemma put_cbc_inv st p : cbc_inv p -> inv34 (put_cbc st p).
Proof. intros (I1 & I2 & I3). unfold put_cbc. repeat split; cbn; auto. Qed.
Lemma set_init_inv st i : inv34 st -> inv34 (set_init st i).
Proof. intros H. exact H. Qed.

Lemma inv34_zero : inv34 op_zero.
Proof. repeat split; cbn; lia. Qed.

Lemma hmac_done_inv st h : inv34 st -> get_hmac st = Ok h -> inv34 (hmac_done ev st h).
Proof.
  intros (I1 & I2 & I3) H. unfold get_hmac in H. destruct (os_params st); try discriminate. injection H as <-.
  unfold hmac_done. repeat split; cbn; rewrite ?(es_tail _ Hes); auto.
Qed.

Ltac gcminv :=
  match goal with
  | I : inv34 ?st, G : get_gcm ?st = Ok ?g |- _ =>
      let X := fresh "X" in
      assert (X : (zlen (g_enc g) < 2^31)%Z);
      [ pose proof (proj2 (proj2 I)) as X; unfold get_gcm in G; destruct (os_params st); try discriminate;
        injection G as <-; exact X |]
  end.

Lemma inv34_params st p :
  inv34 st ->
  match p with
  | PCbc a => length (aes_reg a) = 16
  | PGcm g => (zlen (g_enc g) < 2^31)%Z
  | PHmac h => hm_sz h = hmac_sz (hm_hash h)
  | _ => True
  end -> inv34 (set_params st p).
Proof. intros (I1 & I2 & _) H. repeat split; cbn; auto. Qed.

Lemma pk_after_inv m st : inv34 st -> inv34 (pk_after m st).
Proof.
  intros H. unfold pk_after. destruct m; auto. destruct (os_params st) eqn:E; auto.
  apply inv34_params; auto.
Qed.

Lemma inv34_init st m k i p :
  inv34 st ->
  match p with
  | PCbc a => length (aes_reg a) = 16
  | PGcm g => (zlen (g_enc g) < 2^31)%Z
  | PHmac h => hm_sz h = hmac_sz (hm_hash h)
  | _ => True
  end -> inv34 (init_done st m k i p).
Proof. intros (I1 & I2 & _) H. repeat split; cbn; auto. Qed.

Lemma set_part_inv st q : inv34 st -> length (fst q) = 16 -> snd q <= 16 -> inv34 (set_part st q).
Proof. intros (I1 & I2 & I3) A B. repeat split; cbn; auto. Qed.

Lemma init_call_inv st c st' o kd :
  init_kind c = Some kd -> inv34 st -> step st c = Ok (st', o) -> inv34 st'.
Proof.
  intros Hk I H.
  destruct c; try discriminate Hk; cbn [Ops.step] in H; unfold init_call in H;
    (destruct (objs k) as [ko|] eqn:Ho; [|inv_step; exact I]);
    unfold C_EncryptInit, C_DecryptInit, C_SignInit, C_VerifyInit in H; destruct m;
    unfold rsa_noparam, oaep_init, pss_init, cbc_init, gcm_init, hmac_init, ecdsa_init,
      SetGcmParams, SetOaepParams, SetPssParams, SetCbcParams, Hmac_Init in H;
    rewrite ?(es_tail _ Hes) in H;
    inv_step; inv_pair;
    try exact I;
    try (apply inv34_init; [exact I|]); try (apply inv34_params; [exact I|]);
    try (cbn; exact Logic.I); try reflexivity; try (cbn; lia);
    try (apply set_part_inv; [|apply I|apply I]);
    try (apply inv34_init; [exact I|reflexivity]);
    try (apply inv34_params; [exact I|exact Logic.I]);
    try apply I.
  all: cbn [aes_reg]; match goal with X : negb (zlen ?v =? 16)%Z = false |- length ?v = 16 =>
    apply negb_false_iff, Z.eqb_eq in X; unfold zlen in X; lia end.
Qed.

Ltac dinv :=
  repeat match goal with
  | I : inv34 ?st, G : get_cbc ?st = Ok ?p |- _ =>
      let A := fresh "CI" in let B := fresh "PS" in
      destruct (get_cbc_inv _ _ I G) as [A B]; clear G
  | U : WP11_AesCbc_EncryptUpdate _ ?p ?d = Ok (?o, ?p'), CI : cbc_inv ?p |- _ =>
      let A := fresh "L" in let B := fresh "CI" in
      destruct (encupd_len _ _ _ _ CI U) as [A B]; clear U
  | U : WP11_AesCbc_DecryptUpdate _ ?p ?d = Ok (?o, ?p'), CI : cbc_inv ?p |- _ =>
      let A := fresh "L" in let B := fresh "CI" in
      destruct (decupd_len _ _ _ _ CI U) as [A B]; clear U
  | U : WP11_AesCbcPad_DecryptUpdate _ ?p ?d = Ok (?o, ?p'), CI : cbc_inv ?p |- _ =>
      let A := fresh "L" in let B := fresh "CI" in
      destruct (padupd_len _ _ _ _ CI U) as [A B]; clear U
  | U : WP11_AesCbcPad_EncryptFinal _ ?p = Ok (?o, ?p'), CI : cbc_inv ?p |- _ =>
      let A := fresh "L" in let B := fresh "CI" in
      destruct (padencfin_len _ _ _ CI U) as [A B]; clear U
  | U : WP11_AesCbcPad_DecryptFinal _ ?p = Ok (?o, ?p'), CI : cbc_inv ?p |- _ =>
      let A := fresh "L" in let B := fresh "CI" in
      destruct (paddecfin_len _ _ _ CI U) as [A B]; clear U
  | U : wc_AesCbcEncrypt _ (cb_aes ?p) ?d = Ok (?o, ?a), CI : cbc_inv ?p |- _ =>
      let A := fresh "L" in let B := fresh "R" in
      destruct (wenc_len _ _ _ _ (proj2 (proj2 CI)) U) as [A B]; clear U
  | U : wc_AesCbcDecrypt _ (cb_aes ?p) ?d = Ok (?o, ?a), CI : cbc_inv ?p |- _ =>
      let A := fresh "L" in let B := fresh "R" in
      destruct (wdec_len _ _ _ _ (proj2 (proj2 CI)) U) as [A B]; clear U
  end.

Ltac unf H :=
  unfold C_Encrypt, C_EncryptUpdate, C_EncryptFinal, C_Decrypt, C_DecryptUpdate,
      C_DecryptFinal, C_Sign, C_SignUpdate, C_SignFinal, C_Verify, C_VerifyUpdate,
      C_VerifyFinal, with_obj, need_init, not_init, pk_crypt, pk_sign, pk_verify, need_init, not_init,
      sized, conclude, hmac_update, deref,
      WP11_AesCbc_Encrypt, WP11_AesCbc_Decrypt, WP11_AesCbcPad_Encrypt, WP11_AesCbcPad_Decrypt,
      WP11_AesCbcPad_EncryptUpdate in H.

Ltac inv_tuple :=
  repeat match goal with
  | H : Ok _ = Ok _ |- _ => injection H; clear H; intros; subst
  | p : (_ * _)%type |- _ => destruct p
  | H : bind ?r _ = Ok _ |- _ => let E := fresh "E" in destruct r eqn:E; cbn [bind] in H; try discriminate H
  end.

Lemma zlen_trunc (d : list N) : (zlen (trunc32 d) = zlen d mod 2^32)%Z.
Proof.
  unfold trunc32, zlen, u32. rewrite firstn_length.
  pose proof (Z.mod_le (Z.of_nat (length d)) (2^32) ltac:(lia) ltac:(lia)).
  pose proof (Z.mod_pos_bound (Z.of_nat (length d)) (2^32) ltac:(lia)). lia.
Qed.

Lemma data_call_inv st c st' o kd :
  data_kind c = Some kd -> inv34 st -> step st c = Ok (st', o) -> inv34 st'.
Proof.
  intros Hk I H.
  destruct c; try discriminate Hk; cbn [Ops.step] in H; unf H; inv_step; try exact I;
    inv_tuple; dinv;
    try exact I;
    try (apply pk_after_inv; exact I);
    try (apply put_cbc_inv; assumption);
    try (apply set_init_inv; try apply put_cbc_inv; try assumption);
    try (apply hmac_done_inv; assumption).
  all: try (gcminv; apply inv34_params; [exact I|]; cbn [drop_aad g_enc]).
  all: try assumption.
  all: try (rewrite zlen_nil; lia).
  all: try (repeat split; cbn [cb_partial cb_psz cb_aes WP11_AesCbc_Final]; solve [assumption|apply CI|lia]).
  all: try (apply set_part_inv; [exact I|apply I|cbn; lia]).
  - apply (pk_after_inv M_RSA_OAEP). exact I.
  - apply (pk_after_inv M_RSA_OAEP). exact I.
  - match goal with X : (2^31 <=? _)%Z = false |- _ => apply Z.leb_gt in X; rewrite zlen_app; exact X end.
  - rewrite ?(es_tail _ Hes). apply set_part_inv; [|apply I|apply I]. apply inv34_params; [exact I|].
    cbn. match goal with X : get_hmac st = Ok _ |- _ => unfold get_hmac in X; destruct I as (_ & _ & I');
      destruct (os_params st); try discriminate; injection X as <-; exact I' end.
  - rewrite ?(es_tail _ Hes). apply set_part_inv; [|apply I|apply I]. apply inv34_params; [exact I|].
    cbn. match goal with X : get_hmac st = Ok _ |- _ => unfold get_hmac in X; destruct I as (_ & _ & I');
      destruct (os_params st); try discriminate; injection X as <-; exact I' end.
Qed.

Lemma inv34_step st c st' o : inv34 st -> step st c = Ok (st', o) -> inv34 st'.
Proof.
  intros I H. destruct (call_cases c) as [[kd Hk]|[[kd Hk]| ->]].
  - eapply init_call_inv; eauto.
  - eapply data_call_inv; eauto.
  - cbn [Ops.step] in H. unfold op_session_final in H.
    destruct I as (I1 & I2 & I3). inv_step; repeat split; cbn; auto; try lia.
    all: try (destruct (os_init st =? 0)%Z; cbn; assumption).
Qed.

Lemma inv34_run st cs st' os : inv34 st -> run st cs = Ok (st', os) -> inv34 st'.
Proof.
  revert st os. induction cs as [|c cs IH]; intros st os I H; cbn [Ops.run] in H.
  - inv_step. exact I.
  - destruct (step st c) as [[st1 o]|e|u] eqn:E; cbn [bind] in H; try discriminate.
    destruct (run st1 cs) as [[st2 os2]|e|u] eqn:E2; cbn [bind] in H; try discriminate.
    injection H as <- <-. eapply IH; [|exact E2]. eapply inv34_step; eauto.
Qed.

Lemma u32_le n : (0 <= n)%Z -> (u32 n <= n)%Z.
Proof. intros. unfold u32. apply Z.mod_le; lia. Qed.

Ltac ltb :=
  repeat match goal with
  | X : (_ <? _)%Z = false |- _ => apply Z.ltb_ge in X
  end.

Lemma zlen_Z (l : list N) : zlen l = Z.of_nat (length l).
Proof. reflexivity. Qed.

Lemma u32_add_r x t : u32 (x + t) = u32 (x + u32 t).
Proof. unfold u32. rewrite Zplus_mod_idemp_r. reflexivity. Qed.
Lemma u32_sub_r x t : u32 (x - t) = u32 (x - u32 t).
Proof. unfold u32. rewrite Zminus_mod_idemp_r. reflexivity. Qed.

Lemma bound34 st c n st' o :
  inv34 st -> out_arg c = Some (Buf n) -> (0 <= n)%Z -> (zlen (in_data c) < 2^31)%Z ->
  pad_overrun (os_mech st) c = false ->
  step st c = Ok (st', o) -> (zlen (o_out o) <= n)%Z.
Proof.
  intros I Ho Hn Hd Hp H. pose proof (u32_le n Hn) as Hu.
  assert (Hsnd : (snd (os_part st) <= 16)%nat) by apply I.
  destruct c; try discriminate Ho; injection Ho as ->; cbn [in_data] in Hd; cbn [Ops.step] in H;
    unf H; cbn [pad_overrun] in Hp; inv_step; try (cbn [o_out fail]; rewrite zlen_nil; lia);
    try discriminate Hp; inv_tuple; dinv; cbn [o_out];
    try (cbn [o_out fail]; rewrite zlen_nil; lia);
    rewrite ?(trunc32_small _ (Z.lt_trans _ (2^31) (2^32) Hd eq_refl)) in *;
    try (pose proof (zlen_nonneg _ data)); ltb.
  all: try (match goal with X : e_pk_enc _ _ _ _ _ _ = Ok _ |- _ => apply (es_penc _ Hes) in X; lia end).
  all: try (match goal with X : e_pk_dec _ _ _ _ _ _ = Ok _ |- _ => apply (es_pdec _ Hes) in X; lia end).
  all: try (match goal with X : e_pk_sign _ _ _ _ _ _ = Ok _ |- _ => apply (es_psign _ Hes) in X; lia end).
  all: try (match goal with X : get_hmac ?s = Ok _ |- _ => unfold get_hmac in X; destruct I as (_ & _ & I');
      destruct (os_params s); try discriminate; injection X as <-; rewrite (es_hmac _ Hes); lia end).
  all: unfold WP11_AesCbc_PartLen in *.
  all: try (match goal with X : gcm_call_enc _ _ _ _ = Ok _ |- _ =>
      unfold gcm_call_enc in X; destruct (e_gcm_ok _ _); [|discriminate X];
      apply (es_genc _ Hes) in X; destruct X as (X1 & X2 & X3) end).
  all: try (match goal with X : gcm_call_dec _ _ _ _ = Ok _ |- _ =>
      unfold gcm_call_dec in X; inv_step; ltb; apply (es_gdec _ Hes) in X end).
  all: try (gcminv).
  all: try (rewrite (u32_small (zlen data)) in * by lia).
  all: try (rewrite (u32_small (zlen data + _)) in * by lia).
  all: unfold zlen in *; rewrite ?app_length, ?firstn_length in *.
  all: try lia.
  all: try (unfold align16 in *; lia).
  all: try (rewrite u32_add_r, (u32_small (_ + u32 _)) in * by (unfold u32 in *; lia); lia).
  all: try (rewrite u32_sub_r, (u32_small (_ - u32 _)) in * by (unfold u32 in *; lia);
            unfold u32 in *; lia).
  unfold pad_dec_need, align16, rel in *. change BLK with 16 in *.
  destruct (negb _) eqn:En.
  - apply negb_true_iff, Z.eqb_neq in En. lia.
  - apply negb_false_iff, Z.eqb_eq in En. destruct (Z.ltb_spec 0 (Z.of_nat (length data) + Z.of_nat (cb_psz a))); lia.
Qed.

(** No internal overrun either. *)
Ltac inv_ub :=
  repeat match goal with
  | H : bind ?r _ = Undef _ |- _ => let E := fresh "E" in destruct r eqn:E; cbn [bind] in H; try discriminate H
  | H : Ok _ = Undef _ |- _ => discriminate H
  | H : Err _ = Undef _ |- _ => discriminate H
  | H : Undef _ = Undef _ |- _ => injection H; clear H; intros; subst; try discriminate
  | H : (match ?x with _ => _ end) = Undef _ |- _ => let E := fresh "E" in destruct x eqn:E; try discriminate H
  | H : (let '(_, _) := ?x in _) = Undef _ |- _ => let E := fresh "E" in destruct x eqn:E; try discriminate H
  end.

Lemma wenc_noub a d u : wc_AesCbcEncrypt ci a d <> Undef u.
Proof. unfold wc_AesCbcEncrypt. intros H. inv_ub. Qed.
Lemma wdec_noub a d u : wc_AesCbcDecrypt ci a d <> Undef u.
Proof. unfold wc_AesCbcDecrypt. intros H. inv_ub. Qed.

Lemma update_noub f af p d u :
  (forall a d u, f a d <> Undef u) -> cb_psz p <= 16 -> (zlen d < 2^31)%Z -> cbc_update f af p d <> Undef u.
Proof.
  intros Hf Hp Hd H. unfold cbc_update in H.
  destruct (Z.leb_spec (2^31) (zlen d)); [lia|].
  destruct (Nat.ltb_spec BLK (cb_psz p)) as [X|_]; [change BLK with 16 in X; lia|].
  inv_ub; try (eapply Hf; eassumption).
Qed.
Lemma padupdate_noub p d u :
  cb_psz p <= 16 -> (zlen d < 2^31)%Z -> WP11_AesCbcPad_DecryptUpdate ci p d <> Undef u.
Proof.
  intros Hp Hd H. unfold WP11_AesCbcPad_DecryptUpdate in H.
  destruct (Z.leb_spec (2^31) (zlen d)); [lia|].
  destruct (Nat.ltb_spec BLK (cb_psz p)) as [X|_]; [change BLK with 16 in X; lia|].
  inv_ub; try (eapply wdec_noub; eassumption).
Qed.

Lemma nooverflow34 st c b :
  inv34 st -> out_arg c = Some b -> (zlen (in_data c) < 2^31)%Z ->
  step st c = Undef UB_write_overflow ->
  os_mech st = M_AES_GCM /\ exists d, c = KDecryptUpdate d b.
Proof.
  intros I Ho Hd H.
  destruct (es_noub _ Hes) as (U1 & U2 & U3 & U4 & U5).
  destruct c; try discriminate Ho; injection Ho as ->; cbn [in_data] in Hd; cbn [Ops.step] in H;
    unf H; unfold get_pk, get_cbc, get_gcm, get_hmac, gcm_call_enc, gcm_call_dec,
      WP11_AesCbcPad_EncryptFinal, WP11_AesCbcPad_DecryptFinal,
      WP11_AesCbc_EncryptUpdate, WP11_AesCbc_DecryptUpdate in H; inv_ub; try discriminate;
    rewrite ?(trunc32_small _ (Z.lt_trans _ (2^31) (2^32) Hd eq_refl)) in *;
    try (exfalso; first
      [ eapply U1; eassumption | eapply U2; eassumption | eapply U3; eassumption
      | eapply U4; eassumption | eapply U5; eassumption
      | eapply wenc_noub; eassumption | eapply wdec_noub; eassumption ]).
  all: destruct I as (_ & I2 & _).
  all: try (match goal with X : cbc_update (wc_AesCbcEncrypt _) _ _ _ = Undef _ |- _ =>
      exfalso; refine (update_noub _ _ _ _ _ wenc_noub _ Hd X) end;
      match goal with X : match os_params _ with _ => _ end = Ok ?a |- cb_psz ?a <= 16 =>
        destruct (os_params st); try discriminate X; injection X as <-; exact I2 end).
  all: try (match goal with X : cbc_update (wc_AesCbcDecrypt _) _ _ _ = Undef _ |- _ =>
      exfalso; refine (update_noub _ _ _ _ _ wdec_noub _ Hd X) end;
      match goal with X : match os_params _ with _ => _ end = Ok ?a |- cb_psz ?a <= 16 =>
        destruct (os_params st); try discriminate X; injection X as <-; exact I2 end).
  all: try (match goal with X : WP11_AesCbcPad_DecryptUpdate _ _ _ = Undef _ |- _ =>
      exfalso; refine (padupdate_noub _ _ _ _ Hd X) end;
      match goal with X : match os_params _ with _ => _ end = Ok ?a |- cb_psz ?a <= 16 =>
        destruct (os_params st); try discriminate X; injection X as <-; exact I2 end).
  all: try (subst; discriminate).
  all: eauto.
Qed.

(** The length reported by a NULL query is enough. *)
Lemma query34 st c b0 st1 q st2 o :
  objs_ok objs -> inv34 st -> out_arg c = Some b0 -> (zlen (in_data c) < 2^31)%Z ->
  step st (with_out c Query) = Ok (st1, q) -> o_rv q = CKR_OK ->
  step st (with_out c (Buf (o_len q))) = Ok (st2, o) ->
  (0 <= o_len q < 2^32)%Z /\ o_rv o <> CKR_BUFFER_TOO_SMALL.
Proof.
  intros Hob I Ho Hd HQ Hq H.
  assert (Hsnd : (snd (os_part st) <= 16)%nat) by apply I.
  assert (U : forall z, (0 <= u32 z < 2^32)%Z) by (intros; unfold u32; apply Z.mod_pos_bound; lia).
  destruct c; try discriminate Ho; cbn [in_data] in Hd; cbn [with_out Ops.step] in HQ, H;
    unf HQ; unf H; inv_step; try discriminate; cbn [o_len o_rv] in *.
  all: repeat match goal with X : objs _ = Some ?k |- _ => apply Hob in X end.
  all: match goal with |- (0 <= ?z < _)%Z /\ _ => assert (R : (0 <= z < 2^32)%Z) end.
  all: try (first [ assumption | apply U | lia ]).
  all: try (match goal with X : get_hmac ?s = Ok _ |- (_ <= hm_sz _ < _)%Z =>
      unfold get_hmac in X; pose proof (proj2 (proj2 I)) as I'; destruct (os_params s); try discriminate;
      injection X as ->; rewrite I'; pose proof (hmac_sz_bound (hm_hash a0)); lia end).
  all: try (match goal with |- (_ <= align16 (u32 ?z) < _)%Z => pose proof (U z); unfold align16; lia end).
  all: try (match goal with |- (_ <= pad_dec_need (u32 ?z) < _)%Z =>
      pose proof (U z); unfold pad_dec_need, align16; destruct (negb _) eqn:En; [lia|];
      apply negb_false_iff, Z.eqb_eq in En; destruct (Z.ltb_spec 0 (u32 z)); lia end).
  all: split; [exact R|]; try (cbn; discriminate).
  all: match goal with X : (u32 ?z <? ?z)%Z = true |- _ => rewrite (u32_small z R) in X; lia end.
Qed.

(** ** C34 *)
Lemma C34_lemma cs st os c n :
  run op_zero cs = Ok (st, os) -> out_arg c = Some (Buf n) -> (0 <= n)%Z ->
  (zlen (in_data c) < 2^31)%Z ->
  let m := last_mech (M_OTHER 0) (combine cs os) in
  pad_overrun m c = false ->
  match step st c with
  | Ok (_, o) => (zlen (o_out o) <= n)%Z
  | Undef UB_write_overflow => m = M_AES_GCM /\ exists d b, c = KDecryptUpdate d b
  | _ => True
  end.
Proof.
  intros R Ho Hn Hd m Hp.
  pose proof (inv34_run _ _ _ _ inv34_zero R) as I.
  pose proof (mech_run _ _ _ _ _ _ R) as Hm. change (os_mech op_zero) with (M_OTHER 0) in Hm. fold m in Hm.
  destruct (step st c) as [[st' o]|e|u] eqn:E; auto.
  - eapply bound34; eauto. rewrite Hm. exact Hp.
  - destruct u; auto. destruct (nooverflow34 _ _ _ I Ho Hd E) as [A [d B]]. rewrite <- Hm. eauto.
Qed.

Lemma C34_query_lemma cs st os c b0 st1 q st2 o :
  objs_ok objs -> run op_zero cs = Ok (st, os) -> out_arg c = Some b0 ->
  (zlen (in_data c) < 2^31)%Z ->
  pad_overrun (last_mech (M_OTHER 0) (combine cs os)) c = false ->
  step st (with_out c Query) = Ok (st1, q) -> o_rv q = CKR_OK ->
  step st (with_out c (Buf (o_len q))) = Ok (st2, o) ->
  o_rv o <> CKR_BUFFER_TOO_SMALL /\ (zlen (o_out o) <= o_len q)%Z.
Proof.
  intros Hob R Ho Hd Hp HQ Hq H.
  pose proof (inv34_run _ _ _ _ inv34_zero R) as I.
  pose proof (mech_run _ _ _ _ _ _ R) as Hm. change (os_mech op_zero) with (M_OTHER 0) in Hm.
  destruct (query34 _ _ _ _ _ _ _ Hob I Ho Hd HQ Hq H) as [Q1 Q2]. split; [exact Q2|].
  eapply bound34; [exact I| | | | |exact H].
  - destruct c; try discriminate Ho; reflexivity.
  - lia.
  - destruct c; exact Hd.
  - rewrite Hm. destruct c; try exact Hp; destruct (last_mech _ _); try exact Hp; reflexivity.
Qed.

End P.
