(** Keys across the end of a process: C102. *)
From Verif Require Import Base Codec CodecProofs Ops Object ObjectProofs Store StoreSpec StoreProofs Sys SysProofs SysProofs2 SysProofs3 SysProofs4
  LoginProofs WfProofs KeyProofs CrashProofs DiskProofs PropStore PropStore3 DurableProofs.

(** The public decoders read modulus and exponent, curve and point, from the
    encoding alone; what the key held before does not matter. *)
Record pub_laws (se : senv) : Prop := mkPub {
  pl_rsa : forall der a b r, se_rsa_pub_dec se der a = (0%Z, r) -> exists r', se_rsa_pub_dec se der b = (0%Z, r') /\ r_n r' = r_n r /\ r_e r' = r_e r;
  pl_ec : forall der a b e, se_ec_pub_dec se der a = (0%Z, e) -> exists e', se_ec_pub_dec se der b = (0%Z, e') /\ ec_curve e' = ec_curve e /\ ec_pt e' = ec_pt e;
  (* the code of a failed tag check is none of theirs *)
  pl_rsa_c : forall der a, fst (se_rsa_pub_dec se der a) <> AES_GCM_AUTH_E;
  pl_ec_c : forall der a, fst (se_ec_pub_dec se der a) <> AES_GCM_AUTH_E
}.

Section D.
Variable se : senv.
Hypothesis L : laws se.
Hypothesis P : pub_laws se.

(** [od] can be decoded as [o] can. *)
Definition shaped (o od : obj) : Prop :=
  if (o_type o =? CKK_RSA)%Z then exists r, as_rsa od = Ok r
  else if (o_type o =? CKK_EC)%Z then exists e, as_ec od = Ok e
  else if (o_type o =? CKK_DH)%Z then exists p g l b b', as_dh od = Ok (p, g, l, b) /\ as_dh o = Ok (p, g, fst b', snd b')
  else exists x, as_sym od = Ok x.
(** The stored form of an object: its class, type, IV and key data. *)
Definition twin (o od : obj) : Prop :=
  o_type od = o_type o /\ o_class od = o_class o /\
  (is_cert o = false -> o_iv od = o_iv o /\ o_keyData od = o_keyData o /\ shaped o od).
(** Whatever stored form is decoded with [key], the key comes back. *)
Definition good (key : list N) (o : obj) : Prop := forall od, twin o od ->
  exists o2, Decode se key od = Ok (0%Z, o2) /\ (o_enc o = false -> is_cert o = false -> same_key o o2 /\ o_enc o2 = false).
Lemma good_cert key o : is_cert o = true -> good key o.
Proof.
  intros C od (T & Cl & _). unfold Decode. assert (C' : is_cert od = true) by (unfold is_cert in *; rewrite Cl; exact C). rewrite C'.
  eexists. split; [reflexivity|]. congruence.
Qed.

(** What has been decoded decodes again. *)
Lemma decoded_good key o o' : Decode se key o = Ok (0%Z, o') -> good key o'.
Proof.
  intros D. destruct (is_cert o) eqn:C.
  { apply good_cert. unfold Decode in D. rewrite C in D. injection D as <-. exact C. }
  intros od (T & Cl & S).
  assert (I : o_type o' = o_type o /\ o_class o' = o_class o /\ o_iv o' = o_iv o /\ o_keyData o' = o_keyData o).
  { assert (G : forall c d, o_type (snd (fin o c d)) = o_type o /\ o_class (snd (fin o c d)) = o_class o /\ o_iv (snd (fin o c d)) = o_iv o /\ o_keyData (snd (fin o c d)) = o_keyData o)
      by (intros c d; unfold fin; destruct (c =? 0)%Z; repeat split).
    unfold Decode in D. rewrite C in D. destruct (DecodeKey se key o) as [[c1 o1]| |] eqn:K; cbn [bind] in D; try discriminate. injection D as _ <-.
    change o1 with (snd (c1, o1)). unfold DecodeKey in K. sinv; try (repeat split; fail);
    repeat match goal with H : fin _ _ _ = (_, _) |- _ => rewrite <- H; apply G
      | H : (let '(_, _) := ?x in _) = _ |- _ => destruct x; cbn in H
      | H : (if ?b then _ else _) = _ |- _ => destruct b end. }
  destruct I as (I1 & I2 & I3 & I4).
  assert (C' : is_cert o' = false) by (unfold is_cert in *; rewrite I2; exact C). specialize (S C'). destruct S as (S1 & S2 & S3).
  assert (Cd : is_cert od = false) by (unfold is_cert in *; congruence).
  unfold shaped in S3. rewrite I1 in S3, T. rewrite I2 in Cl. rewrite I3 in S1. rewrite I4 in S2.
  assert (Pd : is_priv od = is_priv o) by (unfold is_priv; rewrite Cl; reflexivity).
  assert (Sd : is_sym od = is_sym o) by (unfold is_sym; rewrite T; reflexivity).
  assert (Kb : kd_bytes od = kd_bytes o) by (unfold kd_bytes; rewrite S2; reflexivity).
  assert (Dk : dec_kd se key od = dec_kd se key o) by (unfold dec_kd; rewrite S1, Kb; reflexivity).
  unfold Decode in *. rewrite C in D. rewrite Cd. unfold same_key. rewrite I1, I2.
  unfold DecodeKey in *. rewrite T, Pd, Sd.
  destruct (o_type o =? CKK_RSA)%Z eqn:TR.
  { destruct S3 as (r & R). rewrite R. destruct (as_rsa o) as [r0| |] eqn:R0; cbn [bind] in *; try discriminate. destruct (is_priv o) eqn:Pv.
    - rewrite Kb, Dk. destruct (_ <? 16)%Z; [discriminate D|]. destruct (dec_kd se key o) as [c der]. destruct (c =? 0)%Z eqn:C0; cbn [negb] in *.
      + destruct (se_rsa_priv_dec se der) as [c2 r']. unfold fin in *. destruct (c2 =? 0)%Z eqn:C2.
        * injection D as <-. eexists. split; [reflexivity|]. intros _ _. cbn. split; [|reflexivity]. split; [exact T|split; [exact Cl|]]. exists r', r'. auto.
        * injection D as D1 <-. cbn [bind]. eexists. split; [rewrite D1; reflexivity|]. intros E. discriminate E.
      + unfold fin in *. rewrite C0 in *. injection D as D1 <-. cbn [bind]. eexists. split; [rewrite D1; reflexivity|]. intros E. discriminate E.
    - rewrite Kb. destruct (se_rsa_pub_dec se (kd_bytes o) r0) as [c r'] eqn:E. unfold fin in *. destruct (c =? 0)%Z eqn:C0.
      + apply Z.eqb_eq in C0. subst c. injection D as <-. destruct (pl_rsa _ P _ _ r _ E) as (r2 & E2 & N1 & N2). rewrite E2. change (0 =? 0)%Z with true. cbv iota.
        eexists. split; [reflexivity|]. intros _ _. cbn. split; [|reflexivity]. split; [exact T|split; [exact Cl|]]. exists r', r2. repeat split; auto.
        intros Q. unfold is_priv in Pv. rewrite Q in Pv. discriminate.
      + exfalso. pose proof (pl_rsa_c _ P (kd_bytes o) r0) as X. rewrite E in X. cbn [fst] in X. injection D as D1 _. apply Z.eqb_neq in X. rewrite X in D1. lia. }
  destruct (o_type o =? CKK_EC)%Z eqn:TE.
  { destruct S3 as (r & R). rewrite R. destruct (as_ec o) as [r0| |] eqn:R0; cbn [bind] in *; try discriminate. destruct (is_priv o) eqn:Pv.
    - rewrite Kb, Dk. destruct (_ <? 16)%Z; [discriminate D|]. destruct (dec_kd se key o) as [c der]. destruct (c =? 0)%Z eqn:C0; cbn [negb] in *.
      + destruct (se_ec_priv_dec se der) as [c2 r']. unfold fin in *. destruct (c2 =? 0)%Z eqn:C2.
        * injection D as <-. eexists. split; [reflexivity|]. intros _ _. cbn. split; [|reflexivity]. split; [exact T|split; [exact Cl|]]. exists r', r'. auto.
        * injection D as D1 <-. cbn [bind]. eexists. split; [rewrite D1; reflexivity|]. intros E. discriminate E.
      + unfold fin in *. rewrite C0 in *. injection D as D1 <-. cbn [bind]. eexists. split; [rewrite D1; reflexivity|]. intros E. discriminate E.
    - rewrite Kb. destruct (se_ec_pub_dec se (kd_bytes o) r0) as [c r'] eqn:E. unfold fin in *. destruct (c =? 0)%Z eqn:C0.
      + apply Z.eqb_eq in C0. subst c. injection D as <-. destruct (pl_ec _ P _ _ r _ E) as (r2 & E2 & N1 & N2). rewrite E2. change (0 =? 0)%Z with true. cbv iota.
        eexists. split; [reflexivity|]. intros _ _. cbn. split; [|reflexivity]. split; [exact T|split; [exact Cl|]]. exists r', r2. repeat split; auto.
        intros Q. unfold is_priv in Pv. rewrite Q in Pv. discriminate.
      + exfalso. pose proof (pl_ec_c _ P (kd_bytes o) r0) as X. rewrite E in X. cbn [fst] in X. injection D as D1 _. apply Z.eqb_neq in X. rewrite X in D1. lia. }
  assert (Ov : forall b d : list N, firstn (Z.to_nat (zlen d)) (overlay b d) = d) by (intros b d; unfold zlen; rewrite Nat2Z.id; apply overlay_firstn).
  destruct (o_type o =? CKK_DH)%Z eqn:TD.
  { destruct S3 as (p & g & l & b & b' & R & R'). rewrite R. destruct (as_dh o) as [[[[p0 g0] l0] b0]| |] eqn:R0; cbn [bind] in *; try discriminate.
    assert (PG : p0 = p /\ g0 = g).
    { assert (Q : o_data o' = o_data o \/ exists l1 b1, o_data o' = KDh p0 g0 l1 b1).
      { destruct (is_priv o).
        - destruct (dec_into se key o) as [[c d]| |]; cbn [bind] in D; try discriminate. unfold fin in D. destruct (c =? 0)%Z; injection D; intros; subst; [right; do 2 eexists; reflexivity|left; reflexivity].
        - destruct (_ <? _)%Z; [discriminate|]. injection D as <-. right. do 2 eexists. reflexivity. }
      unfold as_dh in R', R0. destruct Q as [Q|(l1 & b1 & Q)]; rewrite Q in R'; [rewrite R' in R0; injection R0; intros; subst; auto|injection R'; intros; subst; auto]. }
    destruct PG as [-> ->]. destruct (is_priv o) eqn:Pv.
    - unfold dec_into in *. rewrite S2, Dk. destruct (o_keyData o) as [kd|]; [|discriminate]. destruct (_ <? 16)%Z; [discriminate|]. destruct (_ <? _)%Z; [discriminate|].
      cbn [bind] in *. destruct (dec_kd se key o) as [c d]. unfold fin in *. destruct (c =? 0)%Z.
      + injection D as <-. eexists. split; [reflexivity|]. intros _ _. cbn. split; [|reflexivity]. split; [exact T|split; [exact Cl|]].
        exists p, g, (zlen d), (overlay b0 d), (overlay b d). rewrite !Ov. auto.
      + injection D as D1 <-. cbn [bind]. eexists. split; [rewrite D1; reflexivity|]. intros E. discriminate E.
    - rewrite Kb. destruct (_ <? _)%Z; [discriminate|]. injection D as <-. eexists. split; [reflexivity|]. intros _ _. cbn. split; [|reflexivity]. split; [exact T|split; [exact Cl|]].
      exists p, g, (zlen (kd_bytes o)), (overlay b0 (kd_bytes o)), (overlay b (kd_bytes o)). rewrite !Ov. auto. }
  destruct (is_sym o) eqn:Sy; [|discriminate D]. destruct S3 as ([l b] & R). rewrite R. destruct (as_sym o) as [[l0 b0]| |] eqn:R0; cbn [bind] in *; try discriminate.
  unfold dec_into in *. rewrite S2, Dk. destruct (o_keyData o) as [kd|]; [|discriminate]. destruct (_ <? 16)%Z; [discriminate|]. destruct (_ <? _)%Z; [discriminate|].
  cbn [bind] in *. destruct (dec_kd se key o) as [c d]. unfold fin in *. destruct (c =? 0)%Z.
  - injection D as <-. eexists. split; [reflexivity|]. intros _ _. cbn. split; [|reflexivity]. split; [exact T|split; [exact Cl|]].
    exists (zlen d), (overlay b0 d), (overlay b d). rewrite !Ov. auto.
  - injection D as D1 <-. cbn [bind]. eexists. split; [rewrite D1; reflexivity|]. intros E. discriminate E.
Qed.

(** What has been encoded can be decoded. *)
Lemma encoded_good key o o1 h : Encode se key false o = Ok (0%Z, o1) -> good key (set_handle o1 h).
Proof.
  intros E. destruct (is_cert o) eqn:C.
  { apply good_cert. unfold Encode in E. rewrite C in E. injection E as <-. exact C. }
  intros od (T & Cl & S). unfold Encode in E. rewrite C in E. destruct (EncodeKey se key o) as [[c o2]| |] eqn:K; cbn [bind andb] in E; try discriminate. injection E as -> <-.
  assert (I : exists kd, o2 = set_store o (o_iv o) kd (o_enc o)).
  { unfold EncodeKey, enc_asym in K. sinv; try (eexists; reflexivity). }
  destruct I as (kd0 & ->). cbn in T, Cl, S. change (is_cert (set_handle (set_store o (o_iv o) kd0 (o_enc o)) h)) with (is_cert o) in S. specialize (S C).
  destruct S as (S1 & S2 & S3). unfold shaped in S3. cbn [set_handle set_store o_type] in S3.
  change (as_dh (set_handle (set_store o (o_iv o) kd0 (o_enc o)) h)) with (as_dh o) in S3.
  change (is_cert (set_handle (set_store o (o_iv o) kd0 (o_enc o)) h)) with (is_cert o).
  assert (Cd : is_cert od = false) by (unfold is_cert in *; congruence).
  assert (Pd : is_priv od = is_priv o) by (unfold is_priv; rewrite Cl; reflexivity).
  assert (Sd : is_sym od = is_sym o) by (unfold is_sym; rewrite T; reflexivity).
  assert (Ov : forall b d : list N, firstn (Z.to_nat (zlen d)) (overlay b d) = d) by (intros b d; unfold zlen; rewrite Nat2Z.id; apply overlay_firstn).
  assert (Tk : forall l b d, take_buf l b = Ok d -> (0 <= l <= 512)%Z /\ zlen d = l /\ firstn (Z.to_nat l) b = d).
  { intros l b d Q. unfold take_buf in Q. change (Z.of_nat SYM_BUF) with 512%Z in Q. destruct (l <? 0)%Z eqn:L1; [discriminate|]. destruct (512 <? l)%Z eqn:L0; [discriminate|]. destruct (zlen b <? l)%Z eqn:L2; [discriminate|].
    injection Q as <-. split; [lia|]. split; [|reflexivity]. unfold zlen in *. rewrite firstn_length. lia. }
  unfold Decode. rewrite Cd. unfold same_key. cbn [set_handle set_store o_type o_class o_enc].
  change (as_rsa (set_handle (set_store o (o_iv o) kd0 (o_enc o)) h)) with (as_rsa o). change (as_ec (set_handle (set_store o (o_iv o) kd0 (o_enc o)) h)) with (as_ec o).
  change (as_dh (set_handle (set_store o (o_iv o) kd0 (o_enc o)) h)) with (as_dh o). change (as_sym (set_handle (set_store o (o_iv o) kd0 (o_enc o)) h)) with (as_sym o).
  unfold DecodeKey, EncodeKey in *. rewrite T, Pd, Sd.
  destruct (o_type o =? CKK_RSA)%Z eqn:TR.
  { destruct S3 as (r & R). rewrite R. destruct (as_rsa o) as [r0| |] eqn:R0; cbn [bind] in *; try discriminate. unfold enc_asym in K. destruct (is_priv o) eqn:Pv.
    - destruct (se_rsa_priv se r0) as [c der] eqn:En. destruct (c <? 0)%Z eqn:Cn; [injection K as K _; lia|]. injection K as <-.
      unfold dec_kd, kd_bytes. rewrite S2, S1. destruct (_ <? 16)%Z eqn:B; [rewrite (l_tag _ L) in B; unfold zlen in B; lia|]. rewrite (l_gcm _ L). change (negb (0 =? 0)%Z) with false. cbv iota.
      pose proof (l_rsa_priv _ L r0) as X. rewrite En in X. cbn [fst snd] in X. rewrite X by lia. eexists. split; [reflexivity|]. intros _ _. cbn. split; [|reflexivity].
      split; [exact T|split; [exact Cl|]]. exists r0, r0. auto.
    - destruct (se_rsa_pub se r0) as [c der] eqn:En. destruct (c <? 0)%Z eqn:Cn; [injection K as K _; lia|]. destruct (_ =? CKO_PUBLIC_KEY)%Z; [|discriminate]. injection K as <-.
      unfold kd_bytes. rewrite S2. destruct (l_rsa_pub _ L r0 r) as (r' & X & Y & Z); [rewrite En; cbn; lia|]. rewrite En in X. cbn [snd] in X. rewrite X.
      eexists. split; [reflexivity|]. intros _ _. cbn. split; [|reflexivity]. split; [exact T|split; [exact Cl|]]. exists r0, r'. repeat split; auto.
      intros Q. unfold is_priv in Pv. rewrite Q in Pv. discriminate. }
  destruct (o_type o =? CKK_EC)%Z eqn:TE.
  { destruct S3 as (r & R). rewrite R. destruct (as_ec o) as [r0| |] eqn:R0; cbn [bind] in *; try discriminate. unfold enc_asym in K. destruct (is_priv o) eqn:Pv.
    - destruct (se_ec_priv se r0) as [c der] eqn:En. destruct (c <? 0)%Z eqn:Cn; [injection K as K _; lia|]. injection K as <-.
      unfold dec_kd, kd_bytes. rewrite S2, S1. destruct (_ <? 16)%Z eqn:B; [rewrite (l_tag _ L) in B; unfold zlen in B; lia|]. rewrite (l_gcm _ L). change (negb (0 =? 0)%Z) with false. cbv iota.
      destruct (l_ec_priv _ L r0) as (e' & X & Y & Z); [rewrite En; cbn; lia|]. rewrite En in X. cbn [snd] in X. rewrite X. eexists. split; [reflexivity|]. intros _ _. cbn. split; [|reflexivity].
      split; [exact T|split; [exact Cl|]]. exists r0, e'. repeat split; auto. intros Q. unfold is_priv in Pv. apply Z.eqb_eq in Pv. contradiction.
    - destruct (se_ec_pub se r0) as [c der] eqn:En. destruct (c <? 0)%Z eqn:Cn; [injection K as K _; lia|]. destruct (_ =? CKO_PUBLIC_KEY)%Z; [|discriminate]. injection K as <-.
      unfold kd_bytes. rewrite S2. destruct (l_ec_pub _ L r0 r) as (r' & X & Y & Z); [rewrite En; cbn; lia|]. rewrite En in X. cbn [snd] in X. rewrite X.
      eexists. split; [reflexivity|]. intros _ _. cbn. split; [|reflexivity]. split; [exact T|split; [exact Cl|]]. exists r0, r'. repeat split; auto.
      intros Q. unfold is_priv in Pv. rewrite Q in Pv. discriminate. }
  destruct (o_type o =? CKK_DH)%Z eqn:TD.
  { destruct S3 as (p & g & l & b & [l' b'] & R & R'). rewrite R. destruct (as_dh o) as [[[[p0 g0] l0] b0]| |] eqn:R0; cbn [bind] in *; try discriminate. injection R' as -> -> _ _.
    destruct (take_buf l0 b0) as [d| |] eqn:Q; cbn [bind] in K; try discriminate. apply Tk in Q as (Q1 & Q2 & Q3). injection K as <-. destruct (is_priv o) eqn:Pv.
    - unfold dec_into, dec_kd, kd_bytes. rewrite S2, S1, (l_tag _ L), Q2. destruct (l0 + 16 <? 16)%Z eqn:B1; [lia|]. change (Z.of_nat SYM_BUF) with 512%Z. destruct (512 <? _)%Z eqn:B2; [lia|]. rewrite (l_gcm _ L). cbn [bind].
      eexists. split; [reflexivity|]. intros _ _. cbn. split; [|reflexivity]. split; [exact T|split; [exact Cl|]]. exists p, g, l0, b0, (overlay b d). rewrite <- Q2, Ov, Q2, Q3. auto.
    - unfold kd_bytes. rewrite S2, Q2. change (Z.of_nat DH_BUF) with 512%Z. destruct (512 <? _)%Z eqn:B2; [lia|].
      eexists. split; [reflexivity|]. intros _ _. cbn. split; [|reflexivity]. split; [exact T|split; [exact Cl|]]. exists p, g, l0, b0, (overlay b d). rewrite <- Q2, Ov, Q2, Q3. auto. }
  destruct (is_sym o) eqn:Sy; [|discriminate K]. destruct S3 as ([l b] & R). rewrite R. destruct (as_sym o) as [[l0 b0]| |] eqn:R0; cbn [bind] in *; try discriminate.
  destruct (take_buf l0 b0) as [d| |] eqn:Q; cbn [bind] in K; try discriminate. apply Tk in Q as (Q1 & Q2 & Q3). injection K as <-.
  unfold dec_into, dec_kd, kd_bytes. rewrite S2, S1, (l_tag _ L), Q2. destruct (l0 + 16 <? 16)%Z eqn:B1; [lia|]. change (Z.of_nat SYM_BUF) with 512%Z. destruct (512 <? _)%Z eqn:B2; [lia|]. rewrite (l_gcm _ L). cbn [bind].
  eexists. split; [reflexivity|]. intros _ _. cbn. split; [|reflexivity]. split; [exact T|split; [exact Cl|]]. exists l0, b0, (overlay b d). rewrite <- Q2, Ov, Q2, Q3. auto.
Qed.
End D.

Section W.
Variable w : world.
Notation se := (w_se w).
Hypothesis L : laws se.
Hypothesis P : pub_laws se.

Lemma twin_reloaded uid o : storable se o -> twin o (reloaded uid o).
Proof.
  intros S. unfold twin, reloaded, storable, shaped in *. destruct (is_cert o) eqn:C; [split; [reflexivity|split; [reflexivity|discriminate]]|].
  destruct S as (_ & (kd & K & _) & D). unfold kd_bytes. rewrite K. destruct (o_type o =? CKK_DH)%Z eqn:TD.
  - apply Z.eqb_eq in TD. destruct (D TD) as (p & g & l & b & A & _). rewrite A. cbn. rewrite TD. split; [reflexivity|]. split; [reflexivity|]. intros _.
    split; [reflexivity|]. split; [reflexivity|]. cbn. exists p, g, 0%Z, (zeros DH_BUF), (l, b). auto.
  - cbn. split; [reflexivity|]. split; [reflexivity|]. intros _. split; [reflexivity|]. split; [reflexivity|].
    destruct (o_type o =? CKK_RSA)%Z; [exists rsa0; reflexivity|]. destruct (o_type o =? CKK_EC)%Z; [exists ec0; reflexivity|]. eexists. reflexivity.
Qed.
Lemma twins_reloaded l : Forall (storable se) l -> forall uid, Forall2 twin l (reload_objs uid l).
Proof. induction 1 as [|o l H F IH]; intros uid; cbn [reload_objs]; constructor; auto. apply twin_reloaded; exact H. Qed.

(** Objects loaded twice from the same files. *)
Lemma load_obj_twin d u u' ty id o o' : load_obj se d u ty id = Ok o -> load_obj se d u' ty id = Ok o' -> twin o o'.
Proof.
  unfold load_obj. destruct (open_read d (F_OBJECT, id)) as [f| |]; cbn [bind]; try discriminate. unfold read_obj_file.
  do 12 (match goal with |- context [bind ?m _] => lazymatch m with bind _ _ => fail | Ok _ => fail | _ => destruct m as [[? ?]| |]; cbn [bind]; try discriminate end end).
  intros A B. match type of A with match key_kind ?q with _ => _ end = _ => set (a := q) in A end. match type of B with match key_kind ?q with _ => _ end = _ => set (b := q) in B end.
  change (key_kind b) with (key_kind a) in B. destruct (key_kind a); [|discriminate]. destruct (open_read d _) as [kf| |]; cbn [bind] in *; try discriminate.
  unfold read_key_file in *. change (is_cert b) with (is_cert a) in B. change (o_type b) with (o_type a) in B. change (o_iv b) with (o_iv a) in B. change (o_enc b) with (o_enc a) in B.
  destruct (r_alloc kf) as [[kd f1]| |]; cbn [bind] in *; try discriminate. cbv zeta in A, B. destruct (is_cert a) eqn:C; cbn [negb andb bind] in *.
  { injection A as <-. injection B as <-. split; [reflexivity|]. split; [reflexivity|]. intros Q. change (is_cert a = false) in Q. congruence. }
  destruct (o_type a =? CKK_DH)%Z eqn:TD.
  - destruct (r_alloc f1) as [[der f2]| |]; cbn [bind] in *; try discriminate. destruct (se_dh_dec se der) as [c [p g]]. destruct (negb (c =? 0)%Z); cbn [bind] in *; [discriminate|].
    injection A as <-. injection B as <-. split; [reflexivity|]. split; [reflexivity|]. intros _. split; [reflexivity|]. split; [reflexivity|].
    unfold shaped. cbn [set_data set_store o_type]. apply Z.eqb_eq in TD. rewrite TD. cbn. exists p, g, 0%Z, (zeros DH_BUF), (0%Z, zeros DH_BUF). auto.
  - injection A as <-. injection B as <-. split; [reflexivity|]. split; [reflexivity|]. intros _. split; [reflexivity|]. split; [reflexivity|].
    unfold shaped. cbn [set_store o_type]. rewrite TD.
    destruct (o_type a =? CKK_RSA)%Z; [exists rsa0; reflexivity|]. destruct (o_type a =? CKK_EC)%Z; [exists ec0; reflexivity|]. eexists. reflexivity.
Qed.
Lemma load_objs_twin d tys : forall u u' l l', load_objs se d u tys = Ok l -> load_objs se d u' tys = Ok l' -> Forall2 twin l l'.
Proof.
  induction tys as [|ty r IH]; intros u u' l l'; cbn [load_objs]; [intros [= <-] [= <-]; constructor|].
  destruct (load_obj se d u ty (length r)) as [o| |] eqn:A; cbn [bind]; try discriminate. destruct (load_objs se d (S u) r) as [m| |] eqn:B; cbn [bind]; try discriminate. intros [= <-].
  destruct (load_obj se d u' ty (length r)) as [o'| |] eqn:A'; cbn [bind]; try discriminate. destruct (load_objs se d (S u') r) as [m'| |] eqn:B'; cbn [bind]; try discriminate. intros [= <-].
  constructor; [eapply load_obj_twin; eauto|eapply IH; eauto].
Qed.
Lemma Token_Load_twin d u u' t t' : Token_Load se d u = Ok t -> Token_Load se d u' = Ok t' -> Forall2 twin (t_objs t) (t_objs t').
Proof.
  unfold Token_Load. destruct (d (F_TOKEN, 0)) as [f|]; [|intros [= <-] [= <-]; constructor].
  unfold load_all. destruct (read_tok_file f) as [[tf r]| |]; cbn [bind]; try (intros [= <-] [= <-]; constructor); try discriminate.
  pose proof (load_objs_uid w d (tf_types tf) u u') as X.
  destruct (load_objs se d u (tf_types tf)) as [l| |] eqn:A, (load_objs se d u' (tf_types tf)) as [l'| |] eqn:B; cbn [bind agree] in *; try contradiction; try discriminate; try (intros [= <-] [= <-]; constructor).
  intros [= <-] [= <-]. cbn. eapply load_objs_twin; eauto.
Qed.
Lemma Token_Load_public d u t : Token_Load se d u = Ok t -> logged_in (t_login t) = false.
Proof.
  unfold Token_Load. destruct (d (F_TOKEN, 0)) as [f|]; [|intros [= <-]; reflexivity].
  unfold load_all. destruct (read_tok_file f) as [[tf r]| |]; cbn [bind]; try (intros [= <-]; reflexivity); try discriminate.
  destruct (load_objs se d u (tf_types tf)) as [l| |]; cbn [bind]; try discriminate; intros [= <-]; reflexivity.
Qed.

(** The files hold the token and the stored forms of its objects. *)
Definition in_step (s : sys) : Prop := t_init (s_tok s) = true ->
  forall uid, exists t, Token_Load se (s_fs s) uid = Ok t /\ lasting t = lasting (s_tok s) /\ Forall2 twin (t_objs (s_tok s)) (t_objs t).
Lemma in_step_loaded rnd s s' o : s_count s = 0%Z -> step w rnd s OInitialize = Ok (s', o) -> in_step s'.
Proof.
  intros C H. cbn [step] in H. unfold Initialize in H. rewrite C in H. change (0 =? 0)%Z with true in H. cbv iota in H.
  destruct (Token_Load se (s_fs s) (s_uid s)) as [t| |] eqn:E; cbn [bind] in H; try discriminate. injection H as <- _. intros _ uid. cbn [s_fs s_tok].
  destruct (Token_Load_uid w _ _ uid _ E) as (t' & E' & La). exists t'. split; [exact E'|]. split; [exact La|]. eapply Token_Load_twin; eauto.
Qed.
Lemma in_step_saved s : saved w s -> ginv (s_tok s) -> tidy w s -> in_step s.
Proof.
  intros Sv G Td Ti uid. destruct (saved_load w L s Sv G Td) as [Wf Ld]. exists (reload uid (s_tok s)). split; [apply Ld|].
  split; [apply lasting_reload; assumption|]. cbn [reload t_objs]. apply twins_reloaded. apply Td.
Qed.
(** Nothing that is stored, nor the objects in memory, changes. *)
Definition same_objs (s s' : sys) : Prop :=
  s_fs s' = s_fs s /\ lasting (s_tok s') = lasting (s_tok s) /\ t_objs (s_tok s') = t_objs (s_tok s) /\ t_key (s_tok s') = t_key (s_tok s).
Lemma in_step_same s s' : same_objs s s' -> in_step s -> in_step s'.
Proof.
  intros (A & B & C & _) I Ti uid. assert (Ti0 : t_init (s_tok s) = true) by (unfold lasting in B; injection B; intros; congruence).
  destruct (I Ti0 uid) as (t & E1 & E2 & E3). exists t. rewrite A, B, C. auto.
Qed.
Lemma still_same s s' : still s s' -> same_objs s s'.
Proof. intros [A B]. unfold same_objs. rewrite A, B. auto. Qed.
Lemma logout_same s t : Logout w (s_tok s) = Ok t -> (t_login (s_tok s) = RW_USER -> t_login t = RW_USER) -> t_login (s_tok s) <> RO_USER -> same_objs s (set_tok s t).
Proof.
  intros E U R. unfold Logout in E. destruct (t_login (s_tok s) =? RO_USER)%Z eqn:Z1; [apply Z.eqb_eq in Z1; contradiction|]. cbn [orb] in E.
  destruct (t_login (s_tok s) =? RW_USER)%Z eqn:Z2.
  - apply Z.eqb_eq in Z2. destruct (encode_all _ _ _); cbn [bind] in E; try discriminate. injection E as <-. specialize (U Z2). discriminate U.
  - injection E as <-. repeat split.
Qed.
Lemma inv_no_ro s : inv s -> t_login (s_tok s) <> RO_USER.
Proof. intros (_ & _ & _ & [I _]) E. rewrite E in I. cbn in I. unfold RO_USER, RW_PUBLIC, RW_USER, RW_SO in I. lia. Qed.
(** A call that neither sets PINs nor logs in or out. *)
Lemma calm_other rnd s c s' o : inv s -> objop c = None -> calm c ->
  (t_login (s_tok s) = RW_USER -> t_login (s_tok s') = RW_USER) -> step w rnd s c = Ok (s', o) -> same_objs s s'.
Proof.
  intros I O Ca U H. assert (Z : same_objs s s) by (apply still_same; split; reflexivity).
  destruct c; try discriminate O; try contradiction Ca; cbn [step] in H; unfold with_slot, with_sess, need_lib in H; (destruct (0 <? s_count s)%Z; [|sinv; exact Z]).
  - destruct (slot_ok slot); [|sinv; exact Z]. unfold OpenSession in H. cbv zeta in H. sinv; try exact Z; apply still_same; split; reflexivity.
  - destruct (sess_get s h) as [x|]; [|sinv; exact Z]. unfold CloseSession in H. destruct (close_sess _ _) as [l| |]; cbn [bind] in H; try discriminate. cbv zeta in H.
    destruct (existsb _ _); [sinv; apply still_same; split; reflexivity|]. change (s_tok (set_sess s l)) with (s_tok s) in H.
    destruct (Logout w (s_tok s)) as [t| |] eqn:E; cbn [bind] in H; try discriminate. unfold rv_ in H. injection H as <- _.
    apply (logout_same s t E U (inv_no_ro s I)).
  - destruct (slot_ok slot); [|sinv; exact Z]. destruct (close_all _); cbn [bind] in H; try discriminate. sinv. apply still_same; split; reflexivity.
  - destruct (sess_get s h) as [x|]; [|sinv; exact Z].
    destruct (Logout w (s_tok s)) as [t| |] eqn:E; cbn [bind] in H; try discriminate. unfold rv_ in H. injection H as <- _.
    apply (logout_same s t E U (inv_no_ro s I)).
  - destruct (slot_ok slot); sinv; exact Z.
Qed.
Lemma calm_level rnd s c s' o : inv s -> Forall held (t_objs (s_tok s)) -> calm c -> sets_token c = false ->
  (t_login (s_tok s) = RW_USER -> t_login (s_tok s') = RW_USER) -> step w rnd s c = Ok (s', o) -> same_objs s s' \/ saved w s'.
Proof.
  intros I F Ca NS U H. destruct (objop c) as [h|] eqn:O; [|left; eapply calm_other; eauto].
  destruct (objop_up w rnd s c h s' o I F O NS H) as [_ [Q|Q]]; [left; apply still_same; exact Q|auto].
Qed.

(** ** The objects while the user is logged in *)
Definition okays (key : list N) (l : list obj) : Prop := Forall (fun o => held o /\ good se key o) l.
Lemma okays_held key l : okays key l -> Forall held l.
Proof. intros F. eapply Forall_impl; [|exact F]. cbv beta. tauto. Qed.
Lemma store_objs_okays key0 key r l : forall c l' ws, okays key l -> store_objs se key0 r l = Ok (c, l', ws) -> okays key l'.
Proof.
  unfold okays. induction l as [|o l IH]; cbn [store_objs]; intros c l' ws F H; [injection H as _ <- _; constructor|].
  inversion F as [|? ? [Ho Go] Fl]; subst.
  destruct (store_obj _ _ _ _ _) as [[[c1 o1] w1]| |] eqn:S; cbn [bind] in H; try discriminate.
  assert (A : held o1 /\ good se key o1).
  { destruct (is_cert o) eqn:C.
    - pose proof (store_obj_core _ _ _ _ _ _ _ _ S) as Co. apply core_cert in Co as (C1 & _). rewrite C in C1. split; [left; exact C1|apply good_cert; exact C1].
    - assert (o1 = o); [|subst; auto]. eapply store_obj_same; [exact Ho| |exact S]. congruence. }
  destruct (negb _); [injection H as _ <- _; constructor; auto|].
  destruct (store_objs _ _ _ l) as [[[c2 l2] w2]| |] eqn:R; cbn [bind] in H; try discriminate. injection H as _ <- _. constructor; [exact A|]. eapply IH; eauto.
Qed.
Lemma prim_okays cl h s s' key : inv s -> sets_token cl = false -> okays key (t_objs (s_tok s)) -> t_key (s_tok s) = key ->
  prim w cl h s s' -> okays key (t_objs (s_tok s')) /\ t_key (s_tok s') = key.
Proof.
  intros I NS F K Pr. destruct Pr as [s x x'|s n|s x rnd c s' X R Hx St|s x o|s x b o X R Hx Z1 U1 U2 B Hh Ot (o1 & o2 & M & En & ->) Cr|s x o|s x o|s x o o' X R Hx Io Si (ho & t & rv & -> & Fo & Se)]; try (split; assumption).
  - unfold store in St. destruct (Token_Store se _ (s_tok s)) as [[[c1 t1] ws]| |] eqn:T; cbn [bind] in St; try discriminate. injection St as _ <-.
    unfold Token_Store in T. destruct (tok_header _); cbn [bind] in T; try discriminate.
    destruct (store_objs _ _ _ _) as [[[c2 l2] w2]| |] eqn:Q; cbn [bind] in T; try discriminate. injection T as _ <- _. cbn. split; [|exact K]. eapply store_objs_okays; eauto.
  - cbn. split; [|exact K]. constructor; [|exact F]. split; [|eapply encoded_good; eauto; rewrite <- K; exact En].
    apply Encode_held in En. exact En.
  - cbn. split; [|exact K]. clear - F. unfold okays in *. induction F as [|y l H F IH]; cbn; [constructor|]. destruct (_ =? _)%nat; auto.
  - apply find_obj_in in Fo as [Fo _]. cbn [sets_token] in NS. rewrite NS in Fo. assert (E : o_uid o' = o_uid o) by apply Si.
    destruct (put_sess_obj s x o o' I X Fo E) as [E1 _]. rewrite E1. auto.
Qed.
Lemma prims_okays cl h s s' key : inv s -> sets_token cl = false -> okays key (t_objs (s_tok s)) -> t_key (s_tok s) = key ->
  prims w cl h s s' -> okays key (t_objs (s_tok s')) /\ t_key (s_tok s') = key.
Proof.
  intros I NS F K Ps. revert I F K. induction Ps as [s|s s1 s2 Pr Ps IH]; intros I F K; [auto|].
  destruct (prim_okays _ _ _ _ _ I NS F K Pr). apply IH; auto. eapply prim_inv; eauto.
Qed.
Lemma calm_okays rnd s c s' o key : inv s -> calm c -> sets_token c = false -> okays key (t_objs (s_tok s)) -> t_key (s_tok s) = key ->
  (t_login (s_tok s) = RW_USER -> t_login (s_tok s') = RW_USER) -> step w rnd s c = Ok (s', o) -> okays key (t_objs (s_tok s')) /\ t_key (s_tok s') = key.
Proof.
  intros I Ca NS F K U H. destruct (objop c) as [h|] eqn:O.
  { eapply prims_okays; eauto. eapply objop_prims; eauto. }
  destruct (calm_other rnd s c s' o I O Ca U H) as (_ & _ & A & B). rewrite A, B. auto.
Qed.
End W.

(** ** One process, in which the user logs in once *)
(** The calls before the login of the user: no PIN is set, the security officer
    may log in, the user may give a wrong PIN. *)
Definition before (w : world) (s : sys) (c : op) : Prop :=
  match c with
  | OLogin _ ut p _ => ut = CKU_SO \/ ~ right w (s_tok s) User p
  | _ => calm c
  end.
(** [one_login w d p b s]: after any [steady] history the library was started;
    then came calls as in [before]; if [b], the user logged in with [p], and then
    came calls that do not set a PIN. *)
Inductive one_login (w : world) (d : fs) (p : list N) : bool -> sys -> Prop :=
  | ol_start s rnd s' o : steady w d s -> s_count s = 0%Z -> step w rnd s OInitialize = Ok (s', o) -> tidy w s' -> one_login w d p false s'
  | ol_before s rnd c s' o : one_login w d p false s -> before w s c -> sets_token c = false ->
      step w rnd s c = Ok (s', o) -> tidy w s' -> one_login w d p false s'
  | ol_login s rnd h n s' : one_login w d p false s -> step w rnd s (OLogin h CKU_USER p (Some n)) = Ok (s', OutRv CKR_OK) -> tidy w s' -> one_login w d p true s'
  | ol_after s rnd c s' o : one_login w d p true s -> calm c -> sets_token c = false ->
      step w rnd s c = Ok (s', o) -> t_login (s_tok s') = RW_USER -> tidy w s' -> one_login w d p true s'.

Section H.
Variable w : world.
Notation se := (w_se w).
Hypothesis L : laws se.
Hypothesis P : pub_laws se.
Lemma calm_public rnd s c s' o : inv s -> calm c -> t_login (s_tok s) <> RW_USER -> step w rnd s c = Ok (s', o) -> t_login (s_tok s') <> RW_USER.
Proof.
  intros I Ca N H. destruct (objop c) as [h|] eqn:O.
  { pose proof (objop_prims w rnd s c h s' o I O H) as Pr. destruct (prims_inv w _ _ _ _ Pr I) as [_ (_ & _ & Q)]. apply tok0_eq in Q as (_ & _ & _ & _ & _ & _ & Q). rewrite Q. exact N. }
  destruct c; try discriminate O; try contradiction Ca; cbn [step] in H; unfold with_slot, with_sess, need_lib in H; (destruct (0 <? s_count s)%Z; [|sinv; exact N]).
  - destruct (slot_ok slot); [|sinv; exact N]. unfold OpenSession in H. cbv zeta in H. sinv; exact N.
  - destruct (sess_get s h) as [x|]; [|sinv; exact N]. unfold CloseSession in H. destruct (close_sess _ _) as [l| |]; cbn [bind] in H; try discriminate. cbv zeta in H.
    destruct (existsb _ _); [sinv; exact N|].
    destruct (Logout w _) as [t| |] eqn:E; cbn [bind] in H; try discriminate. unfold rv_ in H. injection H as <- _.
    unfold Logout in E. destruct (orb _ _); [destruct (encode_all _ _ _); cbn [bind] in E; try discriminate|]; injection E as <-; discriminate.
  - destruct (slot_ok slot); [|sinv; exact N]. destruct (close_all _); cbn [bind] in H; try discriminate. sinv. exact N.
  - destruct (sess_get s h) as [x|]; [|sinv; exact N].
    destruct (Logout w _) as [t| |] eqn:E; cbn [bind] in H; try discriminate. unfold rv_ in H. injection H as <- _.
    unfold Logout in E. destruct (orb _ _); [destruct (encode_all _ _ _); cbn [bind] in E; try discriminate|]; injection E as <-; discriminate.
  - destruct (slot_ok slot); sinv; exact N.
Qed.
(** A login of the security officer, and of the user with a wrong PIN. *)
Lemma login_same rnd s h ut p now s' o : ut = CKU_SO \/ ~ right w (s_tok s) User p -> t_login (s_tok s) <> RW_USER -> step w rnd s (OLogin h ut p now) = Ok (s', o) ->
  same_objs s s' /\ t_login (s_tok s') <> RW_USER.
Proof.
  intros B N H. assert (Z : same_objs s s /\ t_login (s_tok s) <> RW_USER) by (split; [apply still_same; split; reflexivity|exact N]).
  cbn [step] in H. unfold with_sess, need_lib in H. destruct (0 <? s_count s)%Z; [|sinv; exact Z]. destruct (sess_get s h) as [x|]; [|sinv; exact Z].
  unfold Login in H. destruct (negb _); [sinv; exact Z|]. destruct (ut =? CKU_SO)%Z eqn:SO.
  - destruct (SOLogin _ _ _ _) as [c1 t1] eqn:E. unfold rv_ in H. injection H as <- _. cbn [set_tok s_tok].
    assert (Q : forall q, pin_lasting q = pin_lasting (t_so (s_tok s)) -> same_objs s (set_tok s (set_so (s_tok s) q))).
    { intros q Q. split; [reflexivity|]. split; [unfold lasting; cbn; rewrite Q; reflexivity|split; reflexivity]. }
    unfold SOLogin in E. destruct now as [n|]; [|injection E as _ <-; exact Z]. destruct (logged_in _); [injection E as _ <-; exact Z|].
    destruct (lock_check _ n) as [q|] eqn:Lc; [|injection E as _ <-; exact Z]. apply lock_lasting in Lc. cbv zeta in E.
    destruct (existsb _ _); [injection E as _ <-; split; [apply Q; exact Lc|exact N]|].
    destruct (_ =? PIN_INVALID_E)%Z; [injection E as _ <-; split; [apply (Q (count_fail q n SO_TIMEOUT)); rewrite count_lasting; exact Lc|exact N]|].
    destruct (_ =? 0)%Z; injection E as _ <-; [|split; [apply Q; exact Lc|exact N]].
    split; [|discriminate]. exact (Q (reset_fail q) Lc).
  - destruct B as [B|B]; [rewrite B in SO; discriminate|]. destruct (ut =? CKU_USER)%Z; [|destruct (_ =? _)%Z; sinv; exact Z].
    destruct (UserLogin _ _ _ _) as [[c1 t1]| |] eqn:E; cbn [bind] in H; try discriminate. unfold rv_ in H. injection H as <- _. cbn [set_tok s_tok].
    assert (Q : forall q, pin_lasting q = pin_lasting (t_user (s_tok s)) -> same_objs s (set_tok s (set_user (s_tok s) q))).
    { intros q Q. split; [reflexivity|]. split; [unfold lasting; cbn; rewrite Q; reflexivity|split; reflexivity]. }
    unfold UserLogin in E. destruct now as [n|]; [|injection E as _ <-; exact Z]. destruct (logged_in _); [injection E as _ <-; exact Z|].
    destruct (lock_check _ n) as [q|] eqn:Lc; [|injection E as _ <-; exact Z]. pose proof (lock_same _ _ _ Lc) as (K1 & K2 & K3 & _). apply lock_lasting in Lc. cbv zeta in E.
    destruct (_ =? PIN_INVALID_E)%Z; [injection E as _ <-; split; [apply (Q (count_fail q n USER_TIMEOUT)); rewrite count_lasting; exact Lc|exact N]|].
    destruct (_ =? 0)%Z eqn:C0; [|injection E as _ <-; split; [apply Q; exact Lc|exact N]].
    exfalso. apply B. apply Z.eqb_eq in C0. apply check_0 in C0 as (D1 & D2 & D3). unfold right. cbn [pin_of]. cbn in D1. rewrite <- K1, <- K2, <- K3. auto.
Qed.
Lemma steady_one d p b s : one_login w d p b s -> reach w (sys0 d) s /\ tidy w s.
Proof.
  induction 1 as [s rnd s' o Sd C St Td|s rnd c s' o O [IH _] B NS St Td|s rnd h n s' O [IH _] St Td|s rnd c s' o O [IH _] Ca NS St U Td].
  - split; [|exact Td]. econstructor; [eapply steady_reach; exact Sd|exact St].
  - split; [|exact Td]. econstructor; eauto.
  - split; [|exact Td]. econstructor; eauto.
  - split; [|exact Td]. econstructor; eauto.
Qed.
Lemma one_user d p s : one_login w d p true s -> as_user w d p s.
Proof.
  intros O. remember true as b eqn:B. revert B. induction O as [s rnd s' o Sd C St Td|s rnd c s' o O IH Bf NS St Td|s rnd h n s' O IH St Td|s rnd c s' o O IH Ca NS St U Td]; intros B; try discriminate.
  - eapply au_login; [|exact St]. eapply steady_one; eauto.
  - eapply au_calm; eauto.
Qed.
Lemma decode_all_okays key l : Forall held l -> forall l', decode_all w key l = Ok (0%Z, l') -> okays w key l'.
Proof.
  induction 1 as [|o l Ho F IH]; intros l' H; cbn [decode_all] in H; [injection H as <-; constructor|].
  destruct (Decode se key o) as [[c o1]| |] eqn:D; cbn [bind] in H; try discriminate. destruct (c =? 0)%Z eqn:C0; cbn [negb] in H; [|injection H as H _; lia].
  apply Z.eqb_eq in C0. subst c. destruct (decode_all w key l) as [[c2 r]| |] eqn:R; cbn [bind] in H; try discriminate. injection H as -> <-.
  constructor; [|apply IH; reflexivity]. split; [|eapply decoded_good; eauto]. pose proof (Decode_ident w _ _ _ _ D) as [Di Dk].
  destruct Ho as [Ho|Ho]; [left|right; congruence]. apply ident_fields in Di as (_ & Di & _). unfold is_cert in *. rewrite Di. exact Ho.
Qed.
Lemma decode_all_twin key l : forall l1, Forall2 twin l l1 -> forall l', decode_all w key l = Ok (0%Z, l') -> Forall2 twin l' l1.
Proof.
  induction 1 as [|o o1 l l1 T F IH]; intros l' H; cbn [decode_all] in H; [injection H as <-; constructor|].
  destruct (Decode se key o) as [[c o2]| |] eqn:D; cbn [bind] in H; try discriminate. destruct (c =? 0)%Z eqn:C0; cbn [negb] in H; [|injection H as H _; lia].
  apply Z.eqb_eq in C0. subst c. destruct (decode_all w key l) as [[c2 r]| |] eqn:R; cbn [bind] in H; try discriminate. injection H as -> <-.
  constructor; [|apply IH; reflexivity]. clear IH R F. pose proof (Decode_ident w _ _ _ _ D) as [Di Dk]. apply ident_fields in Di as (D1 & D2 & D3).
  destruct T as (T1 & T2 & T3). split; [congruence|]. split; [congruence|]. assert (C : is_cert o2 = is_cert o) by (unfold is_cert; rewrite D2; reflexivity). rewrite C. intros Cf.
  destruct (T3 Cf) as (A1 & A2 & A3). split; [congruence|]. split; [congruence|]. unfold shaped in *. rewrite D1.
  destruct (o_type o =? CKK_RSA)%Z eqn:E1; [exact A3|]. destruct (o_type o =? CKK_EC)%Z eqn:E2; [exact A3|]. destruct (o_type o =? CKK_DH)%Z eqn:E3; [|exact A3].
  destruct A3 as (p & g & l0 & b & b' & Q1 & Q2). exists p, g, l0, b.
  assert (Z : exists b2, as_dh o2 = Ok (p, g, fst b2, snd b2)).
  { unfold Decode in D. rewrite Cf in D. unfold DecodeKey in D. rewrite E1, E2, E3, Q2 in D. cbn [bind] in D. destruct (is_priv o).
    - destruct (dec_into _ _ _) as [[c d]| |]; cbn [bind] in D; try discriminate. unfold fin in D. destruct (c =? 0)%Z; [injection D as <-; eexists (_, _); reflexivity|injection D as _ <-; exists b'; exact Q2].
    - destruct (_ <? _)%Z; [discriminate|]. injection D as <-. eexists (_, _). reflexivity. }
  destruct Z as (b2 & Z). exists b2. auto.
Qed.
(** While the user is logged in, the files are in step and the objects can be
    decoded from them. *)
Definition ready (b : bool) (s : sys) : Prop :=
  in_step w s /\ (b = false -> t_login (s_tok s) <> RW_USER) /\
  (b = true -> okays w (t_key (s_tok s)) (t_objs (s_tok s))).
Lemma one_ready d p b s : one_login w d p b s -> ready b s.
Proof.
  intros O. induction O as [s rnd s' o Sd C St Td|s rnd c s' o O IH Bf NS St Td|s rnd h n s' O IH St Td|s rnd c s' o O IH Ca NS St U Td].
  - split; [eapply in_step_loaded; eauto|]. split; [|discriminate]. intros _.
    cbn [step] in St. unfold Initialize in St. rewrite C in St. change (0 =? 0)%Z with true in St. cbv iota in St.
    destruct (Token_Load se (s_fs s) (s_uid s)) as [t| |] eqn:E; cbn [bind] in St; try discriminate. injection St as <- _. cbn [s_tok]. apply Token_Load_public in E.
    intros Q. rewrite Q in E. discriminate.
  - destruct IH as (IH & N & _). specialize (N eq_refl). destruct (steady_one _ _ _ _ O) as [R Td0]. pose proof (reach_inv _ _ _ R) as I.
    assert (G : ginv (s_tok s')) by (apply (reach_ginv w (l_hash _ L) d); econstructor; eauto).
    assert (Q : (same_objs s s' \/ saved w s') /\ t_login (s_tok s') <> RW_USER).
    { assert (Ca : calm c -> (same_objs s s' \/ saved w s') /\ t_login (s_tok s') <> RW_USER).
      { intros Ca. pose proof (calm_public _ _ _ _ _ I Ca N St) as N'. split; [|exact N']. eapply calm_level; eauto; [apply (tidy_held w _ Td0)|]. intros Q. contradiction. }
      destruct c; try (apply Ca; exact Bf). destruct (login_same _ _ _ _ _ _ _ _ Bf N St). auto. }
    destruct Q as [[Q|Q] N']; (split; [|split; [auto|discriminate]]); [eapply in_step_same; eauto|apply in_step_saved; auto].
  - destruct IH as (IH & N & _). specialize (N eq_refl). destruct (steady_one _ _ _ _ O) as [R Td0].
    pose proof (as_user_opened w d p s' L (au_login _ _ _ _ _ _ _ _ R St)) as (O1 & O2 & O3 & O4 & O5).
    apply (step_login _ _ _ _ _ _ _ _ CKR_OK) in St; [|reflexivity]. unfold Login in St. destruct (pin_len_ok p) eqn:Pl; [|discriminate]. cbn [negb] in St.
    change (CKU_USER =? CKU_SO)%Z with false in St. change (CKU_USER =? CKU_USER)%Z with true in St. cbv iota in St.
    destruct (UserLogin w (s_tok s) p (Some n)) as [[c t]| |] eqn:E; cbn [bind] in St; try discriminate. unfold rv_ in St. injection St as <- Ec.
    assert (c = 0%Z) by (destruct (Z.eq_dec c 0) as [|Nz]; [assumption|apply (login_rv_nz false) in Nz; congruence]). subst c. clear Ec.
    unfold UserLogin in E. destruct (logged_in _); [discriminate|]. destruct (lock_check _ _) as [q|] eqn:K; [|discriminate]. cbv zeta in E.
    apply lock_lasting in K.
    destruct (CheckPin _ _ _ _ =? PIN_INVALID_E)%Z eqn:C1. { injection E as E _. apply Z.eqb_eq in C1. rewrite C1 in E. discriminate. }
    destruct (CheckPin _ _ _ _ =? 0)%Z eqn:C2. 2:{ injection E as E _. rewrite E in C2. discriminate. }
    destruct (decode_all _ _ _) as [[c2 l]| |] eqn:Da; cbn [bind] in E; try discriminate.
    destruct (c2 =? 0)%Z eqn:C3; [|injection E as E E'; subst c2; discriminate]. injection E as <-. apply Z.eqb_eq in C3. subst c2.
    cbn [set_key set_user t_key t_objs] in Da. cbn [set_tok s_tok set_login set_objs set_key set_user t_objs t_key].
    split; [|split; [discriminate|intros _; eapply decode_all_okays; [apply (tidy_held w _ Td0)|exact Da]]].
    intros Ti uid. cbn [set_tok s_tok s_fs set_login set_objs set_key set_user t_objs t_init] in *. destruct (IH Ti uid) as (t0 & E1 & E2 & E3). exists t0. split; [exact E1|].
    pose proof Da as Da'. apply decode_all_ident in Da' as [Da' _]. apply views_ident in Da'. split; [|eapply decode_all_twin; eauto].
    rewrite E2. unfold lasting. cbn. rewrite Da'. change (pin_lasting (reset_fail q)) with (pin_lasting q). rewrite K. reflexivity.
  - destruct IH as (IH & _ & F). specialize (F eq_refl). destruct (steady_one _ _ _ _ O) as [R Td0]. pose proof (reach_inv _ _ _ R) as I.
    assert (G : ginv (s_tok s')) by (apply (reach_ginv w (l_hash _ L) d); econstructor; eauto).
    destruct (calm_okays w L rnd s c s' o (t_key (s_tok s)) I Ca NS F eq_refl (fun _ => U) St) as [F' K].
    split; [|split; [discriminate|intros _; rewrite K; exact F']].
    destruct (calm_level w rnd s c s' o I (tidy_held w _ Td0) Ca NS (fun _ => U) St) as [Q|Q]; [eapply in_step_same; eauto|apply in_step_saved; auto].
Qed.
End H.
