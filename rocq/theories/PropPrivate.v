(** C129: RSA and EC private keys on the token keep their numbers through logouts, logins, restarts and processes that just end. *)
From Verif Require Import Base Cbc CbcProofs CbcSpec Codec Ops OpsSpec OpsCbcProofs OpsProofs OpsProofs2 OpsProofs3 OpsProofs4 OpsClaims OpsFinal Object ObjectProofs Store StoreSpec StoreProofs Sys SysProofs SysProofs2 SysProofs3 SysProofs4 WfProofs
  LoginProofs RvProofs ObjFrame ObjProofs HandleProofs DiskHandles FindState UseProofs KeyProofs KeyHeld ToyEnv ToySys PropObject PropSys1 PropSys2 PropSys3 PropStore PropKeys PropKeys2 PropInUse PropFind PropOps PropHold PropMsg PropObj PropImport
  Device DeviceProofs PropDevice Table TableProofs PropTable PropUse PropSurvive PropEndure SurviveAny.
From Verif Require DurableProofs DurableKeys PropArchive Vault PropVault.
From Coq Require Import List Bool.
Import ListNotations.
Open Scope nat_scope.
Open Scope list_scope.

(** ** Specification *)
(** Session [h] finds under the handle [ho] a private key of type [kt] with the numbers [k]. *)
Definition has_private (s : sys) (h ho kt : Z) (k : kdata) : Prop :=
  exists x o, sess_get s h = Some x /\ find_obj s x ho = Some o /\ o_class o = CKO_PRIVATE_KEY /\ o_type o = kt /\ o_data o = k.
(** wc_EccPrivateKeyToDer writes the curve and the private value only. *)
Definition ec_der_private (w : world) : Prop := forall e e', ec_curve e' = ec_curve e -> ec_k e' = ec_k e -> se_ec_priv (w_se w) e' = se_ec_priv (w_se w) e.

(** ** Proof *)
(** *** RSA *)
Section R.
Variable w : world.
Notation se := (w_se w).
Hypothesis L : laws se.
Variables (ho : Z) (r : rsak).
Definition rsa_sealed (key : list N) (o : obj) : Prop :=
  o_handle o = ho /\ o_class o = CKO_PRIVATE_KEY /\ o_type o = CKK_RSA /\ (0 <= fst (se_rsa_priv se r))%Z /\ o_keyData o = Some (se_enc se key (o_iv o) (snd (se_rsa_priv se r))) /\ exists r0, as_rsa o = Ok r0.
Definition rsa_clear (o : obj) : Prop := o_data o = KRsa r.
Definition rsa_fit (key : list N) (o : obj) : Prop :=
  o_class o = CKO_PRIVATE_KEY -> o_type o = CKK_RSA -> forall r, o_data o = KRsa r -> (0 <= fst (se_rsa_priv se r))%Z /\ o_keyData o = Some (se_enc se key (o_iv o) (snd (se_rsa_priv se r))).
Lemma priv_is o : o_class o = CKO_PRIVATE_KEY -> is_priv o = true /\ is_cert o = false.
Proof. intros C. unfold is_priv, is_cert. rewrite C. split; reflexivity. Qed.
Lemma rsa_is k o : rsa_sealed k o -> o_handle o = ho /\ is_cert o = false /\ o_keyData o <> None.
Proof. intros (S1 & S2 & _ & _ & S5 & _). split; [exact S1|]. split; [apply priv_is; exact S2|congruence]. Qed.
Lemma rsa_decode k key o c o' : rsa_sealed k o -> Decode se key o = Ok (c, o') -> rsa_sealed k o' /\ (key = k -> c = 0%Z /\ rsa_clear o').
Proof.
  intros (S1 & S2 & S3 & S4 & S5 & r0 & S6) D. destruct (priv_is o S2) as [P1 P2]. unfold Decode in D. rewrite P2 in D. unfold DecodeKey in D. rewrite S3 in D. change (CKK_RSA =? CKK_RSA)%Z with true in D. cbv iota in D. rewrite S6 in D. cbn [bind] in D. rewrite P1 in D.
  unfold kd_bytes in D. rewrite S5 in D. rewrite (l_tag _ L) in D. destruct (Z.ltb_spec (zlen (snd (se_rsa_priv se r)) + 16) 16) as [Q|_]; [unfold zlen in Q; lia|].
  assert (F : forall c0 d c1 o1, (forall z, d = z -> c0 = 0%Z -> exists r1, as_rsa (set_data o z) = Ok r1) -> fin o c0 d = (c1, o1) -> rsa_sealed k o1).
  { intros c0 d c1 o1 Hd F. unfold fin in F. destruct (Z.eqb_spec c0 0) as [->|]; injection F as _ <-; (split; [exact S1|]); (split; [exact S2|]); (split; [exact S3|]); (split; [exact S4|]); (split; [exact S5|]); [exact (Hd d eq_refl eq_refl)|exists r0; exact S6]. }
  destruct (dec_kd se key o) as [c1 der] eqn:Dk. cbn [bind] in D. split.
  - destruct (Z.eqb_spec c1 0) as [->|N1]; cbn [negb] in D.
    + destruct (se_rsa_priv_dec se der) as [c2 r'] eqn:Rd. destruct (fin o c2 (KRsa r')) as [c3 o3] eqn:Fi. cbn [bind] in D. injection D as _ <-. refine (F _ _ _ _ _ Fi). intros z <- _. exists r'. reflexivity.
    + destruct (fin o c1 KZero) as [c3 o3] eqn:Fi. cbn [bind] in D. injection D as _ <-. refine (F _ _ _ _ _ Fi). intros z <- _. exists rsa0. reflexivity.
  - intros ->. unfold dec_kd, kd_bytes in Dk. rewrite S5, (l_gcm _ L) in Dk. injection Dk as <- <-. change (negb (0 =? 0)%Z) with false in D. cbv iota in D. rewrite (l_rsa_priv _ L r S4) in D. cbn in D. injection D as <- <-. split; reflexivity.
Qed.
Lemma rsa_encode k o c o' : rsa_sealed k o -> rsa_clear o -> Encode se k true o = Ok (c, o') -> rsa_sealed k o' /\ c = 0%Z.
Proof.
  intros (S1 & S2 & S3 & S4 & S5 & r0 & S6) Cl E. destruct (priv_is o S2) as [P1 P2]. unfold Encode in E. rewrite P2 in E. unfold EncodeKey in E. rewrite S3 in E. change (CKK_RSA =? CKK_RSA)%Z with true in E. cbv iota in E.
  unfold rsa_clear in Cl. unfold as_rsa in E at 1. rewrite Cl in E. cbn [bind] in E. unfold enc_asym in E. rewrite P1 in E. destruct (se_rsa_priv se r) as [cr der] eqn:Pv. cbn [fst snd] in *. destruct (Z.ltb_spec cr 0); [lia|].
  cbn [bind] in E. injection E as <- <-. split; [|reflexivity]. change (andb true (0 =? 0)%Z) with true. cbv iota. unfold protect_key. set (q := set_store o _ _ _). change (o_type q) with (o_type o). rewrite S3. change (CKK_RSA =? CKK_RSA)%Z with true. cbv iota.
  change (is_priv q) with (is_priv o). rewrite P1. split; [exact S1|]. split; [exact S2|]. split; [exact S3|]. rewrite Pv. split; [exact S4|]. split; [reflexivity|]. exists rsa0. reflexivity.
Qed.
Lemma rsa_reload k u o : rsa_sealed k o -> rsa_sealed k (reloaded u o).
Proof.
  intros (S1 & S2 & S3 & S4 & S5 & r0 & S6). destruct (priv_is o S2) as [P1 P2]. unfold reloaded. rewrite P2, S3. change (CKK_RSA =? CKK_DH)%Z with false. cbv iota zeta. unfold kd_bytes. rewrite S5.
  split; [exact S1|]. split; [exact S2|]. split; [exact S3|]. split; [exact S4|]. split; [reflexivity|]. unfold as_rsa. cbn. eauto.
Qed.
Lemma rsa_fits key o o2 h : Encode se key false o = Ok (0%Z, o2) -> rsa_fit key (set_handle o2 h).
Proof.
  intros E C T q Dq. unfold Encode in E. destruct (is_cert o) eqn:Ce; [injection E as <-; destruct (priv_is o C) as [_ P2]; congruence|]. destruct (EncodeKey se key o) as [[c1 o1]| |] eqn:Ek; cbn [bind] in E; try discriminate E. cbn [andb] in E. injection E as -> <-.
  cbn [set_handle o_class o_type o_data o_iv o_keyData] in *.
  assert (F : exists kd ev, o1 = set_store o (o_iv o) kd ev).
  { unfold EncodeKey, enc_asym in Ek. sinv; eauto. all: try discriminate. all: try (exists (o_keyData o), (o_enc o); destruct o; reflexivity). all: repeat match goal with H : context [if ?q then _ else _] |- _ => destruct q; sinv; eauto end. }
  destruct F as (kd & ev & F). assert (C0 : o_class o = CKO_PRIVATE_KEY) by (rewrite F in C; exact C). assert (T0 : o_type o = CKK_RSA) by (rewrite F in T; exact T). assert (D0 : o_data o = KRsa q) by (rewrite F in Dq; exact Dq).
  destruct (priv_is o C0) as [P1 _]. unfold EncodeKey in Ek. rewrite T0 in Ek. change (CKK_RSA =? CKK_RSA)%Z with true in Ek. cbv iota in Ek. unfold as_rsa in Ek. rewrite D0 in Ek. cbn [bind] in Ek. unfold enc_asym in Ek. rewrite P1 in Ek.
  destruct (se_rsa_priv se q) as [cr der]. destruct (Z.ltb_spec cr 0); [injection Ek as Ek _; lia|]. injection Ek as <-. split; [assumption|reflexivity].
Qed.
Lemma rsa_cert key o : is_cert o = true -> rsa_fit key o.
Proof. intros C P. destruct (priv_is o P) as [_ Q]. congruence. Qed.
End R.
(** *** EC *)
Section E.
Variable w : world.
Notation se := (w_se w).
Hypothesis L : laws se.
Hypothesis Ho : ec_der_private w.
Variables (ho : Z) (r : eck).
Definition ec_sealed (key : list N) (o : obj) : Prop :=
  o_handle o = ho /\ o_class o = CKO_PRIVATE_KEY /\ o_type o = CKK_EC /\ (0 <= fst (se_ec_priv se r))%Z /\ o_keyData o = Some (se_enc se key (o_iv o) (snd (se_ec_priv se r))) /\ exists r0, as_ec o = Ok r0.
Definition ec_clear (o : obj) : Prop := exists e, o_data o = KEc e /\ ec_curve e = ec_curve r /\ ec_k e = ec_k r.
Definition ec_fit (key : list N) (o : obj) : Prop :=
  o_class o = CKO_PRIVATE_KEY -> o_type o = CKK_EC -> forall r, o_data o = KEc r -> (0 <= fst (se_ec_priv se r))%Z /\ o_keyData o = Some (se_enc se key (o_iv o) (snd (se_ec_priv se r))).
Lemma ec_is k o : ec_sealed k o -> o_handle o = ho /\ is_cert o = false /\ o_keyData o <> None.
Proof. intros (S1 & S2 & _ & _ & S5 & _). split; [exact S1|]. split; [apply priv_is; exact S2|congruence]. Qed.
Lemma ec_decode k key o c o' : ec_sealed k o -> Decode se key o = Ok (c, o') -> ec_sealed k o' /\ (key = k -> c = 0%Z /\ ec_clear o').
Proof.
  intros (S1 & S2 & S3 & S4 & S5 & r0 & S6) D. destruct (priv_is o S2) as [P1 P2]. unfold Decode in D. rewrite P2 in D. unfold DecodeKey in D. rewrite S3 in D. change (CKK_EC =? CKK_RSA)%Z with false in D. change (CKK_EC =? CKK_EC)%Z with true in D. cbv iota in D. rewrite S6 in D. cbn [bind] in D. rewrite P1 in D.
  unfold kd_bytes in D. rewrite S5 in D. rewrite (l_tag _ L) in D. destruct (Z.ltb_spec (zlen (snd (se_ec_priv se r)) + 16) 16) as [Q|_]; [unfold zlen in Q; lia|].
  assert (F : forall c0 d c1 o1, (forall z, d = z -> c0 = 0%Z -> exists r1, as_ec (set_data o z) = Ok r1) -> fin o c0 d = (c1, o1) -> ec_sealed k o1).
  { intros c0 d c1 o1 Hd F. unfold fin in F. destruct (Z.eqb_spec c0 0) as [->|]; injection F as _ <-; (split; [exact S1|]); (split; [exact S2|]); (split; [exact S3|]); (split; [exact S4|]); (split; [exact S5|]); [exact (Hd d eq_refl eq_refl)|exists r0; exact S6]. }
  destruct (dec_kd se key o) as [c1 der] eqn:Dk. cbn [bind] in D. split.
  - destruct (Z.eqb_spec c1 0) as [->|N1]; cbn [negb] in D.
    + destruct (se_ec_priv_dec se der) as [c2 r'] eqn:Rd. destruct (fin o c2 (KEc r')) as [c3 o3] eqn:Fi. cbn [bind] in D. injection D as _ <-. refine (F _ _ _ _ _ Fi). intros z <- _. exists r'. reflexivity.
    + destruct (fin o c1 KZero) as [c3 o3] eqn:Fi. cbn [bind] in D. injection D as _ <-. refine (F _ _ _ _ _ Fi). intros z <- _. exists ec0. reflexivity.
  - intros ->. unfold dec_kd, kd_bytes in Dk. rewrite S5, (l_gcm _ L) in Dk. injection Dk as <- <-. change (negb (0 =? 0)%Z) with false in D. cbv iota in D. destruct (l_ec_priv _ L r S4) as (e' & Pd & Q1 & Q2). rewrite Pd in D. cbn in D. injection D as <- <-. split; [reflexivity|]. exists e'. auto.
Qed.
Lemma ec_encode k o c o' : ec_sealed k o -> ec_clear o -> Encode se k true o = Ok (c, o') -> ec_sealed k o' /\ c = 0%Z.
Proof.
  intros (S1 & S2 & S3 & S4 & S5 & r0 & S6) Cl E. destruct (priv_is o S2) as [P1 P2]. unfold Encode in E. rewrite P2 in E. unfold EncodeKey in E. rewrite S3 in E. change (CKK_EC =? CKK_EC)%Z with true in E. cbv iota in E.
  destruct Cl as (e1 & Cl & Q1 & Q2). change (CKK_EC =? CKK_RSA)%Z with false in E. cbv iota in E. unfold as_ec in E at 1. rewrite Cl in E. cbn [bind] in E. unfold enc_asym in E. rewrite P1, (Ho r e1 Q1 Q2) in E. destruct (se_ec_priv se r) as [cr der] eqn:Pv. cbn [fst snd] in *. destruct (Z.ltb_spec cr 0); [lia|].
  cbn [bind] in E. injection E as <- <-. split; [|reflexivity]. change (andb true (0 =? 0)%Z) with true. cbv iota. unfold protect_key. set (q := set_store o _ _ _). change (o_type q) with (o_type o). rewrite S3. change (CKK_EC =? CKK_RSA)%Z with false. change (CKK_EC =? CKK_EC)%Z with true. cbv iota.
  change (is_priv q) with (is_priv o). rewrite P1. split; [exact S1|]. split; [exact S2|]. split; [exact S3|]. rewrite Pv. split; [exact S4|]. split; [reflexivity|]. exists ec0. reflexivity.
Qed.
Lemma ec_reload k u o : ec_sealed k o -> ec_sealed k (reloaded u o).
Proof.
  intros (S1 & S2 & S3 & S4 & S5 & r0 & S6). destruct (priv_is o S2) as [P1 P2]. unfold reloaded. rewrite P2, S3. change (CKK_EC =? CKK_DH)%Z with false. cbv iota zeta. unfold kd_bytes. rewrite S5.
  split; [exact S1|]. split; [exact S2|]. split; [exact S3|]. split; [exact S4|]. split; [reflexivity|]. unfold as_ec. cbn. eauto.
Qed.
Lemma ec_fits key o o2 h : Encode se key false o = Ok (0%Z, o2) -> ec_fit key (set_handle o2 h).
Proof.
  intros E C T q Dq. unfold Encode in E. destruct (is_cert o) eqn:Ce; [injection E as <-; destruct (priv_is o C) as [_ P2]; congruence|]. destruct (EncodeKey se key o) as [[c1 o1]| |] eqn:Ek; cbn [bind] in E; try discriminate E. cbn [andb] in E. injection E as -> <-.
  cbn [set_handle o_class o_type o_data o_iv o_keyData] in *.
  assert (F : exists kd ev, o1 = set_store o (o_iv o) kd ev).
  { unfold EncodeKey, enc_asym in Ek. sinv; eauto. all: try discriminate. all: try (exists (o_keyData o), (o_enc o); destruct o; reflexivity). all: repeat match goal with H : context [if ?q then _ else _] |- _ => destruct q; sinv; eauto end. }
  destruct F as (kd & ev & F). assert (C0 : o_class o = CKO_PRIVATE_KEY) by (rewrite F in C; exact C). assert (T0 : o_type o = CKK_EC) by (rewrite F in T; exact T). assert (D0 : o_data o = KEc q) by (rewrite F in Dq; exact Dq).
  destruct (priv_is o C0) as [P1 _]. unfold EncodeKey in Ek. rewrite T0 in Ek. change (CKK_EC =? CKK_RSA)%Z with false in Ek. change (CKK_EC =? CKK_EC)%Z with true in Ek. cbv iota in Ek. unfold as_ec in Ek. rewrite D0 in Ek. cbn [bind] in Ek. unfold enc_asym in Ek. rewrite P1 in Ek.
  destruct (se_ec_priv se q) as [cr der]. destruct (Z.ltb_spec cr 0); [injection Ek as Ek _; lia|]. injection Ek as <-. split; [assumption|reflexivity].
Qed.
Lemma ec_cert key o : is_cert o = true -> ec_fit key o.
Proof. intros C P. destruct (priv_is o P) as [_ Q]. congruence. Qed.
End E.
(** ** The theorems *)
(** An RSA private key is there with all the numbers it was made with, whenever the user is logged in. *)
Theorem C129_rsa : forall w d s c s2 o2 h ho r p hs x, laws (w_se w) -> endured w d s c s2 o2 h ho p -> has_private s2 h ho CKK_RSA (KRsa r) -> t_login (s_tok s) = RW_USER -> sess_get s hs = Some x ->
  has_private s hs ho CKK_RSA (KRsa r) /\ exists o, ready w s hs x ho o (mkKey CKK_RSA [] (w_pk w (KRsa r)) (w_klen w (KRsa r))).
Proof.
  intros w d s c s2 o2 h ho r p hs x L En (x0 & o0 & G0 & F0 & C0 & T0 & D0) Lg G.
  destruct (any_there w d s c s2 o2 h ho p (rsa_sealed w ho r) (rsa_clear r) (rsa_fit w) hs x x0 o0 L (rsa_is w ho r) (rsa_decode w L ho r) (rsa_encode w ho r) (rsa_reload w ho r) (rsa_fits w) (rsa_cert w)) as (Re & o & k & Fo & S & Cl); auto.
  { intros key Eh Ft. destruct (Ft C0 T0 r D0) as [Q1 Q2]. split; [|exact D0]. split; [exact Eh|]. split; [exact C0|]. split; [exact T0|]. split; [exact Q1|]. split; [exact Q2|]. exists r. unfold as_rsa. rewrite D0. reflexivity. }
  destruct S as (_ & S2 & S3 & _). unfold rsa_clear in Cl. split; [exists x, o; auto|]. exists o. split; [exists d; exact Re|exact G|exact Fo|]. unfold view. rewrite S3. change (CKK_RSA =? CKK_RSA)%Z with true. cbv iota. unfold as_rsa. rewrite Cl. reflexivity.
Qed.
Print Assumptions C129_rsa.

(** An EC private key is there with its curve and private value. *)
Theorem C129_ec : forall w d s c s2 o2 h ho e p hs x, laws (w_se w) -> ec_der_private w -> endured w d s c s2 o2 h ho p -> has_private s2 h ho CKK_EC (KEc e) -> t_login (s_tok s) = RW_USER -> sess_get s hs = Some x ->
  exists e' o, ec_curve e' = ec_curve e /\ ec_k e' = ec_k e /\ has_private s hs ho CKK_EC (KEc e') /\ ready w s hs x ho o (mkKey CKK_EC [] (w_pk w (KEc e')) (w_klen w (KEc e'))).
Proof.
  intros w d s c s2 o2 h ho e p hs x L Ho En (x0 & o0 & G0 & F0 & C0 & T0 & D0) Lg G.
  destruct (any_there w d s c s2 o2 h ho p (ec_sealed w ho e) (ec_clear e) (ec_fit w) hs x x0 o0 L (ec_is w ho e) (ec_decode w L ho e) (ec_encode w Ho ho e) (ec_reload w ho e) (ec_fits w) (ec_cert w)) as (Re & o & k & Fo & S & e' & Cl & Q1 & Q2); auto.
  { intros key Eh Ft. destruct (Ft C0 T0 e D0) as [Q1 Q2]. split; [|exists e; auto]. split; [exact Eh|]. split; [exact C0|]. split; [exact T0|]. split; [exact Q1|]. split; [exact Q2|]. exists e. unfold as_ec. rewrite D0. reflexivity. }
  destruct S as (_ & S2 & S3 & _). exists e', o. split; [exact Q1|]. split; [exact Q2|]. split; [exists x, o; auto|]. split; [exists d; exact Re|exact G|exact Fo|]. unfold view. rewrite S3. change (CKK_EC =? CKK_RSA)%Z with false. change (CKK_EC =? CKK_EC)%Z with true. cbv iota. unfold as_ec. rewrite Cl. reflexivity.
Qed.
Print Assumptions C129_ec.
(** A PKCS#1 v1.5 signature in one call is what the primitive gives under the key as it was made. *)
Lemma rsa_sign_run ev u ko st rs data n sig : ko_type ko = CKK_RSA -> (zlen data < 2^32)%Z -> (ko_len ko <= n)%Z -> (0 <= n < 2^32)%Z -> e_pk_sign ev M_RSA_PKCS ko PKnone rs data = Ok sig ->
  exists p, Ops.run ev (only u ko) st [KSignInit M_RSA_PKCS MPnull u; KSign rs data (Buf n)] = Ok (p, [fail Query CKR_OK; mkOut CKR_OK (zlen sig) sig]).
Proof.
  intros T Ld Ln Rn Sg. cbn [Ops.run Ops.step]. unfold init_call. rewrite only_self. cbn [C_SignInit]. unfold rsa_noparam. rewrite T. cbn [Z.eqb negb no_param bind CKK_RSA].
  cbv beta iota zeta. unfold C_Sign, with_obj. cbn [init_done os_curr set_init os_mech]. unfold pk_sign, need_init. cbn. unfold deref. rewrite only_self. cbn [bind]. unfold sized. rewrite (u32_small n Rn). destruct (Z.ltb_spec n (ko_len ko)); [lia|].
  cbn [get_pk bind]. rewrite (trunc32_small _ Ld), Sg. cbn [bind]. eexists. reflexivity.
Qed.
Theorem C129_sign : forall w d s c s2 o2 h ho r p hs x rs data n sig outs, laws (w_se w) -> endured w d s c s2 o2 h ho p -> has_private s2 h ho CKK_RSA (KRsa r) -> t_login (s_tok s) = RW_USER -> sess_get s hs = Some x ->
  (zlen data < 2^32)%Z -> (w_klen w (KRsa r) <= n)%Z -> (0 <= n < 2^32)%Z ->
  e_pk_sign (w_ev w) M_RSA_PKCS (mkKey CKK_RSA [] (w_pk w (KRsa r)) (w_klen w (KRsa r))) PKnone rs data = Ok sig ->
  amid_spared w s hs (KSignInit M_RSA_PKCS MPnull 0) ho [KSign rs data (Buf n)] outs -> outs = [mkOut CKR_OK (zlen sig) sig].
Proof.
  intros w d s c s2 o2 h ho r p hs x rs data n sig outs L En Hp Lg G Ld Ln Rn Sg Am. destruct (C129_rsa w d s c s2 o2 h ho r p hs x L En Hp Lg G) as (_ & o & Rd).
  destruct (rsa_sign_run (w_ev w) (o_uid o) (mkKey CKK_RSA [] (w_pk w (KRsa r)) (w_klen w (KRsa r))) (ss_op x) rs data n sig eq_refl Ld Ln Rn Sg) as (p1 & Q).
  exact (lift_spared w s hs x ho o _ (KSignInit M_RSA_PKCS MPnull 0) (KSignInit M_RSA_PKCS MPnull (o_uid o)) _ outs _ _ _ Rd eq_refl Am Q eq_refl).
Qed.
Print Assumptions C129_sign.

(** ** Histories that meet the hypotheses *)
(** A key pair is generated with the private half on the token; then as in PropSurvive.v. *)
Definition pair_rsa : op := OGenerateKeyPair H2 KP_RSA [] (tokenly [mkA CKA_SIGN TRUE]) (Some (GRsa (mkRsa 33 7 3 11 1 7 2 3))).
Definition pair_ec : op := OGenerateKeyPair H2 KP_EC [mkA CKA_EC_PARAMS (AV ([6; 8] ++ p256)%N)] (tokenly [mkA CKA_SIGN TRUE]) (Some (GEc 5 [4; 1; 2]%N)).
Lemma pair_endured c l : c = pair_rsa \/ c = pair_ec -> l = [] \/ l = onwards -> endured tw nofiles (after (story c l)) c (after (story c [])) (OutH2 CKR_OK 1 KT) H2 KT upin.
Proof.
  intros T T2. set (n := numbered 1 (story c l)). set (k := List.length (prep c)).
  exists (firstn 8 n), H2, (Some 9%Z), (rnd 81), (firstn (k - 9) (skipn 9 n)), (rnd (10 * N.of_nat k + 1)), (skipn (S k) n), (after (prep c)), (firstn 8 (outs (story c l))), (firstn (k - 9) (skipn 9 (outs (story c l)))), (skipn (S k) (outs (story c l))).
  subst n k. split; [reflexivity|].
  split; [destruct T as [-> | ->], T2 as [-> | ->]; vm_compute; reflexivity|]. split; [destruct T as [-> | ->], T2 as [-> | ->]; vm_compute; reflexivity|].
  split; [destruct T as [-> | ->], T2 as [-> | ->]; (match goal with |- context [combine ?a ?b] => let r := eval vm_compute in (combine a b) in change (combine a b) with r end;
    intros c o J; repeat (destruct J as [J|J]; [injection J as <- <-; cbn; auto|]); destruct J)|].
  split; [destruct T as [-> | ->]; vm_compute; reflexivity|]. split; [destruct T as [-> | ->]; reflexivity|]. split; [destruct T as [-> | ->]; vm_compute; reflexivity|].
  split; [right; left; reflexivity|]. split; [vm_compute; discriminate|]. split; [destruct T as [-> | ->], T2 as [-> | ->]; vm_compute; reflexivity|].
  split; [destruct T as [-> | ->], T2 as [-> | ->]; (match goal with |- context [combine ?a ?b] => let r := eval vm_compute in (combine a b) in change (combine a b) with r end;
    intros c o J; repeat (destruct J as [J|J]; [injection J as <- <-; split; [cbn; try exact I; try (split; discriminate); try (intros; try discriminate; reflexivity)|cbn; try exact I; discriminate]|]); destruct J)|].
  cbv zeta. match goal with |- PropArchive.tidy_run _ _ ?q /\ _ => assert (Q : q = numbered 1 (story c l)) by (destruct T as [-> | ->], T2 as [-> | ->]; reflexivity); rewrite Q; clear Q end.
  split; [apply PropArchive.tidy_runb_ok; destruct T as [-> | ->], T2 as [-> | ->]; vm_compute; reflexivity|]. split; [destruct T as [-> | ->], T2 as [-> | ->]; vm_compute; reflexivity|]. apply bool_calls.
  destruct T as [-> | ->], T2 as [-> | ->]; vm_compute; reflexivity.
Qed.
Definition rsa1 : rsak := mkRsa 33 7 3 11 1 7 2 3.
Definition num_of (c : op) : Z * kdata := match c with OGenerateKeyPair _ KP_RSA _ _ _ => (CKK_RSA, KRsa rsa1) | _ => (CKK_EC, KEc (mkEc (Some 7%Z) 2 5 [4; 1; 2]%N)) end.
Lemma numbers_at c l : c = pair_rsa \/ c = pair_ec -> l = [] -> has_private (after (story c l)) H2 KT (fst (num_of c)) (snd (num_of c)).
Proof.
  intros T ->. exists (sx (story c []) H2). destruct (find_obj (after (story c [])) (sx (story c []) H2) KT) as [o|] eqn:F; [|exfalso; destruct T as [-> | ->]; vm_compute in F; discriminate F].
  exists o. split; [destruct T as [-> | ->]; vm_compute; reflexivity|]. split; [reflexivity|].
  destruct T as [-> | ->]; vm_compute in F; injection F as <-; repeat split.
Qed.
Lemma tw_der_private : ec_der_private tw.
Proof. intros e e' Ec Ek. cbn. unfold ec_exp. rewrite Ec, Ek. reflexivity. Qed.
(** The signature under the key read back from the files: a session that signs after [onwards], with a search begun in between. *)
Definition sgn1 : list op := [OFindObjectsInit H2 []; OCrypto H2 (KSign [] [9; 8]%N (Buf 300)) 0].
Example C129_case : laws tse /\ ec_der_private tw /\
  (forall c, c = pair_rsa \/ c = pair_ec ->
    (forall l, l = [] \/ l = onwards -> endured tw nofiles (after (story c l)) c (after (story c [])) (OutH2 CKR_OK 1 KT) H2 KT upin /\ t_login (s_tok (after (story c l))) = RW_USER /\
      sess_get (after (story c l)) H2 = Some (sx (story c l) H2)) /\
    has_private (after (story c [])) H2 KT (fst (num_of c)) (snd (num_of c))) /\
  e_pk_sign (w_ev tw) M_RSA_PKCS (mkKey CKK_RSA [] (w_pk tw (KRsa rsa1)) (w_klen tw (KRsa rsa1))) PKnone [] [9; 8]%N = Ok [14; 15]%N /\
  amid_spared tw (after (story pair_rsa onwards)) H2 (KSignInit M_RSA_PKCS MPnull 0) KT [KSign [] [9; 8]%N (Buf 300)] [mkOut CKR_OK 2 [14; 15]%N] /\
  (** The EC key read back no longer has its public point. *)
  (exists x o, sess_get (after (story pair_ec onwards)) H2 = Some x /\ find_obj (after (story pair_ec onwards)) x KT = Some o /\ o_data o = KEc (mkEc (Some 7%Z) 3 5 [])).
Proof.
  split; [exact toy_laws|]. split; [exact tw_der_private|]. split.
  { intros c T. split; [|apply numbers_at; auto]. intros l T2. split; [apply pair_endured; assumption|]. destruct T as [-> | ->], T2 as [-> | ->]; split; vm_compute; reflexivity. }
  split; [vm_compute; reflexivity|]. split.
  { assert (M : match run tw (after (story pair_rsa onwards)) ((OCrypto H2 (KSignInit M_RSA_PKCS MPnull 0) KT, rnd 0) :: numb sgn1) with Ok (_, _ :: q) => mine H2 (numb sgn1) q = combine [KSign [] [9; 8]%N (Buf 300)] [mkOut CKR_OK 2 [14; 15]%N] | _ => False end) by (vm_compute; reflexivity).
    destruct (run tw (after (story pair_rsa onwards)) ((OCrypto H2 (KSignInit M_RSA_PKCS MPnull 0) KT, rnd 0) :: numb sgn1)) as [[s' [|r os]]| |] eqn:R; try contradiction.
    exists (rnd 0), (numb sgn1), s', r, os. split; [exact R|]. split; [|split; [exact M|reflexivity]].
    intros c rn J. split; [revert c rn J; apply goes_by; vm_compute; reflexivity|]. apply in_map_iff in J as (c0 & E & [<-|[<-|[]]]); injection E as <- _; cbn; auto. }
  destruct (find_obj (after (story pair_ec onwards)) (sx (story pair_ec onwards) H2) KT) as [o|] eqn:F; [|exfalso; vm_compute in F; discriminate F].
  exists (sx (story pair_ec onwards) H2), o. split; [vm_compute; reflexivity|]. split; [exact F|]. vm_compute in F. injection F as <-. reflexivity.
Qed.
