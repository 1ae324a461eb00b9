(** C130: RSA and EC public keys on the token keep their public numbers through logouts, logins, restarts and processes that just end; what one half of a key pair signs, the other verifies, whenever. *)
From Verif Require Import Base Cbc CbcProofs CbcSpec Codec Ops OpsSpec OpsCbcProofs OpsProofs OpsProofs2 OpsProofs3 OpsProofs4 OpsClaims OpsFinal Object ObjectProofs Store StoreSpec StoreProofs Sys SysProofs SysProofs2 SysProofs3 SysProofs4 WfProofs
  LoginProofs RvProofs ObjFrame ObjProofs HandleProofs DiskHandles FindState UseProofs KeyProofs KeyHeld ToyEnv ToySys PropObject PropSys1 PropSys2 PropSys3 PropStore PropKeys PropKeys2 PropInUse PropFind PropOps PropHold PropMsg PropObj PropImport
  Device DeviceProofs PropDevice Table TableProofs PropTable PropUse PropSurvive PropEndure SurviveAny PropPrivate.
From Verif Require DurableProofs DurableKeys PropArchive Vault PropVault.
From Coq Require Import List Bool.
Import ListNotations.
Open Scope nat_scope.
Open Scope list_scope.

(** ** Specification *)
(** Session [h] finds under the handle [ho] a public key of type [kt] with the numbers [k]. *)
Definition has_public (s : sys) (h ho kt : Z) (k : kdata) : Prop :=
  exists x o, sess_get s h = Some x /\ find_obj s x ho = Some o /\ o_class o = CKO_PUBLIC_KEY /\ o_type o = kt /\ o_data o = k.
(** wc_RsaKeyToPublicDer writes modulus and exponent only, wc_EccPublicKeyToDer curve and point only. *)
Definition rsa_der_public (w : world) : Prop := forall r r', r_n r' = r_n r -> r_e r' = r_e r -> se_rsa_pub (w_se w) r' = se_rsa_pub (w_se w) r.
Definition ec_der_public (w : world) : Prop := forall e e', ec_curve e' = ec_curve e -> ec_pt e' = ec_pt e -> se_ec_pub (w_se w) e' = se_ec_pub (w_se w) e.
(** The key as the primitives see it. *)
Definition rsa_key (w : world) (r : rsak) : keyobj := mkKey CKK_RSA [] (w_pk w (KRsa r)) (w_klen w (KRsa r)).
(** RSA for the key [r]: what is signed with it is verified with every key of the same modulus and exponent. *)
Definition rsa_matches (w : world) (r : rsak) : Prop := forall r', r_n r' = r_n r -> r_e r' = r_e r -> forall rs data sig,
  e_pk_sign (w_ev w) M_RSA_PKCS (rsa_key w r) PKnone rs data = Ok sig -> e_pk_verify (w_ev w) M_RSA_PKCS (rsa_key w r') PKnone sig data = Ok true.

(** ** Proof *)
Lemma pub_is o : o_class o = CKO_PUBLIC_KEY -> is_priv o = false /\ is_cert o = false.
Proof. intros C. unfold is_priv, is_cert. rewrite C. split; reflexivity. Qed.
Section R.
Variable w : world.
Notation se := (w_se w).
Hypothesis L : laws se.
Hypothesis Ho : rsa_der_public w.
Variables (ho : Z) (r : rsak).
Definition rsa_pub_sealed (key : list N) (o : obj) : Prop :=
  o_handle o = ho /\ o_class o = CKO_PUBLIC_KEY /\ o_type o = CKK_RSA /\ (0 <= fst (se_rsa_pub se r))%Z /\ o_keyData o = Some (snd (se_rsa_pub se r)) /\ exists r0, as_rsa o = Ok r0.
Definition rsa_pub_clear (o : obj) : Prop := exists r', o_data o = KRsa r' /\ r_n r' = r_n r /\ r_e r' = r_e r.
Definition rsa_pub_fit (key : list N) (o : obj) : Prop :=
  o_class o = CKO_PUBLIC_KEY -> o_type o = CKK_RSA -> forall r, o_data o = KRsa r -> (0 <= fst (se_rsa_pub se r))%Z /\ o_keyData o = Some (snd (se_rsa_pub se r)).
Lemma rsa_pub_is k o : rsa_pub_sealed k o -> o_handle o = ho /\ is_cert o = false /\ o_keyData o <> None.
Proof. intros (S1 & S2 & _ & _ & S5 & _). split; [exact S1|]. split; [apply pub_is; exact S2|congruence]. Qed.
Lemma rsa_pub_decode0 k key o c o' : rsa_pub_sealed k o -> Decode se key o = Ok (c, o') -> rsa_pub_sealed k o' /\ c = 0%Z /\ rsa_pub_clear o'.
Proof.
  intros (S1 & S2 & S3 & S4 & S5 & r0 & S6) D. destruct (pub_is o S2) as [P1 P2]. unfold Decode in D. rewrite P2 in D. unfold DecodeKey in D. rewrite S3 in D. change (CKK_RSA =? CKK_RSA)%Z with true in D. cbv iota in D. rewrite S6 in D. cbn [bind] in D. rewrite P1 in D.
  unfold kd_bytes in D. rewrite S5 in D. destruct (l_rsa_pub _ L r r0 S4) as (r' & Dc & Q1 & Q2). rewrite Dc in D. cbn in D. injection D as <- <-. split; [|split; [reflexivity|exists r'; auto]].
  split; [exact S1|]. split; [exact S2|]. split; [exact S3|]. split; [exact S4|]. split; [exact S5|]. exists r'. reflexivity.
Qed.
Lemma rsa_pub_decode k key o c o' : rsa_pub_sealed k o -> Decode se key o = Ok (c, o') -> rsa_pub_sealed k o' /\ (key = k -> c = 0%Z /\ rsa_pub_clear o').
Proof. intros S D. destruct (rsa_pub_decode0 _ _ _ _ _ S D) as [S' Cl]. split; [exact S'|]. intros _. exact Cl. Qed.
Lemma rsa_pub_encode0 k o c o' : rsa_pub_sealed k o -> rsa_pub_clear o -> Encode se k true o = Ok (c, o') -> rsa_pub_sealed k o' /\ c = 0%Z /\ rsa_pub_clear o'.
Proof.
  intros (S1 & S2 & S3 & S4 & S5 & r0 & S6) (r1 & Cl & Q1 & Q2) E. destruct (pub_is o S2) as [P1 P2]. unfold Encode in E. rewrite P2 in E. unfold EncodeKey in E. rewrite S3 in E. change (CKK_RSA =? CKK_RSA)%Z with true in E. cbv iota in E.
  unfold as_rsa in E at 1. rewrite Cl in E. cbn [bind] in E. unfold enc_asym in E. rewrite P1, (Ho r r1 Q1 Q2) in E. destruct (se_rsa_pub se r) as [cr der] eqn:Pv. cbn [fst snd] in *. destruct (Z.ltb_spec cr 0); [lia|].
  rewrite S2 in E. change (CKO_PUBLIC_KEY =? CKO_PUBLIC_KEY)%Z with true in E. cbv iota in E. cbn [bind] in E. injection E as <- <-. split; [|split; [reflexivity|]]. 2: { change (andb true (0 =? 0)%Z) with true. cbv iota. unfold protect_key. set (q := set_store o _ _ _). change (o_type q) with (o_type o). rewrite S3. change (CKK_RSA =? CKK_RSA)%Z with true. cbv iota. change (is_priv q) with (is_priv o). rewrite P1. exists r1. auto. }
  change (andb true (0 =? 0)%Z) with true. cbv iota. unfold protect_key. set (q := set_store o _ _ _). change (o_type q) with (o_type o). rewrite S3. change (CKK_RSA =? CKK_RSA)%Z with true. cbv iota.
  change (is_priv q) with (is_priv o). rewrite P1. split; [exact S1|]. split; [exact S2|]. split; [exact S3|]. rewrite Pv. split; [exact S4|]. split; [reflexivity|]. exists r0. exact S6.
Qed.
Lemma rsa_pub_encode k o c o' : rsa_pub_sealed k o -> rsa_pub_clear o -> Encode se k true o = Ok (c, o') -> rsa_pub_sealed k o' /\ c = 0%Z.
Proof. intros S Cl E. destruct (rsa_pub_encode0 _ _ _ _ S Cl E) as (S' & C & _). auto. Qed.
(** Together they stay in memory, logged in or not. *)
Definition rsa_pub_both (key : list N) (o : obj) : Prop := rsa_pub_sealed key o /\ rsa_pub_clear o.
Lemma rsa_pub_both_is k o : rsa_pub_both k o -> o_handle o = ho /\ is_cert o = false /\ o_keyData o <> None.
Proof. intros [S _]. exact (rsa_pub_is _ _ S). Qed.
Lemma rsa_pub_both_decode k key o c o' : rsa_pub_both k o -> Decode se key o = Ok (c, o') -> rsa_pub_both k o' /\ (key = k -> c = 0%Z /\ True).
Proof. intros [S _] D. destruct (rsa_pub_decode0 _ _ _ _ _ S D) as (S' & C & Cl). split; [split; assumption|auto]. Qed.
Lemma rsa_pub_both_encode k o c o' : rsa_pub_both k o -> True -> Encode se k true o = Ok (c, o') -> rsa_pub_both k o' /\ c = 0%Z.
Proof. intros [S Cl] _ E. destruct (rsa_pub_encode0 _ _ _ _ S Cl E) as (S' & C & Cl'). split; [split; assumption|exact C]. Qed.
Lemma rsa_pub_reload k u o : rsa_pub_sealed k o -> rsa_pub_sealed k (reloaded u o).
Proof.
  intros (S1 & S2 & S3 & S4 & S5 & r0 & S6). destruct (pub_is o S2) as [P1 P2]. unfold reloaded. rewrite P2, S3. change (CKK_RSA =? CKK_DH)%Z with false. cbv iota zeta. unfold kd_bytes. rewrite S5.
  split; [exact S1|]. split; [exact S2|]. split; [exact S3|]. split; [exact S4|]. split; [reflexivity|]. unfold as_rsa. cbn. eauto.
Qed.
Lemma rsa_pub_fits key o o2 h : Encode se key false o = Ok (0%Z, o2) -> rsa_pub_fit key (set_handle o2 h).
Proof.
  intros E C T q Dq. unfold Encode in E. destruct (is_cert o) eqn:Ce; [injection E as <-; destruct (pub_is o C) as [_ P2]; congruence|]. destruct (EncodeKey se key o) as [[c1 o1]| |] eqn:Ek; cbn [bind] in E; try discriminate E. cbn [andb] in E. injection E as -> <-.
  cbn [set_handle o_class o_type o_data o_iv o_keyData] in *.
  assert (F : exists kd ev, o1 = set_store o (o_iv o) kd ev).
  { unfold EncodeKey, enc_asym in Ek. sinv; eauto. all: try discriminate. all: try (exists (o_keyData o), (o_enc o); destruct o; reflexivity). all: repeat match goal with H : context [if ?q then _ else _] |- _ => destruct q; sinv; eauto end. }
  destruct F as (kd & ev & F). assert (C0 : o_class o = CKO_PUBLIC_KEY) by (rewrite F in C; exact C). assert (T0 : o_type o = CKK_RSA) by (rewrite F in T; exact T). assert (D0 : o_data o = KRsa q) by (rewrite F in Dq; exact Dq).
  destruct (pub_is o C0) as [P1 _]. unfold EncodeKey in Ek. rewrite T0 in Ek. change (CKK_RSA =? CKK_RSA)%Z with true in Ek. cbv iota in Ek. unfold as_rsa in Ek. rewrite D0 in Ek. cbn [bind] in Ek. unfold enc_asym in Ek. rewrite P1 in Ek.
  destruct (se_rsa_pub se q) as [cr der]. destruct (Z.ltb_spec cr 0); [injection Ek as Ek _; lia|]. rewrite C0 in Ek. change (CKO_PUBLIC_KEY =? CKO_PUBLIC_KEY)%Z with true in Ek. cbv iota in Ek. injection Ek as <-. split; [assumption|reflexivity].
Qed.
Lemma rsa_pub_cert key o : is_cert o = true -> rsa_pub_fit key o.
Proof. intros C P. destruct (pub_is o P) as [_ Q]. congruence. Qed.
End R.
Section E.
Variable w : world.
Notation se := (w_se w).
Hypothesis L : laws se.
Hypothesis Ho : ec_der_public w.
Variables (ho : Z) (r : eck).
Definition ec_pub_sealed (key : list N) (o : obj) : Prop :=
  o_handle o = ho /\ o_class o = CKO_PUBLIC_KEY /\ o_type o = CKK_EC /\ (0 <= fst (se_ec_pub se r))%Z /\ o_keyData o = Some (snd (se_ec_pub se r)) /\ exists r0, as_ec o = Ok r0.
Definition ec_pub_clear (o : obj) : Prop := exists r', o_data o = KEc r' /\ ec_curve r' = ec_curve r /\ ec_pt r' = ec_pt r.
Definition ec_pub_fit (key : list N) (o : obj) : Prop :=
  o_class o = CKO_PUBLIC_KEY -> o_type o = CKK_EC -> forall r, o_data o = KEc r -> (0 <= fst (se_ec_pub se r))%Z /\ o_keyData o = Some (snd (se_ec_pub se r)).
Lemma ec_pub_is k o : ec_pub_sealed k o -> o_handle o = ho /\ is_cert o = false /\ o_keyData o <> None.
Proof. intros (S1 & S2 & _ & _ & S5 & _). split; [exact S1|]. split; [apply pub_is; exact S2|congruence]. Qed.
Lemma ec_pub_decode0 k key o c o' : ec_pub_sealed k o -> Decode se key o = Ok (c, o') -> ec_pub_sealed k o' /\ c = 0%Z /\ ec_pub_clear o'.
Proof.
  intros (S1 & S2 & S3 & S4 & S5 & r0 & S6) D. destruct (pub_is o S2) as [P1 P2]. unfold Decode in D. rewrite P2 in D. unfold DecodeKey in D. rewrite S3 in D. change (CKK_EC =? CKK_RSA)%Z with false in D. change (CKK_EC =? CKK_EC)%Z with true in D. cbv iota in D. rewrite S6 in D. cbn [bind] in D. rewrite P1 in D.
  unfold kd_bytes in D. rewrite S5 in D. destruct (l_ec_pub _ L r r0 S4) as (r' & Dc & Q1 & Q2). rewrite Dc in D. cbn in D. injection D as <- <-. split; [|split; [reflexivity|exists r'; auto]].
  split; [exact S1|]. split; [exact S2|]. split; [exact S3|]. split; [exact S4|]. split; [exact S5|]. exists r'. reflexivity.
Qed.
Lemma ec_pub_decode k key o c o' : ec_pub_sealed k o -> Decode se key o = Ok (c, o') -> ec_pub_sealed k o' /\ (key = k -> c = 0%Z /\ ec_pub_clear o').
Proof. intros S D. destruct (ec_pub_decode0 _ _ _ _ _ S D) as [S' Cl]. split; [exact S'|]. intros _. exact Cl. Qed.
Lemma ec_pub_encode0 k o c o' : ec_pub_sealed k o -> ec_pub_clear o -> Encode se k true o = Ok (c, o') -> ec_pub_sealed k o' /\ c = 0%Z /\ ec_pub_clear o'.
Proof.
  intros (S1 & S2 & S3 & S4 & S5 & r0 & S6) (r1 & Cl & Q1 & Q2) E. destruct (pub_is o S2) as [P1 P2]. unfold Encode in E. rewrite P2 in E. unfold EncodeKey in E. rewrite S3 in E. change (CKK_EC =? CKK_RSA)%Z with false in E. change (CKK_EC =? CKK_EC)%Z with true in E. cbv iota in E.
  unfold as_ec in E at 1. rewrite Cl in E. cbn [bind] in E. unfold enc_asym in E. rewrite P1, (Ho r r1 Q1 Q2) in E. destruct (se_ec_pub se r) as [cr der] eqn:Pv. cbn [fst snd] in *. destruct (Z.ltb_spec cr 0); [lia|].
  rewrite S2 in E. change (CKO_PUBLIC_KEY =? CKO_PUBLIC_KEY)%Z with true in E. cbv iota in E. cbn [bind] in E. injection E as <- <-. split; [|split; [reflexivity|]]. 2: { change (andb true (0 =? 0)%Z) with true. cbv iota. unfold protect_key. set (q := set_store o _ _ _). change (o_type q) with (o_type o). rewrite S3. change (CKK_EC =? CKK_RSA)%Z with false. change (CKK_EC =? CKK_EC)%Z with true. cbv iota. change (is_priv q) with (is_priv o). rewrite P1. exists r1. auto. }
  change (andb true (0 =? 0)%Z) with true. cbv iota. unfold protect_key. set (q := set_store o _ _ _). change (o_type q) with (o_type o). rewrite S3. change (CKK_EC =? CKK_RSA)%Z with false. change (CKK_EC =? CKK_EC)%Z with true. cbv iota.
  change (is_priv q) with (is_priv o). rewrite P1. split; [exact S1|]. split; [exact S2|]. split; [exact S3|]. rewrite Pv. split; [exact S4|]. split; [reflexivity|]. exists r0. exact S6.
Qed.
Lemma ec_pub_encode k o c o' : ec_pub_sealed k o -> ec_pub_clear o -> Encode se k true o = Ok (c, o') -> ec_pub_sealed k o' /\ c = 0%Z.
Proof. intros S Cl E. destruct (ec_pub_encode0 _ _ _ _ S Cl E) as (S' & C & _). auto. Qed.
(** Together they stay in memory, logged in or not. *)
Definition ec_pub_both (key : list N) (o : obj) : Prop := ec_pub_sealed key o /\ ec_pub_clear o.
Lemma ec_pub_both_is k o : ec_pub_both k o -> o_handle o = ho /\ is_cert o = false /\ o_keyData o <> None.
Proof. intros [S _]. exact (ec_pub_is _ _ S). Qed.
Lemma ec_pub_both_decode k key o c o' : ec_pub_both k o -> Decode se key o = Ok (c, o') -> ec_pub_both k o' /\ (key = k -> c = 0%Z /\ True).
Proof. intros [S _] D. destruct (ec_pub_decode0 _ _ _ _ _ S D) as (S' & C & Cl). split; [split; assumption|auto]. Qed.
Lemma ec_pub_both_encode k o c o' : ec_pub_both k o -> True -> Encode se k true o = Ok (c, o') -> ec_pub_both k o' /\ c = 0%Z.
Proof. intros [S Cl] _ E. destruct (ec_pub_encode0 _ _ _ _ S Cl E) as (S' & C & Cl'). split; [split; assumption|exact C]. Qed.
Lemma ec_pub_reload k u o : ec_pub_sealed k o -> ec_pub_sealed k (reloaded u o).
Proof.
  intros (S1 & S2 & S3 & S4 & S5 & r0 & S6). destruct (pub_is o S2) as [P1 P2]. unfold reloaded. rewrite P2, S3. change (CKK_EC =? CKK_DH)%Z with false. cbv iota zeta. unfold kd_bytes. rewrite S5.
  split; [exact S1|]. split; [exact S2|]. split; [exact S3|]. split; [exact S4|]. split; [reflexivity|]. unfold as_ec. cbn. eauto.
Qed.
Lemma ec_pub_fits key o o2 h : Encode se key false o = Ok (0%Z, o2) -> ec_pub_fit key (set_handle o2 h).
Proof.
  intros E C T q Dq. unfold Encode in E. destruct (is_cert o) eqn:Ce; [injection E as <-; destruct (pub_is o C) as [_ P2]; congruence|]. destruct (EncodeKey se key o) as [[c1 o1]| |] eqn:Ek; cbn [bind] in E; try discriminate E. cbn [andb] in E. injection E as -> <-.
  cbn [set_handle o_class o_type o_data o_iv o_keyData] in *.
  assert (F : exists kd ev, o1 = set_store o (o_iv o) kd ev).
  { unfold EncodeKey, enc_asym in Ek. sinv; eauto. all: try discriminate. all: try (exists (o_keyData o), (o_enc o); destruct o; reflexivity). all: repeat match goal with H : context [if ?q then _ else _] |- _ => destruct q; sinv; eauto end. }
  destruct F as (kd & ev & F). assert (C0 : o_class o = CKO_PUBLIC_KEY) by (rewrite F in C; exact C). assert (T0 : o_type o = CKK_EC) by (rewrite F in T; exact T). assert (D0 : o_data o = KEc q) by (rewrite F in Dq; exact Dq).
  destruct (pub_is o C0) as [P1 _]. unfold EncodeKey in Ek. rewrite T0 in Ek. change (CKK_EC =? CKK_RSA)%Z with false in Ek. change (CKK_EC =? CKK_EC)%Z with true in Ek. cbv iota in Ek. unfold as_ec in Ek. rewrite D0 in Ek. cbn [bind] in Ek. unfold enc_asym in Ek. rewrite P1 in Ek.
  destruct (se_ec_pub se q) as [cr der]. destruct (Z.ltb_spec cr 0); [injection Ek as Ek _; lia|]. rewrite C0 in Ek. change (CKO_PUBLIC_KEY =? CKO_PUBLIC_KEY)%Z with true in Ek. cbv iota in Ek. injection Ek as <-. split; [assumption|reflexivity].
Qed.
Lemma ec_pub_cert key o : is_cert o = true -> ec_pub_fit key o.
Proof. intros C P. destruct (pub_is o P) as [_ Q]. congruence. Qed.
End E.
(** ** The theorems *)
Theorem C130_rsa : forall w d s c s2 o2 h ho r p hs x, laws (w_se w) -> rsa_der_public w -> endured w d s c s2 o2 h ho p -> has_public s2 h ho CKK_RSA (KRsa r) -> t_login (s_tok s) = RW_USER -> sess_get s hs = Some x ->
  exists r' o, r_n r' = r_n r /\ r_e r' = r_e r /\ has_public s hs ho CKK_RSA (KRsa r') /\ ready w s hs x ho o (rsa_key w r').
Proof.
  intros w d s c s2 o2 h ho r p hs x L Ho En (x0 & o0 & G0 & F0 & C0 & T0 & D0) Lg G.
  destruct (any_there w d s c s2 o2 h ho p (rsa_pub_sealed w ho r) (rsa_pub_clear r) (rsa_pub_fit w) hs x x0 o0 L (rsa_pub_is w ho r) (rsa_pub_decode w L ho r) (rsa_pub_encode w Ho ho r) (rsa_pub_reload w ho r) (rsa_pub_fits w) (rsa_pub_cert w)) as (Re & o & k & Fo & S & e' & Cl & Q1 & Q2); auto.
  { intros key Eh Ft. destruct (Ft C0 T0 r D0) as [Q1 Q2]. split; [|exists r; auto]. split; [exact Eh|]. split; [exact C0|]. split; [exact T0|]. split; [exact Q1|]. split; [exact Q2|]. exists r. unfold as_rsa. rewrite D0. reflexivity. }
  destruct S as (_ & S2 & S3 & _). exists e', o. split; [exact Q1|]. split; [exact Q2|]. split; [exists x, o; auto|]. split; [exists d; exact Re|exact G|exact Fo|]. unfold view. rewrite S3. change (CKK_RSA =? CKK_RSA)%Z with true. cbv iota. unfold as_rsa. rewrite Cl. reflexivity.
Qed.
Print Assumptions C130_rsa.

Theorem C130_ec : forall w d s c s2 o2 h ho e p hs x, laws (w_se w) -> ec_der_public w -> endured w d s c s2 o2 h ho p -> has_public s2 h ho CKK_EC (KEc e) -> t_login (s_tok s) = RW_USER -> sess_get s hs = Some x ->
  exists e' o, ec_curve e' = ec_curve e /\ ec_pt e' = ec_pt e /\ has_public s hs ho CKK_EC (KEc e') /\ ready w s hs x ho o (mkKey CKK_EC [] (w_pk w (KEc e')) (w_klen w (KEc e'))).
Proof.
  intros w d s c s2 o2 h ho e p hs x L Ho En (x0 & o0 & G0 & F0 & C0 & T0 & D0) Lg G.
  destruct (any_there w d s c s2 o2 h ho p (ec_pub_sealed w ho e) (ec_pub_clear e) (ec_pub_fit w) hs x x0 o0 L (ec_pub_is w ho e) (ec_pub_decode w L ho e) (ec_pub_encode w Ho ho e) (ec_pub_reload w ho e) (ec_pub_fits w) (ec_pub_cert w)) as (Re & o & k & Fo & S & e' & Cl & Q1 & Q2); auto.
  { intros key Eh Ft. destruct (Ft C0 T0 e D0) as [Q1 Q2]. split; [|exists e; auto]. split; [exact Eh|]. split; [exact C0|]. split; [exact T0|]. split; [exact Q1|]. split; [exact Q2|]. exists e. unfold as_ec. rewrite D0. reflexivity. }
  destruct S as (_ & S2 & S3 & _). exists e', o. split; [exact Q1|]. split; [exact Q2|]. split; [exists x, o; auto|]. split; [exists d; exact Re|exact G|exact Fo|]. unfold view. rewrite S3. change (CKK_EC =? CKK_RSA)%Z with false. change (CKK_EC =? CKK_EC)%Z with true. cbv iota. unfold as_ec. rewrite Cl. reflexivity.
Qed.
Print Assumptions C130_ec.

(** What the private key of a pair signs in one history, its public key verifies in any other. *)
Lemma rsa_verify_run ev u ko st data sig : ko_type ko = CKK_RSA -> (zlen data < 2^32)%Z -> (zlen sig < 2^32)%Z -> e_pk_verify ev M_RSA_PKCS ko PKnone sig data = Ok true ->
  exists p, Ops.run ev (only u ko) st [KVerifyInit M_RSA_PKCS MPnull u; KVerify data sig] = Ok (p, [fail Query CKR_OK; fail Query CKR_OK]).
Proof.
  intros T Ld Ls Sg. cbn [Ops.run Ops.step]. unfold init_call. rewrite only_self. cbn [C_VerifyInit]. unfold rsa_noparam. rewrite T. cbn [Z.eqb negb no_param bind CKK_RSA].
  cbv beta iota zeta. unfold C_Verify, with_obj. cbn [init_done os_curr set_init os_mech]. unfold pk_verify, need_init. cbn. unfold deref. rewrite only_self. cbn [bind].
  cbn [get_pk bind]. rewrite (trunc32_small _ Ld), (trunc32_small _ Ls), Sg. cbn [bind]. eexists. reflexivity.
Qed.
Theorem C130_pair : forall w d s c s2 o2 h ho r p hs x rs data n sig outs d' s' c' s2' o2' h' hb r0 p' hs' x' outs', laws (w_se w) -> rsa_der_public w -> rsa_matches w r ->
  endured w d s c s2 o2 h ho p -> has_private s2 h ho CKK_RSA (KRsa r) -> t_login (s_tok s) = RW_USER -> sess_get s hs = Some x ->
  endured w d' s' c' s2' o2' h' hb p' -> has_public s2' h' hb CKK_RSA (KRsa r0) -> t_login (s_tok s') = RW_USER -> sess_get s' hs' = Some x' ->
  r_n r0 = r_n r -> r_e r0 = r_e r -> (zlen data < 2^32)%Z -> (zlen sig < 2^32)%Z -> (w_klen w (KRsa r) <= n)%Z -> (0 <= n < 2^32)%Z ->
  e_pk_sign (w_ev w) M_RSA_PKCS (rsa_key w r) PKnone rs data = Ok sig ->
  amid_spared w s hs (KSignInit M_RSA_PKCS MPnull 0) ho [KSign rs data (Buf n)] outs ->
  amid_spared w s' hs' (KVerifyInit M_RSA_PKCS MPnull 0) hb [KVerify data (concat (map o_out outs))] outs' ->
  map o_out outs = [sig] /\ map o_rv outs' = [CKR_OK].
Proof.
  intros w d s c s2 o2 h ho r p hs x rs data n sig outs d' s' c' s2' o2' h' hb r0 p' hs' x' outs' L Hp Mt En Pr Lg G En' Pb Lg' G' En1 En2 Ld Ls Ln Rn Sg Am Am'.
  rewrite (C129_sign w d s c s2 o2 h ho r p hs x rs data n sig outs L En Pr Lg G Ld Ln Rn Sg Am) in *. split; [reflexivity|]. cbn [map o_out concat] in Am'. rewrite app_nil_r in Am'.
  destruct (C130_rsa w d' s' c' s2' o2' h' hb r0 p' hs' x' L Hp En' Pb Lg' G') as (r' & o & Q1 & Q2 & _ & Rd).
  destruct (rsa_verify_run (w_ev w) (o_uid o) (rsa_key w r') (ss_op x') data sig eq_refl Ld Ls) as (p1 & Q); [apply (Mt r' ltac:(congruence) ltac:(congruence) rs); exact Sg|].
  rewrite (lift_spared w s' hs' x' hb o _ (KVerifyInit M_RSA_PKCS MPnull 0) (KVerifyInit M_RSA_PKCS MPnull (o_uid o)) _ outs' _ _ _ Rd eq_refl Am' Q eq_refl). reflexivity.
Qed.
Print Assumptions C130_pair.

(** ** C131: whether somebody is logged in *)
(** The claim: a public key on the token has its numbers in every session. *)
Definition C131_claim (w : world) : Prop := forall d s c s2 o2 h ho r p hs x, endured w d s c s2 o2 h ho p -> has_public s2 h ho CKK_RSA (KRsa r) -> sess_get s hs = Some x ->
  exists r', r_n r' = r_n r /\ r_e r' = r_e r /\ has_public s hs ho CKK_RSA (KRsa r').

(** What holds: once a user has logged in since the token was loaded, the key has its numbers until the library is shut down, also after the logout. *)
Definition stays (w : world) (ho : Z) (p : list N) (s s' : sys) : Prop :=
  exists l os, run w s l = Ok (s', os) /\ PropArchive.tidy_run w s l /\
    forall c o, In (c, o) (combine (map fst l) os) -> same_pin p c o /\ unnamed ho c /\ match c with OInitialize | OFinalize | ORestart => False | _ => True end.
Theorem C131_rsa_partial : forall w d s c s2 o2 h ho r p hs x s' hs' x', laws (w_se w) -> rsa_der_public w -> endured w d s c s2 o2 h ho p -> has_public s2 h ho CKK_RSA (KRsa r) -> t_login (s_tok s) = RW_USER -> sess_get s hs = Some x ->
  stays w ho p s s' -> endured w d s' c s2 o2 h ho p -> sess_get s' hs' = Some x' ->
  exists r', r_n r' = r_n r /\ r_e r' = r_e r /\ has_public s' hs' ho CKK_RSA (KRsa r').
Proof.
  intros w d s c s2 o2 h ho r p hs x s' hs' x' L Ho En (x0 & o0 & G0 & F0 & C0 & T0 & D0) Lg G (l & os & Rl & Td & Kp) En' G'.
  assert (Sc : forall key, o_handle o0 = ho -> rsa_pub_fit w key o0 -> rsa_pub_sealed w ho r key o0 /\ rsa_pub_clear r o0).
  { intros key Eh Ft. destruct (Ft C0 T0 r D0) as [Q1 Q2]. split; [|exists r; auto]. split; [exact Eh|]. split; [exact C0|]. split; [exact T0|]. split; [exact Q1|]. split; [exact Q2|]. exists r. unfold as_rsa. rewrite D0. reflexivity. }
  destruct (any_kept w d s c s2 o2 h ho p (rsa_pub_sealed w ho r) (rsa_pub_clear r) (rsa_pub_fit w) x0 o0 L (rsa_pub_is w ho r) (rsa_pub_decode w L ho r) (rsa_pub_encode w Ho ho r) (rsa_pub_reload w ho r) (rsa_pub_fits w) (rsa_pub_cert w) Sc En G0 F0) as (m & sd & Od & M & _ & K).
  destruct (any_kept w d s' c s2 o2 h ho p (rsa_pub_sealed w ho r) (rsa_pub_clear r) (rsa_pub_fit w) x0 o0 L (rsa_pub_is w ho r) (rsa_pub_decode w L ho r) (rsa_pub_encode w Ho ho r) (rsa_pub_reload w ho r) (rsa_pub_fits w) (rsa_pub_cert w) Sc En' G0 F0) as (m' & _ & Od' & M' & _).
  pose proof (orderly_reach _ _ _ _ _ Od) as Re. pose proof (get_count _ _ _ (reach_inv w d s Re) G) as Cn. destruct (K Cn) as (Sd & o & J & S & U). destruct U as [Kk Cl]; [unfold user; rewrite Lg; reflexivity|].
  destruct (awake_run w d p sd ho (rsa_pub_both w ho r) (fun _ => True) (rsa_pub_both_is w ho r) (rsa_pub_both_decode w L ho r) (rsa_pub_both_encode w Ho ho r) l s s' os Re Td Cn) as (_ & _ & q & Jq & [(Sq & S2 & S3 & _) Cq] & _); [|intros c1 o1 J1; destruct (Kp c1 o1 J1) as (K1 & K2 & K3); split; [exact K1|]; split; [exact K2|]; destruct c1; try contradiction; reflexivity|exact Rl|].
  { split; [exact Sd|]. exists o. split; [exact J|]. split; [split; assumption|]. auto. }
  destruct Cq as (r' & Dq & Q1 & Q2). exists r'. split; [exact Q1|]. split; [exact Q2|]. exists x', q. split; [exact G'|]. split; [|auto].
  destruct (orderly_kept w True (l_hash _ L) _ _ _ Od') as [Gd _]; [lia|]. rewrite <- Sq. apply (good_finds True _ _ _ _ _ Logic.I Gd ltac:(lia) G'). apply in_or_app. left. exact Jq.
Qed.
Print Assumptions C131_rsa_partial.
Theorem C131_ec_partial : forall w d s c s2 o2 h ho r p hs x s' hs' x', laws (w_se w) -> ec_der_public w -> endured w d s c s2 o2 h ho p -> has_public s2 h ho CKK_EC (KEc r) -> t_login (s_tok s) = RW_USER -> sess_get s hs = Some x ->
  stays w ho p s s' -> endured w d s' c s2 o2 h ho p -> sess_get s' hs' = Some x' ->
  exists r', ec_curve r' = ec_curve r /\ ec_pt r' = ec_pt r /\ has_public s' hs' ho CKK_EC (KEc r').
Proof.
  intros w d s c s2 o2 h ho r p hs x s' hs' x' L Ho En (x0 & o0 & G0 & F0 & C0 & T0 & D0) Lg G (l & os & Rl & Td & Kp) En' G'.
  assert (Sc : forall key, o_handle o0 = ho -> ec_pub_fit w key o0 -> ec_pub_sealed w ho r key o0 /\ ec_pub_clear r o0).
  { intros key Eh Ft. destruct (Ft C0 T0 r D0) as [Q1 Q2]. split; [|exists r; auto]. split; [exact Eh|]. split; [exact C0|]. split; [exact T0|]. split; [exact Q1|]. split; [exact Q2|]. exists r. unfold as_ec. rewrite D0. reflexivity. }
  destruct (any_kept w d s c s2 o2 h ho p (ec_pub_sealed w ho r) (ec_pub_clear r) (ec_pub_fit w) x0 o0 L (ec_pub_is w ho r) (ec_pub_decode w L ho r) (ec_pub_encode w Ho ho r) (ec_pub_reload w ho r) (ec_pub_fits w) (ec_pub_cert w) Sc En G0 F0) as (m & sd & Od & M & _ & K).
  destruct (any_kept w d s' c s2 o2 h ho p (ec_pub_sealed w ho r) (ec_pub_clear r) (ec_pub_fit w) x0 o0 L (ec_pub_is w ho r) (ec_pub_decode w L ho r) (ec_pub_encode w Ho ho r) (ec_pub_reload w ho r) (ec_pub_fits w) (ec_pub_cert w) Sc En' G0 F0) as (m' & _ & Od' & M' & _).
  pose proof (orderly_reach _ _ _ _ _ Od) as Re. pose proof (get_count _ _ _ (reach_inv w d s Re) G) as Cn. destruct (K Cn) as (Sd & o & J & S & U). destruct U as [Kk Cl]; [unfold user; rewrite Lg; reflexivity|].
  destruct (awake_run w d p sd ho (ec_pub_both w ho r) (fun _ => True) (ec_pub_both_is w ho r) (ec_pub_both_decode w L ho r) (ec_pub_both_encode w Ho ho r) l s s' os Re Td Cn) as (_ & _ & q & Jq & [(Sq & S2 & S3 & _) Cq] & _); [|intros c1 o1 J1; destruct (Kp c1 o1 J1) as (K1 & K2 & K3); split; [exact K1|]; split; [exact K2|]; destruct c1; try contradiction; reflexivity|exact Rl|].
  { split; [exact Sd|]. exists o. split; [exact J|]. split; [split; assumption|]. auto. }
  destruct Cq as (r' & Dq & Q1 & Q2). exists r'. split; [exact Q1|]. split; [exact Q2|]. exists x', q. split; [exact G'|]. split; [|auto].
  destruct (orderly_kept w True (l_hash _ L) _ _ _ Od') as [Gd _]; [lia|]. rewrite <- Sq. apply (good_finds True _ _ _ _ _ Logic.I Gd ltac:(lia) G'). apply in_or_app. left. exact Jq.
Qed.
Print Assumptions C131_ec_partial.

(** ** Histories that meet the hypotheses *)
(** A key pair is generated with both halves on the token; then as in PropSurvive.v (where the private half is destroyed in the end). *)
Definition rsa2 : rsak := mkRsa 33 13 3 11 1 3 2 65537.
Definition both_rsa : op := OGenerateKeyPair H2 KP_RSA (tokenly [mkA CKA_VERIFY TRUE]) (tokenly [mkA CKA_SIGN TRUE]) (Some (GRsa rsa2)).
Definition both_ec : op := OGenerateKeyPair H2 KP_EC (tokenly [mkA CKA_EC_PARAMS (AV ([6; 8] ++ p256)%N)]) (tokenly [mkA CKA_SIGN TRUE]) (Some (GEc 5 [4; 1; 2]%N)).
(** A restart without a login; a restart with a login and a logout. *)
Definition reopened : list op := [OFinalize; OInitialize; OOpenSession 1 RW].
Definition out_again : list op := [OFindObjectsInit H2 []; OLogout H2].
Definition later : list (list op) := [[]; onwards; reopened; onwards ++ out_again].
Lemma both_endured c l : c = both_rsa \/ c = both_ec -> In l later -> endured tw nofiles (after (story c l)) c (after (story c [])) (OutH2 CKR_OK KT (KT + 1)) H2 KT upin.
Proof.
  intros T T2. set (n := numbered 1 (story c l)). set (k := List.length (prep c)).
  exists (firstn 8 n), H2, (Some 9%Z), (rnd 81), (firstn (k - 9) (skipn 9 n)), (rnd (10 * N.of_nat k + 1)), (skipn (S k) n), (after (prep c)), (firstn 8 (outs (story c l))), (firstn (k - 9) (skipn 9 (outs (story c l)))), (skipn (S k) (outs (story c l))).
  subst n k. split; [reflexivity|].
  split; [destruct T as [-> | ->], T2 as [<- | [<- | [<- | [<- | []]]]]; vm_compute; reflexivity|]. split; [destruct T as [-> | ->], T2 as [<- | [<- | [<- | [<- | []]]]]; vm_compute; reflexivity|].
  split; [destruct T as [-> | ->], T2 as [<- | [<- | [<- | [<- | []]]]]; (match goal with |- context [combine ?a ?b] => let r := eval vm_compute in (combine a b) in change (combine a b) with r end;
    intros c o J; repeat (destruct J as [J|J]; [injection J as <- <-; cbn; auto|]); destruct J)|].
  split; [destruct T as [-> | ->]; vm_compute; reflexivity|]. split; [destruct T as [-> | ->]; reflexivity|]. split; [destruct T as [-> | ->]; vm_compute; reflexivity|].
  split; [left; reflexivity|]. split; [vm_compute; discriminate|]. split; [destruct T as [-> | ->], T2 as [<- | [<- | [<- | [<- | []]]]]; vm_compute; reflexivity|].
  split; [destruct T as [-> | ->], T2 as [<- | [<- | [<- | [<- | []]]]]; (match goal with |- context [combine ?a ?b] => let r := eval vm_compute in (combine a b) in change (combine a b) with r end;
    intros c o J; repeat (destruct J as [J|J]; [injection J as <- <-; split; [cbn; try exact I; try (split; discriminate); try (intros; try discriminate; reflexivity)|cbn; try exact I; discriminate]|]); destruct J)|].
  cbv zeta. match goal with |- PropArchive.tidy_run _ _ ?q /\ _ => assert (Q : q = numbered 1 (story c l)) by (destruct T as [-> | ->], T2 as [<- | [<- | [<- | [<- | []]]]]; reflexivity); rewrite Q; clear Q end.
  split; [apply PropArchive.tidy_runb_ok; destruct T as [-> | ->], T2 as [<- | [<- | [<- | [<- | []]]]]; vm_compute; reflexivity|]. split; [destruct T as [-> | ->], T2 as [<- | [<- | [<- | [<- | []]]]]; vm_compute; reflexivity|]. apply bool_calls.
  destruct T as [-> | ->], T2 as [<- | [<- | [<- | [<- | []]]]]; vm_compute; reflexivity.
Qed.
Definition pub_rsa2 : rsak := mkRsa 33 0 0 0 0 0 0 65537.
Definition pub_of (c : op) : Z * kdata := match c with OGenerateKeyPair _ KP_RSA _ _ _ => (CKK_RSA, KRsa pub_rsa2) | _ => (CKK_EC, KEc (mkEc (Some 7%Z) 1 0 [4; 1; 2]%N)) end.
Lemma public_at c : c = both_rsa \/ c = both_ec -> has_public (after (story c [])) H2 KT (fst (pub_of c)) (snd (pub_of c)).
Proof.
  intros T. exists (sx (story c []) H2). destruct (find_obj (after (story c [])) (sx (story c []) H2) KT) as [o|] eqn:F; [|exfalso; destruct T as [-> | ->]; vm_compute in F; discriminate F].
  exists o. split; [destruct T as [-> | ->]; vm_compute; reflexivity|]. split; [reflexivity|].
  destruct T as [-> | ->]; vm_compute in F; injection F as <-; repeat split.
Qed.
Lemma private_at : has_private (after (story both_rsa [])) H2 (KT + 1) CKK_RSA (KRsa rsa2).
Proof.
  exists (sx (story both_rsa []) H2). destruct (find_obj (after (story both_rsa [])) (sx (story both_rsa []) H2) (KT + 1)) as [o|] eqn:F; [|exfalso; vm_compute in F; discriminate F].
  exists o. split; [vm_compute; reflexivity|]. split; [reflexivity|]. vm_compute in F; injection F as <-; repeat split.
Qed.
Lemma private_endured : endured tw nofiles (after (story both_rsa [])) both_rsa (after (story both_rsa [])) (OutH2 CKR_OK KT (KT + 1)) H2 (KT + 1) upin.
Proof.
  exists (firstn 8 (numbered 1 (story both_rsa []))), H2, (Some 9%Z), (rnd 81), (firstn 2 (skipn 9 (numbered 1 (story both_rsa [])))), (rnd 111), [], (after (prep both_rsa)), (firstn 8 (outs (story both_rsa []))), (firstn 2 (skipn 9 (outs (story both_rsa [])))), [].
  split; [reflexivity|]. split; [vm_compute; reflexivity|]. split; [vm_compute; reflexivity|].
  split; [match goal with |- context [combine ?a ?b] => let r := eval vm_compute in (combine a b) in change (combine a b) with r end; intros c o J; repeat (destruct J as [J|J]; [injection J as <- <-; cbn; auto|]); destruct J|].
  split; [vm_compute; reflexivity|]. split; [reflexivity|]. split; [vm_compute; reflexivity|]. split; [right; left; reflexivity|]. split; [vm_compute; discriminate|]. split; [reflexivity|]. split; [intros c o []|].
  cbv zeta. match goal with |- PropArchive.tidy_run _ _ ?q /\ _ => assert (Q : q = numbered 1 (story both_rsa [])) by reflexivity; rewrite Q; clear Q end.
  split; [apply PropArchive.tidy_runb_ok; vm_compute; reflexivity|]. split; [vm_compute; reflexivity|]. apply bool_calls. vm_compute. reflexivity.
Qed.
Lemma tw_public : rsa_der_public tw /\ ec_der_public tw.
Proof. split; [intros r r' En Ee|intros e e' Ec Ep]; cbn; [rewrite En, Ee; reflexivity|]. unfold ec_exp. rewrite Ec, Ep. reflexivity. Qed.
Lemma tw_matches r : rsa_matches tw r.
Proof.
  intros r' En Ee rs data sig E. cbn in E. unfold toy_pk in E. destruct (_ <=? _)%Z; [|discriminate E]. injection E as <-. cbn. f_equal.
  generalize (map (fun x => N.lxor x 7) data). induction l as [|x l IH]; [reflexivity|]. cbn. rewrite N.eqb_refl. exact IH.
Qed.
Lemma spared_by w s h ini hk l cs outs :
  match run w s (numb (OCrypto h ini hk :: l)) with Ok (_, r :: os) => mine h (numb l) os = combine cs outs | _ => False end ->
  (forall c rn, In (c, rn) (numb l) -> goes_on h c) -> (forall c, In c l -> spared hk c) -> List.length cs = List.length outs -> amid_spared w s h ini hk cs outs.
Proof.
  intros M F Sp Le. change (numb (OCrypto h ini hk :: l)) with ((OCrypto h ini hk, rnd 0) :: numb l) in M.
  destruct (run w s ((OCrypto h ini hk, rnd 0) :: numb l)) as [[s' [|r os]]| |] eqn:R; try contradiction. exists (rnd 0), (numb l), s', r, os. split; [exact R|]. split; [|auto].
  intros c rn J. split; [exact (F c rn J)|]. apply in_map_iff in J as (c0 & E & J). injection E as <- _. exact (Sp c0 J).
Qed.
Definition vfy1 : list op := [OCreateObject H2 tok_aes; OCrypto H2 (KVerify [9; 8]%N [14; 15]%N) 0].
Example C130_case : laws tse /\ rsa_der_public tw /\ ec_der_public tw /\ rsa_matches tw rsa2 /\
  (forall c, c = both_rsa \/ c = both_ec -> has_public (after (story c [])) H2 KT (fst (pub_of c)) (snd (pub_of c)) /\
    forall l, l = [] \/ l = onwards -> endured tw nofiles (after (story c l)) c (after (story c [])) (OutH2 CKR_OK KT (KT + 1)) H2 KT upin /\ t_login (s_tok (after (story c l))) = RW_USER /\
      sess_get (after (story c l)) H2 = Some (sx (story c l) H2)) /\
  endured tw nofiles (after (story both_rsa [])) both_rsa (after (story both_rsa [])) (OutH2 CKR_OK KT (KT + 1)) H2 (KT + 1) upin /\ has_private (after (story both_rsa [])) H2 (KT + 1) CKK_RSA (KRsa rsa2) /\
  e_pk_sign (w_ev tw) M_RSA_PKCS (rsa_key tw rsa2) PKnone [] [9; 8]%N = Ok [14; 15]%N /\
  amid_spared tw (after (story both_rsa [])) H2 (KSignInit M_RSA_PKCS MPnull 0) (KT + 1) [KSign [] [9; 8]%N (Buf 300)] [mkOut CKR_OK 2 [14; 15]%N] /\
  amid_spared tw (after (story both_rsa onwards)) H2 (KVerifyInit M_RSA_PKCS MPnull 0) KT [KVerify [9; 8]%N [14; 15]%N] [fail Query CKR_OK].
Proof.
  split; [exact toy_laws|]. split; [apply tw_public|]. split; [apply tw_public|]. split; [apply tw_matches|]. split.
  { intros c T. split; [apply public_at; exact T|]. intros l T2. split; [apply both_endured; [exact T|destruct T2 as [-> | ->]; cbn; auto]|]. destruct T as [-> | ->], T2 as [-> | ->]; split; vm_compute; reflexivity. }
  split; [exact private_endured|]. split; [exact private_at|]. split; [vm_compute; reflexivity|]. split.
  - apply spared_by with (l := sgn1); [vm_compute; reflexivity|apply goes_by; vm_compute; reflexivity|intros c [<-|[<-|[]]]; exact I|reflexivity].
  - apply spared_by with (l := vfy1); [vm_compute; reflexivity|apply goes_by; vm_compute; reflexivity|intros c [<-|[<-|[]]]; exact I|reflexivity].
Qed.

Lemma some_eq A (a b : A) : Some a = Some b -> a = b.
Proof. intros E. injection E as E. exact E. Qed.
(** After a restart the public key is found, but until somebody logs in its modulus is empty. *)
Definition modulus (l : list op) : list out := skipn (List.length (story both_rsa l)) (outs (story both_rsa (l ++ [OGetAttributeValue H2 KT [mkA CKA_MODULUS (AV [0; 0; 0; 0]%N)]]))).
Theorem C131_refuted : (laws tse /\ rsa_der_public tw) /\ ~ C131_claim tw /\
  modulus [] = [OutT CKR_OK [mkA CKA_MODULUS (AV [33%N])]] /\ modulus reopened = [OutT CKR_OK [mkA CKA_MODULUS (AV [])]] /\ modulus (onwards ++ out_again) = [OutT CKR_OK [mkA CKA_MODULUS (AV [33%N])]].
Proof.
  split; [split; [exact toy_laws|apply tw_public]|]. split; [|split; [vm_compute; reflexivity|split; vm_compute; reflexivity]]. intros Cl.
  destruct (Cl nofiles (after (story both_rsa reopened)) both_rsa (after (story both_rsa [])) (OutH2 CKR_OK KT (KT + 1)) H2 KT pub_rsa2 upin H2 (sx (story both_rsa reopened) H2)) as (r' & _ & _ & x & o & G & F & _ & _ & Dq);
    [apply both_endured; [left; reflexivity|right; right; left; reflexivity]|exact (public_at both_rsa (or_introl eq_refl))|vm_compute; reflexivity|].
  assert (G2 : sess_get (after (story both_rsa reopened)) H2 = Some (sx (story both_rsa reopened) H2)) by (vm_compute; reflexivity). rewrite G2 in G. apply some_eq in G. subst x. clear G2.
  assert (F2 : match find_obj (after (story both_rsa reopened)) (sx (story both_rsa reopened) H2) KT with Some o => o_data o | None => KZero end = KZero) by (vm_compute; reflexivity). rewrite F, Dq in F2. discriminate F2.
Qed.
Print Assumptions C131_refuted.
Example C131_case : forall c, c = both_rsa \/ c = both_ec -> endured tw nofiles (after (story c onwards)) c (after (story c [])) (OutH2 CKR_OK KT (KT + 1)) H2 KT upin /\ t_login (s_tok (after (story c onwards))) = RW_USER /\
  stays tw KT upin (after (story c onwards)) (after (story c (onwards ++ out_again))) /\ endured tw nofiles (after (story c (onwards ++ out_again))) c (after (story c [])) (OutH2 CKR_OK KT (KT + 1)) H2 KT upin /\
  sess_get (after (story c (onwards ++ out_again))) H2 = Some (sx (story c (onwards ++ out_again)) H2) /\ t_login (s_tok (after (story c (onwards ++ out_again)))) <> RW_USER.
Proof.
  intros c T. split; [apply both_endured; cbn; auto|]. split; [destruct T as [-> | ->]; vm_compute; reflexivity|]. split.
  - exists (skipn (List.length (story c onwards)) (numbered 1 (story c (onwards ++ out_again)))), (skipn (List.length (story c onwards)) (outs (story c (onwards ++ out_again)))).
    split; [destruct T as [-> | ->]; vm_compute; reflexivity|]. split; [apply PropArchive.tidy_runb_ok; destruct T as [-> | ->]; vm_compute; reflexivity|].
    destruct T as [-> | ->]; (match goal with |- context [combine ?a ?b] => let r := eval vm_compute in (combine a b) in change (combine a b) with r end;
      intros c o J; repeat (destruct J as [J|J]; [injection J as <- <-; cbn; auto|]); destruct J).
  - split; [apply both_endured; cbn; auto|]. destruct T as [-> | ->]; (split; [vm_compute; reflexivity|vm_compute; discriminate]).
Qed.
