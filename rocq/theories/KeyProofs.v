(** Keys survive protection, storage and loading. *)
From Verif Require Import Base Codec CodecProofs Ops Object Store StoreSpec StoreProofs Sys SysProofs SysProofs2 SysProofs3 SysProofs4 LoginProofs WfProofs.

Lemma overlay_firstn b d : firstn (length d) (overlay b d) = d.
Proof. unfold overlay. rewrite firstn_app, Nat.sub_diag, firstn_all. cbn. apply app_nil_r. Qed.
Section K.
Variable se : senv.
Variable L : laws se.
Lemma dh_law' p g : dh_der_ok se p g -> se_dh_dec se (snd (se_dh_der se p g)) = (0%Z, (p, g)).
Proof. intros [A _]. apply (l_dh _ L). exact A. Qed.

(** The object with its key data encoded under [key], kept as [d] in memory. *)
Lemma enc_live key o : live_key se o -> exists kd,
  EncodeKey se key o = Ok (0%Z, set_store o (o_iv o) (Some kd) (o_enc o)) /\ (zlen kd < 2^31)%Z /\ is_cert o = false /\ key_kind o <> None /\
  (o_type o = CKK_DH -> exists p g l b, as_dh o = Ok (p, g, l, b) /\ dh_der_ok se p g) /\
  (* whatever the object holds when it is decoded *)
  forall o1, o_type o1 = o_type o -> o_class o1 = o_class o -> o_iv o1 = o_iv o -> o_keyData o1 = Some kd ->
    (if (o_type o =? CKK_RSA)%Z then exists r, as_rsa o1 = Ok r
     else if (o_type o =? CKK_EC)%Z then exists e, as_ec o1 = Ok e
     else if (o_type o =? CKK_DH)%Z then exists p g l b b', as_dh o1 = Ok (p, g, l, b) /\ as_dh o = Ok (p, g, fst b', snd b')
     else exists x, as_sym o1 = Ok x) ->
    exists o2, Decode se key o1 = Ok (0%Z, o2) /\ same_key o o2 /\ o_enc o2 = false.
Proof.
  intros [C K]. assert (NC : is_cert o = false) by (unfold is_cert; apply Z.eqb_neq; exact C).
  unfold EncodeKey, key_kind, Decode, DecodeKey, same_key. rewrite NC.
  destruct (o_type o =? CKK_RSA)%Z eqn:TR.
  - destruct K as (r & -> & K). cbn [bind]. unfold enc_asym. change (o_class o =? CKO_PRIVATE_KEY)%Z with (is_priv o) in K. destruct (is_priv o) eqn:P.
    + destruct K as [K1 K2]. destruct (se_rsa_priv se r) as [c der] eqn:E. cbn [fst snd] in *. destruct (c <? 0)%Z eqn:Cn; [lia|].
      eexists. split; [reflexivity|]. split; [rewrite (l_tag _ L); lia|]. split; [reflexivity|]. split; [discriminate|].
      split; [intros T; rewrite T in TR; discriminate|]. intros o1 T1 C1 I1 D1 (r1 & R1).
      unfold is_cert, is_priv in *. rewrite T1, C1, NC, TR, R1. cbn [bind]. rewrite P. unfold dec_kd, kd_bytes. rewrite D1, I1.
      destruct (_ <? 16)%Z eqn:B; [rewrite (l_tag _ L) in B; unfold zlen in B; lia|]. rewrite (l_gcm _ L). change (negb (0 =? 0)%Z) with false. cbv iota.
      pose proof (l_rsa_priv _ L r) as X. rewrite E in X. cbn [fst snd] in X. rewrite X by lia. eexists. split; [reflexivity|]. split; [|reflexivity].
      cbn. split; [assumption|]. split; [assumption|]. exists r, r. auto.
    + destruct K as (KC & K1 & K2). destruct (se_rsa_pub se r) as [c der] eqn:E. cbn [fst snd] in *. destruct (c <? 0)%Z eqn:Cn; [lia|]. rewrite KC. change (CKO_PUBLIC_KEY =? CKO_PUBLIC_KEY)%Z with true. cbv iota.
      eexists. split; [reflexivity|]. split; [lia|]. split; [reflexivity|]. split; [discriminate|].
      split; [intros T; rewrite T in TR; discriminate|]. intros o1 T1 C1 I1 D1 (r1 & R1).
      unfold is_cert, is_priv in *. rewrite T1, C1, TR, R1. cbn [bind]. change (CKO_PUBLIC_KEY =? CKO_CERTIFICATE)%Z with false. change (CKO_PUBLIC_KEY =? CKO_PRIVATE_KEY)%Z with false. cbv iota.
      unfold kd_bytes. rewrite D1. destruct (l_rsa_pub _ L r r1) as (r' & X & Y); [rewrite E; exact K1|]. rewrite E in X. cbn [snd] in X. rewrite X.
      eexists. split; [reflexivity|]. split; [|reflexivity]. cbn. split; [assumption|]. split; [rewrite C1; reflexivity|]. exists r, r'. intuition. discriminate.
  - destruct (o_type o =? CKK_EC)%Z eqn:TE.
    + destruct K as (r & -> & K). cbn [bind]. unfold enc_asym. change (o_class o =? CKO_PRIVATE_KEY)%Z with (is_priv o) in K. destruct (is_priv o) eqn:P.
      * destruct K as [K1 K2]. destruct (se_ec_priv se r) as [c der] eqn:E. cbn [fst snd] in *. destruct (c <? 0)%Z eqn:Cn; [lia|].
        eexists. split; [reflexivity|]. split; [rewrite (l_tag _ L); lia|]. split; [reflexivity|]. split; [discriminate|].
        split; [intros T; rewrite T in TE; discriminate|]. intros o1 T1 C1 I1 D1 (r1 & R1).
        unfold is_cert, is_priv in *. rewrite T1, C1, NC, TR, TE, R1. cbn [bind]. rewrite P. unfold dec_kd, kd_bytes. rewrite D1, I1.
        destruct (_ <? 16)%Z eqn:B; [rewrite (l_tag _ L) in B; unfold zlen in B; lia|]. rewrite (l_gcm _ L). change (negb (0 =? 0)%Z) with false. cbv iota.
        destruct (l_ec_priv _ L r) as (e' & X & Y & Z); [rewrite E; exact K1|]. rewrite E in X. cbn [snd] in X. rewrite X. eexists. split; [reflexivity|]. split; [|reflexivity].
        cbn. split; [assumption|]. split; [assumption|]. exists r, e'. repeat split; auto. intros Q. unfold is_priv in P. apply Z.eqb_eq in P. contradiction.
      * destruct K as (KC & K1 & K2). destruct (se_ec_pub se r) as [c der] eqn:E. cbn [fst snd] in *. destruct (c <? 0)%Z eqn:Cn; [lia|]. rewrite KC. change (CKO_PUBLIC_KEY =? CKO_PUBLIC_KEY)%Z with true. cbv iota.
        eexists. split; [reflexivity|]. split; [lia|]. split; [reflexivity|]. split; [discriminate|].
        split; [intros T; rewrite T in TE; discriminate|]. intros o1 T1 C1 I1 D1 (r1 & R1).
        unfold is_cert, is_priv in *. rewrite T1, C1, TR, TE, R1. cbn [bind]. change (CKO_PUBLIC_KEY =? CKO_CERTIFICATE)%Z with false. change (CKO_PUBLIC_KEY =? CKO_PRIVATE_KEY)%Z with false. cbv iota.
        unfold kd_bytes. rewrite D1. destruct (l_ec_pub _ L r r1) as (r' & X & Y & Z); [rewrite E; exact K1|]. rewrite E in X. cbn [snd] in X. rewrite X.
        eexists. split; [reflexivity|]. split; [|reflexivity]. cbn. split; [assumption|]. split; [rewrite C1; reflexivity|]. exists r, r'. repeat split; auto. discriminate.
    + destruct (o_type o =? CKK_DH)%Z eqn:TD.
      * destruct K as (p & g & l & b & E & Bl & Bb & De1 & De2). rewrite E. cbn [bind]. unfold take_buf.
        assert (Zb := zlen_of _ _ _ Bb). change (Z.of_nat 512) with 512%Z in Zb.
        change (Z.of_nat SYM_BUF) with 512%Z. destruct (l <? 0)%Z eqn:L1; [lia|]. destruct (512 <? l)%Z eqn:L0; [lia|]. destruct (zlen b <? l)%Z eqn:L2; [lia|]. cbn [orb bind].
        assert (F : zlen (firstn (Z.to_nat l) b) = l) by (unfold zlen in *; rewrite firstn_length; lia).
        set (d := firstn (Z.to_nat l) b) in *.
        eexists. split; [reflexivity|]. split; [destruct (is_priv o); [rewrite (l_tag _ L)|]; rewrite F; lia|]. split; [reflexivity|]. split; [destruct (is_priv o); discriminate|].
        split; [intros _; exists p, g, l, b; split; [reflexivity|split; [assumption|lia]]|]. intros o1 T1 C1 I1 D1 (p1 & g1 & l1 & b1 & b' & R1 & R2). injection R2 as <- <- _ _.
        assert (FE : Z.to_nat l = length d) by (unfold zlen in F; lia).
        unfold is_cert, is_priv in *. rewrite T1, C1, NC, TR, TE, TD, R1. cbn [bind]. destruct (o_class o =? CKO_PRIVATE_KEY)%Z.
        -- unfold dec_into, dec_kd, kd_bytes. rewrite D1, I1. rewrite (l_tag _ L), F. destruct (l + 16 <? 16)%Z eqn:B1; [lia|].
           destruct (Z.of_nat SYM_BUF <? _)%Z eqn:B2; [exfalso; clear - B2 Bl; change (Z.of_nat SYM_BUF) with 512%Z in B2; lia|]. rewrite (l_gcm _ L). cbn [bind]. 
           eexists. split; [reflexivity|]. split; [|reflexivity]. cbn. split; [assumption|]. split; [assumption|].
           exists p, g, l, b, (overlay b1 d). split; [reflexivity|]. rewrite F. split; [reflexivity|]. fold d. rewrite FE. apply overlay_firstn.
        -- unfold kd_bytes. rewrite D1, F. destruct (Z.of_nat DH_BUF <? _)%Z eqn:B2; [exfalso; clear - B2 Bl; change (Z.of_nat DH_BUF) with 512%Z in B2; lia|].
           eexists. split; [reflexivity|]. split; [|reflexivity]. cbn. split; [assumption|]. split; [assumption|].
           exists p, g, l, b, (overlay b1 d). split; [reflexivity|]. split; [reflexivity|]. fold d. rewrite FE. apply overlay_firstn.
      * destruct K as (S & l & b & E & Bl & Bb).
        assert (SY : is_sym o = true) by (unfold is_sym; destruct S as [-> | ->]; reflexivity). rewrite SY, E. cbn [bind]. unfold take_buf.
        assert (Zb := zlen_of _ _ _ Bb). change (Z.of_nat 512) with 512%Z in Zb.
        change (Z.of_nat SYM_BUF) with 512%Z. destruct (l <? 0)%Z eqn:L1; [lia|]. destruct (512 <? l)%Z eqn:L0; [lia|]. destruct (zlen b <? l)%Z eqn:L2; [lia|]. cbn [orb bind].
        assert (F : zlen (firstn (Z.to_nat l) b) = l) by (unfold zlen in *; rewrite firstn_length; lia).
        set (d := firstn (Z.to_nat l) b) in *.
        eexists. split; [reflexivity|]. split; [rewrite (l_tag _ L); rewrite F; lia|]. split; [reflexivity|]. split; [discriminate|].
        split; [intros T; rewrite T in TD; discriminate|]. intros o1 T1 C1 I1 D1 ((l1 & b1) & R1).
        assert (FE : Z.to_nat l = length d) by (unfold zlen in F; lia).
        unfold is_cert, is_priv, is_sym in *. rewrite T1, C1, NC, TR, TE, TD, SY, R1. cbn [bind].
        unfold dec_into, dec_kd, kd_bytes. rewrite D1, I1. rewrite (l_tag _ L), F. destruct (l + 16 <? 16)%Z eqn:B1; [lia|].
        destruct (Z.of_nat SYM_BUF <? _)%Z eqn:B2; [exfalso; clear - B2 Bl; change (Z.of_nat SYM_BUF) with 512%Z in B2; lia|]. rewrite (l_gcm _ L). cbn [bind]. 
        eexists. split; [reflexivity|]. split; [|reflexivity]. cbn. split; [assumption|]. split; [assumption|].
        exists l, b, (overlay b1 d). split; [reflexivity|]. rewrite F. split; [reflexivity|]. fold d. rewrite FE. apply overlay_firstn.
Qed.

Lemma view_ident o o' : ident o' = ident o -> obj_view o' = obj_view o.
Proof. intros E. change (obj_view (ident o') = obj_view (ident o)). rewrite E. reflexivity. Qed.
Lemma ident_fields o o' : ident o' = ident o -> o_type o' = o_type o /\ o_class o' = o_class o /\ o_iv o' = o_iv o.
Proof.
  intros E. split; [change (o_type (ident o') = o_type (ident o))|split; [change (o_class (ident o') = o_class (ident o))|change (o_iv (ident o') = o_iv (ident o))]]; rewrite E; reflexivity.
Qed.
(** [o1]: the key [o] after logout; it comes back from memory and from a file. *)
Definition kept (key : list N) (o o1 : obj) : Prop :=
  ident o1 = ident o /\ storable se o1 /\
  (exists o2, Decode se key o1 = Ok (0%Z, o2) /\ same_key o o2 /\ o_enc o2 = false) /\
  forall uid, exists o2, Decode se key (reloaded uid o1) = Ok (0%Z, o2) /\ same_key o o2 /\ o_enc o2 = false.
Lemma same_dh p g l b o o1 : as_dh o = Ok (p, g, l, b) -> o_data o1 = (match o_data o with KDh p g l b => KDh p g l (overlay b (zeros (Z.to_nat l))) | x => x end) \/ o_data o1 = o_data o ->
  exists b1, as_dh o1 = Ok (p, g, l, b1).
Proof. unfold as_dh. intros E [-> | ->]; [|eauto]. destruct (o_data o); try discriminate; injection E; intros; subst; eauto. Qed.
Lemma encode_live (w : world) key o : w_se w = se -> live_key se o -> exists o1, Encode se key true o = Ok (0%Z, o1) /\ kept key o o1.
Proof.
  intros W K. destruct (enc_live key o K) as (kd & E & B & NC & KK & D & R).
  unfold Encode. rewrite NC, E. cbn [bind]. change (andb true (0 =? 0)%Z) with true. cbv iota. eexists. split; [reflexivity|].
  set (o0 := set_store o (o_iv o) (Some kd) (o_enc o)). set (o1 := protect_key o0).
  assert (I : ident o1 = ident o).
  { unfold o1, protect_key. repeat match goal with |- context [if ?b then _ else _] => destruct b end; reflexivity. }
  destruct (ident_fields _ _ I) as (T1 & C1 & V1).
  assert (D1 : o_keyData o1 = Some kd).
  { unfold o1, protect_key. repeat match goal with |- context [if ?b then _ else _] => destruct b end; reflexivity. }
  assert (N1 : is_cert o1 = false) by (unfold is_cert in *; rewrite C1; exact NC).
  assert (KD : key_kind o1 = key_kind o) by (unfold key_kind, is_cert, is_priv, is_sym in *; rewrite C1, T1; reflexivity).
  destruct K as [_ K].
  assert (A : if (o_type o =? CKK_RSA)%Z then exists r, as_rsa o1 = Ok r
     else if (o_type o =? CKK_EC)%Z then exists e, as_ec o1 = Ok e
     else if (o_type o =? CKK_DH)%Z then exists p g l b b', as_dh o1 = Ok (p, g, l, b) /\ as_dh o = Ok (p, g, fst b', snd b')
     else exists x, as_sym o1 = Ok x).
  { unfold o1, protect_key. change (o_type o0) with (o_type o). change (is_priv o0) with (is_priv o). change (is_sym o0) with (is_sym o).
    destruct (o_type o =? CKK_RSA)%Z.
    { destruct K as (r & K & _). destruct (is_priv o); [exists rsa0; reflexivity|exists r; exact K]. }
    destruct (o_type o =? CKK_EC)%Z.
    { destruct K as (r & K & _). destruct (is_priv o); [exists ec0; reflexivity|exists r; exact K]. }
    destruct (o_type o =? CKK_DH)%Z.
    { destruct K as (p & g & l & b & K & _). 
      match goal with |- context [as_dh ?q] => destruct (same_dh p g l b o q K) as (b1 & Q) end; [destruct (is_priv o); cbn; auto|].
      exists p, g, l, b1, (l, b). auto. }
    destruct K as (_ & l & b & K & _). destruct (is_sym o); [|exists (l, b); exact K]. unfold as_sym in *. cbn. destruct (o_data o); try discriminate; eauto. }
  assert (S1 : storable se o1).
  { unfold storable. rewrite N1, KD, D1. split; [exact KK|]. split; [eauto|]. rewrite T1. intros T. rewrite T in A. destruct (D T) as (p & g & l & b & Q & Q2).
    change (CKK_DH =? CKK_RSA)%Z with false in A. change (CKK_DH =? CKK_EC)%Z with false in A. change (CKK_DH =? CKK_DH)%Z with true in A. cbv iota in A.
    destruct A as (p1 & g1 & l1 & b1 & b' & A1 & A2). rewrite Q in A2. injection A2; intros; subst. eauto 6. }
  split; [exact I|]. split; [exact S1|]. split.
  { apply R; auto. }
  intros uid. apply R.
  - unfold reloaded. rewrite N1, T1. destruct (_ =? CKK_DH)%Z; [|exact T1]. destruct (as_dh o1) as [[[[? ?] ?] ?]| |]; exact T1.
  - unfold reloaded. rewrite N1, T1. destruct (_ =? CKK_DH)%Z; [|exact C1]. destruct (as_dh o1) as [[[[? ?] ?] ?]| |]; exact C1.
  - unfold reloaded. rewrite N1, T1. destruct (_ =? CKK_DH)%Z; [|exact V1]. destruct (as_dh o1) as [[[[? ?] ?] ?]| |]; exact V1.
  - unfold reloaded, kd_bytes. rewrite N1, T1, D1. destruct (_ =? CKK_DH)%Z; [|reflexivity]. destruct (as_dh o1) as [[[[? ?] ?] ?]| |]; reflexivity.
  - unfold reloaded. rewrite N1, T1. destruct (o_type o =? CKK_RSA)%Z eqn:TR.
    { apply Z.eqb_eq in TR. rewrite TR. exists rsa0. reflexivity. }
    destruct (o_type o =? CKK_EC)%Z eqn:TE.
    { apply Z.eqb_eq in TE. rewrite TE. exists ec0. reflexivity. }
    destruct (o_type o =? CKK_DH)%Z eqn:TD.
    { destruct A as (p1 & g1 & l1 & b1 & b' & A1 & A2). rewrite A1. exists p1, g1, 0%Z, (zeros DH_BUF), b'. split; [reflexivity|exact A2]. }
    eexists. reflexivity.
Qed.
End K.

Section R.
Variable w : world.
Let se := w_se w.
Hypothesis L : laws se.
Lemma encode_all_live key l : Forall (live_key se) l -> exists l', encode_all w key l = Ok l' /\ Forall2 (kept se key) l l'.
Proof.
  induction 1 as [|o l K F (l' & E & R)]; cbn [encode_all]; [eexists; split; [reflexivity|constructor]|].
  destruct (encode_live se L w key o eq_refl K) as (o1 & E1 & K1). fold se. rewrite E1. cbn [bind]. change (negb (0 =? 0)%Z) with false. cbv iota.
  rewrite E. cbn [bind]. eexists. split; [reflexivity|]. constructor; assumption.
Qed.
Definition back (o o2 : obj) : Prop := obj_view o2 = obj_view o /\ same_key o o2 /\ o_enc o2 = false.
Lemma decode_ident' key o c o' : Decode se key o = Ok (c, o') -> ident o' = ident o.
Proof. intros H. apply Decode_ident in H. apply H. Qed.
Lemma blank_view uid o : obj_view (reloaded uid o) = obj_view o.
Proof.
  assert (B : obj_view (blank uid o) = obj_view o) by (unfold obj_view, blank; cbn; destruct (o_keyId o), (o_label o); reflexivity).
  unfold reloaded. destruct (is_cert o); [exact B|]. destruct (_ =? _)%Z; [|exact B]. destruct (as_dh o) as [[[[? ?] ?] ?]| |]; exact B.
Qed.
Lemma decode_all_kept key l l' : Forall2 (kept se key) l l' -> exists l2, decode_all w key l' = Ok (0%Z, l2) /\ Forall2 back l l2.
Proof.
  induction 1 as [|o o1 l l' (I & S & (o2 & D & SK & EN) & _) F (l2 & E & R)]; cbn [decode_all]; [eexists; split; [reflexivity|constructor]|].
  fold se. rewrite D. cbn [bind]. change (negb (0 =? 0)%Z) with false. cbv iota. rewrite E. cbn [bind]. eexists. split; [reflexivity|]. constructor; [|assumption].
  split; [|split; assumption]. apply decode_ident' in D. apply view_ident. congruence.
Qed.
Lemma decode_all_reloaded key l l' : Forall2 (kept se key) l l' -> forall uid, exists l2, decode_all w key (reload_objs uid l') = Ok (0%Z, l2) /\ Forall2 back l l2.
Proof.
  induction 1 as [|o o1 l l' (I & S & _ & D) F IH]; intros uid; cbn [reload_objs decode_all]; [eexists; split; [reflexivity|constructor]|].
  destruct (D uid) as (o2 & D' & SK & EN). destruct (IH (Datatypes.S uid)) as (l2 & E & R).
  fold se. rewrite D'. cbn [bind]. change (negb (0 =? 0)%Z) with false. cbv iota. rewrite E. cbn [bind]. eexists. split; [reflexivity|]. constructor; [|assumption].
  split; [|split; assumption]. apply decode_ident' in D'. transitivity (obj_view (reloaded uid o1)); [apply view_ident; exact D'|]. rewrite blank_view. apply view_ident; exact I.
Qed.

(** The user is logged in; [p] is the PIN. *)
Definition opened (p : list N) (t : token) : Prop :=
  t_login t = RW_USER /\ right w t User p /\ p_fail (t_user t) = 0%Z /\ t_key t = se_hash se p (t_seed t) /\ pin_len_ok p = true.

(** Logging in to a token whose objects can all be decoded. *)
Lemma login_back p t n l l2 : logged_in (t_login t) = false -> right w t User p -> p_fail (t_user t) = 0%Z ->
  decode_all w (se_hash se p (t_seed t)) (t_objs t) = Ok (0%Z, l2) -> Forall2 back l l2 ->
  exists t', UserLogin w t p (Some n) = Ok (0%Z, t') /\ Forall2 back l (t_objs t') /\ t_login t' = RW_USER.
Proof.
  intros LI Rt F D B. unfold UserLogin. rewrite LI. unfold lock_check. rewrite F. change (0 =? MAX_FAILS)%Z with false. cbv iota zeta.
  apply right_check in Rt. cbn [pin_of] in Rt.
  assert (C : CheckPin w (set_user t (t_user t)) (t_user t) p = 0%Z) by (rewrite <- Rt; destruct t; reflexivity). rewrite C.
  change (0 =? PIN_INVALID_E)%Z with false. change (0 =? 0)%Z with true. cbv iota. cbn [set_key set_user t_key t_objs]. fold se. rewrite D. cbn [bind]. change (0 =? 0)%Z with true. cbv iota.
  eexists. split; [reflexivity|]. split; [exact B|reflexivity].
Qed.
Lemma logout_kept p t t' : opened p t -> Forall (live_key se) (t_objs t) -> Logout w t = Ok t' ->
  exists l', t' = set_login (set_objs t l') RW_PUBLIC /\ Forall2 (kept se (se_hash se p (t_seed t))) (t_objs t) l'.
Proof.
  intros (O1 & O2 & O3 & O4 & O5) F H. unfold Logout in H. rewrite O1 in H. change (orb (RW_USER =? RO_USER)%Z (RW_USER =? RW_USER)%Z) with true in H. cbv iota in H.
  destruct (encode_all_live (t_key t) _ F) as (l' & E & K). rewrite E in H. cbn [bind] in H. injection H as <-. rewrite O4 in K. eauto.
Qed.
Lemma wf_of t l' : ginv t -> fits t -> map ident l' = map ident (t_objs t) -> wf_tok (set_login (set_objs t l') RW_PUBLIC).
Proof.
  intros G (F1 & F2 & F3) I. assert (G' : ginv (set_objs t l')) by (apply (ginv_idents t); auto).
  destruct G' as (G1 & G2 & G3 & G4 & G5 & G6). unfold wf_tok. cbn in *. split; [assumption|].
  assert (P : forall p, pinv p -> StoreSpec.fits_pin p -> wf_pin p) by (intros q (A1 & A2 & A3) (B1 & B2 & B3); repeat split; try assumption; lia).
  split; [auto|]. split; [auto|]. split; [assumption|]. split; [assumption|].
  assert (F4 : Forall (fun o => fits_val (o_keyId o) /\ fits_val (o_label o)) l').
  { clear - F3 I. revert l' I. induction F3 as [|o l H F IH]; intros [|o' l'] I; try discriminate; constructor;
      pose proof (f_equal (fun q => hd (ident o) q) I) as E1; pose proof (f_equal (@tl _) I) as E2; cbn [map hd tl] in E1, E2; [|auto].
    change (fits_val (o_keyId (ident o')) /\ fits_val (o_label (ident o'))). rewrite E1. exact H. }
  rewrite Forall_forall in *. intros o Ho. specialize (G6 o Ho). specialize (F4 o Ho). destruct F4 as [V1 V2].
  unfold oinv, u64r, u32r in G6. unfold wf_obj. destruct G6 as (A1 & A2 & A3 & A4 & A5 & A6 & A7 & A8 & A9).
  assert (S : forall v, fits_val v -> wf_sval v) by (intros [b|z]; exact (fun x => x)).
  split; [assumption|]. split; [assumption|]. split; [assumption|]. split; [assumption|]. split; [assumption|]. split; [assumption|]. split; [assumption|].
  split; [assumption|]. split; [assumption|]. auto.
Qed.
Lemma kept_storable key l l' : Forall2 (kept se key) l l' -> Forall (storable se) l' /\ map ident l' = map ident l.
Proof. induction 1 as [|o o1 l l' (I & S & _) F [A B]]; [auto|]. split; [constructor; auto|cbn; f_equal; auto]. Qed.
Lemma norm_right p t uid : wf_tok t -> right w t User p -> right w (reload uid t) User p.
Proof.
  intros (_ & _ & (H1 & H2 & H3 & _) & _) (R1 & R2 & R3). unfold right in *. cbn [pin_of] in *. cbn [reload t_init t_user norm_pin p_len p_seed p_hash].
  split; [reflexivity|]. split; [assumption|]. rewrite R3. 
  set (h := firstn _ (p_hash (t_user t))). assert (E : Z.to_nat (p_len (t_user t)) = length h) by (unfold h; rewrite firstn_length; lia).
  rewrite E. symmetry. apply overlay_firstn.
Qed.
End R.
