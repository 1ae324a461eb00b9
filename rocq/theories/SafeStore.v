(** Careful use of objects has no undefined behaviour: copying, storing, loading. *)
From Verif Require Import Base Codec Ops Object Store StoreSpec Sys SafeSpec SafeOps SafeObj.
From Verif Require Import WfProofs.

(** ** Copying *)
Lemma le_to_le n : forall v, (0 <= v < 256 ^ Z.of_nat n)%Z -> le (to_le n v) = v.
Proof.
  induction n as [|n IH]; intros v H; [cbn in *; lia|]. cbn [to_le le]. rewrite IH.
  - rewrite Z2N.id by (apply Z.mod_pos_bound; lia). rewrite (Z.div_mod v 256) at 3 by lia. lia.
  - rewrite Nat2Z.inj_succ, Z.pow_succ_r in H by lia. split; [apply Z.div_pos; lia|]. apply Z.div_lt_upper_bound; lia.
Qed.
Lemma to_le_len n v : length (to_le n v) = n.
Proof. revert v. induction n; cbn; auto. Qed.
Lemma ulong_to_le v : u64r v -> ulong_of (to_le 8 v) = v.
Proof.
  intros H. unfold ulong_of. rewrite firstn_all2 by (rewrite to_le_len; auto). unfold u64r in H. rewrite le_to_le by exact H. unfold u64. apply Z.mod_small. exact H.
Qed.
Lemma put_data v d g b : (exists x, v = AV x) -> g = get_data d (buf_of v) -> fst (fst g) = 0%Z -> put v g = AV b -> (zlen d <> UNAVAILABLE)%Z -> b = d.
Proof.
  intros (x & ->) -> C P N. unfold get_data in *. cbn [buf_of v_len] in *. destruct (_ <? _)%Z; [discriminate C|]. cbn [put] in P. destruct (Z.eqb_spec (zlen d) UNAVAILABLE); [contradiction|].
  injection P as <-. unfold overlay. rewrite firstn_app. unfold zlen. rewrite Nat2Z.id, Nat.sub_diag, firstn_all. cbn. apply app_nil_r.
Qed.
Lemma check_given t : check_attrs true t = CKR_OK -> (forall a, In a t -> forall n, a_val a <> ANull n) -> given t.
Proof.
  induction t as [|x t IH]; intros C N a I; [contradiction|]. cbn [check_attrs] in C. destruct (Z.eqb_spec (check_attr true x) CKR_OK) as [E|E]; [|contradiction].
  destruct I as [<-|I]; [|apply (IH C); auto; intros y Y; apply N; right; exact Y].
  destruct x as [ty v]. cbn in *. destruct v as [b|n|b]; [eauto|exfalso; exact (N _ (or_introl eq_refl) n eq_refl)|].
  exfalso. unfold check_attr in E. cbn in E. destruct (kind_of ty) as [[]|]; cbn in E; discriminate.
Qed.

Section C.
Variable oe : oenv.
Hypothesis OK : oklaws oe.
Lemma copy_okt src t t' : osafe src -> is_cert src = false -> given t -> (o_type src = CKK_EC -> has t CKA_EC_POINT -> has t CKA_EC_PARAMS) ->
  map a_type t' = map a_type t ->
  (forall a', In a' t' -> exists a g, In a t /\ GetAttr oe src (a_type a) (buf_of (a_val a)) = Ok g /\ fst (fst g) = 0%Z /\ a' = mkA (a_type a) (put (a_val a) g)) ->
  check_attrs true t' = CKR_OK -> okt false (o_type src) t' /\ (forall b, In (mkA CKA_CLASS (AV b)) t' -> ulong_of b = o_class src).
Proof.
  intros S C G Pt M H Ck.
  assert (Gv : given t').
  { apply check_given; [exact Ck|]. intros a' I n E. destruct (H _ I) as (a & g & Ia & _ & _ & ->). destruct (G _ Ia) as (b & Eb). cbn in E. rewrite Eb in E.
    unfold put in E. destruct g as [[? [l|]] ?]; [destruct (_ =? _)%Z in E|]; discriminate. }
  assert (X : forall ty b, In (mkA ty (AV b)) t' -> exists v g, (exists x, v = AV x) /\ GetAttr oe src ty (buf_of v) = Ok g /\ fst (fst g) = 0%Z /\ put v g = AV b).
  { intros ty b I. destruct (H _ I) as ([ty0 v] & g & Ia & Eg & Cg & E). cbn in *. injection E as -> Ev. exists v, g. split; [apply (G _ Ia)|]. auto. }
  assert (Cl : forall b, In (mkA CKA_CLASS (AV b)) t' -> ulong_of b = o_class src).
  { intros b I. destruct (X _ _ I) as (v & g & V & Eg & Cg & P). cbn in Eg. injection Eg as <-.
    rewrite (put_data v (to_le 8 (o_class src)) _ b V eq_refl Cg P).
    - apply ulong_to_le, S.
    - unfold zlen. rewrite to_le_len. unfold UNAVAILABLE. lia. }
  split; [|exact Cl]. split.
  - exact Gv.
  - intros b I. rewrite (Cl b I). exact C.
  - intros _ T Hp. apply (has_types _ _ _ M) in Hp. apply Pt in Hp; [|exact T]. eapply has_types; [symmetry; exact M|exact Hp].
  - intros _ T b I. destruct (X _ _ I) as (v & g & V & Eg & Cg & P).
    assert (Es : exists l bb, as_sym src = Ok (l, bb) /\ bufok l bb /\ GetAttr oe src CKA_VALUE_LEN (buf_of v) = Ok (get_ulong l (buf_of v))).
    { pose proof (sym_view src C T S) as Sv. destruct (as_sym src) as [[l bb]| |] eqn:E; try contradiction.
      - exists l, bb. split; [reflexivity|]. split; [exact Sv|]. unfold GetAttr. cbn [get_flag_of].
        change (GetAttr oe src CKA_VALUE_LEN (buf_of v) = Ok (get_ulong l (buf_of v))). unfold GetAttr. cbn -[get_ulong as_sym SecretGetAttr].
        rewrite Bool.andb_false_r. apply sym_cases in T as [T|T]; rewrite T; cbn -[get_ulong as_sym SecretGetAttr]; unfold SecretGetAttr; rewrite E; reflexivity.
      - exfalso. unfold as_sym in E. destruct (o_data src); discriminate. }
    destruct Es as (l & bb & Es & B & Eg'). rewrite Eg in Eg'. injection Eg' as ->. rewrite (put_data v (to_le 8 l) _ b V eq_refl Cg P).
    + destruct B as [B _]. rewrite ulong_to_le; [lia|unfold u64r; lia].
    + unfold zlen. rewrite to_le_len. unfold UNAVAILABLE. lia.
  - intros _ T b I. destruct (X _ _ I) as (v & g & V & Eg & Cg & P).
    assert (Es : exists l bb, as_sym src = Ok (l, bb) /\ bufok l bb /\ GetAttr oe src CKA_VALUE (buf_of v) = if noPriv src then Ok g_unavail else get_buf l bb (buf_of v)).
    { pose proof (sym_view src C T S) as Sv. destruct (as_sym src) as [[l bb]| |] eqn:E; try contradiction.
      - exists l, bb. split; [reflexivity|]. split; [exact Sv|]. unfold GetAttr. cbn -[get_buf as_sym SecretGetAttr noPriv].
        fold (is_cert src). rewrite C. cbn -[get_buf as_sym SecretGetAttr noPriv].
        apply sym_cases in T as [T|T]; rewrite T; cbn -[get_buf as_sym SecretGetAttr noPriv]; unfold SecretGetAttr; rewrite E; reflexivity.
      - exfalso. unfold as_sym in E. destruct (o_data src); discriminate. }
    destruct Es as (l & bb & Es & B & Eg'). rewrite Eg in Eg'. destruct V as (x & ->). destruct (noPriv src).
    + injection Eg' as ->. cbn in P. discriminate.
    + cbn [buf_of v_len] in Eg'. unfold get_buf in Eg'. destruct (_ <? _)%Z; [injection Eg' as ->; discriminate Cg|]. destruct (_ <? _)%Z; [discriminate|]. injection Eg' as ->.
      cbn [put] in P. destruct (_ =? _)%Z; [discriminate|]. injection P as <-. destruct B as [B _]. unfold zlen. rewrite firstn_length. lia.
Qed.
Lemma CopyObject_safe rw u src t : osafe src -> is_cert src = false -> given t -> (forall a, In a t -> readable oe src a) ->
  (o_type src = CKK_EC -> has t CKA_EC_POINT -> has t CKA_EC_PARAMS) ->
  good (fun p => forall b o, snd p = Some (b, o) -> tmpl_token t = Some b /\ osafe o /\ o_uid o = u /\ o_type o = o_type src /\ is_cert o = false /\
     (has t CKA_CLASS -> o_class o = o_class src)) (CopyObject oe rw u src t).
Proof.
  intros S C G R Pt. unfold CopyObject. destruct (tmpl_token t) as [tok|]; [|cbn; discriminate].
  pose proof (GetAV_safe oe OK src t S R) as H. destruct (GetAttributeValue oe src t) as [[rv t']| |] eqn:E; cbn [bind]; try exact I; try contradiction.
  cbn [good fst snd] in H. destruct (Z.eqb_spec rv CKR_OK) as [Rv|Rv]; cbn [negb]; [|cbn; discriminate]. specialize (H Rv). apply getAV_types in E.
  pose proof (copy_okt src t t' S C G Pt E H) as K.
  assert (Sn : osafe (obj_new u (o_type src))).
  { apply (new_safe u (o_type src) 0); [lia|]. destruct (types src C S) as [T|[T|[T|T]]]; [rewrite T; exact I..|]. apply sym_cases in T as [->| ->]; exact I. }
  eapply good_bind; [apply (SetAV_safe oe OK rw _ t' Sn); intros Ck; apply (K Ck)|].
  intros [rv2 o]. cbn [fst snd good]. intros (S2 & (K1 & K2 & _) & Ci & _ & Hk) b o' E'. destruct (Z.eqb_spec rv2 CKR_OK) as [R2|R2]; [|discriminate]. injection E' as <- <-.
  destruct (Hk R2) as (Gt & _ & Hc). repeat split; try apply S2; auto. intros Hcl.
  assert (Hc' : has t' CKA_CLASS) by (eapply has_types; [symmetry; exact E|exact Hcl]).
  destruct (Hc Hc') as (b2 & I2 & ->). apply (K Gt). exact I2.
Qed.
End C.

(** ** Storing *)
Definition alike (o o' : obj) : Prop :=
  o_uid o' = o_uid o /\ o_type o' = o_type o /\ o_class o' = o_class o /\ o_onTok o' = o_onTok o /\ o_handle o' = o_handle o.
Lemma alike_refl o : alike o o.
Proof. unfold alike. auto. Qed.
Lemma alike_trans a b c : alike a b -> alike b c -> alike a c.
Proof. unfold alike. intros (A & B & C & D & E) (F & G & H & J & K). repeat split; congruence. Qed.
Ltac ss := solve [unfold alike; cbn; auto 10].
Definition kdok (o : obj) : Prop :=
  secret_type (o_type o) \/ o_type o = CKK_DH ->
  exists kd, o_keyData o = Some kd /\
    if andb (o_type o =? CKK_DH)%Z (negb (o_class o =? CKO_PRIVATE_KEY)%Z) then (zlen kd <= 512)%Z else (16 <= zlen kd <= 528)%Z.
Definition tsafe (o : obj) : Prop := osafe o /\ o_onTok o = true /\ encoded_ok o.
Lemma w_array_good b l : (0 <= l <= zlen b)%Z -> good (fun _ => True) (w_array b l).
Proof.
  intros B. unfold w_array, st_write. assert (X : (i32 (u32 l) < 0)%Z \/ (i32 (u32 l) <= l)%Z).
  { unfold i32, u32. rewrite Z.mod_mod by lia. destruct (Z.ltb_spec (l mod 2^32) (2^31)); [right; apply Z.mod_le; lia|left]. pose proof (Z.mod_pos_bound l (2^32)). lia. }
  destruct (Z.ltb_spec (i32 (u32 l)) 0); [exact I|]. destruct (Z.ltb_spec (zlen b) (i32 (u32 l))); [lia|exact I].
Qed.
Lemma w_array_full b : good (fun _ => True) (w_array b (zlen b)).
Proof. apply w_array_good. pose proof (zlen_nonneg _ b). lia. Qed.
Lemma w_fixed_good b n : length b = n -> good (fun _ => True) (w_fixed b (Z.of_nat n)).
Proof. intros L. unfold w_fixed, st_write. unfold zlen. rewrite L. destruct (Z.ltb_spec (Z.of_nat n) 0); [exact I|]. rewrite Z.ltb_irrefl. exact I. Qed.

Section S.
Variable se : senv.
Hypothesis L : laws se.
Hypothesis D : forall k iv c, (16 <= zlen c)%Z -> fst (se_dec se k iv c) = 0%Z -> zlen (snd (se_dec se k iv c)) = (zlen c - 16)%Z.
Notation kc o := (keyclass (o_class o) (o_type o)).
Notation opost o := (fun p : Z * obj => osafe (snd p) /\ alike o (snd p) /\ kdok (snd p)).
Lemma kc_asym o : is_cert o = false -> kc o -> o_type o = CKK_RSA \/ o_type o = CKK_EC -> is_priv o = true \/ (o_class o =? CKO_PUBLIC_KEY)%Z = true.
Proof.
  intros C K T. unfold is_priv. destruct (K T) as [X|[X|X]]; rewrite X; auto. unfold is_cert in C. rewrite X in C. discriminate.
Qed.
Lemma not_secret o : o_type o = CKK_RSA \/ o_type o = CKK_EC -> kdok o.
Proof. intros T [[X|X]|X]; destruct T as [T|T]; rewrite T in X; discriminate. Qed.
Lemma enc_asym_safe key o pr pu : osafe o -> is_cert o = false -> kc o -> o_type o = CKK_RSA \/ o_type o = CKK_EC -> good (opost o) (enc_asym se key o pr pu).
Proof.
  intros S C K T. unfold enc_asym. assert (Y : forall kd, opost o (0%Z, set_store o (o_iv o) kd (o_enc o))).
  { intros kd. split; [apply osafe_store; [exact S|apply S]|]. split; [ss|]. apply not_secret. exact T. }
  destruct (if is_priv o then pr else pu) as [c der]. destruct (c <? 0)%Z; [apply (Y None)|]. destruct (kc_asym o C K T) as [->| ->]; [apply Y|]. destruct (is_priv o); apply Y.
Qed.
Lemma is_sym_type o : is_sym o = sym_type (o_type o).
Proof. reflexivity. Qed.
Lemma EncodeKey_safe key o : osafe o -> is_cert o = false -> kc o -> good (opost o) (EncodeKey se key o).
Proof.
  intros S C K. unfold EncodeKey. rewrite is_sym_type. destruct (types o C S) as [T|[T|[T|T]]].
  - rewrite T. cbn -[as_rsa enc_asym]. eapply good_bind; [apply rsa_view; assumption|]. intros r _. apply enc_asym_safe; auto.
  - rewrite T. cbn -[as_ec enc_asym]. eapply good_bind; [apply ec_view; assumption|]. intros r _. apply enc_asym_safe; auto.
  - rewrite T. cbn -[as_dh]. eapply good_bind; [apply dh_view; assumption|]. intros [[[p g] l] b] B. eapply good_bind; [apply take_good; exact B|]. intros d [_ Ld]. cbn [good snd].
    split; [apply osafe_store; [exact S|apply S]|]. split; [ss|]. intros _. unfold is_priv. cbn [set_store o_keyData o_type o_class]. rewrite T. destruct B as [B _]. eexists. split; [reflexivity|].
    change (CKK_DH =? CKK_DH)%Z with true. cbn [andb]. destruct (o_class o =? CKO_PRIVATE_KEY)%Z; cbn [negb]; [rewrite (l_tag _ L)|]; lia.
  - assert (X : (o_type o =? CKK_RSA)%Z = false /\ (o_type o =? CKK_EC)%Z = false /\ (o_type o =? CKK_DH)%Z = false) by (apply sym_cases in T as [->| ->]; auto).
    destruct X as (X1 & X2 & X3). rewrite X1, X2, X3, T. eapply good_bind; [apply sym_view; assumption|]. intros [l b] B. cbn [fst snd] in B. eapply good_bind; [apply take_good; exact B|]. intros d [_ Ld]. cbn [good snd].
    split; [apply osafe_store; [exact S|apply S]|]. split; [ss|]. intros _. cbn [set_store o_keyData o_type o_class]. rewrite X3. destruct B as [B _]. eexists. split; [reflexivity|]. cbn [andb]. rewrite (l_tag _ L). lia.
Qed.
Lemma protect_safe o : is_cert o = false -> osafe o -> osafe (protect_key o) /\ alike o (protect_key o) /\ o_keyData (protect_key o) = o_keyData o.
Proof.
  intros C S. unfold protect_key. rewrite is_sym_type. pose proof (osafe_d o S) as Ds. rewrite C in Ds.
  assert (Y : forall d, dsafe false (o_type o) d -> osafe (set_store (set_data o d) (o_iv o) (o_keyData o) true) /\ alike o (set_store (set_data o d) (o_iv o) (o_keyData o) true) /\ o_keyData (set_store (set_data o d) (o_iv o) (o_keyData o) true) = o_keyData o).
  { intros d X. split; [apply osafe_store; [apply data_safe; [exact S|rewrite C; exact X]|apply S]|]. split; [ss|reflexivity]. }
  assert (N : osafe o /\ alike o o /\ o_keyData o = o_keyData o) by (split; [exact S|split; [ss|reflexivity]]).
  destruct (types o C S) as [T|[T|[T|T]]].
  - rewrite T in *. cbn. destruct (is_priv o); [apply Y; exact I|exact N].
  - rewrite T in *. cbn. destruct (is_priv o); [apply Y; exact I|exact N].
  - rewrite T in *. cbn. destruct (is_priv o); [|exact N]. apply Y. cbn in Ds |- *. destruct (o_data o); try exact Ds. destruct Ds as [D1 D2]. split; [exact D1|]. apply overlay_len; [exact D2|]. rewrite zeros_len. lia.
  - assert (X : (o_type o =? CKK_RSA)%Z = false /\ (o_type o =? CKK_EC)%Z = false /\ (o_type o =? CKK_DH)%Z = false) by (apply sym_cases in T as [->| ->]; auto).
    destruct X as (X1 & X2 & X3). rewrite X1, X2, X3, T. apply Y. unfold dsafe in *. rewrite X1, X2, X3 in *. fold (sym_type (o_type o)) in *. rewrite T in *.
    destruct (o_data o); try exact Ds. destruct Ds as [D1 D2]. split; [exact D1|]. apply overlay_len; [exact D2|]. rewrite zeros_len. lia.
Qed.
Lemma enc_parts o : encoded_ok o <-> is_cert o = true \/ (kc o /\ kdok o).
Proof. unfold encoded_ok, is_cert, kdok. rewrite Z.eqb_eq. tauto. Qed.
Lemma same_cert o o' : alike o o' -> is_cert o' = is_cert o.
Proof. intros (_ & _ & E & _). unfold is_cert. rewrite E. reflexivity. Qed.
Lemma same_kc o o' : alike o o' -> kc o -> kc o'.
Proof. intros (_ & E1 & E2 & _). rewrite E1, E2. auto. Qed.
Lemma kdok_same o o' : alike o o' -> o_keyData o' = o_keyData o -> kdok o -> kdok o'.
Proof. intros (_ & E1 & E2 & _) E. unfold kdok. rewrite E1, E2, E. auto. Qed.
Lemma Encode_safe key pr o : osafe o -> (is_cert o = false -> kc o) -> good (fun p => osafe (snd p) /\ alike o (snd p) /\ encoded_ok (snd p)) (Encode se key pr o).
Proof.
  intros S K. unfold Encode. destruct (is_cert o) eqn:C.
  { cbn. split; [exact S|]. split; [ss|]. apply enc_parts. auto. }
  specialize (K eq_refl). eapply good_bind; [apply EncodeKey_safe; assumption|]. intros [c o1]. cbn [snd]. intros (S1 & I1 & K1). cbn [good snd].
  assert (C1 : is_cert o1 = false) by (rewrite (same_cert _ _ I1); exact C).
  destruct (andb _ _).
  - destruct (protect_safe o1 C1 S1) as (S2 & I2 & E2). split; [exact S2|]. pose proof (alike_trans _ _ _ I1 I2) as I3. split; [exact I3|]. apply enc_parts. right.
    split; [eapply same_kc; eauto|]. exact (kdok_same o1 _ I2 E2 K1).
  - split; [exact S1|]. split; [exact I1|]. apply enc_parts. right. split; [eapply same_kc; eauto|exact K1].
Qed.
(** The code is 0 when the encoding exists. *)
Lemma fin_safe o c d : osafe o -> dsafe (is_cert o) (o_type o) d -> (fst (fin o c d) = fst (fin o c d)) /\ osafe (snd (fin o c d)) /\ alike o (snd (fin o c d)) /\ o_keyData (snd (fin o c d)) = o_keyData o.
Proof.
  intros S X. split; [reflexivity|]. unfold fin. destruct (c =? 0)%Z; cbn [snd]; (split; [apply osafe_store; [try (apply data_safe; assumption); try exact S|apply S]|split; [ss|reflexivity]]).
Qed.
Lemma dec_into_safe key o kd : o_keyData o = Some kd -> (16 <= zlen kd <= 528)%Z -> good (fun p => fst p = 0%Z -> (0 <= zlen (snd p) <= 512)%Z) (dec_into se key o).
Proof.
  intros E B. unfold dec_into, dec_kd, kd_bytes. rewrite E. destruct (Z.ltb_spec (zlen kd) 16); [lia|]. change (Z.of_nat SYM_BUF) with 512%Z. destruct (Z.ltb_spec 512 (zlen kd - 16)); [lia|].
  cbn [good]. intros X. apply D in X; lia.
Qed.
Notation dpost o := (fun p : Z * obj => osafe (snd p) /\ alike o (snd p) /\ o_keyData (snd p) = o_keyData o).
Lemma fin_post o c d : osafe o -> dsafe (is_cert o) (o_type o) d -> dpost o (fin o c d).
Proof. intros S X. apply (fin_safe o c d S X). Qed.
Lemma fin_err o c d : osafe o -> c <> 0%Z -> dpost o (fin o c d).
Proof. intros S X. unfold fin. destruct (Z.eqb_spec c 0); [contradiction|]. cbn. split; [apply osafe_store; [exact S|apply S]|split; [ss|reflexivity]]. Qed.
Lemma fin_err2 o c : osafe o -> dpost o (c, set_store o (o_iv o) (o_keyData o) true).
Proof. intros S. cbn. split; [apply osafe_store; [exact S|apply S]|split; [ss|reflexivity]]. Qed.
Lemma DecodeKey_safe key o : osafe o -> is_cert o = false -> kdok o -> good (dpost o) (DecodeKey se key o).
Proof.
  intros S C K. unfold DecodeKey. rewrite is_sym_type. destruct (types o C S) as [T|[T|[T|T]]].
  - rewrite T. cbn -[as_rsa fin]. eapply good_bind; [apply rsa_view; assumption|]. intros r _. cbn [good].
    assert (Y : forall c r, dpost o (fin o c (KRsa r))) by (intros; apply fin_post; [exact S|rewrite C, T; exact I]).
    destruct (is_priv o).
    + destruct (_ <? _)%Z; [apply fin_err2; exact S|]. destruct (dec_kd se key o) as [c der]. destruct (Z.eqb_spec c 0); cbn [negb]; [|first [apply fin_err; auto | apply fin_err2; exact S]]. destruct (se_rsa_priv_dec se der). apply Y.
    + destruct (se_rsa_pub_dec _ _ _). apply Y.
  - rewrite T. cbn -[as_ec]. eapply good_bind; [apply ec_view; assumption|]. intros r _. cbn [good].
    assert (Y : forall c r, dpost o (fin o c (KEc r))) by (intros; apply fin_post; [exact S|rewrite C, T; exact I]).
    destruct (is_priv o).
    + destruct (_ <? _)%Z; [apply fin_err2; exact S|]. destruct (dec_kd se key o) as [c der]. destruct (Z.eqb_spec c 0); cbn [negb]; [|first [apply fin_err; auto | apply fin_err2; exact S]]. destruct (se_ec_priv_dec se der). apply Y.
    + destruct (se_ec_pub_dec _ _ _). apply Y.
  - destruct (K (or_intror T)) as (kd & Ek & Bk). rewrite T in Bk. change (CKK_DH =? CKK_DH)%Z with true in Bk. cbn [andb] in Bk. fold (is_priv o) in Bk.
    rewrite T. cbn -[as_dh dec_into fin kd_bytes]. eapply good_bind; [apply dh_view; assumption|]. intros [[[p g] l] b] [B1 B2]. destruct (is_priv o); cbn [negb] in Bk.
    + eapply good_bind; [apply (dec_into_safe key o kd Ek Bk)|]. intros [c d]. cbn [fst snd good]. intros Z0. destruct (Z.eq_dec c 0) as [C0|C0]; [|apply fin_err; auto]. apply fin_post; [exact S|]. rewrite C, T.
      specialize (Z0 C0). split; [exact Z0|]. apply overlay_len; [exact B2|]. unfold zlen in Z0. lia.
    + assert (Kb : kd_bytes o = kd) by (unfold kd_bytes; rewrite Ek; reflexivity). rewrite Kb. change (Z.of_nat DH_BUF) with 512%Z. destruct (Z.ltb_spec 512 (zlen kd)); [lia|]. cbn [good]. apply fin_post; [exact S|]. rewrite C, T.
      pose proof (zlen_nonneg _ kd). split; [lia|]. apply overlay_len; [exact B2|]. unfold zlen in *. lia.
  - assert (X : (o_type o =? CKK_RSA)%Z = false /\ (o_type o =? CKK_EC)%Z = false /\ (o_type o =? CKK_DH)%Z = false) by (apply sym_cases in T as [->| ->]; auto).
    destruct X as (X1 & X2 & X3). destruct (K (or_introl (sym_cases _ T))) as (kd & Ek & Bk). rewrite X3 in Bk. cbn [andb] in Bk. rewrite X1, X2, X3, T.
    eapply good_bind; [apply sym_view; assumption|]. intros [l b] [B1 B2]. cbn [fst snd] in B1, B2.
    eapply good_bind; [apply (dec_into_safe key o kd Ek Bk)|]. intros [c d]. cbn [fst snd good]. intros Z0. destruct (Z.eq_dec c 0) as [C0|C0]; [|apply fin_err; auto]. apply fin_post; [exact S|]. rewrite C.
    unfold dsafe. rewrite X1, X2, X3. fold (sym_type (o_type o)). rewrite T.
    specialize (Z0 C0). split; [exact Z0|]. apply overlay_len; [exact B2|]. unfold zlen in Z0. lia.
Qed.
Lemma tsafe_same o o' : tsafe o -> osafe o' -> alike o o' -> o_keyData o' = o_keyData o -> tsafe o'.
Proof.
  intros (S & T & E) S' I K. split; [exact S'|]. split; [destruct I as (_ & _ & _ & -> & _); exact T|]. apply enc_parts in E. apply enc_parts. rewrite (same_cert _ _ I).
  destruct E as [E|[E1 E2]]; [auto|right]. split; [eapply same_kc; eauto|eapply kdok_same; eauto].
Qed.
Lemma Decode_safe key o : tsafe o -> good (fun p => tsafe (snd p) /\ alike o (snd p)) (Decode se key o).
Proof.
  intros T. pose proof T as (S & _ & E). apply enc_parts in E. unfold Decode. destruct (is_cert o) eqn:C.
  { assert (I' : alike o (set_store o (o_iv o) (o_keyData o) false)) by ss. cbn [good snd]. split; [|exact I']. eapply tsafe_same; [exact T|apply osafe_store; [exact S|apply S]|exact I'|reflexivity]. }
  destruct E as [E|[E1 E2]]; [discriminate|]. eapply good_bind; [apply DecodeKey_safe; assumption|]. intros [c o1]. cbn [snd good]. intros (S1 & I1 & K1). split; [eapply tsafe_same; eauto|exact I1].
Qed.
Lemma sval_good s : svsafe s -> good (fun _ => True) (w_array (s_bytes s) (s_len s)).
Proof. destruct s as [b|l]; cbn [s_bytes s_len svsafe]; [intros _; apply w_array_full|intros ->; exact (w_array_full [])]. Qed.
Lemma header_safe o : osafe o -> good (fun _ => True) (obj_header o).
Proof.
  intros (S1 & S2 & S3 & S4 & S5 & _). unfold obj_header. eapply good_bind; [apply (w_fixed_good _ 12 S3)|]. intros ? _. eapply good_bind; [apply (w_fixed_good _ 8 S4)|]. intros ? _.
  eapply good_bind; [apply (w_fixed_good _ 8 S5)|]. intros ? _. eapply good_bind; [apply sval_good; exact S2|]. intros ? _. eapply good_bind; [apply sval_good; exact S1|]. intros ? _. exact I.
Qed.
Notation spost o := (fun p : sres => osafe (snd (fst p)) /\ alike o (snd (fst p)) /\ encoded_ok (snd (fst p))).
Lemma store_kd_safe key f o : osafe o -> is_cert o = false -> kc o -> (o_keyData o <> None -> kdok o) ->
  good (fun p : sres => osafe (snd (fst p)) /\ alike o (snd (fst p)) /\ kdok (snd (fst p))) (store_kd se key f o).
Proof.
  intros S C K Kd. unfold store_kd. eapply (good_bind (opost o)).
  { destruct (o_keyData o) eqn:E; [|apply EncodeKey_safe; assumption]. cbn. split; [exact S|]. split; [ss|]. apply Kd. discriminate. }
  intros [c o1] P. cbn [snd] in P. destruct (negb _); [exact P|]. eapply good_bind; [apply w_array_full|]. intros d _. exact P.
Qed.
Lemma store_key_safe key id o : osafe o -> (is_cert o = false -> kc o /\ (o_keyData o <> None -> kdok o)) -> good (spost o) (store_key se key id o).
Proof.
  intros S K. unfold store_key. destruct (is_cert o) eqn:C.
  { eapply good_bind; [apply cert_view; assumption|]. intros [l b] B. cbn [fst snd] in B. assert (P : spost o (0%Z, o, [])) by (cbn; split; [exact S|split; [ss|apply enc_parts; auto]]).
    destruct (l <=? 0)%Z; [exact P|]. eapply good_bind; [apply w_array_good; exact B|]. intros d _. exact P. }
  destruct (K eq_refl) as [K1 K2]. clear K.
  assert (X : forall p : sres, osafe (snd (fst p)) /\ alike o (snd (fst p)) /\ kdok (snd (fst p)) -> spost o p).
  { intros p (P1 & P2 & P3). split; [exact P1|]. split; [exact P2|]. apply enc_parts. right. split; [eapply same_kc; eauto|exact P3]. }
  destruct (key_kind o) as [k|] eqn:Kk.
  - pose proof (store_kd_safe key (k, id) o S C K1 K2) as G. destruct (Z.eqb_spec (o_type o) CKK_DH) as [T|T].
    + eapply good_bind; [exact G|]. intros [[c o1] ws] P. cbn [fst snd] in P. destruct (negb _); [apply X; exact P|]. destruct P as (P1 & P2 & P3).
      eapply good_bind; [apply dh_view; [rewrite (same_cert _ _ P2); exact C|destruct P2 as (_ & -> & _); exact T|exact P1]|]. intros [[[p g] l] b] _.
      destruct (se_dh_der se p g) as [c2 der]. destruct (_ <? _)%Z; [apply X; auto|]. eapply good_bind; [apply w_array_full|]. intros d _. apply X. auto.
    + eapply good_imp; [exact G|]. intros p P. apply X, P.
  - exfalso. unfold key_kind in Kk. rewrite C in Kk. rewrite is_sym_type in Kk. destruct (types o C S) as [T|[T|[T|T]]]; try (rewrite T in Kk; discriminate).
    rewrite T in Kk. repeat match type of Kk with context [if ?b then _ else _] => destruct b end; discriminate.
Qed.
Lemma store_obj_safe key rnd id o : tsafe o -> good (fun p : sres => tsafe (snd (fst p)) /\ alike o (snd (fst p))) (store_obj se key rnd id o).
Proof.
  intros (S & T & E). apply enc_parts in E. unfold store_obj. eapply good_bind; [apply header_safe; exact S|]. intros h _. cbv zeta.
  set (o1 := match o_keyData o with None => _ | Some _ => o end).
  assert (O1 : osafe o1 /\ alike o o1 /\ o_keyData o1 = o_keyData o).
  { unfold o1. destruct (o_keyData o) eqn:Kd; [split; [exact S|split; [ss|exact Kd]]|]. destruct (orb _ _); [|split; [exact S|split; [ss|exact Kd]]].
    split; [apply osafe_store; [exact S|apply rbytes_len]|split; [ss|reflexivity]]. }
  clearbody o1. destruct O1 as (S1 & I1 & K1). eapply good_bind.
  { apply store_key_safe; [exact S1|]. intros C. rewrite (same_cert _ _ I1) in C. destruct E as [E|[E1 E2]]; [congruence|]. split; [eapply same_kc; eauto|]. intros _. eapply kdok_same; eauto. }
  intros [[c o2] ws]. cbn [fst snd good]. intros (S2 & I2 & E2). pose proof (alike_trans _ _ _ I1 I2) as I3. split; [|exact I3]. split; [exact S2|]. split; [destruct I3 as (_ & _ & _ & -> & _); exact T|exact E2].
Qed.
Notation sames := (Forall2 alike).
Lemma sames_refl l : sames l l.
Proof. induction l; constructor; auto using alike_refl. Qed.
Lemma store_objs_safe key rnd l : Forall tsafe l -> good (fun p => Forall tsafe (snd (fst p)) /\ sames l (snd (fst p))) (store_objs se key rnd l).
Proof.
  induction 1 as [|o l T F IH]; cbn [store_objs]; [cbn; auto|]. eapply good_bind; [apply store_obj_safe; exact T|]. intros [[c o1] ws]. cbn [fst snd]. intros [T1 I1].
  destruct (negb _); [cbn; split; constructor; auto using sames_refl|]. eapply good_bind; [exact IH|]. intros [[c2 r1] ws2]. cbn [fst snd good]. intros [T2 I2]. split; constructor; auto.
Qed.
Definition hsafe (t : token) : Prop := length (t_label t) = 32%nat /\ pinv (t_so t) /\ pinv (t_user t) /\ length (t_seed t) = 16%nat.
Lemma pin_good p : pinv p -> good (fun _ => True) (pin_bytes p).
Proof.
  intros (P1 & P2 & P3). unfold pin_bytes. eapply good_bind; [apply w_array_good; unfold zlen; rewrite P1; lia|]. intros ? _. eapply good_bind; [apply (w_fixed_good _ 16 P3)|]. intros ? _. exact I.
Qed.
Lemma Token_Store_safe rnd t : hsafe t -> Forall tsafe (t_objs t) ->
  good (fun p => hsafe (snd (fst p)) /\ Forall tsafe (t_objs (snd (fst p))) /\ sames (t_objs t) (t_objs (snd (fst p))) /\ t_key (snd (fst p)) = t_key t) (Token_Store se rnd t).
Proof.
  intros (H1 & H2 & H3 & H4) F. unfold Token_Store. eapply (good_bind (fun _ => True)).
  { unfold tok_header. eapply good_bind; [apply (w_fixed_good _ 32 H1)|]. intros ? _. eapply good_bind; [apply pin_good; exact H2|]. intros ? _. eapply good_bind; [apply pin_good; exact H3|]. intros ? _.
    eapply good_bind; [apply (w_fixed_good _ 16 H4)|]. intros ? _. exact I. }
  intros h _. eapply good_bind; [apply store_objs_safe; exact F|]. intros [[c l] ws]. cbn [fst snd good]. intros [T1 I1]. unfold hsafe. cbn. auto 10.
Qed.

End S.
(** ** Loading *)
Section S2.
Variable se : senv.
Lemma no_ub {A} (r : res A) : (forall u, r <> Undef u) -> good (fun _ => True) r.
Proof. destruct r; cbn; auto. intros H. exact (H u eq_refl). Qed.
Lemma read_good n f : good (fun _ => True) (st_read n f).
Proof. unfold st_read. destruct (_ <? _)%Z; [exact I|]. destruct (_ <? _)%Z; exact I. Qed.
Ltac rd := eapply good_bind; [first [apply read_good | exact I | idtac]|].
Lemma r_good1 f : good (fun _ => True) (r_bool f).
Proof. unfold r_bool. rd. intros [? ?] _. exact I. Qed.
Lemma r_good2 f : good (fun _ => True) (r_int f).
Proof. unfold r_int. rd. intros [? ?] _. exact I. Qed.
Lemma r_good3 f : good (fun _ => True) (r_word32 f).
Proof. unfold r_word32. rd. intros [? ?] _. exact I. Qed.
Lemma r_good4 f : good (fun _ => True) (r_ulong f).
Proof. unfold r_ulong. rd. intros [? ?] _. exact I. Qed.
Lemma r_good5 f : good (fun _ => True) (r_time f).
Proof. unfold r_time. rd. intros [? ?] _. exact I. Qed.
Lemma r_good6 f : good (fun _ => True) (r_alloc f).
Proof. unfold r_alloc. eapply good_bind; [apply r_good2|]. intros [? ?] _. destruct (_ <? _)%Z; [exact I|apply read_good]. Qed.
Lemma r_good7 m f : good (fun _ => True) (r_array m f).
Proof. unfold r_array. eapply good_bind; [apply r_good3|]. intros [? ?] _. destruct (_ <? _)%Z; [exact I|apply read_good]. Qed.
Ltac rg := repeat (eapply good_bind; [first [apply r_good1|apply r_good2|apply r_good3|apply r_good4|apply r_good5|apply r_good6|apply r_good7|apply read_good]|]; intros [? ?] _).
Definition loaded (o : obj) : Prop := svsafe (o_label o) /\ svsafe (o_keyId o) /\ dsafe (is_cert o) (o_type o) (o_data o).
Lemma load_obj_safe d uid ty id : good loaded (load_obj se d uid ty id).
Proof.
  unfold load_obj. eapply (good_bind (fun _ => True)); [unfold open_read; destruct (d _); exact I|]. intros f _.
  eapply (good_bind (fun p => svsafe (o_label (fst p)) /\ svsafe (o_keyId (fst p)) /\ o_data (fst p) = KZero)).
  { unfold read_obj_file. rg. cbn. auto. }
  intros [o r] (P1 & P2 & P3). cbn [fst] in *. destruct (key_kind o) as [k|] eqn:K; [|exact I]. eapply (good_bind (fun _ => True)); [unfold open_read; destruct (d _); exact I|]. intros kf _.
  eapply (good_bind (fun p => loaded (fst p))); [|intros [? ?] P; exact P].
  assert (Dz : dsafe (is_cert o) (o_type o) KZero).
  { unfold key_kind in K. destruct (is_cert o); [exact I|]. unfold dsafe. unfold is_sym in K. repeat match type of K with (if ?b then _ else _) = _ => destruct b; [exact I|] end. discriminate. }
  unfold read_key_file. eapply good_bind; [apply r_good6|]. intros [kd f1] _. cbv zeta. destruct (andb _ _) eqn:A.
  - apply Bool.andb_true_iff in A as [A1 A2]. apply Bool.negb_true_iff in A1. apply Z.eqb_eq in A2.
    eapply good_bind; [apply r_good6|]. intros [der f2] _. destruct (se_dh_dec se der) as [c [p g]]. destruct (negb _); [exact I|]. cbn [good fst]. unfold loaded.
    change (is_cert (set_data (set_store o (o_iv o) (Some kd) (o_enc o)) (KDh p g 0 (zeros DH_BUF)))) with (is_cert o). cbn [set_data set_store o_label o_keyId o_type o_data]. rewrite A1, A2. repeat split; auto; try lia. 
  - cbn [good fst]. unfold loaded. change (is_cert (set_store o (o_iv o) (Some kd) (o_enc o))) with (is_cert o). cbn [set_data set_store o_label o_keyId o_type o_data]. rewrite P3. auto.
Qed.
Lemma load_objs_safe d l : forall uid, good (Forall loaded) (load_objs se d uid l).
Proof. induction l as [|ty l IH]; intros uid; cbn [load_objs]; [constructor|]. eapply good_bind; [apply load_obj_safe|]. intros o O. eapply good_bind; [apply IH|]. intros r R. constructor; auto. Qed.
Lemma read_types_good n : forall f, good (fun _ => True) (read_types n f).
Proof. induction n; intros f; cbn [read_types]; [exact I|]. rg. eapply good_bind; [apply IHn|]. intros [? ?] _. exact I. Qed.
Lemma read_pin_good f : good (fun _ => True) (read_pin f).
Proof. unfold read_pin. rg. exact I. Qed.
Lemma load_all_safe d uid f : good (fun t => Forall loaded (t_objs t)) (load_all se d uid f).
Proof.
  unfold load_all. eapply (good_bind (fun _ => True)).
  { unfold read_tok_file. rg. eapply good_bind; [apply read_pin_good|]. intros [? ?] _. eapply good_bind; [apply read_pin_good|]. intros [? ?] _. rg. eapply good_bind; [apply read_types_good|]. intros [? ?] _. exact I. }
  intros [tf r] _. eapply good_bind; [apply load_objs_safe|]. intros l Fl. exact Fl.
Qed.
(** ** Freeing *)
Lemma free_safe o : osafe o -> good (fun _ => True) (obj_free o).
Proof.
  intros S. unfold obj_free. rewrite is_sym_type. destruct (is_cert o) eqn:C.
  { eapply good_bind; [apply cert_view; assumption|]. intros [l b] B. cbn in B. destruct (Z.ltb_spec (zlen b) l); [lia|exact I]. }
  destruct (types o C S) as [T|[T|[T|T]]].
  - rewrite T. cbn -[as_rsa]. eapply good_bind; [apply rsa_view; assumption|]. intros; exact I.
  - rewrite T. cbn -[as_ec]. eapply good_bind; [apply ec_view; assumption|]. intros; exact I.
  - rewrite T. cbn -[as_dh]. eapply good_bind; [apply dh_view; assumption|]. intros; exact I.
  - assert (X : (o_type o =? CKK_RSA)%Z = false /\ (o_type o =? CKK_EC)%Z = false /\ (o_type o =? CKK_DH)%Z = false) by (apply sym_cases in T as [->| ->]; auto).
    destruct X as (X1 & X2 & X3). rewrite X1, X2, X3, T. eapply good_bind; [apply sym_view; assumption|]. intros [l b] B. apply bufok_z in B. cbn in B. destruct (Z.ltb_spec (zlen b) l); [lia|exact I].
Qed.
Lemma free_all_safe l : Forall osafe l -> good (fun _ => True) (free_all l).
Proof. induction 1; cbn [free_all]; [exact I|]. eapply good_bind; [apply free_safe; assumption|]. intros; assumption. Qed.
End S2.
Lemma Token_Load_safe (w : world) d uid : good (fun t => Forall osafe (t_objs t) /\ hsafe t) (Token_Load (w_se w) d uid).
Proof.
  assert (G : good (fun t => Forall loaded (t_objs t)) (Token_Load (w_se w) d uid)).
  { unfold Token_Load. destruct (d _) as [f|]; [|constructor]. pose proof (load_all_safe (w_se w) d uid f) as G. destruct (load_all (w_se w) d uid f); [exact G|constructor|exact G]. }
  destruct (Token_Load (w_se w) d uid) as [t| |] eqn:E; try exact G. cbn [good] in *. apply Token_Load_ginv in E as ((G1 & G2 & G3 & G4 & _ & G6) & _). split; [|unfold hsafe; auto].
  rewrite Forall_forall in *. intros o I'. destruct (G o I') as (A & B & C). destruct (G6 o I') as (X1 & X2 & X3 & _ & X5 & _). unfold osafe. auto 10.
Qed.

