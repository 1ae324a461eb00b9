(** Careful use of objects has no undefined behaviour: attributes, copies, storage. *)
From Verif Require Import Base Codec Ops Object Store StoreSpec Sys SafeSpec SafeOps.
From Verif Require Import WfProofs.

Definition dsafe (c : bool) (ty : Z) (d : kdata) : Prop :=
  if c then match d with KZero => True | KCert l b => (0 <= l <= zlen b)%Z | _ => False end
  else if (ty =? CKK_RSA)%Z then match d with KZero | KRsa _ => True | _ => False end
  else if (ty =? CKK_EC)%Z then match d with KZero | KEc _ => True | _ => False end
  else if (ty =? CKK_DH)%Z then match d with KZero => True | KDh _ _ l b => (0 <= l <= 512)%Z /\ length b = 512%nat | _ => False end
  else if orb (ty =? CKK_AES)%Z (ty =? CKK_GENERIC_SECRET)%Z
       then match d with KZero => True | KSym l b => (0 <= l <= 512)%Z /\ length b = 512%nat | _ => False end
  else False.
Definition svsafe (s : sval) : Prop := match s with SV _ => True | SNull l => l = 0%Z end.
Definition osafe (o : obj) : Prop :=
  svsafe (o_label o) /\ svsafe (o_keyId o) /\ length (o_iv o) = 12%nat /\ length (o_start o) = 8%nat /\ length (o_end o) = 8%nat /\
  u64r (o_class o) /\ dsafe (is_cert o) (o_type o) (o_data o).
(** The same object as far as the store code is concerned. *)
Definition kin (o o' : obj) : Prop :=
  o_uid o' = o_uid o /\ o_type o' = o_type o /\ o_onTok o' = o_onTok o /\ o_keyData o' = o_keyData o.
Lemma kin_refl o : kin o o.
Proof. unfold kin. auto. Qed.
Ltac kk := solve [unfold kin; cbn; auto].
Lemma kin_trans a b c : kin a b -> kin b c -> kin a c.
Proof. unfold kin. intros (A & B & C & D) (E & F & G & H). repeat split; congruence. Qed.
Lemma data_safe o d : osafe o -> dsafe (is_cert o) (o_type o) d -> osafe (set_data o d).
Proof. unfold osafe, is_cert. cbn. tauto. Qed.
Lemma osafe_store o iv kd e : osafe o -> length iv = 12%nat -> osafe (set_store o iv kd e).
Proof. unfold osafe, is_cert. cbn. tauto. Qed.
Lemma osafe_d o : osafe o -> dsafe (is_cert o) (o_type o) (o_data o).
Proof. intros H. apply H. Qed.
Lemma overlay_len b d n : length b = n -> (length d <= n)%nat -> length (overlay b d) = n.
Proof. intros B D. unfold overlay. rewrite app_length, skipn_length. lia. Qed.
Lemma zeros_len n : length (zeros n) = n.
Proof. apply repeat_length. Qed.

(** ** Views *)
Ltac tt_views := unfold dsafe, as_rsa, as_ec, as_dh, as_sym, as_cert.
Lemma rsa_view o : is_cert o = false -> o_type o = CKK_RSA -> osafe o -> good (fun _ => True) (as_rsa o).
Proof. intros C T S. apply osafe_d in S. rewrite C, T in S. unfold as_rsa. cbn in S. destruct (o_data o); exact S. Qed.
Lemma ec_view o : is_cert o = false -> o_type o = CKK_EC -> osafe o -> good (fun k => o_data o = KEc k \/ (o_data o = KZero /\ k = ec0)) (as_ec o).
Proof. intros C T S. apply osafe_d in S. rewrite C, T in S. unfold as_ec. cbn in S. destruct (o_data o); cbn; auto. Qed.
Definition bufok (l : Z) (b : list N) : Prop := (0 <= l <= 512)%Z /\ length b = 512%nat.
Lemma dh_view o : is_cert o = false -> o_type o = CKK_DH -> osafe o -> good (fun v => let '(_, _, l, b) := v in bufok l b) (as_dh o).
Proof. intros C T S. apply osafe_d in S. rewrite C, T in S. unfold as_dh. cbn in S. destruct (o_data o); cbn; auto; try exact S. split; [lia|reflexivity]. Qed.
Definition sym_type (ty : Z) : bool := orb (ty =? CKK_AES)%Z (ty =? CKK_GENERIC_SECRET)%Z.
Lemma sym_cases ty : sym_type ty = true -> ty = CKK_AES \/ ty = CKK_GENERIC_SECRET.
Proof. unfold sym_type. intros H. apply Bool.orb_true_iff in H as [H|H]; apply Z.eqb_eq in H; auto. Qed.
Lemma sym_view o : is_cert o = false -> sym_type (o_type o) = true -> osafe o -> good (fun v => bufok (fst v) (snd v)) (as_sym o).
Proof.
  intros C T S. apply osafe_d in S. rewrite C in S. unfold as_sym. apply sym_cases in T as [T|T]; rewrite T in S; cbn in S; destruct (o_data o); cbn; auto; try exact S; (split; [lia|reflexivity]).
Qed.
Lemma cert_view o : is_cert o = true -> osafe o -> good (fun v => (0 <= fst v <= zlen (snd v))%Z) (as_cert o).
Proof. intros C S. apply osafe_d in S. rewrite C in S. unfold as_cert. cbn in S. destruct (o_data o); cbn [good fst snd]; auto; try exact S. pose proof (zlen_nonneg _ (zeros CERT_BUF)). lia. Qed.
Lemma types o : is_cert o = false -> osafe o -> o_type o = CKK_RSA \/ o_type o = CKK_EC \/ o_type o = CKK_DH \/ sym_type (o_type o) = true.
Proof.
  intros C S. apply osafe_d in S. rewrite C in S. unfold dsafe in S. destruct (Z.eqb_spec (o_type o) CKK_RSA); [auto|]. destruct (Z.eqb_spec (o_type o) CKK_EC); [auto|].
  destruct (Z.eqb_spec (o_type o) CKK_DH); [auto|]. unfold sym_type. destruct (orb _ _); [auto|contradiction].
Qed.
Lemma take_good l b : bufok l b -> good (fun d => d = firstn (Z.to_nat l) b /\ zlen d = l) (take_buf l b).
Proof.
  intros [L B]. unfold take_buf. assert (zlen b = 512%Z) by (unfold zlen; rewrite B; reflexivity). change (Z.of_nat SYM_BUF) with 512%Z.
  destruct (Z.ltb_spec l 0); [lia|]. destruct (Z.ltb_spec 512 l); [lia|]. destruct (Z.ltb_spec (zlen b) l); [lia|]. cbn [orb good]. split; [reflexivity|].
  unfold zlen. rewrite firstn_length. lia.
Qed.

(** ** Setting attributes *)
Record oklaws (oe : oenv) : Prop := mkOk {
  ok_import : forall k b, fst (oe_import oe k b) = 0%Z -> ec_curve (snd (oe_import oe k b)) = ec_curve k;
  ok_export : forall id pt, fst (oe_export oe id pt) = 0%Z -> (zlen (snd (oe_export oe id pt)) <= u32 (oe_ecsize oe id * 2 + 1))%Z
}.
(** A template fit for an object that is a certificate or not ([c]) of type [ty]. *)
Record okt (c : bool) (ty : Z) (t : template) : Prop := mkOkt {
  k_given : given t;
  k_class : forall b, In (mkA CKA_CLASS (AV b)) t -> (ulong_of b =? CKO_CERTIFICATE)%Z = c;
  k_point : c = false -> ty = CKK_EC -> has t CKA_EC_POINT -> has t CKA_EC_PARAMS;
  k_len : c = false -> sym_type ty = true -> forall b, In (mkA CKA_VALUE_LEN (AV b)) t -> (ulong_of b <= 512)%Z;
  k_value : c = false -> sym_type ty = true -> forall b, In (mkA CKA_VALUE (AV b)) t -> (zlen b <= 512)%Z
}.
Lemma find_first_In t p a : find_first t p = Some a -> In a t /\ a_type a = p.
Proof. intros H. apply find_some in H as [I E]. apply Z.eqb_eq in E. auto. Qed.
Lemma find_first_has t p : has t p -> find_first t p <> None.
Proof. intros (v & I) H. apply (find_none _ _ H) in I. cbn in I. rewrite Z.eqb_refl in I. discriminate. Qed.
(** The values found for the parameters. *)
Lemma param_nth t ps v : given t -> param_vals t ps = Some v -> forall i p, nth_error ps i = Some p ->
  match nth i v None with Some b => In (mkA p (AV b)) t | None => ~ has t p end.
Proof.
  intros G. revert v. induction ps as [|q ps IH]; cbn [param_vals]; intros v H i p N; [destruct i; discriminate|].
  destruct (find_first t q) as [[ty va]|] eqn:F.
  - apply find_first_In in F as [I E]. cbn in E. subst ty. destruct (G _ I) as (b & E). cbn in E. subst va.
    destruct (param_vals t ps) as [l|]; [|discriminate]. injection H as <-. destruct i; cbn in N |- *.
    + injection N as <-. exact I.
    + apply (IH _ eq_refl _ _ N).
  - destruct (param_vals t ps) as [l|]; [|discriminate]. injection H as <-. destruct i; cbn in N |- *.
    + injection N as <-. intros X. exact (find_first_has _ _ X F).
    + apply (IH _ eq_refl _ _ N).
Qed.

Section O.
Variable oe : oenv.
Hypothesis OK : oklaws oe.

(** What is known of the key after a successful setting. *)
Definition keyed (t : template) (o o' : obj) : Prop :=
  is_cert o = false ->
  (o_type o = CKK_EC -> has t CKA_EC_PARAMS -> exists k, o_data o' = KEc k /\ ec_curve k <> None) /\
  (sym_type (o_type o) = true -> ~ has t CKA_VALUE -> exists l b, o_data o' = KSym l b /\
     (l = 0%Z \/ exists v, In (mkA CKA_VALUE_LEN (AV v)) t /\ l = ulong_of v)).
Lemma u32_small z : (0 <= z < 2^32)%Z -> u32 z = z.
Proof. apply Z.mod_small. Qed.
Lemma ulong_pos b : (0 <= ulong_of b)%Z.
Proof. unfold ulong_of. apply Z.mod_pos_bound. reflexivity. Qed.

Lemma SetRsa_shape o v : exists r n, o_data (snd (SetRsaKey oe o v)) = KRsa r /\ snd (SetRsaKey oe o v) = set_size (set_data o (KRsa r)) n.
Proof.
  assert (X : forall r c, exists r' n, o_data (snd (c : Z, set_data o (KRsa r))) = KRsa r' /\ snd (c, set_data o (KRsa r)) = set_size (set_data o (KRsa r')) n).
  { intros r c. exists r, (o_size o). split; reflexivity. }
  unfold SetRsaKey. cbv zeta.
  repeat match goal with |- context [let '(_, _) := set_mpi ?a ?b in _] => destruct (set_mpi a b) as [? ?] end.
  repeat match goal with |- context [if ?b then _ else _] => destruct b; [apply X|] end.
  destruct (nth 8 v None); [|apply X]. destruct (zlen l =? 8)%Z; [eexists _, _; split; reflexivity|]. destruct (zlen l =? 0)%Z; apply X.
Qed.
Lemma SetEc_safe t o v : given t -> param_vals t ecParams = Some v -> (has t CKA_EC_POINT -> has t CKA_EC_PARAMS) ->
  good (fun p => exists k, snd p = set_data o (KEc k) /\ (fst p = 0%Z -> has t CKA_EC_PARAMS -> ec_curve k <> None)) (SetEcKey oe o v).
Proof.
  intros G P H. pose proof (param_nth t _ v G P) as N.
  pose proof (N 0%nat CKA_EC_PARAMS eq_refl) as N0. pose proof (N 2%nat CKA_EC_POINT eq_refl) as N2. clear N.
  unfold SetEcKey. cbv zeta.
  assert (E0 : forall c0 k0, (match nth 0 v None with None => (0%Z, ec0) | Some b => EcSetParams oe ec0 b end) = (c0, k0) -> c0 = 0%Z -> has t CKA_EC_PARAMS -> ec_curve k0 <> None).
  { intros c0 k0 E C0 Hp. destruct (nth 0 v None) as [b|]; [|contradiction]. unfold EcSetParams in E.
    repeat match type of E with (if ?b then _ else _) = _ => destruct b; [injection E as <- <-; discriminate C0|] end.
    destruct (oe_curve oe _); [|injection E as <- <-; discriminate C0]. cbv zeta in E. destruct (Z.eqb_spec (oe_set_curve oe z) 0); injection E as <- <-; [discriminate|contradiction]. }
  destruct (match nth 0 v None with None => (0%Z, ec0) | Some b => EcSetParams oe ec0 b end) as [c0 k0] eqn:E.
  destruct (Z.eqb_spec c0 0) as [C0|C0]; cbn [negb].
  2:{ cbn. eexists. split; [reflexivity|]. intros; contradiction. }
  specialize (E0 _ _ eq_refl C0).
  assert (E1 : forall c1 k1, (match nth 1 v None with None => (0%Z, k0) | Some b => let '(c, x) := set_mpi oe (Some b) in (c, mkEc (ec_curve k0) 3 x (ec_pt k0)) end) = (c1, k1) -> ec_curve k1 = ec_curve k0).
  { intros c1 k1 X. destruct (nth 1 v None) as [b|]; [|injection X as _ <-; reflexivity]. destruct (set_mpi oe (Some b)). injection X as _ <-. reflexivity. }
  destruct (match nth 1 v None with None => (0%Z, k0) | Some b => let '(c, x) := set_mpi oe (Some b) in (c, mkEc (ec_curve k0) 3 x (ec_pt k0)) end) as [c1 k1].
  specialize (E1 _ _ eq_refl). destruct (Z.eqb_spec c1 0) as [C1|C1]; cbn [negb].
  2:{ cbn. eexists. split; [reflexivity|]. intros; contradiction. }
  destruct (nth 2 v None) as [b|].
  2:{ cbn. eexists. split; [reflexivity|]. rewrite E1. auto. }
  assert (K : ec_curve k0 <> None) by (apply E0, H; exists (AV b); exact N2).
  set (k2 := mkEc _ _ _ _). assert (K2 : ec_curve k2 <> None) by (cbn; congruence). clearbody k2.
  eapply (good_bind (fun p => fst p = 0%Z -> ec_curve (snd p) <> None)).
  { unfold EcSetPoint. cbv zeta. repeat match goal with |- good _ (if ?b then _ else _) => destruct b; [cbn; intros X; discriminate X|] end.
    repeat match goal with |- context [if negb ?b then _ else _] => destruct b end; cbn [negb]; try (cbn; intros X; discriminate X).
    all: destruct (ec_curve k2) eqn:Ek; [|contradiction]; cbn [good]; intros X; rewrite (ok_import _ OK) by exact X; congruence. }
  intros [c2 k3] K3. cbn in K3. destruct (Z.eqb_spec c2 0) as [C2|C2]; cbn; eexists; split; try reflexivity; auto; intros; contradiction.
Qed.
Lemma SetSym_safe t o v : given t -> param_vals t secretParams = Some v ->
  (forall b, In (mkA CKA_VALUE_LEN (AV b)) t -> (ulong_of b <= 512)%Z) -> (forall b, In (mkA CKA_VALUE (AV b)) t -> (zlen b <= 512)%Z) ->
  good (fun p => exists l b, snd p = set_data o (KSym l b) /\ bufok l b /\
     (~ has t CKA_VALUE -> l = 0%Z \/ exists v, In (mkA CKA_VALUE_LEN (AV v)) t /\ l = ulong_of v)) (SetSecretKey o v).
Proof.
  intros G P L V. pose proof (param_nth t _ v G P) as N.
  pose proof (N 0%nat CKA_VALUE_LEN eq_refl) as N0. pose proof (N 1%nat CKA_VALUE eq_refl) as N1. clear N.
  unfold SetSecretKey. cbv zeta.
  assert (F : forall c l, (0 <= l <= 512)%Z -> (l = 0%Z \/ exists v, In (mkA CKA_VALUE_LEN (AV v)) t /\ l = ulong_of v) ->
    exists l' b, snd (c : Z, set_data o (KSym l (zeros SYM_BUF))) = set_data o (KSym l' b) /\ bufok l' b /\
      (~ has t CKA_VALUE -> l' = 0%Z \/ exists v, In (mkA CKA_VALUE_LEN (AV v)) t /\ l' = ulong_of v)).
  { intros c l B X. eexists _, _. split; [reflexivity|]. split; [split; [exact B|reflexivity]|]. auto. }
  match goal with |- good _ (if ?b then _ else _) => destruct b end; [cbn [good]; apply F; [lia|auto]|].
  assert (B : forall k, match nth 0 v None with Some b => u32 (ulong_of b) | None => 0%Z end = k -> (0 <= k <= 512)%Z /\ (k = 0%Z \/ exists v, In (mkA CKA_VALUE_LEN (AV v)) t /\ k = ulong_of v)).
  { intros k <-. destruct (nth 0 v None) as [b|]; [|split; [lia|auto]]. specialize (L _ N0). pose proof (ulong_pos b). rewrite u32_small by lia. split; [lia|]. right. eauto. }
  set (klen := match nth 0 v None with Some b => u32 (ulong_of b) | None => 0%Z end) in *. specialize (B klen eq_refl). clearbody klen. destruct B as [B1 B2].
  destruct (nth 1 v None) as [b|]; [|cbn [good]; apply F; assumption].
  specialize (V _ N1). pose proof (zlen_nonneg _ b).
  destruct (andb _ _) eqn:A; [cbn [good]; apply F; assumption|].
  set (k' := if (klen =? 0)%Z then u32 (zlen b) else klen).
  assert (K' : (0 <= k' <= 512)%Z /\ (k' <= zlen b)%Z).
  { unfold k'. destruct (Z.eqb_spec klen 0); [rewrite u32_small by lia; lia|]. cbn in A. destruct (Z.ltb_spec (zlen b) klen); [discriminate|lia]. }
  clearbody k'. change (Z.of_nat SYM_BUF) with 512%Z. destruct (Z.ltb_spec 512 k'); [lia|]. cbn [good].
  eexists _, _. split; [reflexivity|]. split.
  - split; [apply K'|]. apply overlay_len; [reflexivity|]. unfold zlen in K'. rewrite firstn_length. change SYM_BUF with 512%nat. lia.
  - intros X. exfalso. apply X. exists (AV b). exact N1.
Qed.
Lemma SetDh_safe o v : is_cert o = false -> o_type o = CKK_DH -> osafe o ->
  good (fun p => exists a g l b, snd p = set_data o (KDh a g l b) /\ bufok l b) (SetDhKey oe o v).
Proof.
  intros C T S. unfold SetDhKey. eapply good_bind; [apply (dh_view o C T S)|]. intros [[[p0 g0] l] buf] B.
  destruct (match nth 0 v None with Some _ => _ | None => _ end) as [c0 [p g]]. destruct (negb _); [cbn; eauto 10|].
  destruct (nth 2 v None) as [b|]; [|cbn; eauto 10]. change (Z.of_nat DH_BUF) with 512%Z. destruct (Z.ltb_spec 512 (zlen b)); [cbn; eauto 10|].
  cbn. pose proof (zlen_nonneg _ b). eexists _, _, _, _. split; [reflexivity|]. destruct B as [B1 B2]. split; [lia|]. apply overlay_len; [exact B2|]. unfold zlen in *. lia.
Qed.
Lemma SetCert_shape o v : exists l b, snd (SetCert o v) = set_data o (KCert l b) /\ (0 <= l <= zlen b)%Z.
Proof.
  assert (X : forall c, exists l b, snd (c : Z, set_data o (KCert 0 (zeros CERT_BUF))) = set_data o (KCert l b) /\ (0 <= l <= zlen b)%Z).
  { intros c. eexists _, _. split; [reflexivity|]. pose proof (zlen_nonneg _ (zeros CERT_BUF)). lia. }
  unfold SetCert. cbv zeta. match goal with |- context [if ?b then _ else _] => destruct b; [apply X|] end.
  destruct (nth 1 v None) as [b|]; [|apply X]. destruct (Z.ltb_spec (Z.of_nat CERT_BUF) (zlen b)); [apply X|]. eexists _, _. split; [reflexivity|].
  unfold overlay. rewrite zlen_app. pose proof (zlen_nonneg _ b). pose proof (zlen_nonneg _ (skipn (length b) (zeros CERT_BUF))). lia.
Qed.

Lemma SetKey_safe t o v ps : osafe o -> okt (is_cert o) (o_type o) t -> params_of o = Some ps -> param_vals t ps = Some v ->
  good (fun p => osafe (snd p) /\ kin o (snd p) /\ o_class (snd p) = o_class o /\ (fst p = 0%Z -> keyed t o (snd p))) (SetKey oe o v).
Proof.
  intros S K Ps Pv. unfold SetKey, params_of in *. change (o_class o =? CKO_CERTIFICATE)%Z with (is_cert o) in *.
  destruct (is_cert o) eqn:C.
  { cbn [good]. destruct (SetCert_shape o v) as (l & b & -> & B). split; [apply data_safe; [exact S|rewrite C; exact B]|]. split; [kk|]. split; [reflexivity|]. intros _ X. congruence. }
  destruct (types o C S) as [T|[T|[T|T]]].
  - rewrite T in *. cbn -[SetRsaKey]. destruct (SetRsa_shape o v) as (r & n & E1 & E2). rewrite E2. split.
    + assert (X : osafe (set_data o (KRsa r))) by (apply data_safe; [exact S|rewrite C, T; exact I]). exact X.
    + split; [kk|]. split; [reflexivity|]. intros _ _. rewrite T. split; [discriminate|]. intros X. discriminate X.
  - rewrite T in *. cbn [CKK_EC CKK_RSA Z.eqb]. change (CKK_EC =? CKK_RSA)%Z with false in Ps. change (CKK_EC =? CKK_EC)%Z with true in Ps. cbv iota in Ps. injection Ps as <-.
    change (CKK_EC =? CKK_RSA)%Z with false. change (CKK_EC =? CKK_EC)%Z with true. cbv iota.
    eapply good_imp; [apply (SetEc_safe t); [apply K|exact Pv|apply (k_point _ _ _ K); reflexivity]|]. cbn. intros [c o'] (k & E & F). cbn in *. subst o'.
    split; [apply data_safe; [exact S|rewrite C, T; exact I]|]. split; [kk|]. split; [reflexivity|]. intros C0 _. rewrite T. split; [|discriminate].
    intros _ Hp. exists k. auto.
  - rewrite T. change (CKK_DH =? CKK_RSA)%Z with false. change (CKK_DH =? CKK_EC)%Z with false. change (CKK_DH =? CKK_DH)%Z with true. cbv iota.
    eapply good_imp; [apply SetDh_safe; assumption|]. cbn. intros [c o'] (p & g & l & b & E & F). cbn in *. subst o'.
    split; [apply data_safe; [exact S|rewrite C, T; exact F]|]. split; [kk|]. split; [reflexivity|]. intros _ _. rewrite T. split; [discriminate|]. intros X. discriminate X.
  - assert (X : (o_type o =? CKK_RSA)%Z = false /\ (o_type o =? CKK_EC)%Z = false /\ (o_type o =? CKK_DH)%Z = false) by (apply sym_cases in T as [->| ->]; auto).
    destruct X as (X1 & X2 & X3). rewrite X1, X2, X3 in *. fold (sym_type (o_type o)) in Ps. rewrite T in Ps. injection Ps as <-.
    eapply good_imp; [apply (SetSym_safe t); [apply K|exact Pv|apply (k_len _ _ _ K); auto|apply (k_value _ _ _ K); auto]|]. cbn. intros [c o'] (l & b & E & F & Hl). cbn in *. subst o'.
    split.
    + apply data_safe; [exact S|]. rewrite C. unfold dsafe. rewrite X1, X2, X3. fold (sym_type (o_type o)). rewrite T. exact F.
    + split; [kk|]. split; [reflexivity|]. intros _ _. split; [intros Y; rewrite Y in X2; discriminate|]. intros _ Hv. exists l, b. split; [reflexivity|exact (Hl Hv)].
Qed.

Definition classed (t : template) (o o' : obj) : Prop :=
  o_class o' = o_class o \/ exists b, In (mkA CKA_CLASS (AV b)) t /\ o_class o' = ulong_of b.
(** The key, kept. *)
Lemma SetAttr_safe o a b : a_val a = AV b -> check_attr true a = CKR_OK -> osafe o -> (a_type a = CKA_CLASS -> (ulong_of b =? CKO_CERTIFICATE)%Z = is_cert o) ->
  good (fun p => osafe (snd p) /\ kin o (snd p) /\ o_data (snd p) = o_data o /\
    (if (a_type a =? CKA_CLASS)%Z then o_class (snd p) = ulong_of b else o_class (snd p) = o_class o)) (SetAttr o a).
Proof.
  destruct a as [ty va]. cbn [a_val a_type]. intros -> Ck S Cl. unfold SetAttr. cbn [a_val a_type].
  assert (K : forall c, good (fun p => osafe (snd p) /\ kin o (snd p) /\ o_data (snd p) = o_data o /\ o_class (snd p) = o_class o) (Ok (c : Z, o))).
  { intros c. cbn. auto using kin_refl. }
  destruct (set_opflag_of ty) as [f|] eqn:F1.
  { cbn. replace (ty =? CKA_CLASS)%Z with false; [repeat split; try apply S; kk|]. symmetry. apply Z.eqb_neq. intros ->. discriminate F1. }
  destruct (set_flag_of ty) as [f|] eqn:F2.
  { cbn. replace (ty =? CKA_CLASS)%Z with false; [repeat split; try apply S; kk|]. symmetry. apply Z.eqb_neq. intros ->. discriminate F2. }
  destruct (Z.eqb_spec ty CKA_CLASS) as [E|E].
  { cbn [good snd v_bytes]. specialize (Cl E). destruct S as (S1 & S2 & S3 & S4 & S5 & S6 & S7). unfold osafe, is_cert in *. cbn. rewrite Cl.
    pose proof (u64_r (le (firstn 8 b))). repeat split; auto; apply H. }
  destruct (ty =? CKA_ID)%Z. { cbn. repeat split; try apply S. }
  destruct (ty =? CKA_LABEL)%Z. { cbn. repeat split; try apply S. }
  cbn [v_len v_bytes].
  destruct (Z.eqb_spec ty CKA_START_DATE). { destruct (Z.eqb_spec (zlen b) 8); [|apply K]. cbn. assert (length b = 8%nat) by (unfold zlen in *; lia). repeat split; try apply S; auto. }
  destruct (Z.eqb_spec ty CKA_END_DATE). { destruct (Z.eqb_spec (zlen b) 8); [|apply K]. cbn. assert (length b = 8%nat) by (unfold zlen in *; lia). repeat split; try apply S; auto. }
  repeat match goal with |- good _ (if ?b then _ else _) => destruct b end; apply K.
Qed.
Lemma set_loop_safe c t : forall o, check_attrs true t = CKR_OK -> given t -> osafe o -> is_cert o = c ->
  (forall b, In (mkA CKA_CLASS (AV b)) t -> (ulong_of b =? CKO_CERTIFICATE)%Z = c) ->
  good (fun p => osafe (snd p) /\ kin o (snd p) /\ o_data (snd p) = o_data o /\ is_cert (snd p) = c /\ classed t o (snd p) /\
    (fst p = CKR_OK -> has t CKA_CLASS -> exists b, In (mkA CKA_CLASS (AV b)) t /\ o_class (snd p) = ulong_of b)) (set_loop o t).
Proof.
  induction t as [|a t IH]; intros o Ck G S C Cl; cbn [set_loop check_attrs] in *.
  { cbn. unfold classed. repeat split; auto; try apply S. intros _ (v & []). }
  destruct (check_attr true a =? CKR_OK)%Z eqn:E; [|rewrite Ck in E; discriminate]. apply Z.eqb_eq in E.
  destruct (G a (or_introl eq_refl)) as (b & Eb).
  assert (Ea : a_type a = CKA_CLASS -> a = mkA CKA_CLASS (AV b)) by (intros <-; destruct a; cbn in *; subst; reflexivity).
  eapply good_bind; [apply (SetAttr_safe o a b Eb E S)|].
  { intros T. rewrite C. apply Cl. left. auto. }
  intros [r o1]. cbn [fst snd]. intros (S1 & K1 & D1 & C1).
  assert (Ci : is_cert o1 = c).
  { destruct (Z.eqb_spec (a_type a) CKA_CLASS) as [T|T].
    - unfold is_cert. rewrite C1. apply Cl. left. auto.
    - unfold is_cert in *. rewrite C1. exact C. }
  destruct (set_rv r =? CKR_OK)%Z eqn:R.
  - eapply good_imp; [apply IH; auto|].
    { intros x X. apply G. right. exact X. }
    { intros x X. apply Cl. right. exact X. }
    intros [r2 o2]. cbn [fst snd]. intros (S2 & K2 & D2 & C2 & Q2 & H2). repeat split; try apply S2; try (eapply kin_trans; eauto); try congruence.
    + unfold classed in *. destruct Q2 as [Q2|(b2 & Q2 & Q3)].
      * destruct (Z.eqb_spec (a_type a) CKA_CLASS) as [T|T]; [right; exists b; split; [left; auto|congruence]|left; congruence].
      * right. exists b2. split; [right; exact Q2|exact Q3].
    + intros O Hc. unfold classed in Q2. destruct Q2 as [Q2|(b2 & Q2 & Q3)].
      * destruct (Z.eqb_spec (a_type a) CKA_CLASS) as [T|T]; [exists b; split; [left; auto|congruence]|].
        destruct Hc as (v & [Hc|Hc]); [subst a; cbn in T; contradiction|]. destruct (H2 O (ex_intro _ v Hc)) as (b2 & I2 & E2). exists b2. split; [right; exact I2|exact E2].
      * exists b2. split; [right; exact Q2|exact Q3].
  - cbn [good fst snd]. repeat split; try apply S1; try apply K1; auto.
    + unfold classed. destruct (Z.eqb_spec (a_type a) CKA_CLASS) as [T|T]; [right; exists b; split; [left; auto|exact C1]|left; exact C1].
    + intros O. rewrite O in R. discriminate.
Qed.
Lemma SetAV_safe rw o t : osafe o -> (check_attrs true t = CKR_OK -> okt (is_cert o) (o_type o) t) ->
  good (fun p => osafe (snd p) /\ kin o (snd p) /\ is_cert (snd p) = is_cert o /\ classed t o (snd p) /\
    (fst p = CKR_OK -> check_attrs true t = CKR_OK /\ keyed t o (snd p) /\ (has t CKA_CLASS -> exists b, In (mkA CKA_CLASS (AV b)) t /\ o_class (snd p) = ulong_of b)))
    (SetAttributeValue oe rw o t).
Proof.
  intros S K. unfold SetAttributeValue.
  assert (X : forall c, c <> CKR_OK -> good (fun p => osafe (snd p) /\ kin o (snd p) /\ is_cert (snd p) = is_cert o /\ classed t o (snd p) /\
    (fst p = CKR_OK -> check_attrs true t = CKR_OK /\ keyed t o (snd p) /\ (has t CKA_CLASS -> exists b, In (mkA CKA_CLASS (AV b)) t /\ o_class (snd p) = ulong_of b))) (Ok (c, o))).
  { intros c N. cbn. unfold classed. repeat split; auto; try apply S; contradiction. }
  destruct (negb rw); [apply X; discriminate|]. cbv zeta. destruct (Z.eqb_spec (check_attrs true t) CKR_OK) as [E|E]; cbn [negb]; [|apply X, E].
  specialize (K E). destruct (params_of o) as [ps|] eqn:P; [|apply X; discriminate]. destruct (param_vals t ps) as [v|] eqn:V; [|apply X; discriminate].
  eapply good_bind; [eapply SetKey_safe; eauto|]. intros [c o1]. cbn [fst snd]. intros (S1 & K1 & C1 & D1).
  assert (Ci : is_cert o1 = is_cert o) by (unfold is_cert; rewrite C1; reflexivity).
  assert (Y : forall c, c <> CKR_OK -> good (fun p => osafe (snd p) /\ kin o (snd p) /\ is_cert (snd p) = is_cert o /\ classed t o (snd p) /\
    (fst p = CKR_OK -> check_attrs true t = CKR_OK /\ keyed t o (snd p) /\ (has t CKA_CLASS -> exists b, In (mkA CKA_CLASS (AV b)) t /\ o_class (snd p) = ulong_of b))) (Ok (c, o1))).
  { intros c0 N. cbn. unfold classed. repeat split; auto; try apply S1; try apply K1; contradiction. }
  destruct (c =? MEMORY_E)%Z; [apply Y; discriminate|]. destruct (Z.eqb_spec c 0) as [C0|C0]; cbn [negb]; [|apply Y; discriminate].
  eapply good_imp; [apply (set_loop_safe (is_cert o)); auto; apply K|]. intros [c2 o2]. cbn [fst snd]. intros (S2 & K2 & D2 & C2 & Q2 & H2).
  split; [exact S2|]. split; [eapply kin_trans; eauto|]. split; [exact C2|]. split.
  { unfold classed in *. rewrite C1 in Q2. exact Q2. }
  intros O. split; [exact E|]. split; [|intros Hc; exact (H2 O Hc)].
  unfold keyed in *. rewrite D2. apply D1, C0.
Qed.

Lemma new_safe u ty cls : (0 <= cls < 2^64)%Z -> dsafe (cls =? CKO_CERTIFICATE)%Z ty KZero -> osafe (set_class (obj_new u ty) cls).
Proof. intros C D. unfold osafe, is_cert. cbn. repeat split; auto; lia. Qed.
Definition made (t : template) (u : nat) (ty cls : Z) (o : obj) : Prop :=
  osafe o /\ o_uid o = u /\ o_type o = ty /\ o_class o = cls /\ keyed t (set_class (obj_new u ty) cls) o.
Lemma apt_okt cls ty t : apt cls ty t -> okt (cls =? CKO_CERTIFICATE)%Z ty t.
Proof.
  intros A. split; [apply A|intros b I; rewrite (apt_class _ _ _ A b I); reflexivity|intros _; apply A| |].
  - intros _ T b I. apply (apt_len _ _ _ A); [|exact I]. apply sym_cases in T. exact T.
  - intros _ T b I. apply (apt_value _ _ _ A); [|exact I]. apply sym_cases in T. exact T.
Qed.
Lemma NewObject_safe rw u ty cls t : (0 <= cls < 2^64)%Z -> dsafe (cls =? CKO_CERTIFICATE)%Z ty KZero -> apt cls ty t ->
  good (fun p => forall o, snd p = Some o -> made t u ty cls o) (NewObject oe rw u ty cls t).
Proof.
  intros C D A. unfold NewObject. eapply good_bind; [apply (SetAV_safe rw _ t (new_safe u ty cls C D)); intros _; exact (apt_okt _ _ _ A)|].
  intros [rv o]. cbn [fst snd good]. intros (S & K & Ci & Q & H) o' E. destruct (Z.eqb_spec rv CKR_OK) as [R|R]; [|discriminate]. injection E as <-.
  destruct (H R) as (_ & Kd & _). destruct K as (K1 & K2 & K3 & K4). cbn in K1, K2. unfold made. repeat split; try apply S; auto; try apply Kd; auto.
  destruct Q as [Q|(b & I & Q)]; [exact Q|]. rewrite Q. apply (apt_class _ _ _ A b I).
Qed.
Lemma tmpl_range a v : tmpl_ulong a = Some v -> (0 <= v < 2^64)%Z.
Proof. unfold tmpl_ulong. destruct (a_val a); try discriminate. destruct (_ =? _)%Z; [|discriminate]. intros [= <-]. apply (u64_r (le (firstn 8 b))). Qed.
Lemma mem_dsafe k : mem k [CKK_RSA; CKK_EC; CKK_DH; CKK_AES; CKK_GENERIC_SECRET] = true -> dsafe false k KZero.
Proof. unfold mem. cbn [existsb]. intros H. repeat (apply Bool.orb_true_iff in H as [H|H]); try (apply Z.eqb_eq in H; rewrite H; exact I). discriminate. Qed.
Lemma CreateObject_safe rw u t : create_ok t ->
  good (fun p => forall o, snd p = Some o -> exists cls ty, asks t cls ty /\ made t u ty cls o) (CreateObject oe rw u t).
Proof.
  intros Cr.
  assert (B : forall cls, (0 <= cls < 2^64)%Z -> (ulong_in t CKA_CLASS = Some cls \/ (find_last t CKA_CLASS = None /\ cls = UNAVAILABLE)) ->
    good (fun p => forall o, snd p = Some o -> exists cls ty, asks t cls ty /\ made t u ty cls o)
    (let '(ty, gd) := if (cls =? CKO_CERTIFICATE)%Z then (CKA_CERTIFICATE_TYPE, [0; 1; 2]%Z)
      else (CKA_KEY_TYPE, [CKK_RSA; CKK_EC; CKK_DH; CKK_AES; CKK_GENERIC_SECRET]) in
    match find_last t ty with
    | None => Ok (CKR_TEMPLATE_INCOMPLETE, None)
    | Some a => match tmpl_ulong a with
                | None => Ok (CKR_ATTRIBUTE_VALUE_INVALID, None)
                | Some k => if mem k gd then NewObject oe rw u k cls t
                            else Ok (CKR_ATTRIBUTE_VALUE_INVALID, None)
                end
    end)).
  { intros cls R Q.
    assert (X : forall aty gd, aty = (if (cls =? CKO_CERTIFICATE)%Z then CKA_CERTIFICATE_TYPE else CKA_KEY_TYPE) -> (forall k, mem k gd = true -> dsafe (cls =? CKO_CERTIFICATE)%Z k KZero) ->
      good (fun p => forall o, snd p = Some o -> exists cls ty, asks t cls ty /\ made t u ty cls o)
      match find_last t aty with
      | None => Ok (CKR_TEMPLATE_INCOMPLETE, None)
      | Some a => match tmpl_ulong a with None => Ok (CKR_ATTRIBUTE_VALUE_INVALID, None)
         | Some k => if mem k gd then NewObject oe rw u k cls t else Ok (CKR_ATTRIBUTE_VALUE_INVALID, None) end end).
    { intros aty gd Ea Hg. destruct (find_last t aty) as [a|] eqn:F; [|cbn; discriminate]. destruct (tmpl_ulong a) as [k|] eqn:U; [|cbn; discriminate].
      destruct (mem k gd) eqn:M; [|cbn; discriminate].
      assert (As : asks t cls k). { split; [exact Q|]. rewrite <- Ea. unfold ulong_in. rewrite F. exact U. }
      destruct (Cr _ _ As) as [A _]. eapply good_imp; [apply NewObject_safe; auto|]. intros p H o E. exists cls, k. auto. }
    destruct (cls =? CKO_CERTIFICATE)%Z; apply X; auto; [intros; exact I|apply mem_dsafe]. }
  unfold CreateObject. cbv zeta. destruct (find_last t CKA_CLASS) as [a|] eqn:F.
  - destruct (tmpl_ulong a) as [cls|] eqn:U; [|cbn; discriminate]. apply B; [eapply tmpl_range; eauto|]. left. unfold ulong_in. rewrite F. exact U.
  - apply B; [unfold UNAVAILABLE; lia|auto].
Qed.

(** ** Reading attributes *)
Lemma plain_safe o ty buf : osafe o -> In ty plain -> good (fun _ => True) (GetAttr oe o ty buf).
Proof.
  intros S P. assert (Sv : forall s, svsafe s -> good (fun _ => True) (get_sval s buf)).
  { intros [b|l]; cbn; [auto|]. intros ->. destruct buf; [|exact I]. destruct (_ <? _)%Z; exact I. }
  unfold plain in P. repeat (destruct P as [<-|P]; [unfold GetAttr; cbn -[get_sval]; try exact I; apply Sv, S|]). contradiction.
Qed.
Lemma getbuf_safe l b buf : (0 <= l <= zlen b)%Z -> good (fun _ => True) (get_buf l b buf).
Proof. intros B. unfold get_buf. destruct buf; [|exact I]. destruct (_ <? _)%Z; [exact I|]. destruct (Z.ltb_spec (zlen b) l); [lia|exact I]. Qed.
Lemma bufok_z l b : bufok l b -> (0 <= l <= zlen b)%Z.
Proof. intros [A B]. unfold zlen. rewrite B. cbn. lia. Qed.
Lemma point_safe k id v : ec_curve k = Some id -> roomy v (point_room oe id) -> good (fun _ => True) (GetEcPoint oe k (buf_of v)).
Proof.
  intros E R. unfold GetEcPoint. rewrite E. cbv zeta. destruct (buf_of v) as [m|] eqn:Bv; [|exact I]. destruct (Z.ltb_spec m (u32 (oe_ecsize oe id * 2 + 1))); [exact I|].
  pose proof (ok_export _ OK id (ec_pt k)) as X. destruct (oe_export oe id (ec_pt k)) as [c pt]. cbn [fst snd] in X.
  match goal with |- context [(m <? zlen ?w)%Z] => set (ww := w) end.
  assert (W : (zlen ww <= point_room oe id)%Z).
  { unfold ww, point_room. cbv zeta. set (d := u32 (oe_ecsize oe id * 2 + 1)) in *. assert (0 <= d)%Z by apply Z.mod_pos_bound, eq_refl.
    replace (zlen _) with (1 + zlen (if (128 <=? d)%Z then [129%N] else []) + 1 + zlen (if (c =? 0)%Z then pt else []))%Z.
    2:{ unfold zlen. cbn [app length]. rewrite !app_length. cbn [length]. lia. }
    assert (zlen (if (c =? 0)%Z then pt else []) <= d)%Z by (destruct (Z.eqb_spec c 0); [auto|change (zlen (@nil N)) with 0%Z; lia]).
    destruct (Z.leb_spec 128 d); destruct (Z.ltb_spec d 128); try lia; [change (zlen [129%N]) with 1%Z|change (zlen (@nil N)) with 0%Z at 1]; lia. }
  clearbody ww. assert (M : (zlen ww <= m)%Z).
  { destruct v as [b|n|b]; cbn in Bv; try discriminate; injection Bv as <-; cbn in R; [lia|].
    unfold point_room in W. cbv zeta in W. assert (u32 (oe_ecsize oe id * 2 + 1) < 2^32)%Z by apply Z.mod_pos_bound, eq_refl. unfold UNAVAILABLE. destruct (_ <? 128)%Z in W; lia. }
  destruct (Z.ltb_spec m (zlen ww)); [lia|exact I].
Qed.
Lemma GetAttr_safe o a : osafe o -> readable oe o a -> good (fun _ => True) (GetAttr oe o (a_type a) (buf_of (a_val a))).
Proof.
  intros S [P|R]; [apply plain_safe; assumption|]. destruct a as [ty v]. cbn [a_type a_val] in *.
  destruct (in_dec Z.eq_dec ty plain) as [P|P]; [apply plain_safe; assumption|].
  fold (is_cert o) in R. destruct (is_cert o) eqn:C.
  { subst ty. unfold GetAttr. cbn -[as_cert get_buf]. fold (is_cert o). rewrite C. eapply good_bind; [apply cert_view; assumption|]. intros [l b] B. apply getbuf_safe, B. }
  unfold GetAttr. destruct (get_flag_of ty); [exact I|].
  repeat (match goal with |- good _ (if (ty =? ?x)%Z then _ else _) => destruct (Z.eqb_spec ty x) as [?|_]; [exfalso; apply P; subst; cbn; tauto|] end).
  fold (is_cert o). rewrite C. cbn [andb]. destruct (types o C S) as [T|[T|[T|T]]].
  - rewrite T. change (CKK_RSA =? CKK_RSA)%Z with true. cbv iota. unfold RsaGetAttr. eapply good_bind; [apply rsa_view; assumption|]. intros r _.
    cbv zeta. repeat match goal with |- good _ (if ?b then _ else _) => destruct b end; exact I.
  - rewrite T. change (CKK_EC =? CKK_RSA)%Z with false. change (CKK_EC =? CKK_EC)%Z with true. cbv iota. unfold EcGetAttr. eapply good_bind; [apply ec_view; assumption|]. intros k Ek. cbv zeta.
    assert (X : ty = CKA_EC_PARAMS \/ ty = CKA_EC_POINT -> exists id, ec_curve k = Some id /\ (ty = CKA_EC_POINT -> roomy v (point_room oe id))).
    { intros X. destruct (R T X) as (k' & id & D & Ec & Rm). exists id. destruct Ek as [Ek|[Ek _]]; rewrite Ek in D; [injection D as <-; auto|discriminate]. }
    destruct (Z.eqb_spec ty CKA_EC_PARAMS) as [Ty|_]. { destruct (X (or_introl Ty)) as (id & E & _). unfold GetEcParams. rewrite E. destruct (buf_of v); [|exact I]. cbv zeta. destruct (_ <? _)%Z; exact I. }
    destruct (ty =? CKA_VALUE)%Z; [exact I|]. destruct (Z.eqb_spec ty CKA_EC_POINT) as [Ty|_]; [|exact I]. destruct (ec_kind k =? 3)%Z; [exact I|].
    destruct (X (or_intror Ty)) as (id & E & Rm). apply (point_safe k id); auto.
  - rewrite T. change (CKK_DH =? CKK_RSA)%Z with false. change (CKK_DH =? CKK_EC)%Z with false. change (CKK_DH =? CKK_DH)%Z with true. cbv iota. unfold DhGetAttr.
    eapply good_bind; [apply dh_view; assumption|]. intros [[[p g] l] b] B. repeat match goal with |- good _ (if ?b then _ else _) => destruct b end; try exact I. apply getbuf_safe, bufok_z, B.
  - assert (X : (o_type o =? CKK_RSA)%Z = false /\ (o_type o =? CKK_EC)%Z = false /\ (o_type o =? CKK_DH)%Z = false) by (apply sym_cases in T as [->| ->]; auto).
    destruct X as (X1 & X2 & X3). rewrite X1, X2, X3. fold (sym_type (o_type o)). rewrite T. unfold SecretGetAttr.
    eapply good_bind; [apply sym_view; assumption|]. intros [l b] B. repeat match goal with |- good _ (if ?b then _ else _) => destruct b end; try exact I. apply getbuf_safe, bufok_z, B.
Qed.
Lemma get_loop_safe o t : osafe o -> (forall a, In a t -> readable oe o a) ->
  good (fun p => fst p = CKR_OK -> forall a', In a' (snd p) -> exists a g, In a t /\ GetAttr oe o (a_type a) (buf_of (a_val a)) = Ok g /\ fst (fst g) = 0%Z /\ a' = mkA (a_type a) (put (a_val a) g))
    (get_loop oe o t).
Proof.
  intros S. induction t as [|a t IH]; intros R; cbn [get_loop]; [cbn; intros _ a' []|].
  pose proof (GetAttr_safe o a S (R a (or_introl eq_refl))) as G. destruct (GetAttr oe o (a_type a) (buf_of (a_val a))) as [g| |] eqn:Eg; cbn [bind]; try exact I; try exact G.
  destruct (get_rv (fst (fst g)) =? CKR_OK)%Z eqn:Rv.
  - eapply good_bind; [apply IH; intros x X; apply R; right; exact X|]. intros [rv r]. cbn [fst snd good]. intros H O a' [<-|I'].
    + exists a, g. split; [left; reflexivity|]. split; [exact Eg|]. split; [|reflexivity]. unfold get_rv in Rv. destruct (Z.eqb_spec (fst (fst g)) 0); [assumption|]. repeat match type of Rv with context [if ?b then _ else _] => destruct b end; discriminate.
    + destruct (H O a' I') as (a0 & g0 & I0 & E). exists a0, g0. split; [right; exact I0|exact E].
  - cbn. intros O. rewrite O in Rv. discriminate.
Qed.
Lemma GetAV_safe o t : osafe o -> (forall a, In a t -> readable oe o a) ->
  good (fun p => fst p = CKR_OK -> forall a', In a' (snd p) -> exists a g, In a t /\ GetAttr oe o (a_type a) (buf_of (a_val a)) = Ok g /\ fst (fst g) = 0%Z /\ a' = mkA (a_type a) (put (a_val a) g))
    (GetAttributeValue oe o t).
Proof.
  intros S R. unfold GetAttributeValue. destruct (Z.eqb_spec (check_attrs false t) CKR_OK) as [E|E]; [apply get_loop_safe; assumption|]. cbn. intros X. contradiction.
Qed.
Lemma get_types o t : forall rv t', get_loop oe o t = Ok (rv, t') -> map a_type t' = map a_type t.
Proof.
  induction t as [|a t IH]; intros rv t' H; cbn [get_loop] in H; [injection H as _ <-; reflexivity|].
  destruct (GetAttr _ _ _ _); cbn [bind] in H; try discriminate. destruct (_ =? _)%Z.
  - destruct (get_loop oe o t) as [[rv2 t2]| |]; cbn [bind] in H; try discriminate. injection H as _ <-. cbn. f_equal. eapply IH. reflexivity.
  - injection H as _ <-. reflexivity.
Qed.
Lemma getAV_types o t rv t' : GetAttributeValue oe o t = Ok (rv, t') -> map a_type t' = map a_type t.
Proof. unfold GetAttributeValue. cbv zeta. destruct (_ =? _)%Z; [apply get_types|]. intros [= _ <-]. reflexivity. Qed.
Lemma has_types t t' ty : map a_type t' = map a_type t -> has t' ty -> has t ty.
Proof.
  intros E (v & H). apply (in_map a_type) in H. rewrite E in H. apply in_map_iff in H as ([ty' v'] & X & H). cbn in X. subst. exists v'. exact H.
Qed.
Lemma Match_safe o a b : a_val a = AV b -> osafe o -> readable oe o a -> good (fun _ => True) (MatchAttr oe o a).
Proof.
  intros V S R. unfold MatchAttr. cbv zeta. destruct (2^63 <=? a_len a)%Z; [exact I|].
  pose proof (GetAttr_safe o a S R) as G. unfold a_len. rewrite V in *. cbn [buf_of v_len] in G |- *. eapply good_bind; [exact G|]. intros [[c l] w] _. destruct (andb _ _); exact I.
Qed.
End O.
