(** Lemmas for reading attributes back. *)
From Verif Require Import Base Ops Object ObjectSpec ObjectProofs.

(** Usage attributes and the bit of opFlag they live in. *)
Definition usageBits : list (Z * Z) :=
  [(CKA_ENCRYPT, 8); (CKA_DECRYPT, 9); (CKA_SIGN, 11); (CKA_SIGN_RECOVER, 12); (CKA_VERIFY, 13);
   (CKA_VERIFY_RECOVER, 14); (CKA_WRAP, 17); (CKA_DERIVE, 19)]%Z.
Definition usage_bit (ty : Z) : option Z :=
  match find (fun p => fst p =? ty)%Z usageBits with Some p => Some (snd p) | None => None end.

Definition sfield (s : sval) : option (list N) :=
  match s with SV b => Some b | SNull n => if (n =? 0)%Z then Some [] else None end.
Definition dfield (d : list N) : option (list N) := if (nth 0 d 0 =? 0)%N then None else Some d.
Definition bbyte (b : bool) : list N := [if b then 1%N else 0%N].

(** The value an attribute reads as, for those stored field by field. *)
Definition field (o : obj) (ty : Z) : option (list N) :=
  match usage_bit ty with
  | Some i => Some (bbyte (Z.testbit (o_opFlag o) i))
  | None =>
      if (ty =? CKA_LABEL)%Z then sfield (o_label o)
      else if (ty =? CKA_ID)%Z then sfield (o_keyId o)
      else if (ty =? CKA_START_DATE)%Z then dfield (o_start o)
      else if (ty =? CKA_END_DATE)%Z then dfield (o_end o)
      else if (ty =? CKA_CLASS)%Z then Some (to_le 8 (o_class o))
      else None
  end.
Definition plain : list Z :=
  [CKA_ENCRYPT; CKA_DECRYPT; CKA_SIGN; CKA_SIGN_RECOVER; CKA_VERIFY; CKA_VERIFY_RECOVER;
   CKA_WRAP; CKA_DERIVE; CKA_LABEL; CKA_ID; CKA_START_DATE; CKA_END_DATE; CKA_CLASS].

Ltac in_cases H :=
  cbn [In] in H; repeat (destruct H as [H|H]; [|]); [..|contradiction H].

Section Attr.
Variable oe : oenv.

Lemma sfield_get s b : sfield s = Some b -> forall n, (zlen b <= n)%Z ->
  get_sval s (Some n) = Ok (0%Z, Some (zlen b), b).
Proof.
  destruct s as [x|l]; cbn [sfield get_sval].
  - intros H n Hn. injection H as ->. unfold get_data.
    destruct (Z.ltb_spec n (zlen b)); [lia|reflexivity].
  - destruct (Z.eqb_spec l 0); [|discriminate]. intros H n Hn. injection H as <-. subst.
    change (zlen []) with 0%Z in *. destruct (Z.ltb_spec n 0); [lia|reflexivity].
Qed.

Lemma dfield_get d b : dfield d = Some b -> forall n, (zlen b <= n)%Z ->
  get_date d (Some n) = (0%Z, Some (zlen b), b).
Proof.
  unfold dfield, get_date. destruct (nth 0 d 0 =? 0)%N; [discriminate|].
  intros H n Hn. injection H as ->. unfold get_data.
  destruct (Z.ltb_spec n (zlen b)); [lia|reflexivity].
Qed.

Lemma get_data_ok d n : (zlen d <= n)%Z -> get_data d (Some n) = (0%Z, Some (zlen d), d).
Proof. intros. unfold get_data. destruct (Z.ltb_spec n (zlen d)); [lia|reflexivity]. Qed.

(** [field] is what GetAttr returns. *)
Lemma field_get o ty b : In ty plain -> field o ty = Some b ->
  forall n, (zlen b <= n)%Z -> GetAttr oe o ty (Some n) = Ok (0%Z, Some (zlen b), b).
Proof.
  intros Hin Hf n Hn.
  in_cases Hin; subst ty;
    unfold field in Hf;
    lazymatch type of Hf with
    | context [usage_bit ?x] => let r := eval vm_compute in (usage_bit x) in change (usage_bit x) with r in Hf
    end; cbv beta iota in Hf;
    unfold GetAttr;
    lazymatch goal with
    | |- context [get_flag_of ?x] =>
        let r := eval cbv -[CKF_ENCRYPT CKF_DECRYPT CKF_SIGN CKF_SIGN_RECOVER CKF_VERIFY CKF_VERIFY_RECOVER CKF_WRAP CKF_DERIVE] in (get_flag_of x) in change (get_flag_of x) with r
    end; cbv beta iota.
  1-8: injection Hf as <-; unfold get_opflag, get_bool.
  1: change CKF_ENCRYPT with (2^8)%Z.
  2: change CKF_DECRYPT with (2^9)%Z.
  3: change CKF_SIGN with (2^11)%Z.
  4: change CKF_SIGN_RECOVER with (2^12)%Z.
  5: change CKF_VERIFY with (2^13)%Z.
  6: change CKF_VERIFY_RECOVER with (2^14)%Z.
  7: change CKF_WRAP with (2^17)%Z.
  8: change CKF_DERIVE with (2^19)%Z.
  1-8: rewrite has_flag_bit by lia; f_equal; apply get_data_ok; exact Hn.
  - apply sfield_get; assumption.
  - apply sfield_get; assumption.
  - transitivity (Ok (get_date (o_start o) (Some n))); [reflexivity|].
    f_equal. apply dfield_get; assumption.
  - transitivity (Ok (get_date (o_end o) (Some n))); [reflexivity|].
    f_equal. apply dfield_get; assumption.
  - transitivity (Ok (get_ulong (o_class o) (Some n))); [reflexivity|].
    injection Hf as <-. f_equal. apply get_data_ok; exact Hn.
Qed.

(** ** One SetAttr step *)
Definition setBits : list (Z * Z) := (CKA_UNWRAP, 17%Z) :: usageBits.
Lemma set_opflag_inv ty f : set_opflag_of ty = Some f ->
  exists i, In (ty, i) setBits /\ f = (2^i)%Z /\ (0 <= i)%Z.
Proof.
  unfold set_opflag_of. intros H.
  repeat match type of H with
  | (if (?a =? ?b)%Z then _ else _) = _ =>
      let E := fresh "E" in destruct (Z.eqb_spec a b) as [E|E];
      [subst; injection H as <-|]
  end; try discriminate;
  eexists; (split; [unfold setBits, usageBits; cbn [In]; tauto|split; [reflexivity|lia]]).
Qed.

Lemma setBits_plain ty i : In (ty, i) setBits -> usage_bit ty = Some i \/ ty = CKA_UNWRAP.
Proof.
  intros H. unfold setBits, usageBits in H. in_cases H; injection H as <- <-; auto.
Qed.
Lemma usage_bit_in ty i : usage_bit ty = Some i -> In (ty, i) usageBits.
Proof.
  unfold usage_bit. destruct (find _ _) as [[a b]|] eqn:E; [|discriminate].
  intros H. injection H as <-. apply find_some in E. destruct E as [E1 E2].
  cbn in E2. apply Z.eqb_eq in E2. subst. exact E1.
Qed.
Lemma usage_bit_inj ty ty' i : usage_bit ty = Some i -> usage_bit ty' = Some i -> ty = ty'.
Proof.
  intros H1 H2. apply usage_bit_in in H1, H2. unfold usageBits in *.
  in_cases H1; injection H1 as <- <-; in_cases H2; inversion H2; reflexivity.
Qed.
Lemma usage_bit_nonneg ty i : usage_bit ty = Some i -> (0 <= i)%Z.
Proof. intros H. apply usage_bit_in in H. unfold usageBits in H. in_cases H; injection H as _ <-; lia. Qed.

(** Entries that write the attribute ty. *)
Definition affects (a : attr) (ty : Z) : Prop :=
  a_type a = ty \/ (ty = CKA_WRAP /\ a_type a = CKA_UNWRAP).

Lemma field_opFlag o f ty : usage_bit ty = None -> field (set_opFlag o f) ty = field o ty.
Proof. intros H. unfold field. rewrite H. reflexivity. Qed.

Lemma SetAttr_field_frame o a c o' ty :
  In ty plain -> ~ affects a ty -> SetAttr o a = Ok (c, o') -> field o' ty = field o ty.
Proof.
  intros Hin Hna H. unfold SetAttr in H.
  destruct (set_opflag_of (a_type a)) as [f|] eqn:E1.
  { injection H as _ <-. destruct (usage_bit ty) as [i|] eqn:Eu; [|apply field_opFlag; exact Eu].
    unfold field. rewrite Eu. do 2 f_equal. cbn [set_opFlag o_opFlag].
    apply set_opflag_inv in E1. destruct E1 as (j & Hj & -> & Hj0).
    rewrite put_flag_bit by (try lia; eapply usage_bit_nonneg; eauto).
    destruct (Z.eqb_spec i j); [|reflexivity]. subst j. exfalso. apply Hna.
    destruct (setBits_plain _ _ Hj) as [Hb|Hb].
    - left. eapply usage_bit_inj; eauto.
    - right. split; [|exact Hb]. rewrite Hb in Hj. unfold setBits, usageBits in Hj.
      in_cases Hj; try discriminate Hj. injection Hj as <-.
      apply (usage_bit_inj ty CKA_WRAP 17); [exact Eu|reflexivity]. }
  destruct (set_flag_of (a_type a)) as [f|]; [injection H as _ <-; reflexivity|].
  assert (Hne : a_type a <> ty) by (intros e; apply Hna; left; exact e).
  destruct (Z.eqb_spec (a_type a) CKA_CLASS) as [E|_].
  { injection H as _ <-. unfold field. destruct (usage_bit ty); [reflexivity|].
    destruct (Z.eqb_spec ty CKA_CLASS); [congruence|reflexivity]. }
  destruct (Z.eqb_spec (a_type a) CKA_ID) as [E|_].
  { destruct (new_sval _ _) as [[? ?]|?|?]; cbn [bind] in H; try discriminate.
    injection H as _ <-. unfold field. destruct (usage_bit ty); [reflexivity|].
    destruct (Z.eqb_spec ty CKA_ID); [congruence|reflexivity]. }
  destruct (Z.eqb_spec (a_type a) CKA_LABEL) as [E|_].
  { destruct (new_sval _ _) as [[? ?]|?|?]; cbn [bind] in H; try discriminate.
    injection H as _ <-. unfold field. destruct (usage_bit ty); [reflexivity|].
    destruct (Z.eqb_spec ty CKA_LABEL); [congruence|reflexivity]. }
  destruct (Z.eqb_spec (a_type a) CKA_START_DATE) as [E|_].
  { destruct (v_len (a_val a) =? 8)%Z; injection H as _ <-; [|reflexivity].
    unfold field. destruct (usage_bit ty); [reflexivity|].
    destruct (Z.eqb_spec ty CKA_START_DATE); [congruence|reflexivity]. }
  destruct (Z.eqb_spec (a_type a) CKA_END_DATE) as [E|_].
  { destruct (v_len (a_val a) =? 8)%Z; injection H as _ <-; [|reflexivity].
    unfold field. destruct (usage_bit ty); [reflexivity|].
    destruct (Z.eqb_spec ty CKA_END_DATE); [congruence|reflexivity]. }
  repeat match type of H with
  | (if ?b then _ else _) = _ => destruct b; [injection H as _ <-; reflexivity|]
  end.
  injection H as _ <-; reflexivity.
Qed.

(** Values CheckAttributes lets through read back unchanged. *)
Lemma to_le_ulong b : bytes_ok b -> length b = 8 -> to_le 8 (ulong_of b) = b.
Proof.
  intros Hb Hl. unfold ulong_of. rewrite firstn_all2 by lia.
  unfold u64. rewrite Z.mod_small.
  2: { assert (G : forall l, bytes_ok l -> (0 <= le l < 256 ^ Z.of_nat (length l))%Z).
       { induction l as [|x l IH]; intros F; [cbn; lia|]. apply Forall_cons_iff in F as [Fx F]. specialize (IH F).
         unfold byte_ok in Fx. cbn [le length]. rewrite Nat2Z.inj_succ, Z.pow_succ_r by lia. lia. }
       specialize (G b Hb). rewrite Hl in G. exact G. }
  revert Hl Hb. generalize 8. intros n. revert b.
  induction n as [|n IH]; intros [|x b] Hl Hb; try discriminate; [reflexivity|].
  apply Forall_cons_iff in Hb. destruct Hb as [Hx Hb]. unfold byte_ok in Hx.
  cbn [to_le le]. f_equal.
  - rewrite (Z.mul_comm 256), Z_mod_plus_full, Z.mod_small by lia. lia.
  - rewrite (Z.mul_comm 256), Z.div_add, Z.div_small by lia. apply IH; [|exact Hb].
    cbn [length] in Hl. lia.
Qed.

(** The value an entry must carry for [ty] to read back as [b]. *)
Lemma SetAttr_field_set o ty b c o' :
  In ty plain -> bytes_ok b -> check_attr true (mkA ty (AV b)) = CKR_OK ->
  (ty = CKA_START_DATE \/ ty = CKA_END_DATE -> nth 0 b 0%N <> 0%N) ->
  SetAttr o (mkA ty (AV b)) = Ok (c, o') -> field o' ty = Some b.
Proof.
  intros Hin Hb Hc Hd H.
  assert (Hbool : kind_of ty = Some AK_bool -> b = bbyte (bool_of b)).
  { intros Hk. unfold check_attr in Hc. cbn [a_type a_val] in Hc. rewrite Hk in Hc.
    cbn [v_len] in Hc. destruct (Z.eqb_spec (zlen b) 1) as [E|E]; [|discriminate Hc].
    cbn [negb Z.eqb] in Hc.
    destruct b as [|x [|y b]]; unfold zlen in E; cbn [length] in E; try lia.
    cbn in Hc. unfold bool_of, bbyte. cbn [nth] in *.
    destruct (N.ltb_spec 1 x); [discriminate Hc|].
    f_equal. destruct (N.eqb_spec x 0); cbn [negb]; [assumption|]. lia. }
  assert (Hul : kind_of ty = Some AK_ulong \/ kind_of ty = Some AK_date -> zlen b = 8%Z).
  { intros Hk. unfold check_attr in Hc. cbn [a_type a_val v_len] in Hc.
    destruct Hk as [Hk|Hk]; rewrite Hk in Hc; destruct (Z.eqb_spec (zlen b) 8); auto; discriminate Hc. }
  in_cases Hin; subst ty.
  1-8: injection H as _ <-; unfold field;
    lazymatch goal with |- context [usage_bit ?x] =>
      let r := eval vm_compute in (usage_bit x) in change (usage_bit x) with r end;
    cbv beta iota; f_equal; cbn [set_opFlag o_opFlag a_val]; unfold v_bool; cbn [v_bytes].
  1: change CKF_ENCRYPT with (2^8)%Z.
  2: change CKF_DECRYPT with (2^9)%Z.
  3: change CKF_SIGN with (2^11)%Z.
  4: change CKF_SIGN_RECOVER with (2^12)%Z.
  5: change CKF_VERIFY with (2^13)%Z.
  6: change CKF_VERIFY_RECOVER with (2^14)%Z.
  7: change CKF_WRAP with (2^17)%Z.
  8: change CKF_DERIVE with (2^19)%Z.
  1-8: rewrite put_flag_bit, Z.eqb_refl by lia; symmetry; apply Hbool; reflexivity.
  - injection H as _ <-. reflexivity.
  - injection H as _ <-. reflexivity.
  - assert (E : zlen b = 8%Z) by (apply Hul; right; reflexivity).
    unfold SetAttr in H. cbn [a_type a_val v_len] in H. rewrite E in H.
    injection H as _ <-. change (dfield b = Some b). unfold dfield.
    destruct (N.eqb_spec (nth 0 b 0%N) 0); [|reflexivity]. exfalso. apply Hd; auto.
  - assert (E : zlen b = 8%Z) by (apply Hul; right; reflexivity).
    unfold SetAttr in H. cbn [a_type a_val v_len] in H. rewrite E in H.
    injection H as _ <-. change (dfield b = Some b). unfold dfield.
    destruct (N.eqb_spec (nth 0 b 0%N) 0); [|reflexivity]. exfalso. apply Hd; auto.
  - assert (E : zlen b = 8%Z) by (apply Hul; left; reflexivity).
    injection H as _ <-. change (Some (to_le 8 (ulong_of b)) = Some b). f_equal.
    apply to_le_ulong; [exact Hb|]. unfold zlen in E. lia.
Qed.

(** ** Reading through C_GetAttributeValue *)
Lemma check_get_plain o ty b buf :
  In ty plain -> field o ty = Some b ->
  (In ty [CKA_START_DATE; CKA_END_DATE] -> zlen b = 8%Z) ->
  zlen buf = zlen b -> check_attr false (mkA ty (AV buf)) = CKR_OK.
Proof.
  intros Hin Hf Hd Hl. unfold check_attr. cbn [a_type a_val v_len].
  in_cases Hin; subst ty; unfold field in Hf;
    lazymatch type of Hf with
    | context [usage_bit ?x] => let r := eval vm_compute in (usage_bit x) in change (usage_bit x) with r in Hf
    end; cbv beta iota in Hf;
    lazymatch goal with
    | |- context [kind_of ?x] => let r := eval vm_compute in (kind_of x) in change (kind_of x) with r
    end; cbv beta iota.
  1-8: injection Hf as <-; rewrite Hl; reflexivity.
  - reflexivity.
  - reflexivity.
  - rewrite Hl, Hd by (cbn; auto). reflexivity.
  - rewrite Hl, Hd by (cbn; auto). reflexivity.
  - injection Hf as <-; rewrite Hl; reflexivity.
Qed.

Lemma overlay_exact (buf b : list N) : zlen buf = zlen b -> firstn (Z.to_nat (zlen b)) (overlay buf b) = b.
Proof.
  unfold zlen, overlay. intros H. rewrite Nat2Z.id, firstn_app, Nat.sub_diag. cbn [firstn].
  rewrite app_nil_r. apply firstn_all.
Qed.

Definition small (b : list N) : Prop := (zlen b < UNAVAILABLE)%Z.

Lemma put_exact buf b : zlen buf = zlen b -> small b ->
  put (AV buf) (0%Z, Some (zlen b), b) = AV b.
Proof.
  intros H Hs. unfold put, small in *. destruct (Z.eqb_spec (zlen b) UNAVAILABLE); [lia|].
  rewrite overlay_exact by exact H. reflexivity.
Qed.

Lemma field_reads o ty b :
  In ty plain -> small b -> field o ty = Some b ->
  (In ty [CKA_START_DATE; CKA_END_DATE] -> zlen b = 8%Z) -> api_reads oe o ty b.
Proof.
  intros Hin Hs Hf Hd buf Hl. unfold GetAttributeValue, check_attrs.
  rewrite (check_get_plain o ty b buf Hin Hf Hd Hl). cbn [Z.eqb].
  unfold get_loop. cbn [a_type a_val buf_of v_len].
  rewrite (field_get o ty b Hin Hf) by lia. cbn [bind fst].
  rewrite put_exact by assumption. reflexivity.
Qed.

Lemma field_get_small o ty b n : In ty plain -> field o ty = Some b -> (n < zlen b)%Z ->
  GetAttr oe o ty (Some n) = Ok (BUFFER_E, None, []).
Proof.
  intros Hin Hf Hn.
  assert (G : forall d, (n < zlen d)%Z -> get_data d (Some n) = (BUFFER_E, None, [])).
  { intros d Hd. unfold get_data. destruct (Z.ltb_spec n (zlen d)); [reflexivity|lia]. }
  assert (GS : forall s, sfield s = Some b -> get_sval s (Some n) = Ok (BUFFER_E, None, [])).
  { intros [x|l]; cbn [sfield get_sval].
    - intros H. injection H as ->. rewrite G by exact Hn. reflexivity.
    - destruct (Z.eqb_spec l 0); [|discriminate]. intros H. injection H as <-. subst.
      change (zlen []) with 0%Z in Hn. destruct (Z.ltb_spec n 0); [reflexivity|lia]. }
  assert (GD : forall d, dfield d = Some b -> get_date d (Some n) = (BUFFER_E, None, [])).
  { intros d. unfold dfield, get_date. destruct (nth 0 d 0 =? 0)%N; [discriminate|].
    intros H. injection H as ->. apply G. exact Hn. }
  in_cases Hin; subst ty;
    unfold field in Hf;
    lazymatch type of Hf with
    | context [usage_bit ?x] => let r := eval vm_compute in (usage_bit x) in change (usage_bit x) with r in Hf
    end; cbv beta iota in Hf;
    unfold GetAttr;
    lazymatch goal with
    | |- context [get_flag_of ?x] =>
        let r := eval vm_compute in (get_flag_of x) in change (get_flag_of x) with r
    end; cbv beta iota.
  1-8: injection Hf as <-; unfold get_opflag, get_bool; f_equal; apply G; exact Hn.
  - apply GS; exact Hf.
  - apply GS; exact Hf.
  - transitivity (Ok (get_date (o_start o) (Some n))); [reflexivity|]. f_equal. apply GD; exact Hf.
  - transitivity (Ok (get_date (o_end o) (Some n))); [reflexivity|]. f_equal. apply GD; exact Hf.
  - transitivity (Ok (get_ulong (o_class o) (Some n))); [reflexivity|].
    injection Hf as <-. f_equal. apply G; exact Hn.
Qed.

Lemma reads_field o ty b : In ty plain -> api_reads oe o ty b -> field o ty = Some b.
Proof.
  intros Hin Hr. specialize (Hr b eq_refl). unfold GetAttributeValue in Hr.
  cbn [check_attrs] in Hr.
  destruct (Z.eqb_spec (check_attr false (mkA ty (AV b))) CKR_OK) as [Ec'|Ec'];
    [|destruct (Z.eqb_spec (check_attr false (mkA ty (AV b))) CKR_OK) as [E2|E2];
      [contradiction|injection Hr as Hr; contradiction]].
  cbn [Z.eqb] in Hr.
  unfold get_loop in Hr. cbn [a_type a_val buf_of v_len] in Hr.
  destruct (field o ty) as [b'|] eqn:Ef.
  - destruct (Z_lt_le_dec (zlen b) (zlen b')) as [L|L].
    + rewrite (field_get_small o ty b' _ Hin Ef L) in Hr. discriminate Hr.
    + rewrite (field_get o ty b' Hin Ef _ L) in Hr. cbn [bind fst] in Hr.
      destruct (Z.eqb_spec (get_rv 0) CKR_OK) as [_|C]; [|exfalso; apply C; reflexivity].
      cbn [bind] in Hr. injection Hr as Hr. unfold put in Hr.
      destruct (zlen b' =? UNAVAILABLE)%Z; [discriminate Hr|].
      injection Hr as Hr. f_equal. rewrite <- Hr. unfold overlay, zlen.
      rewrite Nat2Z.id, firstn_app, Nat.sub_diag. cbn [firstn].
      rewrite app_nil_r, firstn_all. reflexivity.
  - exfalso.
    assert (GS : forall s, sfield s = None -> match get_sval s (Some (zlen b)) with
                 | Ok (c, _, _) => get_rv c <> CKR_OK | _ => True end).
    { intros [x|l]; cbn [sfield get_sval]; [discriminate|].
      destruct (Z.eqb_spec l 0); [discriminate|]. intros _.
      destruct (zlen b <? l)%Z; [discriminate|]. exact I. }
    in_cases Hin; subst ty; try discriminate Ef.
    + specialize (GS (o_label o) Ef).
      change (GetAttr oe o CKA_LABEL (Some (zlen b))) with (get_sval (o_label o) (Some (zlen b))) in Hr.
      destruct (get_sval _ _) as [[[c l] w]|?|?]; cbn [bind fst] in Hr; try discriminate.
      destruct (Z.eqb_spec (get_rv c) CKR_OK); [contradiction|]. injection Hr as Hr _. congruence.
    + specialize (GS (o_keyId o) Ef).
      change (GetAttr oe o CKA_ID (Some (zlen b))) with (get_sval (o_keyId o) (Some (zlen b))) in Hr.
      destruct (get_sval _ _) as [[[c l] w]|?|?]; cbn [bind fst] in Hr; try discriminate.
      destruct (Z.eqb_spec (get_rv c) CKR_OK); [contradiction|]. injection Hr as Hr _. congruence.
    + change (field o CKA_START_DATE) with (dfield (o_start o)) in Ef.
      change (GetAttr oe o CKA_START_DATE (Some (zlen b))) with (Ok (get_date (o_start o) (Some (zlen b)))) in Hr.
      unfold dfield, get_date in *. destruct (nth 0 (o_start o) 0 =? 0)%N; [|discriminate].
      unfold check_attr in Ec'. cbn [a_type a_val v_len] in Ec'.
      change (kind_of CKA_START_DATE) with (Some AK_date) in Ec'. cbv beta iota in Ec'.
      destruct (Z.eqb_spec (zlen b) 8) as [E8|]; [|discriminate].
      cbn [bind fst put Z.eqb] in Hr. injection Hr as Hr. destruct b; [discriminate E8|discriminate Hr].
    + change (field o CKA_END_DATE) with (dfield (o_end o)) in Ef.
      change (GetAttr oe o CKA_END_DATE (Some (zlen b))) with (Ok (get_date (o_end o) (Some (zlen b)))) in Hr.
      unfold dfield, get_date in *. destruct (nth 0 (o_end o) 0 =? 0)%N; [|discriminate].
      unfold check_attr in Ec'. cbn [a_type a_val v_len] in Ec'.
      change (kind_of CKA_END_DATE) with (Some AK_date) in Ec'. cbv beta iota in Ec'.
      destruct (Z.eqb_spec (zlen b) 8) as [E8|]; [|discriminate].
      cbn [bind fst put Z.eqb] in Hr. injection Hr as Hr. destruct b; [discriminate E8|discriminate Hr].
Qed.

(** ** Whole SetAttributeValue *)
Lemma field_data o d n ty : field (set_size (set_data o d) n) ty = field o ty.
Proof. reflexivity. Qed.

Lemma set_loop_field_frame t o rv o' ty :
  In ty plain -> Forall (fun a => ~ affects a ty) t -> set_loop o t = Ok (rv, o') ->
  field o' ty = field o ty.
Proof.
  intros Hin HF H.
  refine (set_loop_keep (fun x => field x ty = field o ty) (fun a => ~ affects a ty) t _ HF o rv o' H eq_refl).
  intros o1 a c o2 Hna E Ho. rewrite <- Ho. eapply SetAttr_field_frame; eauto.
Qed.

Lemma SetAttributeValue_frame rw o t o' ty :
  In ty plain -> Forall (fun a => ~ affects a ty) t ->
  SetAttributeValue oe rw o t = Ok (CKR_OK, o') -> field o' ty = field o ty.
Proof.
  intros Hin HF H. apply SetAttributeValue_ok in H.
  destruct H as (_ & _ & ps & v & o1 & _ & _ & HK & HL).
  apply SetKey_frame in HK. destruct HK as (d & n & ->).
  rewrite (set_loop_field_frame t _ _ _ ty Hin HF HL). apply field_data.
Qed.

Lemma SetAttributeValue_set rw o t1 ty b t2 o' :
  In ty plain -> bytes_ok b ->
  Forall (fun a => ~ affects a ty) t2 ->
  (ty = CKA_START_DATE \/ ty = CKA_END_DATE -> nth 0 b 0%N <> 0%N) ->
  SetAttributeValue oe rw o (t1 ++ mkA ty (AV b) :: t2) = Ok (CKR_OK, o') ->
  field o' ty = Some b /\ check_attr true (mkA ty (AV b)) = CKR_OK.
Proof.
  intros Hin Hb HF Hd H. apply SetAttributeValue_ok in H.
  destruct H as (_ & Hc & ps & v & o1 & _ & _ & HK & HL).
  apply check_attrs_Forall in Hc. apply Forall_app in Hc. destruct Hc as [_ Hc].
  apply Forall_cons_iff in Hc. destruct Hc as [Hc _]. split; [|exact Hc].
  apply set_loop_ok_app in HL. destruct HL as (o2 & _ & HL).
  apply set_loop_ok_cons in HL. destruct HL as (o3 & HS & HL).
  rewrite (set_loop_field_frame t2 _ _ _ ty Hin HF HL).
  eapply SetAttr_field_set; eauto.
Qed.

(** Date values that passed the checks have 8 bytes. *)
Lemma check_date set ty b : In ty [CKA_START_DATE; CKA_END_DATE] ->
  check_attr set (mkA ty (AV b)) = CKR_OK -> zlen b = 8%Z.
Proof.
  intros Hin H. unfold check_attr in H. cbn [a_type a_val v_len] in H.
  in_cases Hin; subst ty;
    lazymatch type of H with
    | context [kind_of ?x] => let r := eval vm_compute in (kind_of x) in change (kind_of x) with r in H
    end; cbv beta iota in H; destruct (Z.eqb_spec (zlen b) 8); auto; discriminate H.
Qed.
End Attr.
