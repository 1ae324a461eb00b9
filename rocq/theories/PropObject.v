(** Properties of objects and attributes: C25, C26, C27, C28, C47, C61, C62. *)
From Verif Require Import Base Ops Object ObjectSpec ObjectProofs AttrProofs HistProofs GetProofs.

(** A concrete environment: one curve (P-256, id 7), all calls succeed. *)
Definition p256 : list N := [42; 134; 72; 206; 61; 3; 1; 7]%N.
Definition toe : oenv :=
  mkOE (fun _ => 0%Z)
       (fun oid => if list_eq_dec N.eq_dec oid p256 then Some 7%Z else None)
       (fun _ => 0%Z) (fun _ => p256) (fun _ => 32%Z)
       (fun k pt => (0%Z, mkEc (ec_curve k) (ec_kind k) (ec_k k) pt))
       (fun _ pt => (0%Z, firstn 65 (pt ++ zeros 65)))
       (fun p g => (0%Z, (be_n p, be_n g))).

Definition TRUE : aval := AV [1%N].
Definition FALSE : aval := AV [0%N].
Definition ULONG (v : Z) : aval := AV (to_le 8 v).
(** An AES key object holding 16 bytes. *)
Definition aes_tmpl : template :=
  [mkA CKA_CLASS (ULONG CKO_SECRET_KEY); mkA CKA_KEY_TYPE (ULONG CKK_AES);
   mkA CKA_EXTRACTABLE TRUE; mkA CKA_VALUE (AV (repeat 7%N 16))].
Definition aes_obj : obj :=
  set_flag (set_class (set_data (obj_new 0 CKK_AES) (KSym 16 (repeat 7%N 16 ++ zeros 496))) CKO_SECRET_KEY)
    FL_EXTRACTABLE.
Example aes_created : CreateObject toe true 0 aes_tmpl = Ok (CKR_OK, Some aes_obj).
Proof. vm_compute. reflexivity. Qed.

(** ** C25: attributes read back as they were set *)
(** No later entry of the template writes the same attribute. *)
Definition last_for (t2 : template) (ty : Z) : Prop := Forall (fun a => a_type a <> ty) t2.

Definition C25_claim (attrs : list Z) : Prop :=
  forall oe rw o t1 ty b t2 o', In ty attrs -> bytes_ok b -> small b ->
    last_for t2 ty ->
    SetAttributeValue oe rw o (t1 ++ mkA ty (AV b) :: t2) = Ok (CKR_OK, o') ->
    api_reads oe o' ty b.

(** CKA_SENSITIVE is written to [flag] but read from [opFlag]. *)
Theorem C25_readback_refuted : ~ C25_claim (usage_attrs ++ protection_attrs ++ text_attrs).
Proof.
  intros H.
  assert (R := H toe true (obj_new 0 CKK_AES) [] CKA_SENSITIVE [1%N] []).
  specialize (R (set_flag (set_data (obj_new 0 CKK_AES) (KSym 0 (zeros 512))) FL_SENSITIVE)).
  assert (api_reads toe (set_flag (set_data (obj_new 0 CKK_AES) (KSym 0 (zeros 512))) FL_SENSITIVE)
            CKA_SENSITIVE [1%N]) as A.
  { apply R; [vm_compute; tauto|repeat constructor|vm_compute; reflexivity|constructor|
      vm_compute; reflexivity]. }
  specialize (A [0%N] eq_refl). vm_compute in A. discriminate A.
Qed.
Print Assumptions C25_readback_refuted.

(** No protection attribute ever reads back as TRUE unless a usage attribute
    happens to share its bit (CKA_TRUSTED = CKA_ENCRYPT). *)
Theorem C25_protection_refuted :
  forall ty, In ty protection_attrs -> ty <> CKA_TRUSTED ->
  exists o', SetAttributeValue toe true (obj_new 0 CKK_AES) [mkA ty TRUE] = Ok (CKR_OK, o') /\
             api_reads toe o' ty [0%N].
Proof.
  intros ty Hin Hne. cbn [In protection_attrs] in Hin.
  repeat (destruct Hin as [<-|Hin]; [try (exfalso; apply Hne; reflexivity)|]); [..|contradiction].
  all: eexists; split; [vm_compute; reflexivity|].
  all: intros [|x [|y buf]] Hl; try (unfold zlen in Hl; cbn [length] in Hl; lia); vm_compute; reflexivity.
Qed.
Print Assumptions C25_protection_refuted.

(** Setting CKA_ENCRYPT makes CKA_TRUSTED read TRUE; setting CKA_UNWRAP sets CKA_WRAP. *)
Theorem C25_alias_refuted :
  exists o1 o2,
    SetAttributeValue toe true (obj_new 0 CKK_AES) [mkA CKA_TRUSTED FALSE; mkA CKA_ENCRYPT TRUE]
      = Ok (CKR_OK, o1) /\ api_reads toe o1 CKA_TRUSTED [1%N] /\
    SetAttributeValue toe true (obj_new 0 CKK_AES) [mkA CKA_WRAP FALSE; mkA CKA_UNWRAP TRUE]
      = Ok (CKR_OK, o2) /\ api_reads toe o2 CKA_WRAP [1%N] /\ api_reads toe o2 CKA_UNWRAP [0%N].
Proof.
  eexists _, _. split; [vm_compute; reflexivity|]. split.
  { intros [|x [|y buf]] Hl; try (unfold zlen in Hl; cbn [length] in Hl; lia); vm_compute; reflexivity. }
  split; [vm_compute; reflexivity|]. split.
  all: intros [|x [|y buf]] Hl; try (unfold zlen in Hl; cbn [length] in Hl; lia); vm_compute; reflexivity.
Qed.
Print Assumptions C25_alias_refuted.

(** What holds: usage attributes except CKA_UNWRAP, CKA_LABEL, CKA_ID, CKA_CLASS and
    dates that do not start with a zero byte read back as the last entry of the
    template says, whatever the object, the template and the key data. Missing:
    CKA_UNWRAP and the protection attributes (refuted above). *)
Theorem C25_readback_partial :
  forall oe rw o t1 ty b t2 o',
    In ty (CKA_CLASS :: text_attrs ++ usage_attrs) -> ty <> CKA_UNWRAP ->
    bytes_ok b -> small b ->
    last_for t2 ty -> (ty = CKA_WRAP -> last_for t2 CKA_UNWRAP) ->
    (ty = CKA_START_DATE \/ ty = CKA_END_DATE -> nth 0 b 0%N <> 0%N) ->
    SetAttributeValue oe rw o (t1 ++ mkA ty (AV b) :: t2) = Ok (CKR_OK, o') ->
    api_reads oe o' ty b.
Proof.
  intros oe rw o t1 ty b t2 o' Hin Hu Hb Hs Hl Hw Hd H.
  assert (Hp : In ty plain).
  { cbn [In app text_attrs usage_attrs plain] in *. intuition. }
  assert (HF : Forall (fun a => ~ affects a ty) t2).
  { unfold last_for in *. rewrite Forall_forall in *. intros a Ha [E|[E1 E2]].
    - exact (Hl a Ha E).
    - specialize (Hw E1). try rewrite Forall_forall in Hw. exact (Hw a Ha E2). }
  destruct (SetAttributeValue_set oe rw o t1 ty b t2 o' Hp Hb HF Hd H) as [Hf Hc].
  apply field_reads; auto. intros Hdt. eapply check_date; eauto.
Qed.
Print Assumptions C25_readback_partial.

(** Attributes not written by the template keep their value. *)
Theorem C25_others_unchanged_partial :
  forall oe rw o t o' ty b,
    In ty (CKA_CLASS :: text_attrs ++ usage_attrs) -> ty <> CKA_UNWRAP -> small b ->
    last_for t ty -> (ty = CKA_WRAP -> last_for t CKA_UNWRAP) ->
    SetAttributeValue oe rw o t = Ok (CKR_OK, o') ->
    api_reads oe o ty b -> api_reads oe o' ty b.
Proof.
  intros oe rw o t o' ty b Hin Hu Hs Hl Hw H Hr.
  assert (Hp : In ty plain).
  { cbn [In app text_attrs usage_attrs plain] in *. intuition. }
  assert (HF : Forall (fun a => ~ affects a ty) t).
  { unfold last_for in *. rewrite Forall_forall in *. intros a Ha [E|[E1 E2]].
    - exact (Hl a Ha E).
    - specialize (Hw E1). try rewrite Forall_forall in Hw. exact (Hw a Ha E2). }
  pose proof (reads_field oe o ty b Hp Hr) as Hf.
  apply field_reads; auto.
  - rewrite (SetAttributeValue_frame oe rw o t o' ty Hp HF H). exact Hf.
  - intros Hdt. specialize (Hr b eq_refl). unfold GetAttributeValue in Hr. cbn [check_attrs] in Hr.
    destruct (Z.eqb_spec (check_attr false (mkA ty (AV b))) CKR_OK) as [E|E];
      [eapply check_date; eauto|].
    destruct (Z.eqb_spec (check_attr false (mkA ty (AV b))) CKR_OK); [contradiction|].
    injection Hr as Hr. contradiction.
Qed.
Print Assumptions C25_others_unchanged_partial.

(** The same for a new object. *)
Lemma CreateObject_set oe rw uid t o :
  CreateObject oe rw uid t = Ok (CKR_OK, Some o) ->
  exists ty cls, SetAttributeValue oe rw (set_class (obj_new uid ty) cls) t = Ok (CKR_OK, o).
Proof.
  unfold CreateObject. intros H.
  assert (N : forall ty cls, NewObject oe rw uid ty cls t = Ok (CKR_OK, Some o) ->
     exists ty cls, SetAttributeValue oe rw (set_class (obj_new uid ty) cls) t = Ok (CKR_OK, o)).
  { intros ty cls Hn. exists ty, cls. unfold NewObject in Hn.
    destruct (SetAttributeValue _ _ _ _) as [[rv x]|?|?]; cbn [bind] in Hn; try discriminate.
    injection Hn as E1 E2. destruct (rv =? CKR_OK)%Z; [|discriminate]. congruence. }
  assert (B : forall cls good kt,
     match find_last t kt with
     | None => Ok (CKR_TEMPLATE_INCOMPLETE, None)
     | Some a => match tmpl_ulong a with
                 | None => Ok (CKR_ATTRIBUTE_VALUE_INVALID, None)
                 | Some k => if mem k good then NewObject oe rw uid k cls t
                             else Ok (CKR_ATTRIBUTE_VALUE_INVALID, None)
                 end
     end = Ok (CKR_OK, Some o) ->
     exists ty cls, SetAttributeValue oe rw (set_class (obj_new uid ty) cls) t = Ok (CKR_OK, o)).
  { intros cls good kt Hb. destruct (find_last t kt) as [a|]; [|discriminate].
    destruct (tmpl_ulong a) as [k|]; [|discriminate].
    destruct (mem k good); [|discriminate]. eapply N; eauto. }
  destruct (find_last t CKA_CLASS) as [a|].
  - destruct (tmpl_ulong a) as [cls|]; [|discriminate].
    destruct (cls =? CKO_CERTIFICATE)%Z; cbv beta iota zeta in H; exact (B cls _ _ H).
  - cbv beta iota zeta in H. change (UNAVAILABLE =? CKO_CERTIFICATE)%Z with false in H.
    cbv beta iota in H. exact (B UNAVAILABLE _ _ H).
Qed.

Theorem C25_create_partial :
  forall oe rw uid t1 ty b t2 o',
    In ty (CKA_CLASS :: text_attrs ++ usage_attrs) -> ty <> CKA_UNWRAP ->
    bytes_ok b -> small b ->
    last_for t2 ty -> (ty = CKA_WRAP -> last_for t2 CKA_UNWRAP) ->
    (ty = CKA_START_DATE \/ ty = CKA_END_DATE -> nth 0 b 0%N <> 0%N) ->
    CreateObject oe rw uid (t1 ++ mkA ty (AV b) :: t2) = Ok (CKR_OK, Some o') ->
    api_reads oe o' ty b.
Proof.
  intros oe rw uid t1 ty b t2 o' Hin Hu Hb Hs Hl Hw Hd H.
  apply CreateObject_set in H. destruct H as (kt & cls & H).
  eapply C25_readback_partial; eauto.
Qed.
Print Assumptions C25_create_partial.

Example C25_case :
  exists o', SetAttributeValue toe true aes_obj
    [mkA CKA_LABEL (AV [1%N]); mkA CKA_LABEL (AV [65; 66]%N); mkA CKA_SIGN TRUE] = Ok (CKR_OK, o') /\
    api_reads toe o' CKA_LABEL [65; 66]%N /\ api_reads toe o' CKA_SIGN [1%N].
Proof.
  eexists. split; [vm_compute; reflexivity|]. split.
  - intros [|x [|y [|z buf]]] Hl; try (unfold zlen in Hl; cbn [length] in Hl; lia); vm_compute; reflexivity.
  - intros [|x [|y buf]] Hl; try (unfold zlen in Hl; cbn [length] in Hl; lia); vm_compute; reflexivity.
Qed.

(** ** C26: C_SetAttributeValue without value attributes *)
Definition value_attrs : list Z := rsaParams ++ ecParams ++ dhParams ++ secretParams ++ certParams.
Definition C26_claim : Prop :=
  forall oe o t o', Forall (fun a => ~ In (a_type a) value_attrs) t ->
    SetAttributeValue oe true o t = Ok (CKR_OK, o') -> o_data o' = o_data o.

(** Renaming an AES key erases it. *)
Theorem C26_unlisted_refuted : ~ C26_claim.
Proof.
  intros H. specialize (H toe aes_obj [mkA CKA_LABEL (AV [65%N])]).
  assert (F : Forall (fun a => ~ In (a_type a) value_attrs) [mkA CKA_LABEL (AV [65%N])]).
  { constructor; [|constructor]. vm_compute. intuition discriminate. }
  specialize (H _ F eq_refl). vm_compute in H. discriminate H.
Qed.
Print Assumptions C26_unlisted_refuted.

Lemma param_vals_none t ps : Forall (fun a => ~ In (a_type a) ps) t ->
  param_vals t ps = Some (map (fun _ => None) ps).
Proof.
  intros H.
  assert (G : forall qs, incl qs ps -> param_vals t qs = Some (map (fun _ => None) qs)).
  { induction qs as [|q qs IH]; intros Hi; [reflexivity|]. cbn [param_vals map].
    assert (E : find_first t q = None).
    { unfold find_first. destruct (find _ t) as [a|] eqn:Ef; [|reflexivity].
      apply find_some in Ef. destruct Ef as [Ef1 Ef2]. apply Z.eqb_eq in Ef2.
      rewrite Forall_forall in H. exfalso. apply (H a Ef1). rewrite Ef2. apply Hi. left. reflexivity. }
    rewrite E, IH; [reflexivity|]. intros x Hx. apply Hi. right. exact Hx. }
  apply G. intros x Hx. exact Hx.
Qed.

(** What holds: type, handle, storage location and stored form never change; a
    refused template changes nothing of the key when it is refused by the checks;
    a Diffie-Hellman key keeps its value (not its parameters). Missing: the other
    key types (refuted above). *)
Theorem C26_unlisted_partial :
  forall oe o t rv o', Forall (fun a => ~ In (a_type a) value_attrs) t ->
    SetAttributeValue oe true o t = Ok (rv, o') ->
    (o_uid o' = o_uid o /\ o_type o' = o_type o /\ o_handle o' = o_handle o /\
     o_onTok o' = o_onTok o /\ o_local o' = o_local o /\ o_kgm o' = o_kgm o /\
     o_iv o' = o_iv o /\ o_keyData o' = o_keyData o) /\
    (o_type o = CKK_DH -> o_class o <> CKO_CERTIFICATE -> forall p g l b,
       o_data o = KDh p g l b -> exists p' g', o_data o' = KDh p' g' l b).
Proof.
  intros oe o t rv o' HF H. unfold SetAttributeValue in H. cbn [negb] in H.
  destruct (negb (check_attrs true t =? CKR_OK)%Z).
  { injection H as _ <-. split; [repeat split|]. eauto. }
  destruct (params_of o) as [ps|] eqn:EP; [|injection H as _ <-; split; [repeat split|eauto]].
  destruct (param_vals t ps) as [v|] eqn:EV; [|injection H as _ <-; split; [repeat split|eauto]].
  destruct (SetKey oe o v) as [[c o1]|?|?] eqn:EK; cbn [bind] in H; try discriminate.
  assert (Hcore : same_core o1 o').
  { destruct (c =? MEMORY_E)%Z; [injection H as _ <-; apply same_core_refl|].
    destruct (negb (c =? 0)%Z); [injection H as _ <-; apply same_core_refl|].
    eapply set_loop_core; eauto. }
  assert (Hfr := EK). apply SetKey_frame in Hfr. destruct Hfr as (d & n & E1).
  destruct Hcore as (K1 & K2 & K3 & K4 & K5 & K6 & K7 & K8 & K9 & K10 & K11).
  split; [rewrite K1, K2, K3, K5, K6, K7, K9, K10, E1; repeat split|].
  intros Ht Hc p g l b Hd. rewrite K8.
  assert (Eps : ps = dhParams).
  { unfold params_of in EP. destruct (Z.eqb_spec (o_class o) CKO_CERTIFICATE); [contradiction|].
    rewrite Ht in EP. injection EP as <-. reflexivity. }
  subst ps. rewrite param_vals_none in EV.
  2:{ rewrite Forall_forall in *. intros a Ha Hi. apply (HF a Ha). unfold value_attrs.
      rewrite !in_app_iff. auto. }
  injection EV as <-. unfold SetKey in EK.
  destruct (Z.eqb_spec (o_class o) CKO_CERTIFICATE); [contradiction|].
  rewrite Ht in EK. change (CKK_DH =? CKK_RSA)%Z with false in EK.
  change (CKK_DH =? CKK_EC)%Z with false in EK. change (CKK_DH =? CKK_DH)%Z with true in EK.
  cbv beta iota in EK. unfold SetDhKey, as_dh in EK. rewrite Hd in EK. cbn in EK.
  injection EK as _ <-. cbn. eauto.
Qed.
Print Assumptions C26_unlisted_partial.

Example C26_case :
  exists o', SetAttributeValue toe true
    (set_data (obj_new 3 CKK_DH) (KDh 23 5 2 ([9; 8]%N ++ zeros 510))) [mkA CKA_LABEL (AV [65%N])]
    = Ok (CKR_OK, o') /\ o_data o' = KDh 0 0 2 ([9; 8]%N ++ zeros 510).
Proof. eexists. split; vm_compute; reflexivity. Qed.

(** A template refused by the checks, or a read-only session, leaves the object alone. *)
Theorem C26_rejected_unchanged :
  forall oe rw o t, rw = false \/ check_attrs true t <> CKR_OK ->
  exists rv, SetAttributeValue oe rw o t = Ok (rv, o) /\ rv <> CKR_OK.
Proof.
  intros oe rw o t H. unfold SetAttributeValue. destruct rw; cbn [negb].
  - destruct H as [H|H]; [discriminate|].
    destruct (Z.eqb_spec (check_attrs true t) CKR_OK); [contradiction|]. cbn [negb]. eauto.
  - exists CKR_SESSION_READ_ONLY. split; [reflexivity|discriminate].
Qed.
Print Assumptions C26_rejected_unchanged.

(** ** C27: reads respect the caller's buffer *)
(** Every non-NULL entry ends up no longer than it was, or is marked unavailable. *)
Definition fits (before after : attr) : Prop :=
  a_type after = a_type before /\
  match a_val before, a_val after with
  | AV b, AV b' => (zlen b' <= zlen b)%Z
  | ANull _, ANull _ => True
  | AV b, AUnav b' | AUnav b, AUnav b' => b' = b
  | AUnav _, AV _ => True
  | _, _ => False
  end.
Definition C27_bounds_claim (types : Z -> Prop) : Prop :=
  forall oe o t, Forall (fun a => types (a_type a)) t ->
    GetAttributeValue oe o t <> Undef UB_write_overflow /\
    forall rv t', GetAttributeValue oe o t = Ok (rv, t') -> Forall2 fits t t'.
Definition C27_query_claim (dates : Z -> Prop) : Prop :=
  forall oe o ty l, wf_obj oe o -> dates ty -> api_query oe o ty l -> l <> UNAVAILABLE ->
    exists b, zlen b = l /\ api_reads oe o ty b.

Definition ec_obj : obj :=
  set_data (obj_new 0 CKK_EC) (KEc (mkEc (Some 7%Z) 1 0 (repeat 1%N 65))).
(** CKA_EC_POINT with a buffer of 65 bytes for a P-256 key: 67 bytes are written. *)
Theorem C27_bounds_refuted : ~ C27_bounds_claim (fun _ => True).
Proof.
  intros H. destruct (H toe ec_obj [mkA CKA_EC_POINT (AV (zeros 65))]) as [H1 _].
  - constructor; [exact I|constructor].
  - apply H1. vm_compute. reflexivity.
Qed.
Print Assumptions C27_bounds_refuted.

(** A date that is not set reports length 0, and reading with 0 bytes fails. *)
Theorem C27_query_refuted : ~ C27_query_claim (fun _ => True).
Proof.
  intros H. destruct (H toe (obj_new 0 CKK_AES) CKA_START_DATE 0%Z) as (b & Hb & Hr).
  - cbn. repeat split; discriminate.
  - exact I.
  - vm_compute. reflexivity.
  - discriminate.
  - destruct b; [|unfold zlen in Hb; cbn [length] in Hb; lia].
    specialize (Hr [] eq_refl). vm_compute in Hr. discriminate Hr.
Qed.
Print Assumptions C27_query_refuted.

(** A generic secret created with CKA_VALUE_LEN 600 and no value: the size query says
    600 and the read runs past the key buffer. (Not [wf_obj].) *)
Theorem C27_value_len_refuted :
  exists o, CreateObject toe true 0
      [mkA CKA_CLASS (ULONG CKO_SECRET_KEY); mkA CKA_KEY_TYPE (ULONG CKK_GENERIC_SECRET);
       mkA CKA_EXTRACTABLE TRUE; mkA CKA_VALUE_LEN (ULONG 600)] = Ok (CKR_OK, Some o) /\
    api_query toe o CKA_VALUE 600 /\
    forall buf, zlen buf = 600%Z -> GetAttributeValue toe o [mkA CKA_VALUE (AV buf)] = Undef UB_read_overflow.
Proof.
  eexists. split; [vm_compute; reflexivity|]. split; [vm_compute; reflexivity|].
  intros buf Hl. unfold GetAttributeValue.
  change (check_attrs false [mkA CKA_VALUE (AV buf)]) with CKR_OK. cbn [Z.eqb].
  unfold get_loop. cbn [a_type a_val buf_of v_len]. rewrite Hl. vm_compute. reflexivity.
Qed.
Print Assumptions C27_value_len_refuted.

Lemma fits_refl t : Forall2 fits t t.
Proof.
  induction t as [|[ty [b|n|b]] t IH]; constructor; auto; split; cbn; auto; lia.
Qed.

(** What holds: every attribute but CKA_EC_POINT is written inside the buffer, for
    every object, template and length. *)
Theorem C27_bounds_partial : C27_bounds_claim (fun ty => ty <> CKA_EC_POINT).
Proof.
  intros oe o t HF. unfold GetAttributeValue.
  destruct (check_attrs false t =? CKR_OK)%Z.
  2:{ split; [discriminate|]. intros rv t' H. injection H as _ <-. apply fits_refl. }
  assert (W : forall a, a_type a <> CKA_EC_POINT ->
     match buf_of (a_val a) with Some n => within n (GetAttr oe o (a_type a) (Some n))
     | None => GetAttr oe o (a_type a) None <> Undef UB_write_overflow end).
  { intros [ty [b|n|b]] Hty; cbn [buf_of a_val a_type v_len] in *.
    - apply GetAttr_within; [unfold zlen; lia|exact Hty].
    - intros E.
      assert (Q : forall r : res gres, r = Undef UB_write_overflow -> within 0 r -> False)
        by (intros r -> X; exact X).
      assert (GN : forall g : option Z -> res gres, True) by auto.
      clear GN. revert E. unfold GetAttr.
      destruct (get_flag_of ty); [discriminate|].
      repeat match goal with
      | |- (if ?b then _ else _) = _ -> _ => destruct b; [try discriminate|]
      end; try discriminate.
      + destruct (o_label o); discriminate.
      + destruct (o_keyId o); discriminate.
      + unfold as_cert. destruct (o_data o); discriminate.
      + unfold RsaGetAttr, as_rsa. destruct (o_data o); cbn [bind]; try discriminate;
          repeat match goal with |- (if ?b then _ else _) = _ -> _ => destruct b end; discriminate.
      + unfold EcGetAttr, as_ec, GetEcParams. destruct (o_data o); cbn [bind]; try discriminate;
          repeat match goal with |- (if ?b then _ else _) = _ -> _ => destruct b end; try discriminate;
          unfold GetEcPoint; destruct (ec_curve _); discriminate.
      + unfold DhGetAttr, as_dh. destruct (o_data o); cbn [bind]; try discriminate;
          repeat match goal with |- (if ?b then _ else _) = _ -> _ => destruct b end; discriminate.
      + unfold SecretGetAttr, as_sym. destruct (o_data o); cbn [bind]; try discriminate;
          repeat match goal with |- (if ?b then _ else _) = _ -> _ => destruct b end; discriminate.
    - apply GetAttr_within; [discriminate|exact Hty]. }
  assert (P : forall a g, a_type a <> CKA_EC_POINT ->
     GetAttr oe o (a_type a) (buf_of (a_val a)) = Ok g -> fits a (mkA (a_type a) (put (a_val a) g))).
  { intros a [[c l] w] Hty E. specialize (W a Hty). split; [reflexivity|].
    destruct a as [ty [b|n|b]]; cbn [a_type a_val buf_of v_len] in *; unfold put.
    - rewrite E in W. cbn [within] in W. destruct l as [l|]; [|lia].
      destruct (l =? UNAVAILABLE)%Z; [reflexivity|].
      unfold zlen in *. rewrite firstn_length. unfold overlay. rewrite app_length, skipn_length. lia.
    - destruct l; exact I.
    - destruct l as [l|]; [|reflexivity]. destruct (l =? UNAVAILABLE)%Z; [reflexivity|exact I]. }
  induction t as [|a t IH]; [split; [discriminate|intros rv t' H; injection H as _ <-; constructor]|].
  apply Forall_cons_iff in HF. destruct HF as [Ha HF]. specialize (IH HF). destruct IH as [IH1 IH2].
  cbn [get_loop]. specialize (W a Ha). specialize (P a).
  destruct (GetAttr oe o (a_type a) (buf_of (a_val a))) as [g|?|u] eqn:EG; cbn [bind].
  - specialize (P g Ha eq_refl). destruct (get_rv _ =? CKR_OK)%Z.
    + destruct (get_loop oe o t) as [[rv' r']|?|?]; cbn [bind].
      * split; [discriminate|]. intros rv t' H. injection H as <- <-.
        constructor; [exact P|]. eapply IH2; reflexivity.
      * split; [discriminate|]. intros ? ? H; discriminate H.
      * split; [congruence|]. intros ? ? H; discriminate H.
    + split; [discriminate|]. intros rv t' H. injection H as _ <-.
      constructor; [exact P|apply fits_refl].
  - split; [discriminate|]. intros ? ? H; discriminate H.
  - split; [|intros ? ? H; discriminate H].
    destruct (buf_of (a_val a)).
    + rewrite EG in W. cbn [within] in W. destruct u; try discriminate; contradiction.
    + rewrite EG in W. intros C. apply W. congruence.
Qed.
Print Assumptions C27_bounds_partial.

(** CKA_EC_POINT: exactly the lengths from the point's own size up to two or three
    bytes more overflow the buffer. *)
Theorem C27_ec_point_partial :
  forall oe o k id x n, o_type o = CKK_EC -> o_class o <> CKO_CERTIFICATE ->
    o_data o = KEc k -> ec_curve k = Some id -> ec_kind k <> 3%Z ->
    oe_export oe id (ec_pt k) = (0%Z, x) -> zlen x = u32 (oe_ecsize oe id * 2 + 1) ->
    (GetAttr oe o CKA_EC_POINT (Some n) = Undef UB_write_overflow <->
     (zlen x <= n < zlen x + 2 + (if (128 <=? zlen x)%Z then 1 else 0))%Z).
Proof.
  intros oe o k id x n Ht Hc Hd Hcu Hk Hx Lx.
  assert (E : GetAttr oe o CKA_EC_POINT (Some n) = EcGetAttr oe o CKA_EC_POINT (Some n)).
  { unfold GetAttr. change (get_flag_of CKA_EC_POINT) with (@None Z). cbv beta iota.
    destruct (Z.eqb_spec (o_class o) CKO_CERTIFICATE); [contradiction|].
    rewrite Ht. reflexivity. }
  rewrite E. unfold EcGetAttr, as_ec. rewrite Hd. cbn [bind].
  change (CKA_EC_POINT =? CKA_EC_PARAMS)%Z with false. change (CKA_EC_POINT =? CKA_VALUE)%Z with false.
  change (CKA_EC_POINT =? CKA_EC_POINT)%Z with true. cbv iota.
  destruct (Z.eqb_spec (ec_kind k) 3); [contradiction|].
  unfold GetEcPoint. rewrite Hcu, Hx, <- Lx. cbn [Z.eqb].
  destruct (Z.ltb_spec n (zlen x)); [split; [discriminate|lia]|].
  match goal with |- context [(n <? zlen ?w)%Z] =>
    assert (Ew : zlen w = (zlen x + 2 + (if (128 <=? zlen x)%Z then 1 else 0))%Z) end.
  { rewrite zlen_app, zlen_cons, zlen_app. destruct (128 <=? zlen x)%Z; rewrite ?zlen_cons, ?zlen_nil; lia. }
  rewrite Ew.
  match goal with |- context [if (n <? ?m)%Z then _ else _] => destruct (Z.ltb_spec n m) end;
    split; intros; try discriminate; try lia; reflexivity.
Qed.
Print Assumptions C27_ec_point_partial.

(** Query, then read: for every well-formed object and every attribute except unset
    dates, the read succeeds and fills exactly the reported number of bytes. *)
Theorem C27_query_partial :
  forall oe o ty l, wf_obj oe o -> (In ty [CKA_START_DATE; CKA_END_DATE] -> l <> 0%Z) ->
    api_query oe o ty l -> l <> UNAVAILABLE -> exists b, zlen b = l /\ api_reads oe o ty b.
Proof.
  intros oe o ty l W Hd Hq Hu.
  unfold api_query, GetAttributeValue in Hq. cbn [check_attrs] in Hq.
  destruct (Z.eqb_spec (check_attr false (mkA ty (ANull 0))) CKR_OK) as [Ec|Ec].
  2:{ destruct (Z.eqb_spec (check_attr false (mkA ty (ANull 0))) CKR_OK); [contradiction|].
      injection Hq as Hq. contradiction. }
  cbn [Z.eqb] in Hq. unfold get_loop in Hq. cbn [a_type a_val buf_of] in Hq.
  pose proof (GetAttr_exact oe o ty W) as X. pose proof (GetAttr_len oe o ty W) as Q.
  destruct (GetAttr oe o ty None) as [[[c lo] w0]|?|?] eqn:EG; cbn [bind fst] in Hq; try discriminate.
  destruct (Z.eqb_spec (get_rv c) CKR_OK) as [Er|Er]; [|injection Hq as Hq _; contradiction].
  assert (c = 0%Z).
  { unfold get_rv in Er. destruct (Z.eqb_spec c 0); [assumption|].
    repeat match type of Er with (if ?b then _ else _) = _ => destruct b; [discriminate|] end. discriminate. }
  subst c. cbn [bind] in Hq. injection Hq as Hq. unfold put in Hq.
  assert (Hlo : lo = Some l \/ (lo = None /\ l = 0%Z)).
  { destruct lo as [x|]; injection Hq as ->; auto. }
  destruct Hlo as [->|[-> ->]].
  2:{ (* lo = None never comes with code 0 *)
      exfalso. clear - EG.
      assert (K : forall r, GetAttr oe o ty None = Ok (0%Z, None, r) -> False).
      { intros r. unfold GetAttr. destruct (get_flag_of ty); [discriminate|].
        repeat match goal with
        | |- (if ?b then _ else _) = _ -> _ => destruct b; [try discriminate|]
        end; try discriminate.
        + destruct (o_label o); discriminate.
        + destruct (o_keyId o); discriminate.
        + unfold get_date. destruct (_ =? _)%N; discriminate.
        + unfold get_date. destruct (_ =? _)%N; discriminate.
        + unfold as_cert. destruct (o_data o); discriminate.
        + unfold RsaGetAttr, as_rsa. destruct (o_data o); cbn [bind]; try discriminate;
            repeat match goal with |- (if ?b then _ else _) = _ -> _ => destruct b end;
            try discriminate; destruct (_ || _); discriminate.
        + unfold EcGetAttr, as_ec, GetEcParams. destruct (o_data o); cbn [bind]; try discriminate;
            repeat match goal with |- (if ?b then _ else _) = _ -> _ => destruct b end; try discriminate;
            unfold GetEcPoint; try (destruct (ec_curve _); discriminate);
            destruct (_ || _); discriminate.
        + unfold DhGetAttr, as_dh. destruct (o_data o); cbn [bind]; try discriminate;
            repeat match goal with |- (if ?b then _ else _) = _ -> _ => destruct b end; discriminate.
        + unfold SecretGetAttr, as_sym. destruct (o_data o); cbn [bind]; try discriminate;
            repeat match goal with |- (if ?b then _ else _) = _ -> _ => destruct b end; discriminate. }
      exact (K _ EG). }
  destruct (X _ _ _ EG eq_refl Hu) as (w & Ew & Lw).
  exists w. split; [exact Lw|]. intros buf Hb. unfold GetAttributeValue. cbn [check_attrs].
  assert (Ec2 : check_attr false (mkA ty (AV buf)) = CKR_OK).
  { unfold check_attr in Ec |- *. cbn [a_type a_val v_len] in *. rewrite Hb, Lw.
    cbn [q_ok] in Q. destruct Q as [Q|Q]; [contradiction|]. unfold len_ok in Q.
    destruct (kind_of ty) as [[| | |]|] eqn:EK; [rewrite Q; reflexivity|rewrite Q; reflexivity
      |reflexivity| |exact Ec].
    destruct Q as [Q|Q]; [rewrite Q; reflexivity|]. exfalso. apply Hd; [|exact Q].
    unfold kind_of in EK. destruct (find _ attr_table) as [[a k]|] eqn:Ef; [|discriminate].
    injection EK as ->. apply find_some in Ef. destruct Ef as [Ef1 Ef2]. cbn [fst] in Ef2.
    apply Z.eqb_eq in Ef2. subst a. unfold attr_table in Ef1. cbn [In] in Ef1.
    repeat (destruct Ef1 as [Ef1|Ef1]; [try discriminate Ef1; injection Ef1 as <-; cbn; auto|]).
    contradiction. }
  rewrite Ec2. change (CKR_OK =? CKR_OK)%Z with true. cbv beta iota zeta.
  change (CKR_OK =? CKR_OK)%Z with true. cbv beta iota.
  unfold get_loop. cbn [a_type a_val buf_of v_len].
  rewrite Hb, Lw, Ew. cbn [bind fst]. change (get_rv 0 =? CKR_OK)%Z with true. cbv iota. cbn [bind].
  do 3 f_equal. f_equal. unfold put. destruct (Z.eqb_spec l UNAVAILABLE); [contradiction|].
  rewrite <- Lw. f_equal. apply overlay_exact. exact Hb.
Qed.
Print Assumptions C27_query_partial.

Example C27_case : wf_obj toe ec_obj /\ api_query toe ec_obj CKA_EC_POINT 67 /\
  api_query toe aes_obj CKA_VALUE 16.
Proof.
  split; [|split; vm_compute; reflexivity].
  repeat split; try discriminate. intros _. eexists. split; vm_compute; reflexivity.
Qed.
