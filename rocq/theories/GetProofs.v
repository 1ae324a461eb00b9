(** Bounds on attribute reads. *)
From Verif Require Import Base Ops Object ObjectSpec ObjectProofs AttrProofs.

(** A read into a buffer of n bytes that stays inside it. *)
Definition within (n : Z) (r : res gres) : Prop :=
  match r with
  | Ok (_, _, w) => (zlen w <= n)%Z
  | Undef UB_write_overflow => False
  | _ => True
  end.

(** Objects whose recorded lengths fit their buffers, and an EC key whose curve is
    one wolfCrypt can export. *)
Definition wf_obj (oe : oenv) (o : obj) : Prop :=
  sfield (o_label o) <> None /\ sfield (o_keyId o) <> None /\
  length (o_start o) = 8 /\ length (o_end o) = 8 /\
  match o_data o with
  | KSym l b | KDh _ _ l b | KCert l b => (0 <= l <= zlen b)%Z
  | KEc k => match ec_curve k with
             | None => True
             | Some id => (zlen (oe_oid oe id) < 256)%Z /\
                 (ec_kind k <> 3%Z -> exists x, oe_export oe id (ec_pt k) = (0%Z, x) /\
                                        zlen x = u32 (oe_ecsize oe id * 2 + 1))
             end
  | _ => True
  end.

Section Get.
Variable oe : oenv.

Lemma firstn_zlen {A} (l : Z) (b : list A) n : (0 <= n)%Z -> (l <= n)%Z ->
  (zlen (firstn (Z.to_nat l) b) <= n)%Z.
Proof. intros. unfold zlen. rewrite firstn_length. lia. Qed.

Lemma get_data_within d n : (0 <= n)%Z -> within n (Ok (get_data d (Some n))).
Proof.
  intros. unfold get_data. destruct (Z.ltb_spec n (zlen d)); cbn [within]; [rewrite zlen_nil|]; lia.
Qed.
Lemma get_buf_within l b n : (0 <= n)%Z -> within n (get_buf l b (Some n)).
Proof.
  intros. unfold get_buf. destruct (Z.ltb_spec n l); [cbn [within]; rewrite zlen_nil; lia|].
  destruct (zlen b <? l)%Z; [exact I|]. cbn [within]. apply firstn_zlen; lia.
Qed.
Lemma get_sval_within s n : (0 <= n)%Z -> within n (get_sval s (Some n)).
Proof.
  intros. destruct s as [b|l]; cbn [get_sval]; [apply get_data_within; lia|].
  destruct (n <? l)%Z; [cbn [within]; rewrite zlen_nil; lia|].
  destruct (l =? 0)%Z; cbn [within]; [rewrite zlen_nil; lia|exact I].
Qed.
Lemma nil_within n c l : (0 <= n)%Z -> within n (Ok (c, l, [])).
Proof. intros. cbn [within]. rewrite zlen_nil. lia. Qed.
Lemma get_date_within d n : (0 <= n)%Z -> within n (Ok (get_date d (Some n))).
Proof.
  intros. unfold get_date. destruct (nth 0 d 0 =? 0)%N; [apply nil_within; lia|apply get_data_within; lia].
Qed.

Lemma RsaGetAttr_within o ty n : (0 <= n)%Z -> within n (RsaGetAttr o ty (Some n)).
Proof.
  intros Hn. unfold RsaGetAttr. destruct (as_rsa o) as [r|?|u] eqn:Er; cbn [bind]; [|exact I|].
  - repeat match goal with |- within _ (if ?b then _ else _) => destruct b end;
      try (apply get_data_within; lia); try (apply nil_within; lia);
      match goal with |- context [if ?b then g_unavail else _] => destruct b end;
      (apply get_data_within; lia) || (apply nil_within; lia).
  - unfold as_rsa in Er. destruct (o_data o); try discriminate; injection Er as <-; exact I.
Qed.
Lemma GetEcParams_within k n : (0 <= n)%Z -> within n (GetEcParams oe k (Some n)).
Proof.
  intros Hn. unfold GetEcParams. destruct (ec_curve k) as [id|]; [|exact I].
  destruct (Z.ltb_spec n (zlen (oe_oid oe id) + 2)); [apply nil_within; lia|].
  cbn [within]. rewrite !zlen_cons. unfold zlen in *. rewrite firstn_length. lia.
Qed.
Lemma EcGetAttr_within o ty n : (0 <= n)%Z -> ty <> CKA_EC_POINT -> within n (EcGetAttr oe o ty (Some n)).
Proof.
  intros Hn Hty. unfold EcGetAttr. destruct (as_ec o) as [k|?|u] eqn:Er; cbn [bind]; [|exact I|].
  - destruct (ty =? CKA_EC_PARAMS)%Z; [apply GetEcParams_within; lia|].
    destruct (ty =? CKA_VALUE)%Z;
      [destruct (_ || _); [apply nil_within; lia|apply get_data_within; lia]|].
    destruct (Z.eqb_spec ty CKA_EC_POINT); [contradiction|apply nil_within; lia].
  - unfold as_ec in Er. destruct (o_data o); try discriminate; injection Er as <-; exact I.
Qed.
Lemma DhGetAttr_within o ty n : (0 <= n)%Z -> within n (DhGetAttr o ty (Some n)).
Proof.
  intros Hn. unfold DhGetAttr. destruct (as_dh o) as [[[[p g] l] b]|?|u] eqn:Er; cbn [bind]; [|exact I|].
  - destruct (ty =? CKA_PRIME)%Z; [apply get_data_within; lia|].
    destruct (ty =? CKA_BASE)%Z; [apply get_data_within; lia|].
    destruct (ty =? CKA_VALUE)%Z; [|apply nil_within; lia].
    destruct (_ || _); [apply get_buf_within; lia|apply nil_within; lia].
  - unfold as_dh in Er. destruct (o_data o); try discriminate; injection Er as <-; exact I.
Qed.
Lemma SecretGetAttr_within o ty n : (0 <= n)%Z -> within n (SecretGetAttr o ty (Some n)).
Proof.
  intros Hn. unfold SecretGetAttr. destruct (as_sym o) as [[l b]|?|u] eqn:Er; cbn [bind]; [|exact I|].
  - destruct (ty =? CKA_VALUE)%Z; [destruct (noPriv o); [apply nil_within; lia|apply get_buf_within; lia]|].
    destruct (ty =? CKA_VALUE_LEN)%Z; [apply get_data_within; lia|apply nil_within; lia].
  - unfold as_sym in Er. destruct (o_data o); try discriminate; injection Er as <-; exact I.
Qed.

Lemma GetAttr_within o ty n : (0 <= n)%Z -> ty <> CKA_EC_POINT -> within n (GetAttr oe o ty (Some n)).
Proof.
  intros Hn Hty. unfold GetAttr. destruct (get_flag_of ty); [apply get_data_within; lia|].
  repeat match goal with
  | |- within _ (if ?b then _ else _) =>
      destruct b; [first [apply get_data_within; lia | apply nil_within; lia | apply get_sval_within; lia
                         | apply get_date_within; lia | idtac]|]
  end; try (apply nil_within; lia).
  - destruct (as_cert o) as [[l b]|?|u] eqn:Er; cbn [bind]; [apply get_buf_within; lia|exact I|].
    unfold as_cert in Er. destruct (o_data o); try discriminate; injection Er as <-; exact I.
  - apply RsaGetAttr_within; lia.
  - apply EcGetAttr_within; assumption.
  - apply DhGetAttr_within; lia.
  - apply SecretGetAttr_within; lia.
Qed.

(** ** Size query, then read *)
Definition exact_read (g : option Z -> res gres) : Prop :=
  forall c l w0, g None = Ok (c, Some l, w0) -> c = 0%Z -> l <> UNAVAILABLE ->
  exists w, g (Some l) = Ok (0%Z, Some l, w) /\ zlen w = l.

Lemma exact_data d : exact_read (fun b => Ok (get_data d b)).
Proof.
  intros c l w0 H _ _. cbn in H. injection H as _ <- _. exists d.
  unfold get_data. destruct (Z.ltb_spec (zlen d) (zlen d)); [lia|]. split; reflexivity.
Qed.
Lemma exact_na : exact_read (fun _ => Ok g_na).
Proof. intros c l w0 H. discriminate H. Qed.
Lemma exact_unavail : exact_read (fun _ => Ok g_unavail).
Proof. intros c l w0 H _ Hu. injection H as _ <- _. contradiction. Qed.
Lemma exact_sval s : sfield s <> None -> exact_read (get_sval s).
Proof.
  destruct s as [b|l]; intros Hs; [apply exact_data|].
  cbn [sfield] in Hs. destruct (Z.eqb_spec l 0); [subst l|contradiction].
  intros c x w0 H _ _. injection H as _ <- _. exists []. split; reflexivity.
Qed.
Lemma exact_date d : exact_read (fun b => Ok (get_date d b)).
Proof.
  unfold get_date. destruct (nth 0 d 0 =? 0)%N; [|apply exact_data].
  intros c l w0 H _ _. injection H as _ <- _. exists []. split; reflexivity.
Qed.
Lemma exact_buf l b : (0 <= l <= zlen b)%Z -> exact_read (get_buf l b).
Proof.
  intros Hl c x w0 H _ _. injection H as _ <- _. unfold get_buf.
  destruct (Z.ltb_spec l l); [lia|]. destruct (Z.ltb_spec (zlen b) l); [lia|].
  eexists. split; [reflexivity|]. unfold zlen in *. rewrite firstn_length. lia.
Qed.
Lemma exact_undef u : exact_read (fun _ => Undef u).
Proof. intros c l w0 H. discriminate H. Qed.

Lemma exact_EcPoint o k : wf_obj oe o -> o_data o = KEc k -> ec_kind k <> 3%Z -> exact_read (GetEcPoint oe k).
Proof.
  intros (_ & _ & _ & _ & W) E Hk. rewrite E in W. unfold exact_read, GetEcPoint.
  destruct (ec_curve k) as [id|]; [|intros c l w0 H; discriminate H].
  destruct W as [_ W]. destruct (W Hk) as (x & Ex & Lx). rewrite Ex.
  intros c l w0 H _ _. injection H as _ Hl _.
  set (dl := u32 (oe_ecsize oe id * 2 + 1)) in *.
  assert (0 <= dl)%Z by (unfold dl, u32; apply Z.mod_pos_bound; lia).
  match goal with |- context [if (?a <? ?b)%Z then Ok (BUFFER_E, _, _) else _] =>
    destruct (Z.ltb_spec a b) end.
  { destruct (128 <=? dl)%Z; lia. }
  cbn [Z.eqb].
  assert (Lw : zlen (4%N :: (if (128 <=? dl)%Z then [129%N] else []) ++ [Z.to_N (dl mod 256)]) =
               (2 + (if (128 <=? dl)%Z then 1 else 0))%Z)
    by (destruct (128 <=? dl)%Z; reflexivity).
  match goal with |- context [(?a <? zlen ?w)%Z] =>
    assert (Ew : zlen w = l) by (rewrite zlen_app, Lw, Lx; lia);
    destruct (Z.ltb_spec a (zlen w)); [lia|]; exists w; split; [|exact Ew]
  end.
  rewrite Hl. reflexivity.
Qed.

Lemma GetAttr_exact o ty : wf_obj oe o -> exact_read (GetAttr oe o ty).
Proof.
  intros W. pose proof W as (W1 & W2 & _ & _ & W5). unfold GetAttr.
  destruct (get_flag_of ty); [apply exact_data|].
  repeat match goal with
  | |- exact_read (fun buf => if ?b then _ else _) =>
      destruct b; [first [apply exact_data | apply exact_na | apply exact_date
                         | apply exact_sval; assumption | idtac]|]
  end; try apply exact_na.
  - unfold as_cert. destruct (o_data o) as [|l b|p g l b|l b|r|k]; cbn [bind]; try apply exact_undef.
    + apply exact_buf. unfold zlen, zeros. rewrite repeat_length. lia.
    + apply exact_buf. exact W5.
  - unfold RsaGetAttr. destruct (as_rsa o) as [r|?|?]; cbn [bind]; [|intros c l w0 H; discriminate H..].
    repeat match goal with
    | |- exact_read (fun buf => if ?b then _ else _) => destruct b
    end; try apply exact_data; try apply exact_na;
    match goal with |- exact_read (fun buf => Ok (if ?b then _ else _)) => destruct b end;
    (apply exact_unavail || apply exact_data).
  - unfold EcGetAttr, as_ec. destruct (o_data o) as [|l b|p g l b|l b|r|k] eqn:E; cbn [bind];
      try apply exact_undef.
    + destruct (ty =? CKA_EC_PARAMS)%Z; [apply exact_undef|].
      destruct (ty =? CKA_VALUE)%Z; [destruct (_ || _); [apply exact_unavail|apply exact_data]|].
      destruct (ty =? CKA_EC_POINT)%Z; [apply exact_undef|apply exact_na].
    + destruct (ty =? CKA_EC_PARAMS)%Z.
      { unfold GetEcParams. destruct (ec_curve k) as [id|]; [|apply exact_undef].
        destruct W5 as [W5 _]. intros c l w0 H _ _. injection H as _ <- _.
        destruct (Z.ltb_spec (zlen (oe_oid oe id) + 2) (zlen (oe_oid oe id) + 2)); [lia|].
        eexists. split; [reflexivity|]. rewrite !zlen_cons. unfold zlen in *.
        rewrite firstn_length, N.mod_small by lia. lia. }
      destruct (ty =? CKA_VALUE)%Z; [destruct (_ || _); [apply exact_unavail|apply exact_data]|].
      destruct (ty =? CKA_EC_POINT)%Z; [|apply exact_na].
      destruct (Z.eqb_spec (ec_kind k) 3); [apply exact_unavail|].
      eapply exact_EcPoint; eauto.
  - unfold DhGetAttr, as_dh. destruct (o_data o) as [|l b|p g l b|l b|r|k]; cbn [bind]; try apply exact_undef.
    + destruct (ty =? CKA_PRIME)%Z; [apply exact_data|].
      destruct (ty =? CKA_BASE)%Z; [apply exact_data|].
      destruct (ty =? CKA_VALUE)%Z; [|apply exact_na].
      destruct (_ || _); [|apply exact_unavail]. apply exact_buf.
      unfold zlen, zeros. rewrite repeat_length. lia.
    + destruct (ty =? CKA_PRIME)%Z; [apply exact_data|].
      destruct (ty =? CKA_BASE)%Z; [apply exact_data|].
      destruct (ty =? CKA_VALUE)%Z; [|apply exact_na].
      destruct (_ || _); [|apply exact_unavail]. apply exact_buf. exact W5.
  - unfold SecretGetAttr, as_sym. destruct (o_data o) as [|l b|p g l b|l b|r|k]; cbn [bind]; try apply exact_undef.
    + destruct (ty =? CKA_VALUE)%Z.
      { destruct (noPriv o); [apply exact_unavail|]. apply exact_buf.
        unfold zlen, zeros. rewrite repeat_length. lia. }
      destruct (ty =? CKA_VALUE_LEN)%Z; [apply exact_data|apply exact_na].
    + destruct (ty =? CKA_VALUE)%Z; [destruct (noPriv o); [apply exact_unavail|apply exact_buf; exact W5]|].
      destruct (ty =? CKA_VALUE_LEN)%Z; [apply exact_data|apply exact_na].
Qed.

(** The length a size query reports suits the type of the attribute. *)
Definition len_ok (ty l : Z) : Prop :=
  match kind_of ty with
  | Some AK_ulong => l = 8%Z | Some AK_bool => l = 1%Z | Some AK_date => l = 8%Z \/ l = 0%Z
  | _ => True end.
Definition q_ok (ty : Z) (r : res gres) : Prop :=
  match r with Ok (0%Z, Some l, _) => l = UNAVAILABLE \/ len_ok ty l | _ => True end.

Lemma q_na ty : q_ok ty (Ok g_na).
Proof. exact I. Qed.
Lemma q_unavail ty : q_ok ty (Ok g_unavail).
Proof. left. reflexivity. Qed.
Lemma q_any ty r : (kind_of ty = Some AK_data) -> q_ok ty r.
Proof.
  intros H. destruct r as [[[c [l|]] w]|?|?]; try exact I; destruct c; try exact I.
  right. unfold len_ok. rewrite H. exact I.
Qed.
Lemma q_bool ty b : kind_of ty = Some AK_bool -> q_ok ty (Ok (get_bool b None)).
Proof. intros H. right. unfold len_ok. rewrite H. reflexivity. Qed.
Lemma q_ulong ty v : kind_of ty = Some AK_ulong -> q_ok ty (Ok (get_ulong v None)).
Proof. intros H. right. unfold len_ok. rewrite H. reflexivity. Qed.

Lemma get_flag_kind ty f : get_flag_of ty = Some f -> kind_of ty = Some AK_bool.
Proof.
  unfold get_flag_of. intros H.
  repeat match type of H with
  | (if (?a =? ?b)%Z then _ else _) = _ =>
      let E := fresh "E" in destruct (Z.eqb_spec a b) as [E|E]; [subst; reflexivity|]
  end. discriminate H.
Qed.

Lemma GetAttr_len o ty : wf_obj oe o -> q_ok ty (GetAttr oe o ty None).
Proof.
  intros (_ & _ & Ws & We & _). unfold GetAttr.
  destruct (get_flag_of ty) eqn:Ef; [apply q_bool; eapply get_flag_kind; eauto|].
  repeat match goal with
  | |- q_ok _ (if (?a =? ?b)%Z then _ else _) =>
      let E := fresh "E" in destruct (Z.eqb_spec a b) as [E|E];
      [first [ apply q_na | subst ty; apply q_any; reflexivity | subst ty; apply q_bool; reflexivity
             | subst ty; apply q_ulong; reflexivity | idtac ]|]
  end.
  - subst ty. unfold get_date. destruct (_ =? 0)%N; right; unfold len_ok;
      change (kind_of CKA_START_DATE) with (Some AK_date); [right; reflexivity|left].
    unfold zlen. lia.
  - subst ty. unfold get_date. destruct (_ =? 0)%N; right; unfold len_ok;
      change (kind_of CKA_END_DATE) with (Some AK_date); [right; reflexivity|left].
    unfold zlen. lia.
  - destruct (Z.eqb_spec (o_class o) CKO_CERTIFICATE), (Z.eqb_spec ty CKA_VALUE); cbn [andb];
      try (subst ty; apply q_any; reflexivity).
    all: repeat match goal with
         | |- q_ok _ (if (?a =? ?b)%Z then _ else _) => destruct (Z.eqb_spec a b)
         end; try apply q_na;
         try (destruct (_ || _); [|apply q_na]).
    all: unfold RsaGetAttr, EcGetAttr, DhGetAttr, SecretGetAttr;
         try (destruct (as_rsa o); cbn [bind]; [|exact I..]);
         try (destruct (as_ec o); cbn [bind]; [|exact I..]);
         try (destruct (as_dh o) as [[[[? ?] ?] ?]|?|?]; cbn [bind]; [|exact I..]);
         try (destruct (as_sym o) as [[? ?]|?|?]; cbn [bind]; [|exact I..]).
    all: repeat match goal with
         | |- q_ok ?t (if (?t =? ?b)%Z then _ else _) =>
             let E := fresh "E" in destruct (Z.eqb_spec t b) as [E|E];
             [rewrite E; first [apply q_any; reflexivity | apply q_ulong; reflexivity]|]
         end; apply q_na.
Qed.
End Get.
