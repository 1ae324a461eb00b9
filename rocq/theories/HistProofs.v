(** Two objects that differ only in a hidden key value behave alike. *)
From Verif Require Import Base Ops Object ObjectSpec ObjectProofs.

Section Hist.
Variable oe : oenv.

(** ** The stored form of the key is not looked at *)
Section StoreFields.
Variables (iv : list N) (kd : option (list N)) (en : bool).
Notation ss o := (set_store o iv kd en).
Definition sres (r : res (Z * obj)) : res (Z * obj) :=
  '(c, x) <- r ;; Ok (c, ss x).

Lemma GetAttr_store o ty buf : GetAttr oe (ss o) ty buf = GetAttr oe o ty buf.
Proof. reflexivity. Qed.

Lemma get_loop_store o t : get_loop oe (ss o) t = get_loop oe o t.
Proof.
  induction t as [|a t IH]; [reflexivity|]. cbn [get_loop].
  rewrite GetAttr_store. destruct (GetAttr oe o (a_type a) _) as [g|?|?]; cbn [bind]; [|reflexivity..].
  rewrite IH. reflexivity.
Qed.
Lemma GetAttributeValue_store o t : GetAttributeValue oe (ss o) t = GetAttributeValue oe o t.
Proof. unfold GetAttributeValue. rewrite get_loop_store. reflexivity. Qed.
Lemma match_all_store o t : match_all oe (ss o) t = match_all oe o t.
Proof.
  induction t as [|a t IH]; [reflexivity|]. cbn [match_all].
  assert (E : MatchAttr oe (ss o) a = MatchAttr oe o a) by reflexivity.
  rewrite E. destruct (MatchAttr oe o a) as [[|]|?|?]; cbn [bind]; auto.
Qed.

Lemma SetAttr_store o a : SetAttr (ss o) a = sres (SetAttr o a).
Proof.
  unfold SetAttr, sres.
  destruct (set_opflag_of (a_type a)); [reflexivity|].
  destruct (set_flag_of (a_type a)); [reflexivity|].
  destruct (a_type a =? CKA_CLASS)%Z; [reflexivity|].
  destruct (a_type a =? CKA_ID)%Z.
  { cbn [set_store o_keyId]. destruct (new_sval _ _) as [[? ?]|?|?]; reflexivity. }
  destruct (a_type a =? CKA_LABEL)%Z.
  { cbn [set_store o_label]. destruct (new_sval _ _) as [[? ?]|?|?]; reflexivity. }
  destruct (a_type a =? CKA_START_DATE)%Z; [destruct (v_len (a_val a) =? 8)%Z; reflexivity|].
  destruct (a_type a =? CKA_END_DATE)%Z; [destruct (v_len (a_val a) =? 8)%Z; reflexivity|].
  repeat match goal with |- (if ?b then _ else _) = _ => destruct b; [reflexivity|] end.
  reflexivity.
Qed.

Lemma set_loop_store t o : set_loop (ss o) t = sres (set_loop o t).
Proof.
  revert o. induction t as [|a t IH]; intros o; [reflexivity|]. cbn [set_loop].
  rewrite SetAttr_store. unfold sres at 1.
  destruct (SetAttr o a) as [[c o1]|?|?]; cbn [bind]; [|reflexivity..].
  destruct (set_rv c =? CKR_OK)%Z; [apply IH|reflexivity].
Qed.

Lemma SetKey_store o v : SetKey oe (ss o) v = sres (SetKey oe o v).
Proof.
  unfold SetKey. cbn [set_store o_class o_type].
  destruct (o_class o =? CKO_CERTIFICATE)%Z.
  { unfold SetCert.
    match goal with |- Ok (if ?b then _ else _) = _ => destruct b; [reflexivity|] end.
    destruct (nth 1 v None) as [b|]; [|reflexivity]. destruct (_ <? _)%Z; reflexivity. }
  destruct (o_type o =? CKK_RSA)%Z.
  { unfold SetRsaKey.
    do 8 (match goal with |- context [set_mpi oe (nth ?i v None)] =>
          destruct (set_mpi oe (nth i v None)) as [? ?] end;
          cbv beta iota zeta;
          match goal with |- context [if negb ?b then _ else _] => destruct (negb b); [reflexivity|] end).
    destruct (nth 8 v None) as [b|]; [|reflexivity].
    destruct (zlen b =? 8)%Z; [reflexivity|]. destruct (zlen b =? 0)%Z; reflexivity. }
  destruct (o_type o =? CKK_EC)%Z.
  { unfold SetEcKey.
    destruct (match nth 0 v None with None => _ | Some b => _ end) as [c0 k0].
    destruct (negb (c0 =? 0)%Z); [reflexivity|].
    destruct (match nth 1 v None with None => _ | Some b => _ end) as [c1 k1].
    destruct (negb (c1 =? 0)%Z); [reflexivity|].
    destruct (nth 2 v None) as [b|]; [|reflexivity].
    destruct (EcSetPoint _ _ _) as [[c2 k3]|?|?]; cbn [bind]; [|reflexivity..].
    destruct (negb (c2 =? 0)%Z); reflexivity. }
  destruct (o_type o =? CKK_DH)%Z.
  { unfold SetDhKey. change (as_dh (ss o)) with (as_dh o).
    destruct (as_dh o) as [[[[p0 g0] l] buf]|?|?]; cbn [bind]; [|reflexivity..].
    destruct (match nth 0 v None with None => _ | Some b => _ end) as [c0 [p g]].
    destruct (negb (c0 =? 0)%Z); [reflexivity|].
    destruct (nth 2 v None) as [b|]; [|reflexivity]. destruct (_ <? _)%Z; reflexivity. }
  unfold SetSecretKey. cbn [set_store o_type].
  match goal with |- (if ?b then _ else _) = _ => destruct b; [reflexivity|] end.
  destruct (nth 1 v None) as [b|]; [|reflexivity].
  match goal with |- (if ?b then _ else _) = _ => destruct b; [reflexivity|] end.
  match goal with |- (if ?b then _ else _) = _ => destruct b; reflexivity end.
Qed.

Lemma SetAttributeValue_store rw o t :
  SetAttributeValue oe rw (ss o) t = sres (SetAttributeValue oe rw o t).
Proof.
  unfold SetAttributeValue. change (params_of (ss o)) with (params_of o).
  destruct (negb rw); [reflexivity|].
  destruct (negb _); [reflexivity|].
  destruct (params_of o) as [ps|]; [|reflexivity].
  destruct (param_vals t ps) as [v|]; [|reflexivity].
  rewrite SetKey_store. unfold sres at 1.
  destruct (SetKey oe o v) as [[c o1]|?|?]; cbn [bind]; [|reflexivity..].
  destruct (c =? MEMORY_E)%Z; [reflexivity|].
  destruct (negb (c =? 0)%Z); [reflexivity|]. apply set_loop_store.
Qed.
End StoreFields.

(** ** The hidden part of key data *)
Definition same_public (d1 d2 : kdata) : Prop :=
  match d1, d2 with
  | KSym l1 _, KSym l2 _ => l1 = l2
  | KRsa r1, KRsa r2 => r_n r1 = r_n r2 /\ r_e r1 = r_e r2
  | KEc k1, KEc k2 => ec_curve k1 = ec_curve k2 /\ ec_kind k1 = ec_kind k2 /\ ec_pt k1 = ec_pt k2
  | _, _ => False
  end.
Definition hidden (o : obj) (d2 : kdata) : Prop :=
  noPriv o = true /\ o_class o <> CKO_CERTIFICATE /\ o_type o <> CKK_DH /\ same_public (o_data o) d2.

Lemma RsaGetAttr_hidden o d2 ty buf : hidden o d2 ->
  RsaGetAttr (set_data o d2) ty buf = RsaGetAttr o ty buf.
Proof.
  intros (Hn & _ & _ & Hp). unfold RsaGetAttr, as_rsa. cbn [set_data o_data].
  change (noPriv (set_data o d2)) with (noPriv o). rewrite Hn.
  destruct (o_data o) as [|l1 b1|? ? ? ?|? ?|r1|k1], d2 as [|l2 b2|? ? ? ?|? ?|r2|k2];
    cbn [same_public] in Hp; try contradiction; cbn [bind]; try reflexivity.
  destruct Hp as [Hp1 Hp2]. rewrite Hp1, Hp2. reflexivity.
Qed.
Lemma EcGetAttr_hidden o d2 ty buf : hidden o d2 ->
  EcGetAttr oe (set_data o d2) ty buf = EcGetAttr oe o ty buf.
Proof.
  intros (Hn & _ & _ & Hp). unfold EcGetAttr, as_ec. cbn [set_data o_data].
  change (noPriv (set_data o d2)) with (noPriv o). rewrite Hn.
  destruct (o_data o) as [|l1 b1|? ? ? ?|? ?|r1|k1], d2 as [|l2 b2|? ? ? ?|? ?|r2|k2];
    cbn [same_public] in Hp; try contradiction; cbn [bind]; try reflexivity.
  destruct Hp as (Hp1 & Hp2 & Hp3). unfold GetEcParams, GetEcPoint. rewrite Hp1, Hp2, Hp3. reflexivity.
Qed.
Lemma SecretGetAttr_hidden o d2 ty buf : hidden o d2 ->
  SecretGetAttr (set_data o d2) ty buf = SecretGetAttr o ty buf.
Proof.
  intros (Hn & _ & _ & Hp). unfold SecretGetAttr, as_sym. cbn [set_data o_data].
  change (noPriv (set_data o d2)) with (noPriv o). rewrite Hn.
  destruct (o_data o) as [|l1 b1|? ? ? ?|? ?|r1|k1], d2 as [|l2 b2|? ? ? ?|? ?|r2|k2];
    cbn [same_public] in Hp; try contradiction; cbn [bind]; try reflexivity.
  rewrite Hp. reflexivity.
Qed.

Lemma GetAttr_hidden o d2 ty buf : hidden o d2 ->
  GetAttr oe (set_data o d2) ty buf = GetAttr oe o ty buf.
Proof.
  intros H. pose proof H as (Hn & Hc & Ht & _). unfold GetAttr.
  destruct (get_flag_of ty); [reflexivity|].
  cbn [set_data o_class o_type o_label o_onTok o_keyId o_start o_end o_local o_kgm].
  do 14 (match goal with |- (if ?b then _ else _) = (if ?b then _ else _) =>
           destruct b; [reflexivity|] end).
  destruct (Z.eqb_spec (o_class o) CKO_CERTIFICATE); [contradiction|]. cbn [andb].
  destruct (o_type o =? CKK_RSA)%Z; [apply RsaGetAttr_hidden; exact H|].
  destruct (o_type o =? CKK_EC)%Z; [apply EcGetAttr_hidden; exact H|].
  destruct (Z.eqb_spec (o_type o) CKK_DH); [contradiction|].
  destruct (_ || _); [apply SecretGetAttr_hidden; exact H|reflexivity].
Qed.

Lemma get_loop_hidden o d2 t : hidden o d2 -> get_loop oe (set_data o d2) t = get_loop oe o t.
Proof.
  intros H. induction t as [|a t IH]; [reflexivity|]. cbn [get_loop].
  rewrite GetAttr_hidden by exact H.
  destruct (GetAttr oe o (a_type a) _) as [g|?|?]; cbn [bind]; [|reflexivity..].
  rewrite IH. reflexivity.
Qed.
Lemma match_all_hidden o d2 t : hidden o d2 -> match_all oe (set_data o d2) t = match_all oe o t.
Proof.
  intros H. induction t as [|a t IH]; [reflexivity|]. cbn [match_all].
  assert (E : MatchAttr oe (set_data o d2) a = MatchAttr oe o a).
  { unfold MatchAttr. rewrite GetAttr_hidden by exact H. reflexivity. }
  rewrite E. destruct (MatchAttr oe o a) as [[|]|?|?]; cbn [bind]; auto.
Qed.

(** Setting key data of these types does not look at the old data. *)
Lemma SetKey_hidden o d2 v : hidden o d2 -> SetKey oe (set_data o d2) v = SetKey oe o v.
Proof.
  intros (_ & Hc & Ht & _). unfold SetKey. cbn [set_data o_class o_type].
  destruct (Z.eqb_spec (o_class o) CKO_CERTIFICATE); [contradiction|].
  destruct (o_type o =? CKK_RSA)%Z; [reflexivity|].
  destruct (o_type o =? CKK_EC)%Z; [reflexivity|].
  destruct (Z.eqb_spec (o_type o) CKK_DH); [contradiction|]. reflexivity.
Qed.

Lemma SetAttributeValue_hidden rw o d2 t : hidden o d2 ->
  (exists rv, SetAttributeValue oe rw (set_data o d2) t = Ok (rv, set_data o d2) /\
              SetAttributeValue oe rw o t = Ok (rv, o)) \/
  SetAttributeValue oe rw (set_data o d2) t = SetAttributeValue oe rw o t.
Proof.
  intros H. unfold SetAttributeValue. change (params_of (set_data o d2)) with (params_of o).
  destruct (negb rw); [left; eauto|].
  destruct (negb _); [left; eauto|].
  destruct (params_of o) as [ps|]; [|left; eauto].
  destruct (param_vals t ps) as [v|]; [|left; eauto].
  right. rewrite SetKey_hidden by exact H. reflexivity.
Qed.

(** ** Histories *)
Lemma hrun_store iv kd en hs o : hrun oe (set_store o iv kd en) hs = hrun oe o hs.
Proof.
  revert o. induction hs as [|h hs IH]; intros o; [reflexivity|].
  cbn [hrun]. destruct h as [rw t|t|t]; cbn [hstep].
  - rewrite SetAttributeValue_store. unfold sres.
    destruct (SetAttributeValue oe rw o t) as [[rv o']|?|?]; cbn [bind]; [|reflexivity..].
    f_equal. apply IH.
  - rewrite GetAttributeValue_store.
    destruct (GetAttributeValue oe o t) as [[rv t']|?|?]; cbn [bind]; [|reflexivity..].
    f_equal. apply IH.
  - rewrite match_all_store. destruct (match_all oe o t) as [b|?|?]; cbn [bind]; [|reflexivity..].
    f_equal. apply IH.
Qed.

Lemma hrun_hidden hs o d2 : hidden o d2 -> hrun oe (set_data o d2) hs = hrun oe o hs.
Proof.
  intros H. induction hs as [|h hs IH]; [reflexivity|].
  cbn [hrun]. destruct h as [rw t|t|t]; cbn [hstep].
  - destruct (SetAttributeValue_hidden rw o d2 t H) as [(rv & E1 & E2)|E].
    + rewrite E1, E2. cbn [bind]. f_equal. exact IH.
    + rewrite E. reflexivity.
  - unfold GetAttributeValue. rewrite get_loop_hidden by exact H.
    destruct (check_attrs false t =? CKR_OK)%Z; [|cbn [bind]; f_equal; exact IH].
    destruct (get_loop oe o t) as [[rv t']|?|?]; cbn [bind]; [|reflexivity..].
    f_equal. exact IH.
  - rewrite match_all_hidden by exact H.
    destruct (match_all oe o t) as [b|?|?]; cbn [bind]; [|reflexivity..].
    f_equal. exact IH.
Qed.
End Hist.
