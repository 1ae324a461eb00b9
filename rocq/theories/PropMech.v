(** Properties C57 and C58: list protocol, mechanism list and info. *)
From Verif Require Import Base Ops ToyEnv Mech.

(** * C57 Two-call list protocol *)

(** What the two-call protocol promises for a list of [n] entries, given an
    implementation [f]. *)
Definition two_call (f : listbuf -> listout) : Prop :=
  exists l, let n := zlen l in
    lo_rv (f LNull) = CKR_OK /\ lo_count (f LNull) = n /\ lo_written (f LNull) = [] /\
    (forall c, (n <= c < 2 ^ 64)%Z ->
       lo_rv (f (LBuf c)) = CKR_OK /\ lo_count (f (LBuf c)) = n /\ lo_written (f (LBuf c)) = l) /\
    (forall c, (0 <= c < n)%Z ->
       lo_rv (f (LBuf c)) = CKR_BUFFER_TOO_SMALL /\ lo_written (f (LBuf c)) = []).

Theorem C57_mechanism_list : two_call C_GetMechanismList.
Proof.
  exists mechanismList. cbn [C_GetMechanismList lo_rv lo_count lo_written].
  fold mechanismCnt. split; [reflexivity|]. split; [reflexivity|]. split; [reflexivity|]. split.
  - intros c H. cbn [C_GetMechanismList]. now replace (c <? mechanismCnt)%Z with false by lia.
  - intros c H. cbn [C_GetMechanismList]. now replace (c <? mechanismCnt)%Z with true by lia.
Qed.
Print Assumptions C57_mechanism_list.

(** The full claim for the slot list fails: a count of 2^32 is seen as 0. *)
Definition C57_slot_list_claim : Prop := two_call C_GetSlotList.
Theorem C57_slot_list_refuted : ~ C57_slot_list_claim.
Proof.
  intros (l & H1 & H2 & H3 & H4 & H5). cbn in H2.
  assert (Hn : zlen l = 1%Z) by (rewrite <- H2; reflexivity).
  destruct (H4 (2 ^ 32)%Z) as [E _]; [rewrite Hn; lia|]. vm_compute in E. discriminate.
Qed.
Print Assumptions C57_slot_list_refuted.

(** Missing from the full claim: counts of 2^31 entries and more. *)
Theorem C57_slot_list_partial :
  lo_rv (C_GetSlotList LNull) = CKR_OK /\ lo_count (C_GetSlotList LNull) = 1%Z /\
  lo_written (C_GetSlotList LNull) = [] /\
  (forall c, (1 <= c < 2 ^ 31)%Z ->
     C_GetSlotList (LBuf c) = mkLO CKR_OK 1 [1%Z]) /\
  C_GetSlotList (LBuf 0) = mkLO CKR_BUFFER_TOO_SMALL 0 [] /\
  (** and nothing is ever written beyond the caller's array *)
  (forall c, (0 <= c < 2 ^ 64)%Z -> (zlen (lo_written (C_GetSlotList (LBuf c))) <= c)%Z).
Proof.
  repeat (split; [reflexivity|]). split; [|split; [reflexivity|]].
  - intros c H. unfold C_GetSlotList, i32, slotCnt. rewrite Z.mod_small by lia.
    replace (c <? 2^31)%Z with true by lia. now replace (c <? 1)%Z with false by lia.
  - intros c H. unfold C_GetSlotList. destruct (i32 c <? slotCnt)%Z eqn:E; cbn [lo_written].
    + change (0 <= c)%Z. exact (proj1 H).
    + change (zlen [1%Z]) with 1%Z. destruct (Z.eq_dec c 0) as [->|]; [discriminate E|]. clear E. lia.
Qed.
Print Assumptions C57_slot_list_partial.

Example C57_ex : C_GetMechanismList (LBuf 18) = mkLO CKR_BUFFER_TOO_SMALL 18 [] /\
  lo_count (C_GetMechanismList (LBuf 19)) = 19%Z.
Proof. vm_compute. auto. Qed.

(** * C58 Mechanism list and info agree *)

Definition info_ok (t : Z) : Prop := exists i, C_GetMechanismInfo t = (CKR_OK, Some i).
Definition flag_of (g : flags -> bool) (t : Z) : bool :=
  match snd (C_GetMechanismInfo t) with Some (_, _, f) => g f | None => false end.

(** An Init call accepts a mechanism if some key, parameter and session state
    exist for which it does not answer CKR_MECHANISM_INVALID. *)
Definition accepts (f : opst -> mech -> mparam -> nat -> keyobj -> res (opst * Z)) (t : Z) : Prop :=
  exists st mp k ko st' rv, f st (mech_of t) mp k ko = Ok (st', rv) /\ rv <> CKR_MECHANISM_INVALID.

Definition listed (t : Z) : Prop := In t (lo_written (C_GetMechanismList (LBuf mechanismCnt))).

Theorem C58_list_info : forall t, info_ok t <-> listed t.
Proof.
  intros t. unfold info_ok, listed.
  change (lo_written (C_GetMechanismList (LBuf mechanismCnt))) with mechanismList.
  unfold C_GetMechanismInfo, mechanismList. split.
  - intros [i H]. cbn [In]. cbv beta zeta in H.
    repeat match type of H with
    | context [if (?a =? ?b)%Z then _ else _] => destruct (Z.eqb_spec a b); [subst; tauto|]
    | context [if orb (?a =? ?b)%Z (?c =? ?d)%Z then _ else _] =>
        destruct (Z.eqb_spec a b); [subst; tauto|]; destruct (Z.eqb_spec c d); [subst; tauto|];
        cbn [orb] in H
    end. discriminate.
  - intros H. cbn [In] in H.
    repeat match type of H with _ \/ _ => destruct H as [<-|H] end; try contradiction;
      eexists; reflexivity.
Qed.
Print Assumptions C58_list_info.


Lemma unlisted t : ~ In t mechanismList ->
  mech_of t = M_OTHER t /\ C_GetMechanismInfo t = (CKR_MECHANISM_INVALID, None).
Proof.
  intros H. unfold mechanismList in H. cbn [In] in H.
  unfold mech_of, C_GetMechanismInfo. cbv beta zeta.
  repeat match goal with
  | |- context [(t =? ?b)%Z] => destruct (Z.eqb_spec t b); [exfalso; subst; tauto|]
  end. cbn [orb]. auto.
Qed.

(** Witness keys for the acceptance direction. *)
Definition anykey (ty : Z) : keyobj := mkKey ty (repeat 0%N 16) [] 128.


Lemma accepts_iff (f : opst -> mech -> mparam -> nat -> keyobj -> res (opst * Z)) t (b : bool) :
  (b = true -> f op_zero (mech_of t) (MPoaep true 0 0 None) 0 (anykey 77) =
     Ok (op_zero, CKR_KEY_TYPE_INCONSISTENT)) ->
  (b = false -> forall st mp k ko, f st (mech_of t) mp k ko = Ok (st, CKR_MECHANISM_INVALID)) ->
  (accepts f t <-> b = true).
Proof.
  intros H1 H2. destruct b; split; try discriminate; auto.
  - intros _. exists op_zero, (MPoaep true 0 0 None), 0, (anykey 77), op_zero,
      CKR_KEY_TYPE_INCONSISTENT. split; [now apply H1|discriminate].
  - intros (st & mp & k & ko & st' & rv & E & Hrv). rewrite H2 in E by reflexivity.
    injection E as <- <-. now destruct Hrv.
Qed.

Theorem C58_crypto_flags : forall ev t,
  (accepts (C_EncryptInit ev) t <-> flag_of f_encrypt t = true) /\
  (accepts (C_DecryptInit ev) t <-> flag_of f_decrypt t = true) /\
  (accepts (C_SignInit ev) t <-> flag_of f_sign t = true) /\
  (accepts (C_VerifyInit ev) t <-> flag_of f_verify t = true).
Proof.
  intros ev t.
  destruct (in_dec Z.eq_dec t mechanismList) as [Hin|Hout].
  - unfold mechanismList in Hin. cbn [In] in Hin.
    repeat match type of Hin with _ \/ _ => destruct Hin as [<-|Hin] end; try contradiction;
    (split; [|split; [|split]]); apply accepts_iff; intros Hb;
    try discriminate Hb; intros; reflexivity.
  - destruct (unlisted t Hout) as [Em Ei]. unfold flag_of. rewrite Ei. cbn [snd].
    (split; [|split; [|split]]); apply accepts_iff; intros Hb; try discriminate Hb;
    intros; rewrite Em; reflexivity.
Qed.
Print Assumptions C58_crypto_flags.

(** Acceptance above is not merely "key type is looked at": with a suitable key,
    every flagged Init succeeds (toy primitives). *)
Example C58_ex_ok :
  C_EncryptInit toy op_zero (mech_of CKM_AES_GCM) (MPgcm (repeat 1%N 12) None 128) 0
     (anykey CKK_AES) <> Undef UB_union /\
  (exists st, C_SignInit toy op_zero (mech_of CKM_SHA224_HMAC) MPnull 0
     (anykey CKK_GENERIC_SECRET) = Ok (st, CKR_OK)) /\
  (exists st, C_EncryptInit toy op_zero (mech_of CKM_RSA_PKCS_OAEP)
     (MPoaep true 544 1 None) 0 (anykey CKK_RSA) = Ok (st, CKR_OK)).
Proof. vm_compute. split; [discriminate|split; eexists; reflexivity]. Qed.

Theorem C58_key_management_flags : forall t,
  keypair_accepts t = flag_of f_keypair t /\ derive_accepts t = flag_of f_derive t.
Proof.
  intros t. destruct (in_dec Z.eq_dec t mechanismList) as [Hin|Hout].
  - unfold mechanismList in Hin. cbn [In] in Hin.
    repeat match type of Hin with _ \/ _ => destruct Hin as [<-|Hin] end; try contradiction;
    vm_compute; auto.
  - destruct (unlisted t Hout) as [_ Ei]. unfold flag_of. rewrite Ei. cbn [snd].
    unfold mechanismList in Hout. cbn [In] in Hout.
    unfold keypair_accepts, derive_accepts. cbn [existsb].
    repeat match goal with
    | |- context [(t =? ?b)%Z] => destruct (Z.eqb_spec t b); [exfalso; subst; tauto|]
    end. auto.
Qed.
Print Assumptions C58_key_management_flags.

(** The full claim: in addition CKF_WRAP / CKF_UNWRAP are right, and every
    mechanism accepted by any call is listed. *)
Definition C58_claim : Prop :=
  (forall t, wrap_accepts t = flag_of f_wrap t /\ unwrap_accepts t = flag_of f_unwrap t) /\
  (forall t, genkey_accepts t = true -> listed t).

(** CKM_RSA_X_509 is advertised for wrapping but refused by C_WrapKey. *)
Theorem C58_wrap_flag_refuted :
  flag_of f_wrap CKM_RSA_X_509 = true /\ wrap_accepts CKM_RSA_X_509 = false /\
  wrap_accepts CKM_AES_CBC_PAD = true /\ flag_of f_wrap CKM_AES_CBC_PAD = false.
Proof. vm_compute. auto. Qed.
Print Assumptions C58_wrap_flag_refuted.

(** CKM_AES_KEY_GEN works with C_GenerateKey but is not listed. *)
Theorem C58_keygen_unlisted_refuted :
  genkey_accepts CKM_AES_KEY_GEN = true /\ ~ listed CKM_AES_KEY_GEN.
Proof.
  split; [reflexivity|]. unfold listed.
  change (lo_written (C_GetMechanismList (LBuf mechanismCnt))) with mechanismList.
  unfold mechanismList. cbn [In]. intros H.
  repeat match type of H with _ \/ _ => destruct H as [H|H] end; try contradiction; discriminate.
Qed.
Print Assumptions C58_keygen_unlisted_refuted.

Theorem C58_refuted : ~ C58_claim.
Proof.
  intros [H _]. specialize (H CKM_RSA_X_509). vm_compute in H. destruct H. discriminate.
Qed.
Print Assumptions C58_refuted.

(** Missing from the full claim: the two wrap flags of CKM_RSA_X_509 and
    CKM_AES_CBC_PAD, and the listing of CKM_AES_KEY_GEN. *)
Theorem C58_flags_partial : forall t,
  t <> CKM_RSA_X_509 -> t <> CKM_AES_CBC_PAD ->
  wrap_accepts t = flag_of f_wrap t /\ unwrap_accepts t = flag_of f_unwrap t.
Proof.
  intros t N1 N2. destruct (in_dec Z.eq_dec t mechanismList) as [Hin|Hout].
  - unfold mechanismList in Hin. cbn [In] in Hin.
    repeat match type of Hin with _ \/ _ => destruct Hin as [<-|Hin] end; try contradiction;
    vm_compute; auto.
  - destruct (unlisted t Hout) as [_ Ei]. unfold flag_of. rewrite Ei. cbn [snd].
    unfold wrap_accepts, unwrap_accepts. now replace (t =? CKM_AES_CBC_PAD)%Z with false by lia.
Qed.
Print Assumptions C58_flags_partial.
