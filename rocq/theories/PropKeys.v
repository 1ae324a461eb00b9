(** What keys may be used for: C29, C30, C46. *)
From Verif Require Import Base Codec Ops OpsSpec ToyEnv Object ObjectSpec PropObject Store StoreSpec Sys SysProofs SysProofs2 SysProofs3 SysProofs4
  WfProofs ToySys PropStore PropStore2 ObjFrame ObjProofs HandleProofs QuotaProofs DiskHandles PropObj.

(** The session, the key and the usage attribute a call needs: PKCS #11 v2.40,
    sections 5.8 to 5.13. *)
Definition demands (c : op) : option (Z * Z * Z) :=
  match c with
  | OCrypto h (KEncryptInit _ _ _) k => Some (h, k, CKA_ENCRYPT)
  | OCrypto h (KDecryptInit _ _ _) k => Some (h, k, CKA_DECRYPT)
  | OCrypto h (KSignInit _ _ _) k => Some (h, k, CKA_SIGN)
  | OCrypto h (KVerifyInit _ _ _) k => Some (h, k, CKA_VERIFY)
  | OWrapKey h _ _ k _ _ => Some (h, k, CKA_WRAP)
  | OUnwrapKey h _ _ k _ _ => Some (h, k, CKA_UNWRAP)
  | ODeriveKey h _ k _ _ => Some (h, k, CKA_DERIVE)
  | _ => None
  end.
Definition demanding : list Z := [CKA_ENCRYPT; CKA_DECRYPT; CKA_SIGN; CKA_VERIFY; CKA_WRAP; CKA_UNWRAP; CKA_DERIVE].

(** ** C30: key usage flags are enforced *)
Definition C30_claim (w : world) (ty : Z) : Prop :=
  forall d s c h hk x k rnd s' o, reach w (sys0 d) s -> demands c = Some (h, hk, ty) -> step w rnd s c = Ok (s', o) -> out_rv o = CKR_OK ->
    sess_get s h = Some x -> find_obj s x hk = Some k -> api_reads (w_oe w) k ty [1%N].
(** A boolean attribute of the refuting key reads false. *)
Lemma reads_false w o ty f : get_flag_of ty = Some f -> has_flag (o_opFlag o) f = false -> ~ api_reads (w_oe w) o ty [1%N].
Proof.
  intros F H R. specialize (R [5%N] eq_refl). unfold GetAttributeValue in R. cbv zeta in R. match type of R with (if ?b then _ else _) = _ => destruct b end; [|discriminate R].
  cbn [get_loop a_type a_val buf_of v_len] in R. unfold GetAttr in R. rewrite F in R. cbn [bind] in R. unfold get_opflag in R. rewrite H in R. vm_compute in R. discriminate R.
Qed.
(** Keys without any usage attribute: AES, generic secret, RSA private, DH private. *)
Definition gen_tmpl : template := [mkA CKA_CLASS (ULONG CKO_SECRET_KEY); mkA CKA_KEY_TYPE (ULONG CKK_GENERIC_SECRET); mkA CKA_VALUE (AV (repeat 7%N 16))].
Definition idle_keys : list op := setup ++ [OOpenSession 1 RW; OCreateObject H2 aes_tmpl; OCreateObject H2 gen_tmpl;
  OGenerateKeyPair H2 KP_RSA [] [] (Some (GRsa (mkRsa 33 7 3 11 1 7 2 3)));
  OGenerateKeyPair H2 KP_DH [mkA CKA_PRIME (AV [23%N]); mkA CKA_BASE (AV [5%N])] [] (Some (GDh [6%N] [8%N]))].
Definition iv0 : mparam := MPraw (repeat 0%N 16).
Definition p8_wrapped : list N := [15; 15; 15; 15; 15; 15; 15; 15; 4; 5; 0; 6; 12; 4; 0; 38]%N.
Definition unlock_tmpl : template := [mkA CKA_CLASS (ULONG CKO_PRIVATE_KEY); mkA CKA_KEY_TYPE (ULONG CKK_RSA)].
Definition misuse (ty : Z) : op :=
  if (ty =? CKA_ENCRYPT)%Z then OCrypto H2 (KEncryptInit M_AES_CBC_PAD iv0 0) 1
  else if (ty =? CKA_DECRYPT)%Z then OCrypto H2 (KDecryptInit M_AES_CBC_PAD iv0 0) 1
  else if (ty =? CKA_SIGN)%Z then OCrypto H2 (KSignInit (M_HMAC H_SHA1) MPnull 0) 2
  else if (ty =? CKA_VERIFY)%Z then OCrypto H2 (KVerifyInit (M_HMAC H_SHA1) MPnull 0) 2
  else if (ty =? CKA_WRAP)%Z then OWrapKey H2 M_AES_CBC_PAD iv0 1 4 (Buf 64)
  else if (ty =? CKA_UNWRAP)%Z then OUnwrapKey H2 M_AES_CBC_PAD iv0 1 p8_wrapped unlock_tmpl
  else ODeriveKey H2 D_DH 6 (Some (repeat 9%N 16)) gen_tmpl.
Definition misused (ty : Z) : bool :=
  match step tw (rnd 0) (after idle_keys) (misuse ty), sess_get (after idle_keys) H2, demands (misuse ty), get_flag_of ty with
  | Ok (_, o), Some x, Some (h, hk, ty'), Some f =>
      match find_obj (after idle_keys) x hk with
      | Some k => andb (andb (out_rv o =? CKR_OK)%Z (negb (has_flag (o_opFlag k) f))) (andb (h =? H2)%Z (ty' =? ty)%Z)
      | None => false
      end
  | _, _, _, _ => false
  end.
Example idle_keys_ok : rvs idle_keys = repeat CKR_OK 12 /\ forallb misused demanding = true.
Proof. vm_compute. split; reflexivity. Qed.
Theorem C30_refuted : forall ty, In ty demanding -> ~ C30_claim tw ty.
Proof.
  intros ty T C. assert (R : reach tw (sys0 nofiles) (after idle_keys)) by (apply after_reach; vm_compute; exact Logic.I).
  pose proof (proj2 idle_keys_ok) as A. rewrite forallb_forall in A. specialize (A ty T). unfold misused in A. specialize (C nofiles (after idle_keys)). revert C R A. generalize (after idle_keys). intros s C R A.
  destruct (step tw (rnd 0) s (misuse ty)) as [[s' o]| |] eqn:E; try discriminate A. destruct (sess_get s H2) as [x|] eqn:X; [|discriminate A]. destruct (demands (misuse ty)) as [[[h hk] ty']|] eqn:D; [|discriminate A].
  destruct (get_flag_of ty) as [f|] eqn:F; [|discriminate A]. destruct (find_obj s x hk) as [k|] eqn:K; [|discriminate A].
  apply andb_prop in A as [A B]. apply andb_prop in A as [A1 A2]. apply andb_prop in B as [B1 B2]. apply Z.eqb_eq in A1, B1, B2. subst h ty'. apply negb_true_iff in A2.
  apply (reads_false tw k ty f F A2). eapply C; eauto.
Qed.
Print Assumptions C30_refuted.
(** What is checked: the type of the key. *)
Definition mech_key (m : mech) : Z :=
  match m with
  | M_RSA_X_509 | M_RSA_PKCS | M_RSA_OAEP | M_RSA_PSS => CKK_RSA
  | M_ECDSA => CKK_EC
  | M_HMAC _ => CKK_GENERIC_SECRET
  | M_AES_CBC | M_AES_CBC_PAD | M_AES_GCM => CKK_AES
  | M_OTHER _ => 0%Z
  end.
Definition op_mech (c : op) : option mech :=
  match c with
  | OCrypto _ (KEncryptInit m _ _ | KDecryptInit m _ _ | KSignInit m _ _ | KVerifyInit m _ _) _ | OWrapKey _ m _ _ _ _ | OUnwrapKey _ m _ _ _ _ => Some m
  | _ => None
  end.
Lemma init_type ev objs st c m st' r ko k : with_key c k = Some c -> Ops.step ev objs st c = Ok (st', r) -> o_rv r = CKR_OK -> objs k = Some ko ->
  match c with KEncryptInit m' _ _ | KDecryptInit m' _ _ | KSignInit m' _ _ | KVerifyInit m' _ _ => m' = m | _ => False end -> ko_type ko = mech_key m.
Proof.
  intros W H R K M. destruct c as [m' mp k'|m' mp k'|m' mp k'|m' mp k'| | | | | | | | | | | | |]; try contradiction; subst m'; injection W as W; subst k'; cbn [Ops.step] in H; unfold init_call in H; rewrite K in H;
  match type of H with bind ?f _ = _ => destruct f as [[st1 rv]| |] eqn:F; cbn [bind] in H; try discriminate H; injection H as <- <-; cbn in R; subst rv end;
  destruct m; cbn [C_EncryptInit C_DecryptInit C_SignInit C_VerifyInit] in F; try discriminate F; try (injection F as F);
  unfold rsa_noparam, oaep_init, pss_init, cbc_init, gcm_init, hmac_init, ecdsa_init in F; cbn [mech_key];
  match type of F with (if negb (?a =? ?b)%Z then _ else _) = _ => destruct (Z.eqb_spec a b) as [Q|Q]; [exact Q|cbn [negb] in F; discriminate F] end.
Qed.
Lemma view_type w o k : view w o = Ok k -> ko_type k = o_type o.
Proof.
  unfold view. intros H. destruct (o_type o =? CKK_RSA)%Z; [destruct (as_rsa o); cbn [bind] in H; try discriminate H; injection H as <-; reflexivity|].
  destruct (o_type o =? CKK_EC)%Z; [destruct (as_ec o); cbn [bind] in H; try discriminate H; injection H as <-; reflexivity|].
  destruct (is_sym o); [|injection H as <-; reflexivity]. destruct (as_sym o) as [[l b]| |]; cbn [bind] in H; try discriminate H. destruct (take_buf l b); cbn [bind] in H; try discriminate H. injection H as <-. reflexivity.
Qed.
Theorem C30_partial w rnd s c h hk ty m s' o x k : demands c = Some (h, hk, ty) -> op_mech c = Some m -> step w rnd s c = Ok (s', o) -> out_rv o = CKR_OK ->
  sess_get s h = Some x -> find_obj s x hk = Some k -> o_type k = mech_key m.
Proof.
  intros D M H R X K. destruct c; try discriminate M; cbn [step] in H; unfold with_sess, need_lib in H; (destruct (0 <? s_count s)%Z; [|unfold rv_ in H; injection H as _ <-; discriminate R]).
  - cbn in M, D. injection D as <- <- _. injection M as <-. rewrite X in H. unfold need_rw in H. destruct (is_rw x); [|unfold rv_ in H; injection H as _ <-; discriminate R].
    unfold with_object in H. destruct (find_obj s x hk0) as [k1|]; [|unfold rv_ in H; injection H as _ <-; discriminate R]. rewrite K in H. unfold Wrap in H.
    destruct (negb (wrappable _ _)); [unfold rv_ in H; injection H as _ <-; discriminate R|]. destruct (as_rsa k1) as [r| |]; cbn [bind] in H; try discriminate H. destruct (w_p8 w r) as [c0 der].
    destruct (negb (c0 =? 0)%Z); [unfold rv_ in H; injection H as _ <-; discriminate R|]. destruct m0; cbn [is_cbc_pad negb] in H; try (unfold rv_ in H; injection H as _ <-; discriminate R).
    destruct (Z.eqb_spec (o_type k) CKK_AES) as [E|E]; [exact E|]. unfold rv_ in H; injection H as _ <-; discriminate R.
  - cbn in M, D. injection D as <- <- _. injection M as <-. rewrite X in H. unfold need_rw in H. destruct (is_rw x); [|unfold rv_ in H; injection H as _ <-; discriminate R].
    destruct (zlen wrapped =? 0)%Z; [unfold rv_ in H; injection H as _ <-; discriminate R|]. unfold with_object in H. rewrite K in H. unfold Unwrap in H.
    destruct m0; cbn [is_cbc_pad negb] in H; try (unfold rv_ in H; injection H as _ <-; discriminate R). cbv zeta in H.
    destruct (find_last t CKA_KEY_TYPE) as [a|]; [|unfold rv_ in H; injection H as _ <-; discriminate R]. destruct (tmpl_ulong a) as [kt|]; [|unfold rv_ in H; injection H as _ <-; discriminate R].
    destruct (negb (mem kt _)); [unfold rv_ in H; injection H as _ <-; discriminate R|]. destruct (find_last t CKA_CLASS) as [a2|]; [|unfold rv_ in H; injection H as _ <-; discriminate R]. destruct (tmpl_ulong a2) as [cls|]; [|unfold rv_ in H; injection H as _ <-; discriminate R].
    destruct (negb (mem cls _)); [unfold rv_ in H; injection H as _ <-; discriminate R|]. destruct (negb (wrappable _ _)); [unfold rv_ in H; injection H as _ <-; discriminate R|].
    destruct (Z.eqb_spec (o_type k) CKK_AES) as [E|E]; [exact E|]. unfold rv_ in H; injection H as _ <-; discriminate R.
  - assert (W : exists c1, with_key c (o_uid k) = Some c1 /\ with_key c1 (o_uid k) = Some c1 /\ with_key c 0 <> None /\ h0 = h /\ hk0 = hk /\
      match c1 with KEncryptInit m' _ _ | KDecryptInit m' _ _ | KSignInit m' _ _ | KVerifyInit m' _ _ => m' = m | _ => False end).
    { destruct c; try discriminate M; cbn in M, D |- *; injection D as <- <- _; injection M as <-; eexists; (split; [reflexivity|]); (split; [reflexivity|]); (split; [discriminate|]); auto. }
    destruct W as (c1 & W1 & W2 & W3 & -> & -> & W4). rewrite X in H. destruct (with_key c 0); [|contradiction]. unfold with_object in H. rewrite K, W1 in H. unfold run_init in H.
    destruct (view w k) as [ko| |] eqn:V; cbn [bind] in H; try discriminate H. destruct (Ops.step _ _ _ _) as [[p r]| |] eqn:E; cbn [bind] in H; try discriminate H. injection H as _ <-. cbn in R.
    rewrite <- (view_type _ _ _ V). eapply (init_type _ _ _ c1 m p r ko (o_uid k)); [exact W2|exact E|exact R|cbn; rewrite Nat.eqb_refl; reflexivity|exact W4].
Qed.
Print Assumptions C30_partial.
Example C30_case : map (fun ty => match step tw (rnd 0) (after idle_keys) (misuse ty) with Ok (_, o) => (out_rv o, op_mech (misuse ty)) | _ => (1%Z, None) end) demanding =
  [(CKR_OK, Some M_AES_CBC_PAD); (CKR_OK, Some M_AES_CBC_PAD); (CKR_OK, Some (M_HMAC H_SHA1)); (CKR_OK, Some (M_HMAC H_SHA1)); (CKR_OK, Some M_AES_CBC_PAD); (CKR_OK, Some M_AES_CBC_PAD); (CKR_OK, None)] /\
  outs (idle_keys ++ [OCrypto H2 (KSignInit M_ECDSA MPnull 0) 4]) = outs idle_keys ++ [OutC (mkOut CKR_KEY_TYPE_INCONSISTENT 0 [])].
Proof. vm_compute. split; reflexivity. Qed.

(** ** C29: non-extractable keys cannot be wrapped *)
Definition extractable (o : obj) : Prop := Z.land (o_flag o) FL_EXTRACTABLE <> 0%Z.
Definition C29_claim (w : world) : Prop :=
  forall d s h m mp hw hk b x k rnd s' r, reach w (sys0 d) s -> sess_get s h = Some x -> find_obj s x hk = Some k ->
    step w rnd s (OWrapKey h m mp hw hk b) = Ok (s', OutC r) -> o_out r <> [] -> extractable k.
Theorem C29_refuted : ~ C29_claim tw.
Proof.
  intros C. assert (R : reach tw (sys0 nofiles) (after idle_keys)) by (apply after_reach; vm_compute; exact Logic.I).
  destruct (step tw (rnd 0) (after idle_keys) (misuse CKA_WRAP)) as [[s1 o1]| |] eqn:E1; [|vm_compute in E1; discriminate..].
  assert (Eo : o1 = OutC (mkOut CKR_OK 16 p8_wrapped)) by (vm_compute in E1; injection E1 as _ <-; reflexivity). subst o1.
  assert (K : match sess_get (after idle_keys) H2 with Some x => match find_obj (after idle_keys) x 4 with Some k => (Z.land (o_flag k) FL_EXTRACTABLE =? 0)%Z | None => false end | None => false end = true) by (vm_compute; reflexivity).
  destruct (sess_get (after idle_keys) H2) as [x|] eqn:X; [|discriminate K]. destruct (find_obj (after idle_keys) x 4) as [k|] eqn:F; [|discriminate K]. apply Z.eqb_eq in K.
  exact (C nofiles _ _ _ _ _ _ _ _ _ _ _ _ R X F E1 ltac:(discriminate) K).
Qed.
Print Assumptions C29_refuted.
(** Only RSA private keys are ever output, under an AES key and with padding; all other keys, extractable or not, are refused. *)
Theorem C29_partial w rnd s h m mp hw hk b x k s' o : sess_get s h = Some x -> find_obj s x hk = Some k ->
  step w rnd s (OWrapKey h m mp hw hk b) = Ok (s', o) -> (forall rv, o <> OutRv rv) ->
  o_class k = CKO_PRIVATE_KEY /\ o_type k = CKK_RSA /\ m = M_AES_CBC_PAD /\ exists wk, find_obj s x hw = Some wk /\ o_type wk = CKK_AES.
Proof.
  intros X K H N. assert (Q : forall rv s0, rv_ s0 rv = Ok (s', o) -> False) by (intros rv s0 A; unfold rv_ in A; injection A as _ A; exact (N rv (eq_sym A))).
  cbn [step] in H; unfold with_sess, need_lib in H; (destruct (0 <? s_count s)%Z; [|apply Q in H; contradiction]). rewrite X in H. unfold need_rw in H. destruct (is_rw x); [|apply Q in H; contradiction].
  unfold with_object in H. rewrite K in H. destruct (find_obj s x hw) as [wk|]; [|apply Q in H; contradiction]. unfold Wrap in H. unfold wrappable in H.
  destruct (Z.eqb_spec (o_class k) CKO_PRIVATE_KEY) as [E1|]; [|apply Q in H; contradiction]. destruct (Z.eqb_spec (o_type k) CKK_RSA) as [E2|]; [|apply Q in H; contradiction]. cbn [andb negb] in H.
  destruct (as_rsa k) as [r| |]; cbn [bind] in H; try discriminate H. destruct (w_p8 w r) as [c0 der]. destruct (negb (c0 =? 0)%Z); [apply Q in H; contradiction|].
  destruct m; cbn [is_cbc_pad negb] in H; try (apply Q in H; contradiction). destruct (Z.eqb_spec (o_type wk) CKK_AES) as [E|E]; [|apply Q in H; contradiction]. eauto 8.
Qed.
Print Assumptions C29_partial.
Example C29_case : skipn 12 (outs (idle_keys ++ [OWrapKey H2 M_AES_CBC_PAD iv0 1 4 (Buf 64); OWrapKey H2 M_AES_CBC_PAD iv0 1 2 (Buf 64); OWrapKey H2 M_AES_CBC_PAD iv0 2 4 (Buf 64)])) =
  [OutC (mkOut CKR_OK 16 p8_wrapped); OutRv CKR_KEY_NOT_WRAPPABLE; OutRv CKR_WRAPPING_KEY_TYPE_INCONSISTENT].
Proof. vm_compute. reflexivity. Qed.

(** ** C46: derived keys have the requested length and content *)
Definition asked_len (t : template) : option Z := match find_last t CKA_VALUE_LEN with Some a => tmpl_ulong a | None => None end.
Definition C46_read_claim (w : world) : Prop :=
  forall d s h m hb sec t rnd, reach w (sys0 d) s -> step w rnd s (ODeriveKey h m hb (Some sec) t) <> Undef UB_read_overflow.
Definition C46_handle_claim (w : world) : Prop :=
  forall d s h m hb sec t rnd s' o, reach w (sys0 d) s -> step w rnd s (ODeriveKey h m hb (Some sec) t) = Ok (s', o) -> out_rv o = CKR_OK -> exists ho, o = OutH CKR_OK ho.
Definition C46_length_claim (w : world) : Prop :=
  forall d s h m hb sec t rnd s' ho n x o, reach w (sys0 d) s -> step w rnd s (ODeriveKey h m hb (Some sec) t) = Ok (s', OutH CKR_OK ho) -> asked_len t = Some n ->
    sess_get s' h = Some x -> find_obj s' x ho = Some o -> exists v, stored_value o = Some v /\ zlen v = n.
Definition len_tmpl (n : Z) : template := [mkA CKA_CLASS (ULONG CKO_SECRET_KEY); mkA CKA_KEY_TYPE (ULONG CKK_AES); mkA CKA_VALUE_LEN (ULONG n)].
(** 16 bytes asked of a 32-byte secret: the code copies 32 bytes starting at the 17th. *)
Theorem C46_read_refuted : ~ C46_read_claim tw.
Proof.
  intros C. apply (C nofiles (after idle_keys) H2 D_DH 6%Z (repeat 9%N 32) (len_tmpl 16) (rnd 0)); [apply after_reach; vm_compute; exact Logic.I|]. vm_compute. reflexivity.
Qed.
Print Assumptions C46_read_refuted.
(** A template for an RSA key: CKR_OK, but no object and no handle. *)
Theorem C46_handle_refuted : ~ C46_handle_claim tw.
Proof.
  intros C. assert (R : reach tw (sys0 nofiles) (after idle_keys)) by (apply after_reach; vm_compute; exact Logic.I).
  destruct (step tw (rnd 0) (after idle_keys) (ODeriveKey H2 D_DH 6 (Some (repeat 9%N 32)) unlock_tmpl)) as [[s1 o1]| |] eqn:E1; [|vm_compute in E1; discriminate..].
  assert (Eo : o1 = OutRv CKR_OK) by (vm_compute in E1; injection E1 as _ <-; reflexivity). subst o1. destruct (C nofiles _ _ _ _ _ _ _ _ _ R E1 eq_refl) as (ho & K). discriminate K.
Qed.
Print Assumptions C46_handle_refuted.
(** 32 bytes asked of a 16-byte secret: a 16-byte key. *)
Theorem C46_length_refuted : ~ C46_length_claim tw.
Proof.
  intros C. assert (R : reach tw (sys0 nofiles) (after idle_keys)) by (apply after_reach; vm_compute; exact Logic.I).
  destruct (step tw (rnd 0) (after idle_keys) (ODeriveKey H2 D_DH 6 (Some (repeat 9%N 16)) (len_tmpl 32))) as [[s1 o1]| |] eqn:E1; [|vm_compute in E1; discriminate..].
  assert (Eo : o1 = OutH CKR_OK 7) by (vm_compute in E1; injection E1 as _ <-; reflexivity). subst o1.
  assert (K : match sess_get s1 H2 with Some x => match find_obj s1 x 7 with Some k => match stored_value k with Some v => (zlen v =? 16)%Z | None => false end | None => false end | None => false end = true)
    by (clear - E1; vm_compute in E1; injection E1 as <-; vm_compute; reflexivity).
  destruct (sess_get s1 H2) as [x|] eqn:X; [|discriminate K]. destruct (find_obj s1 x 7) as [k|] eqn:F; [|discriminate K].
  destruct (C nofiles _ _ _ _ _ _ _ _ _ _ _ _ R E1 eq_refl X F) as (v & V & L). rewrite V in K. apply Z.eqb_eq in K. rewrite L in K. discriminate K.
Qed.
Print Assumptions C46_length_refuted.

Lemma Encode_data w key o c o' : Encode (w_se w) key false o = Ok (c, o') -> o_data o' = o_data o.
Proof. intros E. apply Encode_id in E as (_ & _ & _ & _ & E). specialize (E eq_refl). apply (f_equal o_data) in E. exact E. Qed.
Lemma AddToSession_data w rnd s h x b o ho s' : uniq (s_sess s) -> sess_get s h = Some x -> AddToSession w rnd s x b o = Ok (0%Z, ho, s') ->
  exists x' o', sess_get s' h = Some x' /\ In o' (within s' x') /\ o_handle o' = ho /\ o_data o' = o_data o.
Proof.
  unfold AddToSession. intros U G H. destruct (b =? 0)%N eqn:B.
  - destruct (SESS_OBJ_MAX <=? _)%Z; [discriminate H|]. injection H as <- <-. eexists _, (set_handle (set_onTok o (N.odd b)) (next_handle (ss_objs x) b)).
    split; [eapply sess_get_put; eauto|]. split; [apply in_or_app; right; left; reflexivity|]. split; reflexivity.
  - destruct (TOK_OBJ_MAX <=? _)%Z; [discriminate H|]. destruct (Encode _ _ _ _) as [[c2 o2]| |] eqn:E; cbn [bind] in H; try discriminate H.
    destruct (negb (c2 =? 0)%Z) eqn:C2; [injection H as -> _ _; discriminate C2|]. destruct (store _ _ _) as [[c3 s3]| |] eqn:S; cbn [bind] in H; try discriminate H. injection H as <- <-.
    apply Encode_data in E. apply store_frame in S as (_ & S1 & _ & _ & S2). cbn in S1, S2. exists x.
    destruct (t_objs (s_tok s3)) as [|o3 r] eqn:T; [discriminate S2|]. cbn [map] in S2. assert (S3 : core_obj o3 = core_obj (set_handle o2 (next_handle (t_objs (s_tok s)) b))) by (apply (f_equal (hd (core_obj o3))) in S2; exact S2).
    exists o3. split; [unfold sess_get in *; rewrite S1; exact G|]. split; [unfold within; rewrite T; left; reflexivity|].
    split; [apply (f_equal o_handle) in S3; exact S3|apply (f_equal o_data) in S3; cbn in S3; rewrite S3; exact E].
Qed.
(** A key that is derived is the whole secret. *)
Theorem C46_partial w d s h m hb sec t rnd s' ho : reach w (sys0 d) s -> (zlen sec < 2^32)%Z -> step w rnd s (ODeriveKey h m hb (Some sec) t) = Ok (s', OutH CKR_OK ho) ->
  exists x o, sess_get s' h = Some x /\ In o (within s' x) /\ o_handle o = ho /\ stored_value o = Some sec.
Proof.
  intros R Sm H. pose proof (reach_inv w _ _ R) as I. cbn [step] in H. unfold with_sess, need_lib in H. destruct (0 <? s_count s)%Z; [|discriminate H]. destruct (sess_get s h) as [x|] eqn:X; [|discriminate H].
  unfold with_object in H. destruct (find_obj s x hb) as [kb|]; [|discriminate H]. unfold Derive in H. assert (Q : m <> D_other) by (intros ->; discriminate H).
  assert (H' : bind (CreateObject (w_oe w) (is_rw x) (s_uid s) t) (fun p => let '(rv, o) := p in let s1 := bump s 1 in match o with None => rv_ s1 rv | Some o =>
     bind (GetAttr (w_oe w) o CKA_VALUE_LEN (Some 8%Z)) (fun q => let '(c, _, dd) := q in if negb (c =? 0)%Z then rv_ s1 CKR_OK else
       let vl := u32 (ulong_of dd) in let sl := if andb (0 <? vl)%Z (vl <=? zlen sec)%Z then vl else zlen sec in if (sl <? zlen sec)%Z then Undef UB_read_overflow else
       bind (SetSecretKey o [None; Some sec]) (fun q2 => let '(c2, o1) := q2 in if negb (c2 =? 0)%Z then rv_ s1 CKR_FUNCTION_FAILED else bind (AddObject w rnd s1 x t o1) (fun q3 => let '(rv2, h, s2) := q3 in Ok (s2, OutH rv2 h)))) end) = Ok (s', OutH CKR_OK ho)).
  { destruct m; [destruct (as_ec kb)|destruct (as_dh kb)|contradiction]; cbn [bind] in H; try discriminate H; exact H. }
  clear H Q. destruct (CreateObject _ _ _ _) as [[rv [o|]]| |]; cbn [bind] in H'; try discriminate H'. cbv zeta in H'. destruct (GetAttr _ _ _ _) as [[[c l] dd]| |]; cbn [bind] in H'; try discriminate H'.
  destruct (negb (c =? 0)%Z); [discriminate H'|]. match type of H' with (if ?b then _ else _) = _ => destruct b; [discriminate H'|] end.
  destruct (SetSecretKey o _) as [[c2 o1]| |] eqn:S; cbn [bind] in H'; try discriminate H'. destruct (negb (c2 =? 0)%Z); [discriminate H'|].
  destruct (AddObject _ _ _ _ _ _) as [[[rv2 h2] s2]| |] eqn:A; cbn [bind] in H'; try discriminate H'. injection H' as -> -> ->.
  unfold AddObject in A. destruct (tmpl_token t) as [b|]; [|discriminate A]. destruct (AddToSession _ _ _ _ _ _) as [[[c3 h3] s3]| |] eqn:A2; cbn [bind] in A; try discriminate A.
  destruct (Z.eqb_spec c3 0) as [->|]; [|discriminate A]. injection A as -> ->.
  destruct (AddToSession_data w rnd (bump s 1) h x b o1 ho s' (inv_uniq s I) X A2) as (x' & o' & X' & J & Hh & Dd). exists x', o'. split; [exact X'|]. split; [exact J|]. split; [exact Hh|].
  unfold stored_value. rewrite Dd. unfold SetSecretKey in S. cbn [nth] in S. cbv zeta in S. change (0 =? 0)%Z with true in S. cbn [negb andb] in S.
  assert (U : u32 (zlen sec) = zlen sec) by (unfold u32; apply Z.mod_small; split; [apply zlen_nonneg|exact Sm]). rewrite U in S.
  destruct (Z.of_nat SYM_BUF <? zlen sec)%Z eqn:B; [discriminate S|]. injection S as _ <-. cbn [set_data o_data]. f_equal.
  assert (T : Z.to_nat (zlen sec) = length sec) by (unfold zlen; lia). rewrite T, firstn_all. unfold overlay. rewrite firstn_app, firstn_all, Nat.sub_diag. cbn. apply app_nil_r.
Qed.
Print Assumptions C46_partial.
Example C46_case : map (fun t => match step tw (rnd 0) (after idle_keys) (ODeriveKey H2 D_DH 6 (Some (repeat 9%N 16)) t) with Ok (_, o) => Some o | _ => None end)
  [len_tmpl 16; gen_tmpl; tokenly (len_tmpl 24); [mkA CKA_CLASS (ULONG CKO_SECRET_KEY); mkA CKA_KEY_TYPE (ULONG CKK_GENERIC_SECRET)]] =
  [Some (OutH CKR_OK 7); Some (OutH CKR_OK 7); Some (OutH CKR_OK (2^28 + 1)); Some (OutH CKR_OK 7)]%Z.
Proof. vm_compute. reflexivity. Qed.
