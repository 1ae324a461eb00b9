(** What becomes of keys: wrapping and unwrapping, generated keys and key pairs: C67, C68, C69. *)
From Verif Require Import Base Codec Cbc CbcProofs CbcSpec Ops OpsSpec OpsCbcProofs OpsProofs OpsProofs2 OpsProofs3 OpsProofs4 OpsFinal ToyEnv Object ObjectSpec ObjectProofs PropObject PropObject2
  Store StoreSpec Sys SysProofs SysProofs2 SysProofs3 SysProofs4 WfProofs ToySys PropStore PropStore2 ObjFrame ObjProofs HandleProofs QuotaProofs DiskHandles PropObj PropKeys.

(** ** C67: an unwrapped key is the key that was wrapped *)
(** The key the AES object [o] holds. *)
Definition aes_value (w : world) (o : obj) (key : list N) : Prop :=
  o_type o = CKK_AES /\ e_aes_ok (w_ev w) key = true /\ (zlen key <= 512)%Z /\ exists rest, o_data o = KSym (zlen key) (key ++ rest).
Definition p8_laws (w : world) : Prop := forall r der, w_p8 w r = (0%Z, der) -> w_p8_dec w der = (0%Z, r).
Definition holds (s : sys) (x : session) (ho : Z) (d : kdata) : Prop := exists o, In o (within s x) /\ o_handle o = ho /\ o_data o = d.
Definition C67_claim (w : world) : Prop :=
  forall d s h iv hw hk n x k wk r rnd s1 ct t rnd2 s2 o, reach w (sys0 d) s ->
    sess_get s h = Some x -> find_obj s x hk = Some k -> find_obj s x hw = Some wk -> o_data k = KRsa r -> 
    step w rnd s (OWrapKey h M_AES_CBC_PAD (MPraw iv) hw hk (Buf n)) = Ok (s1, OutC (mkOut CKR_OK (zlen ct) ct)) ->
    step w rnd2 s1 (OUnwrapKey h M_AES_CBC_PAD (MPraw iv) hw ct t) = Ok (s2, o) ->
    out_rv o <> CKR_FUNCTION_FAILED /\ out_rv o <> CKR_WRAPPED_KEY_INVALID /\
    forall ho x2, o = OutH CKR_OK ho -> sess_get s2 h = Some x2 -> holds s2 x2 ho (KRsa r).

Lemma find_obj_in s x h o : find_obj s x h = Some o -> In o (within s x).
Proof. unfold find_obj, within. intros F. apply find_some in F as [F _]. apply in_or_app. destruct (on_token h); auto. Qed.

Lemma find_uid_of s x o : inv s -> In x (s_sess s) -> In o (within s x) -> find_uid s (o_uid o) = Some o.
Proof.
  intros I X J. assert (L : In o (live s)). { unfold live. apply in_app_or in J as [J|J]; apply in_or_app; [left; exact J|right; eapply all_objs_in; eauto]. }
  unfold find_uid. destruct (find _ (live s)) as [o'|] eqn:Fd.
  - apply find_some in Fd as [L' Q]. apply Nat.eqb_eq in Q. f_equal. destruct I as (_ & _ & (ND & _) & _). apply (NoDup_map_inj _ _ o_uid (live s)); auto.
  - eapply find_none in Fd; [|exact L]. rewrite Nat.eqb_refl in Fd. discriminate Fd.
Qed.
Lemma view_aes w o key : aes_value w o key -> view w o = Ok (mkKey CKK_AES key [] 0).
Proof.
  intros (T & _ & B & rest & D). unfold view, is_sym. rewrite T. cbn [Z.eqb CKK_AES CKK_RSA CKK_EC Pos.eqb orb]. unfold as_sym. rewrite D. cbn [bind]. unfold take_buf.
  pose proof (zlen_nonneg _ key). pose proof (zlen_nonneg _ rest). unfold zlen in *. rewrite app_length, Nat2Z.inj_add. destruct (Z.ltb_spec (Z.of_nat (length key) + Z.of_nat (length rest)) (Z.of_nat (length key))); [lia|].
  change (Z.of_nat SYM_BUF) with 512%Z. destruct (Z.ltb_spec (Z.of_nat (length key)) 0); [lia|]. destruct (Z.ltb_spec 512 (Z.of_nat (length key))); [lia|].
  cbn [bind orb]. rewrite Nat2Z.id, firstn_app, firstn_all, Nat.sub_diag. cbn [firstn]. rewrite app_nil_r. reflexivity.
Qed.
(** The two operation calls made inside C_WrapKey and C_UnwrapKey. *)
Lemma enc_indep ev o1 o2 st r dd b : os_mech st = M_AES_CBC_PAD -> Ops.step ev o1 st (KEncrypt r dd b) = Ops.step ev o2 st (KEncrypt r dd b).
Proof. intros M. cbn [Ops.step]. unfold C_Encrypt, with_obj. rewrite M. reflexivity. Qed.
Lemma dec_indep ev o1 o2 st r dd b : os_mech st = M_AES_CBC_PAD -> Ops.step ev o1 st (KDecrypt r dd b) = Ops.step ev o2 st (KDecrypt r dd b).
Proof. intros M. cbn [Ops.step]. unfold C_Decrypt, with_obj. rewrite M. reflexivity. Qed.
Lemma run_two ev objs st c1 c2 st' a b : Ops.run ev objs st [c1; c2] = Ok (st', [a; b]) -> exists st1, Ops.step ev objs st c1 = Ok (st1, a) /\ Ops.step ev objs st1 c2 = Ok (st', b).
Proof.
  cbn [Ops.run]. destruct (Ops.step ev objs st c1) as [[s1 o1]| |]; cbn [bind]; try discriminate. destruct (Ops.step ev objs s1 c2) as [[s2 o2]| |] eqn:E; cbn [bind]; try discriminate.
  intros H. injection H as <- <- <-. eauto.
Qed.

(** Wrapping in a session whose block buffer is empty, into a buffer of at least
    the length of the key encoding, gives the CBC encryption of the padded encoding. *)
Theorem C67_wrap_partial w d s h iv hw hk n x k wk r key der ct rnd : reach w (sys0 d) s -> (0 < s_count s)%Z -> sess_get s h = Some x -> is_rw x = true -> fresh (ss_op x) ->
  find_obj s x hk = Some k -> o_class k = CKO_PRIVATE_KEY -> o_type k = CKK_RSA -> o_data k = KRsa r -> find_obj s x hw = Some wk -> aes_value w wk key ->
  w_p8 w r = (0%Z, der) -> (zlen der < 2^31)%Z -> (zlen der <= n < 2^32)%Z -> length iv = 16%nat -> cbcpad_spec (ci_E (e_ci (w_ev w)) key) iv der ct ->
  exists s1, step w rnd s (OWrapKey h M_AES_CBC_PAD (MPraw iv) hw hk (Buf n)) = Ok (s1, OutC (mkOut CKR_OK (zlen ct) ct)).
Proof.
  intros R Cn X Rw Fr K Kc Kt Kd Wk Av P8 B1 B2 Iv Sp. pose proof (reach_inv w _ _ R) as I. pose proof (sess_get_in _ _ _ X) as (Xi & _).
  cbn [step]. unfold with_sess, need_lib. destruct (Z.ltb_spec 0 (s_count s)); [|lia]. rewrite X. unfold need_rw. rewrite Rw. unfold with_object. rewrite K, Wk. unfold Wrap, wrappable. rewrite Kc, Kt.
  cbn [CKO_PRIVATE_KEY CKK_RSA Z.eqb Pos.eqb andb negb]. unfold as_rsa. rewrite Kd. cbn [bind]. rewrite P8. cbn [Z.eqb negb is_cbc_pad].
  assert (T : o_type wk = CKK_AES) by apply Av. rewrite T. cbn [CKK_AES Z.eqb Pos.eqb negb].
  set (ko := mkKey CKK_AES key [] 0). set (ob := fun u => if (u =? o_uid wk)%nat then Some ko else None).
  destruct (C32_enc_lemma (w_ev w) ob (ss_op x) (o_uid wk) ko iv [(der, (zlen der + 15)%Z)] 16 ct n []) as [_ (st2 & E)]; try assumption; try reflexivity.
  { unfold ob. rewrite Nat.eqb_refl. reflexivity. }
  { apply Av. }
  { constructor; [cbn [fst snd]; pose proof (zlen_nonneg _ der); lia|constructor]. }
  { lia. }
  { cbn [map fst concat]. rewrite app_nil_r. exact B1. }
  { cbn [map fst concat]. rewrite app_nil_r. exact B2. }
  { cbn [map fst concat]. rewrite app_nil_r. exact Sp. }
  cbn [map fst concat] in E. rewrite app_nil_r in E. apply run_two in E as (st1 & E1 & E2).
  unfold run_init. rewrite (view_aes _ _ _ Av). cbn [bind]. fold ko ob. rewrite E1. cbn [bind ok0 o_rv]. cbn [CKR_OK Z.eqb negb].
  pose proof E1 as E1'. rewrite (step_init_enc (w_ev w) ob M_AES_CBC_PAD (ss_op x) (o_uid wk) ko iv INIT_AES_CBC_PAD_ENC) in E1'; [|auto| |reflexivity|apply Av|exact Iv].
  2:{ unfold ob. rewrite Nat.eqb_refl. reflexivity. }
  injection E1' as <-. unfold run_cont. cbn [ss_op set_op os_curr init_done]. rewrite (find_uid_of s x wk I Xi (find_obj_in _ _ _ _ Wk)). rewrite (view_aes _ _ _ Av). cbn [bind].
  rewrite (enc_indep _ _ ob) by reflexivity. cbn [init_done] in E2. rewrite E2. cbn [bind]. eauto.
Qed.
Print Assumptions C67_wrap_partial.
Lemma u64_nonneg v : (0 <= u64 v)%Z.
Proof. unfold u64. apply Z.mod_pos_bound. reflexivity. Qed.
Lemma sess_get_op s h x p : uniq (s_sess s) -> sess_get s h = Some x -> sess_get (put_sess s (set_op x p)) h = Some (set_op x p).
Proof. intros U X. eapply sess_get_put; eauto. Qed.
(** Unwrapping that in any session whose block buffer is empty, with any template
    fit for an RSA private key: the new object is the wrapped key; if the call
    fails it is because the object could not be added. *)
Theorem C67_unwrap_partial w d s h iv hu x uk r key der ct t ob rnd s2 o : reach w (sys0 d) s -> cipher_ok (e_ci (w_ev w)) -> (0 < s_count s)%Z ->
  sess_get s h = Some x -> is_rw x = true -> fresh (ss_op x) -> find_obj s x hu = Some uk -> aes_value w uk key ->
  w_p8_dec w der = (0%Z, r) -> (zlen ct < 2^31)%Z -> length iv = 16%nat -> cbcpad_spec (ci_E (e_ci (w_ev w)) key) iv der ct -> ct <> [] ->
  (exists a, find_last t CKA_KEY_TYPE = Some a /\ tmpl_ulong a = Some CKK_RSA) -> (exists a, find_last t CKA_CLASS = Some a /\ tmpl_ulong a = Some CKO_PRIVATE_KEY) ->
  NewObject (w_oe w) true (s_uid s) CKK_RSA CKO_PRIVATE_KEY t = Ok (CKR_OK, Some ob) ->
  step w rnd s (OUnwrapKey h M_AES_CBC_PAD (MPraw iv) hu ct t) = Ok (s2, o) ->
  (exists rv, o = OutH rv 0 /\ rv <> CKR_OK /\ (tmpl_token t = None \/ s_tok s2 = s_tok s)) \/
  exists ho x2, o = OutH CKR_OK ho /\ sess_get s2 h = Some x2 /\ holds s2 x2 ho (KRsa r).
Proof.
  intros R Ci Cn X Rw Fr Uk Av P8 B1 Iv Sp Ne (a1 & T1 & T1') (a2 & T2 & T2') No H. pose proof (reach_inv w _ _ R) as I. pose proof (sess_get_in _ _ _ X) as (Xi & _). pose proof (inv_uniq s I) as U.
  cbn [step] in H. unfold with_sess, need_lib in H. destruct (Z.ltb_spec 0 (s_count s)); [|lia]. rewrite X in H. unfold need_rw in H. rewrite Rw in H.
  destruct (Z.eqb_spec (zlen ct) 0) as [Z0|_]; [destruct ct; [contradiction|discriminate Z0]|]. unfold with_object in H. rewrite Uk in H. unfold Unwrap in H. cbv zeta in H. cbn [is_cbc_pad negb] in H.
  rewrite T1, T1', T2, T2' in H. cbn [mem existsb CKK_RSA CKO_PRIVATE_KEY CKO_PUBLIC_KEY CKO_SECRET_KEY CKK_EC CKK_DH CKK_AES CKK_GENERIC_SECRET Z.eqb Pos.eqb orb negb wrappable andb] in H.
  assert (T : o_type uk = CKK_AES) by apply Av. rewrite T in H. cbn [CKK_AES Z.eqb Pos.eqb negb] in H.
  set (ko := mkKey CKK_AES key [] 0) in *. set (obs := fun u => if (u =? o_uid uk)%nat then Some ko else None) in *.
  destruct (C32_dec_lemma (w_ev w) obs (ss_op x) (o_uid uk) ko iv [(ct, (zlen ct + 15)%Z)] 16 der 0 []) as [_ (st2 & E)]; try assumption; try reflexivity.
  { unfold obs. rewrite Nat.eqb_refl. reflexivity. }
  { apply Av. }
  { constructor; [cbn [fst snd]; pose proof (zlen_nonneg _ ct); lia|constructor]. }
  { cbn [map fst concat]. rewrite app_nil_r. exact B1. }
  { cbn [map fst concat]. rewrite app_nil_r. exact Sp. }
  cbn [map fst concat] in E. rewrite app_nil_r in E. apply run_two in E as (st1 & E1 & E2).
  unfold run_init in H. rewrite (view_aes _ _ _ Av) in H. cbn [bind] in H. fold ko obs in H. rewrite E1 in H. cbn [bind ok0 o_rv] in H. cbn [CKR_OK Z.eqb negb] in H.
  pose proof E1 as E1'. rewrite (step_init_dec (w_ev w) obs M_AES_CBC_PAD (ss_op x) (o_uid uk) ko iv INIT_AES_CBC_PAD_DEC) in E1'; [|auto| |reflexivity|apply Av|exact Iv].
  2:{ unfold obs. rewrite Nat.eqb_refl. reflexivity. }
  injection E1' as <-. unfold run_cont in H. cbn [ss_op set_op os_curr init_done] in H. rewrite (find_uid_of s x uk I Xi (find_obj_in _ _ _ _ Uk)) in H. rewrite (view_aes _ _ _ Av) in H. cbn [bind] in H.
  rewrite (dec_indep _ _ obs) in H by reflexivity. cbn [init_done] in E2. rewrite E2 in H. cbn [bind o_rv o_out] in H. cbn [CKR_OK Z.eqb negb] in H.
  change (set_op (set_op x _) st2) with (set_op x st2) in H. change (is_rw (set_op x st2)) with (is_rw x) in H. rewrite Rw in H. change (s_uid (put_sess s (set_op x st2))) with (s_uid s) in H.
  rewrite No in H. cbn [bind] in H. rewrite P8 in H. cbn [Z.eqb negb] in H.
  destruct (AddObject _ _ _ _ _ _) as [[[rv h2] s3]| |] eqn:A; cbn [bind] in H; try discriminate H. injection H as <- <-.
  unfold AddObject in A. destruct (tmpl_token t) as [b|]; [|injection A as <- <- <-; left; eexists; split; [reflexivity|split; [discriminate|auto]]].
  destruct (AddToSession _ _ _ _ _ _) as [[[c3 h3] s4]| |] eqn:A2; cbn [bind] in A; try discriminate A. injection A as <- <- <-.
  assert (G : sess_get (bump (put_sess s (set_op x st2)) 1) h = Some (set_op x st2)) by (apply sess_get_op; assumption).
  assert (Ux : uniq (s_sess (bump (put_sess s (set_op x st2)) 1))) by (cbn; unfold uniq; rewrite upd_sess_h; exact U).
  destruct (Z.eqb_spec c3 0) as [->|N].
  - right. destruct (AddToSession_data _ _ _ h _ _ _ _ _ Ux G A2) as (x2 & o2 & X2 & J & Hh & Dd). exists h3, x2. split; [reflexivity|]. split; [exact X2|]. exists o2. auto.
  - left. unfold AddToSession in A2. destruct (b =? 0)%N.
    + destruct (_ <=? _)%Z; [injection A2 as <- <- <-; eexists; split; [reflexivity|split; [discriminate|auto]]|]. injection A2 as <- _ _. contradiction.
    + destruct (_ <=? _)%Z; [injection A2 as <- <- <-; eexists; split; [reflexivity|split; [discriminate|auto]]|].
      destruct (Encode _ _ _ _) as [[c5 o5]| |]; cbn [bind] in A2; try discriminate A2. destruct (negb (c5 =? 0)%Z); [injection A2 as <- <- <-; eexists; split; [reflexivity|split; [discriminate|auto]]|].
      destruct (store _ _ _) as [[c6 s6]| |]; cbn [bind] in A2; try discriminate A2. injection A2 as <- _ _. contradiction.
Qed.
Print Assumptions C67_unwrap_partial.
(** With five bytes left over from an unfinished C_EncryptUpdate, C_WrapKey says
    CKR_OK but encrypts these bytes too: the key is lost. *)
Definition stale : list op := idle_keys ++ [OCrypto H2 (KEncryptInit M_AES_CBC iv0 0) 1; OCrypto H2 (KEncryptUpdate [1; 2; 3; 4; 5]%N (Buf 100)) 0].
Definition stale_ct : list N := [4; 4; 4; 4; 5; 0; 6; 12; 4; 0; 38; 2; 3; 4; 5; 6]%N.
Theorem C67_refuted : ~ C67_claim tw.
Proof.
  intros C. assert (R : reach tw (sys0 nofiles) (after stale)) by (apply after_reach; vm_compute; exact Logic.I).
  assert (E : match step tw (rnd 0) (after stale) (OWrapKey H2 M_AES_CBC_PAD iv0 1 4 (Buf 64)) with
    | Ok (s1, OutC r) => (r, match step tw (rnd 0) s1 (OUnwrapKey H2 M_AES_CBC_PAD iv0 1 stale_ct unlock_tmpl) with Ok (_, o) => Some o | _ => None end)
    | _ => (mkOut 0 0 [], None) end = (mkOut CKR_OK 16 stale_ct, Some (OutRv CKR_WRAPPED_KEY_INVALID))) by (vm_compute; reflexivity).
  assert (K : match sess_get (after stale) H2 with Some x => match find_obj (after stale) x 4, find_obj (after stale) x 1 with Some k, Some _ => match o_data k with KRsa _ => true | _ => false end | _, _ => false end | None => false end = true) by (vm_compute; reflexivity).
  revert C R E K. generalize (after stale). intros s C R E K. destruct (sess_get s H2) as [x|] eqn:X; [|discriminate K]. destruct (find_obj s x 4) as [k|] eqn:F; [|discriminate K]. destruct (find_obj s x 1) as [wk|] eqn:F1; [|discriminate K].
  destruct (o_data k) as [| | | | |] eqn:D; try discriminate K.
  destruct (step tw (rnd 0) s (OWrapKey H2 M_AES_CBC_PAD iv0 1 4 (Buf 64))) as [[s1 o1]| |] eqn:E1; [|discriminate E..]. destruct o1; try discriminate E.
  destruct (step tw (rnd 0) s1 (OUnwrapKey H2 M_AES_CBC_PAD iv0 1 stale_ct unlock_tmpl)) as [[s2 o2]| |] eqn:E2; [|discriminate E..]. injection E as -> ->.
  destruct (C nofiles s H2 (repeat 0%N 16) 1%Z 4%Z 64%Z x k wk _ (rnd 0) s1 stale_ct unlock_tmpl (rnd 0) s2 _ R X F F1 D E1 E2) as (_ & N & _). apply N. reflexivity.
Qed.
Print Assumptions C67_refuted.
(** Without them: the key comes back, here as object 7. *)
Example C67_case :
  match step tw (rnd 0) (after idle_keys) (OWrapKey H2 M_AES_CBC_PAD iv0 1 4 (Buf 64)) with
  | Ok (s1, OutC r) => match step tw (rnd 0) s1 (OUnwrapKey H2 M_AES_CBC_PAD iv0 1 (o_out r) unlock_tmpl) with
      | Ok (s2, OutH 0 7) => match sess_get s2 H2 with Some x => (map o_data (filter (fun o => orb (o_handle o =? 7) (o_handle o =? 4))%Z (ss_objs x))) | None => [] end
      | _ => [] end
  | _ => [] end = [KRsa (mkRsa 33 7 3 11 1 7 2 3); KRsa (mkRsa 33 7 3 11 1 7 2 3)] /\
  match sess_get (after idle_keys) H2 with
  | Some x => match find_obj (after idle_keys) x 1, find_obj (after idle_keys) x 4 with
      | Some wk, Some k => aes_value tw wk (repeat 7%N 16) /\ fresh (ss_op x) /\ is_rw x = true /\ o_type k = CKK_RSA /\ o_class k = CKO_PRIVATE_KEY
      | _, _ => False end
  | None => False end /\ p8_laws tw.
Proof.
  split; [vm_compute; reflexivity|]. split.
  - vm_compute. split; [|repeat split; reflexivity]. split; [reflexivity|]. split; [reflexivity|]. split; [discriminate|]. exists (zeros 496). reflexivity.
  - intros [n dd p q dp dq u e] der. cbn. intros E. injection E as <-. reflexivity.
Qed.

(** ** C68: a generated key has the requested length and is made of random bytes *)
(** [key]: the output of the random number generator. *)
Definition C68_claim (w : world) : Prop :=
  forall d s h t key rnd s' ho x, reach w (sys0 d) s -> (512 <= zlen key)%Z -> step w rnd s (OGenerateKey h true t key) = Ok (s', OutH CKR_OK ho) -> sess_get s' h = Some x ->
    exists n, In n [16; 24; 32]%nat /\ exists o, In o (within s' x) /\ o_handle o = ho /\ stored_value o = Some (firstn n key).
(** The first CKA_VALUE_LEN of a template. *)
Definition given_len (t : template) : option Z := match find_first t CKA_VALUE_LEN with Some a => Some (ulong_of (v_bytes (a_val a))) | None => None end.
(** A template without CKA_VALUE_LEN: an empty key. *)
Theorem C68_refuted : ~ C68_claim tw.
Proof.
  intros C. assert (R : reach tw (sys0 nofiles) (after idle_keys)) by (apply after_reach; vm_compute; exact Logic.I).
  assert (E : match step tw (rnd 0) (after idle_keys) (OGenerateKey H2 true [] (repeat 9%N 512)) with
    | Ok (s1, OutH 0 7) => match sess_get s1 H2 with Some x => forallb (fun o => orb (negb (o_handle o =? 7)%Z) match stored_value o with Some [] => true | _ => false end) (within s1 x) | _ => false end
    | _ => false end = true) by (vm_compute; reflexivity).
  revert C R E. generalize (after idle_keys). intros s C R E. specialize (C nofiles s H2 [] (repeat 9%N 512) (rnd 0)).
  assert (L : (512 <= zlen (repeat 9%N 512))%Z) by (unfold zlen; rewrite repeat_length; lia). revert L C E. generalize (repeat 9%N 512). intros key L C E.
  destruct (step tw (rnd 0) s (OGenerateKey H2 true [] key)) as [[s1 o1]| |] eqn:E1; [|discriminate E..]. destruct o1 as [|rv ho| | | | | |]; try discriminate E.
  destruct rv; try discriminate E. destruct (Z.eq_dec ho 7) as [->|N]; [|destruct ho as [|p|]; try discriminate E; do 3 (destruct p as [p|p|]; try discriminate E); exfalso; apply N; reflexivity].
  destruct (sess_get s1 H2) as [x|] eqn:X; [|discriminate E]. rewrite forallb_forall in E. destruct (C s1 7%Z x R L eq_refl X) as (n & Hn & o & J & Hh & Sv). apply E in J. rewrite Hh, Sv in J. cbn [Z.eqb Pos.eqb negb orb] in J.
  destruct key as [|b key]; [exfalso; apply L; reflexivity|]. destruct Hn as [<-|[<-|[<-|[]]]]; discriminate J.
Qed.
Print Assumptions C68_refuted.
Lemma NewObject_ok w rw uid ty cls t o : NewObject (w_oe w) rw uid ty cls t = Ok (CKR_OK, Some o) -> SetAttributeValue (w_oe w) rw (set_class (obj_new uid ty) cls) t = Ok (CKR_OK, o).
Proof.
  unfold NewObject. destruct (SetAttributeValue _ _ _ _) as [[rv o1]| |]; cbn [bind]; try discriminate. intros H. injection H as -> E. destruct (CKR_OK =? CKR_OK)%Z; [|discriminate E]. injection E as <-. reflexivity.
Qed.
Lemma NewObject_some w rw uid ty cls t rv o : NewObject (w_oe w) rw uid ty cls t = Ok (rv, Some o) -> rv = CKR_OK.
Proof.
  unfold NewObject. destruct (SetAttributeValue _ _ _ _) as [[r o1]| |]; cbn [bind]; try discriminate. intros H. injection H as <- E. destruct (Z.eqb_spec r CKR_OK); [assumption|discriminate E].
Qed.
(** When the template gives CKA_VALUE_LEN, it is one of the three AES key lengths
    and the key is that many random bytes. *)
Theorem C68_partial w d s h t n key rnd s' ho : reach w (sys0 d) s -> step w rnd s (OGenerateKey h true t key) = Ok (s', OutH CKR_OK ho) -> given_len t = Some n -> (32 <= zlen key)%Z ->
  In n [16; 24; 32]%Z /\ exists x o, sess_get s' h = Some x /\ In o (within s' x) /\ o_handle o = ho /\ stored_value o = Some (firstn (Z.to_nat n) key).
Proof.
  intros R H G L. pose proof (reach_inv w _ _ R) as I. cbn [step] in H. unfold with_sess, need_lib in H. destruct (0 <? s_count s)%Z; [|discriminate H]. destruct (sess_get s h) as [x|] eqn:X; [|discriminate H].
  unfold GenKey in H. destruct (NewObject _ _ _ _ _ _) as [[rv o]| |] eqn:N; cbn [bind] in H; try discriminate H. destruct o as [o|]; [|discriminate H]. pose proof (NewObject_some _ _ _ _ _ _ _ _ N) as ->.
  apply NewObject_ok in N. apply SetAttributeValue_ok in N as (_ & _ & ps & v & o1 & P & V & K & Lp). cbn [params_of set_class obj_new o_class o_type CKO_SECRET_KEY CKO_CERTIFICATE CKK_AES CKK_RSA CKK_EC CKK_DH] in P.
  unfold params_of in P. cbn in P. injection P as <-. pose proof (param_vals_at _ _ _ 0 CKA_VALUE_LEN V eq_refl) as V0. unfold given_len in G. destruct (find_first t CKA_VALUE_LEN) as [a|]; [|discriminate G]. injection G as G.
  change (SetKey (w_oe w) (set_class (obj_new (s_uid s) CKK_AES) CKO_SECRET_KEY) v) with (SetSecretKey (set_class (obj_new (s_uid s) CKK_AES) CKO_SECRET_KEY) v) in K.
  assert (Q : In n [16; 24; 32]%Z /\ exists b, o_data o1 = KSym n b /\ zlen b = 512%Z).
  { unfold SetSecretKey in K. cbv zeta in K. rewrite V0 in K. change (o_type (set_class (obj_new (s_uid s) CKK_AES) CKO_SECRET_KEY) =? CKK_AES)%Z with true in K. cbn [andb] in K. rewrite G in K.
    destruct (negb (zlen (v_bytes (a_val a)) =? 8)%Z); cbn [orb] in K; [injection K as K _; discriminate K|].
    assert (Hn : In n [16; 24; 32]%Z). { destruct (Z.eqb_spec n 16); [left; auto|]. destruct (Z.eqb_spec n 24); [right; left; auto|]. destruct (Z.eqb_spec n 32); [right; right; left; auto|]. cbn [orb negb] in K. injection K as K _. discriminate K. }
    split; [exact Hn|]. assert (U : u32 n = n) by (destruct Hn as [<-|[<-|[<-|[]]]]; reflexivity). rewrite U in K.
    assert (Hn' : orb (n =? 16)%Z (orb (n =? 24)%Z (n =? 32)%Z) = true) by (destruct Hn as [<-|[<-|[<-|[]]]]; reflexivity). rewrite Hn' in K. cbn [negb] in K.
    destruct (nth 1 v None) as [b|].
    - assert (Z0 : (n =? 0)%Z = false) by (destruct Hn as [<-|[<-|[<-|[]]]]; reflexivity). rewrite Z0 in K. cbn [negb andb] in K. destruct (Z.ltb_spec (zlen b) n); [injection K as K _; discriminate K|].
      destruct (Z.of_nat SYM_BUF <? n)%Z; [discriminate K|]. injection K as <-. eexists. split; [reflexivity|]. rewrite overlay_zlen; [rewrite zlen_zeros; reflexivity|]. rewrite zlen_zeros. unfold zlen. rewrite firstn_length.
      change (Z.of_nat SYM_BUF) with 512%Z. destruct Hn as [<-|[<-|[<-|[]]]]; lia.
    - injection K as <-. eexists. split; [reflexivity|]. rewrite zlen_zeros. reflexivity. }
  destruct Q as (Hn & b & D & Lb). split; [exact Hn|]. apply set_loop_core in Lp. destruct Lp as (_ & _ & _ & _ & _ & _ & _ & Lp & _). rewrite D in Lp.
  unfold as_sym in H. rewrite Lp in H. cbn [bind] in H. destruct (Z.ltb_spec (zlen b) n); [discriminate H|]. destruct (AddObject _ _ _ _ _ _) as [[[rv2 h2] s2]| |] eqn:A; cbn [bind] in H; try discriminate H. injection H as -> -> ->.
  unfold AddObject in A. destruct (tmpl_token t) as [bt|]; [|discriminate A]. destruct (AddToSession _ _ _ _ _ _) as [[[c3 h3] s3]| |] eqn:A2; cbn [bind] in A; try discriminate A.
  destruct (Z.eqb_spec c3 0) as [->|]; [|discriminate A]. injection A as -> ->.
  destruct (AddToSession_data w _ (bump s 1) h x _ _ ho s' (inv_uniq s I) X A2) as (x' & o' & X' & J & Hh & Dd). exists x', o'. split; [exact X'|]. split; [exact J|]. split; [exact Hh|].
  unfold stored_value. rewrite Dd. cbn [set_data o_data]. f_equal. assert (B : (Z.to_nat n <= length key)%nat) by (unfold zlen in L; destruct Hn as [<-|[<-|[<-|[]]]]; lia).
  rewrite (firstn_app (Z.to_nat n) key). replace (Z.to_nat n - length key)%nat with 0%nat by lia. rewrite app_nil_r. unfold overlay.
  rewrite firstn_app, firstn_firstn, Nat.min_id. rewrite firstn_length, Nat.min_l by exact B. rewrite Nat.sub_diag. apply app_nil_r.
Qed.
Print Assumptions C68_partial.
Example C68_case : map (fun t => match step tw (rnd 0) (after idle_keys) (OGenerateKey H2 true t (repeat 9%N 512)) with Ok (s1, o) => (o, match sess_get s1 H2 with Some x => match ss_objs x with ob :: _ => stored_value ob | [] => None end | None => None end) | _ => (OutRv 1, None) end)
  [[mkA CKA_VALUE_LEN (ULONG 24)]; [mkA CKA_VALUE_LEN (ULONG 20)]; [mkA CKA_VALUE (AV [1; 2; 3]%N)]] =
  [(OutH CKR_OK 7, Some (repeat 9%N 24)); (OutRv CKR_FUNCTION_FAILED, Some [6%N]); (OutH CKR_OK 7, Some [9; 9; 9]%N)].
Proof. vm_compute. reflexivity. Qed.

(** ** C69: the handles of a generated key pair are those of its two halves *)
(** The same object apart from handle, token bit and stored form. *)
Definition same_key (o o' : obj) : Prop := o_data o' = o_data o /\ o_class o' = o_class o /\ o_type o' = o_type o.
Lemma AddToSession_same w rnd s h x b o ho s' : uniq (s_sess s) -> sess_get s h = Some x -> AddToSession w rnd s x b o = Ok (0%Z, ho, s') ->
  exists x', sess_get s' h = Some x' /\ (exists o', In o' (within s' x') /\ o_handle o' = ho /\ same_key o o') /\ uniq (s_sess s') /\
    forall o1, In o1 (within s x) -> exists o1', In o1' (within s' x') /\ o_handle o1' = o_handle o1 /\ same_key o1 o1'.
Proof.
  unfold AddToSession. intros U G H. destruct (b =? 0)%N eqn:B.
  - destruct (SESS_OBJ_MAX <=? _)%Z; [discriminate H|]. injection H as <- <-. eexists.
    split; [eapply sess_get_put; eauto|]. split; [|split].
    + exists (set_handle (set_onTok o (N.odd b)) (next_handle (ss_objs x) b)). split; [apply in_or_app; right; left; reflexivity|]. split; [reflexivity|repeat split].
    + cbn. unfold uniq. rewrite upd_sess_h. exact U.
    + intros o1 J. exists o1. split; [|split; [reflexivity|repeat split]]. apply in_or_app. apply in_app_or in J as [J|J]; [left; exact J|right; right; exact J].
  - destruct (TOK_OBJ_MAX <=? _)%Z; [discriminate H|]. destruct (Encode _ _ _ _) as [[c2 o2]| |] eqn:E; cbn [bind] in H; try discriminate H.
    destruct (negb (c2 =? 0)%Z) eqn:C2; [injection H as -> _ _; discriminate C2|]. destruct (store _ _ _) as [[c3 s3]| |] eqn:S; cbn [bind] in H; try discriminate H. injection H as <- <-.
    apply Encode_id in E as (_ & _ & _ & _ & E). specialize (E eq_refl). apply store_frame in S as (_ & S1 & _ & _ & S2). cbn in S1, S2. exists x.
    split; [unfold sess_get in *; rewrite S1; exact G|].
    assert (W : forall y, In y (set_handle o2 (next_handle (t_objs (s_tok s)) b) :: t_objs (s_tok s)) -> exists y', In y' (t_objs (s_tok s3)) /\ o_handle y' = o_handle y /\ same_key y y').
    { intros y J. assert (K : In (core_obj y) (map core_obj (t_objs (s_tok s3)))) by (rewrite S2; change (In (core_obj y) (map core_obj (set_handle o2 (next_handle (t_objs (s_tok s)) b) :: t_objs (s_tok s)))); apply in_map; exact J).
      apply in_map_iff in K as (y' & K & J'). exists y'. split; [exact J'|]. split; [apply (f_equal o_handle) in K; exact K|].
      split; [apply (f_equal o_data) in K; exact K|]. split; [apply (f_equal o_class) in K; exact K|apply (f_equal o_type) in K; exact K]. }
    split; [|split; [rewrite S1; exact U|]].
    + destruct (W _ (or_introl eq_refl)) as (y' & J & Hh & K1 & K2 & K3). exists y'. split; [apply in_or_app; left; exact J|]. split; [exact Hh|].
      split; [rewrite K1; apply (f_equal o_data) in E; exact E|]. split; [rewrite K2; apply (f_equal o_class) in E; exact E|rewrite K3; apply (f_equal o_type) in E; exact E].
    + intros o1 J. apply in_app_or in J as [J|J].
      * destruct (W o1 (or_intror J)) as (y' & J' & K). exists y'. split; [apply in_or_app; left; exact J'|exact K].
      * exists o1. split; [apply in_or_app; right; exact J|split; [reflexivity|repeat split]].
Qed.
Lemma AddObject_same w rnd s h x t o ho s' : uniq (s_sess s) -> sess_get s h = Some x -> AddObject w rnd s x t o = Ok (CKR_OK, ho, s') ->
  exists x', sess_get s' h = Some x' /\ (exists o', In o' (within s' x') /\ o_handle o' = ho /\ same_key o o') /\ uniq (s_sess s') /\
    forall o1, In o1 (within s x) -> exists o1', In o1' (within s' x') /\ o_handle o1' = o_handle o1 /\ same_key o1 o1'.
Proof.
  intros U G A. unfold AddObject in A. destruct (tmpl_token t) as [b|]; [|discriminate A]. destruct (AddToSession _ _ _ _ _ _) as [[[c3 h3] s3]| |] eqn:A2; cbn [bind] in A; try discriminate A.
  destruct (Z.eqb_spec c3 0) as [->|]; [|discriminate A]. injection A as -> ->. eapply AddToSession_same; eauto.
Qed.

(** What the generator made, as the two objects must hold it. *)
Definition halves (g : gen) (pub priv : kdata) : Prop :=
  match g with
  | GRsa r => priv = KRsa r /\ exists rp, pub = KRsa rp /\ r_n rp = r_n r
  | GEc k pt => exists kp kq c, pub = KEc kp /\ priv = KEc kq /\ ec_curve kp = Some c /\ ec_curve kq = Some c /\ ec_pt kp = pt /\ ec_pt kq = pt /\ ec_k kq = k
  | GDh prv pb => exists p g r1 r2, pub = KDh p g (zlen pb) (pb ++ r1) /\ priv = KDh p g (zlen prv) (prv ++ r2)
  end.
Definition no_class (t : template) : Prop := Forall (fun a => a_type a <> CKA_CLASS) t.
Definition kp_type (m : kpmech) : Z := match m with KP_RSA => CKK_RSA | KP_EC => CKK_EC | _ => CKK_DH end.

Lemma NewObject_class w rw uid ty cls t o : no_class t -> NewObject (w_oe w) rw uid ty cls t = Ok (CKR_OK, Some o) -> o_class o = cls.
Proof.
  intros N H. apply NewObject_ok in H. apply SetAttributeValue_ok in H as (_ & _ & ps & v & o1 & P & V & K & L). apply SetKey_frame in K as (d & n & ->).
  apply (set_loop_keep (fun o => o_class o = cls) (fun a => a_type a <> CKA_CLASS)) in L; [exact L| |exact N|reflexivity].
  clear. intros o a c o' Na E Ec. unfold SetAttr in E. destruct (set_opflag_of _); [injection E as _ <-; exact Ec|]. destruct (set_flag_of _); [injection E as _ <-; exact Ec|].
  destruct (Z.eqb_spec (a_type a) CKA_CLASS) as [Eq|_]; [contradiction|].
  destruct (a_type a =? CKA_ID)%Z; [destruct (new_sval _ _) as [[? ?]| |]; cbn [bind] in E; try discriminate E; injection E as _ <-; exact Ec|].
  destruct (a_type a =? CKA_LABEL)%Z; [destruct (new_sval _ _) as [[? ?]| |]; cbn [bind] in E; try discriminate E; injection E as _ <-; exact Ec|].
  repeat match type of E with (if ?b then _ else _) = _ => destruct b end; injection E as _ <-; exact Ec.
Qed.

Lemma gen_halves m pub priv g pub1 priv1 : m <> KP_other -> (match m with KP_RSA => RsaGen pub priv (Some g) | KP_EC => EcGen pub priv (Some g) | _ => DhGen pub priv (Some g) end) = Ok (Some (pub1, priv1)) ->
  halves g (o_data pub1) (o_data priv1) /\ o_class pub1 = o_class pub /\ o_class priv1 = o_class priv /\ o_type pub1 = o_type pub /\ o_type priv1 = o_type priv.
Proof.
  intros N H. destruct m; [| | |contradiction].
  - unfold RsaGen in H. destruct (as_rsa pub) as [rp| |]; cbn [bind] in H; try discriminate H. cbv zeta in H. destruct (8 <? _)%Z; [discriminate H|]. destruct g; try discriminate H. injection H as <- <-.
    split; [|repeat split]. split; [reflexivity|]. eexists. split; reflexivity.
  - unfold EcGen in H. destruct (as_ec pub) as [rp| |]; cbn [bind] in H; try discriminate H. destruct (ec_curve rp) as [c|]; [|discriminate H]. destruct g; try discriminate H. injection H as <- <-.
    split; [|repeat split]. eexists _, _, c. repeat split.
  - unfold DhGen in H. destruct (as_dh pub) as [[[[p gg] l] bp]| |]; cbn [bind] in H; try discriminate H. destruct (as_dh priv) as [[[[p2 g2] l2] bq]| |]; cbn [bind] in H; try discriminate H. destruct g; try discriminate H.
    destruct (orb _ _); [discriminate H|]. injection H as <- <-. split; [|repeat split]. eexists p, gg, _, _. split; reflexivity.
Qed.
Theorem C69_handles w d s h m tp tq g rnd s' rv h1 h2 : reach w (sys0 d) s -> step w rnd s (OGenerateKeyPair h m tp tq (Some g)) = Ok (s', OutH2 rv h1 h2) ->
  exists x pub priv, sess_get s' h = Some x /\ In pub (within s' x) /\ In priv (within s' x) /\ o_handle pub = h1 /\ o_handle priv = h2 /\
    halves g (o_data pub) (o_data priv) /\ o_type pub = kp_type m /\ o_type priv = kp_type m /\
    (no_class tp -> o_class pub = CKO_PUBLIC_KEY) /\ (no_class tq -> o_class priv = CKO_PRIVATE_KEY).
Proof.
  intros R H. pose proof (reach_inv w _ _ R) as I. cbn [step] in H. unfold with_sess, need_lib in H. destruct (0 <? s_count s)%Z; [|discriminate H]. destruct (sess_get s h) as [x|] eqn:X; [|discriminate H].
  unfold GenKeyPair in H. assert (Nm : m <> KP_other) by (intros ->; discriminate H). assert (Hx : ss_h x = h) by (apply sess_get_in in X; tauto).
  assert (Ty : (match m with KP_RSA => Some CKK_RSA | KP_EC => Some CKK_EC | KP_DH => Some CKK_DH | KP_other => None end) = Some (kp_type m)) by (destruct m; [reflexivity..|contradiction]). rewrite Ty in H.
  destruct (NewObject _ _ _ _ _ tp) as [[rv1 p1]| |] eqn:N1; cbn [bind] in H; try discriminate H. destruct p1 as [p1|]; [|discriminate H]. pose proof (NewObject_some _ _ _ _ _ _ _ _ N1) as ->.
  destruct (NewObject _ _ _ _ _ tq) as [[rv2 p2]| |] eqn:N2; cbn [bind] in H; try discriminate H. destruct p2 as [p2|]; [|discriminate H]. pose proof (NewObject_some _ _ _ _ _ _ _ _ N2) as ->.
  destruct (match m with KP_RSA => RsaGen p1 p2 (Some g) | KP_EC => EcGen p1 p2 (Some g) | _ => DhGen p1 p2 (Some g) end) as [[[pub1 priv1]|]| |] eqn:Ge; cbn [bind] in H; try discriminate H.
  apply gen_halves in Ge as (Ha & C1 & C2 & T1 & T2); [|exact Nm].
  assert (To : forall uid cls t o, NewObject (w_oe w) (is_rw x) uid (kp_type m) cls t = Ok (CKR_OK, Some o) -> o_type o = kp_type m).
  { intros uid cls t o N. apply NewObject_ok in N. apply SetAttributeValue_ok in N as (_ & _ & ps & v & o1 & _ & _ & K & L). apply SetKey_frame in K as (dd & n & ->). apply set_loop_core in L as (_ & L & _). exact L. }
  destruct (AddObject w rnd _ x tp pub1) as [[[rv3 h3] s2]| |] eqn:A1; cbn [bind] in H; try discriminate H. destruct (Z.eqb_spec rv3 CKR_OK) as [->|]; [|discriminate H]. cbn [negb] in H.
  apply (AddObject_same w rnd (bump s 2) h x) in A1 as (x2 & X2 & (o1 & J1 & Hh1 & K1) & U2 & _); [|exact (inv_uniq s I)|exact X]. rewrite Hx, X2 in H.
  destruct (AddObject w _ s2 x2 tq priv1) as [[[rv4 h4] s3]| |] eqn:A2; cbn [bind] in H; try discriminate H. destruct (Z.eqb_spec rv4 CKR_OK) as [->|]; [|discriminate H]. injection H as <- <- <- <-.
  apply (AddObject_same w _ s2 h x2) in A2 as (x3 & X3 & (o2 & J2 & Hh2 & K2) & _ & Kp); [|exact U2|exact X2]. destruct (Kp o1 J1) as (o1' & J1' & Hh1' & K1'). destruct K1 as (Ka & Kb & Kc), K1' as (Ka' & Kb' & Kc'), K2 as (Kd & Ke & Kf).
  exists x3, o1', o2. split; [exact X3|]. split; [exact J1'|]. split; [exact J2|]. split; [congruence|]. split; [exact Hh2|]. split; [rewrite Ka', Ka, Kd; exact Ha|].
  split; [rewrite Kc', Kc, T1; eapply To; exact N1|]. split; [rewrite Kf, T2; eapply To; exact N2|].
  split; intros Nc; [rewrite Kb', Kb, C1; eapply NewObject_class; eauto|rewrite Ke, C2; eapply NewObject_class; eauto].
Qed.
Print Assumptions C69_handles.
Example C69_case :
  match step tw (rnd 0) (after idle_keys) (OGenerateKeyPair H2 KP_DH [mkA CKA_PRIME (AV [23%N]); mkA CKA_BASE (AV [5%N])] [mkA CKA_TOKEN TRUE] (Some (GDh [9%N] [11%N]))) with
  | Ok (s1, OutH2 rv h1 h2) => (rv, h1, h2, match sess_get s1 H2 with Some x => map (fun o => (o_handle o, stored_value o)) (filter (fun o => orb (o_handle o =? h1) (o_handle o =? h2))%Z (within s1 x)) | None => [] end)
  | _ => (1, 0, 0, [])%Z end = (CKR_OK, 7, 2^28 + 1, [(2^28 + 1, Some [9%N]); (7, Some [11%N])])%Z.
Proof. vm_compute. reflexivity. Qed.
