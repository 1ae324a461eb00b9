(** C125: what is encrypted or signed under an imported secret key is encrypted or signed under the value that was
    given, whatever is called between the import and the use. *)
From Verif Require Import Base Cbc CbcProofs CbcSpec Ops OpsSpec OpsCbcProofs OpsProofs OpsProofs2 OpsProofs3 OpsProofs4 OpsClaims OpsFinal Object ObjectProofs Store StoreSpec Sys SysProofs SysProofs2 SysProofs3 SysProofs4 WfProofs ObjFrame ObjProofs
  HandleProofs DiskHandles FindState UseProofs KeyHeld ToyEnv ToySys PropObject PropSys1 PropSys2 PropKeys PropKeys2 PropInUse PropFind PropOps PropHold PropMsg PropObj PropImport Device DeviceProofs PropDevice Table TableProofs PropTable.
From Coq Require Import List Bool.
Import ListNotations.
Open Scope nat_scope.
Open Scope list_scope.

(** ** Specification *)
(** The template gives a secret key (16: generic, 31: AES) the value [b], in one place, and no length. *)
Definition gives (kt : Z) (b : list N) (t : template) : Prop :=
  key_tmpl kt t /\ In kt [16; 31]%Z /\ In (mkA 0x11 (AV b)) t /\ ~ In 0x161%Z (map a_type t) /\ (zlen b < 2^32)%Z.
(** The session stays open. *)
Definition stays_open (h : Z) (c : op) : Prop := c <> OCloseSession h /\ ends_all c = false.
(** In a history from storage [d] to state [s], C_CreateObject in session [h] gave the key value [b] the handle [ho]; since
    then session [h] stayed open and no call named the handle to C_DestroyObject or C_SetAttributeValue (for a key on
    the token, moreover, nobody logged in or out or initialised the token). *)
Definition imported (w : world) (d : fs) (s : sys) (h ho kt : Z) (b : list N) : Prop :=
  exists l1 t r1 l2 os1 os2, d (F_TOKEN, 0) = None /\ run w (sys0 d) (l1 ++ (OCreateObject h t, r1) :: l2) = Ok (s, os1 ++ OutH CKR_OK ho :: os2) /\ List.length os1 = List.length l1 /\
    (2 * zlen (l1 ++ (OCreateObject h t, r1) :: l2) < 2^28)%Z /\ Forall (fun c => bool_call (fst c)) (l1 ++ (OCreateObject h t, r1) :: l2) /\
    gives kt b t /\ Forall (fun c => stays_open h (fst c) /\ spared ho (fst c)) l2.

(** ** Proof *)
Lemma gives_view w d s h t rnd s' ho kt b : reach w (sys0 d) s -> gives kt b t -> step w rnd s (OCreateObject h t) = Ok (s', OutH CKR_OK ho) ->
  exists o, made s' h ho o /\ view w o = Ok (mkKey kt b [] 0).
Proof.
  intros R (K & Kt & Jb & Nl & Lb) E.
  assert (Kt' : In kt [0; 2; 3; 16; 31]%Z) by (cbn in *; tauto).
  destruct (created w d s h t rnd s' ho kt R K Kt' E) as (uid & cls & ps & v & o1 & o & Ne & P & V & Sk & M & D & T & Cl). destruct K as (Nd & _).
  exists o. split; [exact M|].
  unfold params_of in P. cbn [o_class o_type set_class obj_new] in P. unfold SetKey in Sk. cbn [o_class o_type set_class obj_new] in Sk. destruct (Z.eqb_spec cls CKO_CERTIFICATE); [contradiction|].
  assert (Kn : (kt =? CKK_RSA)%Z = false /\ (kt =? CKK_EC)%Z = false /\ (kt =? CKK_DH)%Z = false /\ orb (kt =? CKK_AES)%Z (kt =? CKK_GENERIC_SECRET)%Z = true).
  { cbn in Kt. destruct Kt as [<-|[<-|[]]]; repeat split; reflexivity. }
  destruct Kn as (K1 & K2 & K3 & K4). rewrite K1, K2, K3, K4 in P. rewrite K1, K2, K3 in Sk. injection P as <-.
  assert (V0 : nth 0 v None = None) by exact (absent t secretParams v 0 _ V eq_refl Nl).
  assert (V1 : nth 1 v None = Some b) by exact (given t secretParams v 1 _ b Nd V eq_refl Jb).
  unfold SetSecretKey in Sk. rewrite V0, V1 in Sk. cbn [orb andb negb Z.eqb] in Sk. change (0 =? 0)%Z with true in Sk. cbn [negb andb] in Sk. cbv iota in Sk.
  assert (Lu : u32 (zlen b) = zlen b) by (unfold u32; apply Z.mod_small; unfold zlen in *; lia). rewrite Lu in Sk.
  destruct (Z.ltb_spec (Z.of_nat SYM_BUF) (zlen b)) as [|Ls]; [discriminate Sk|]. injection Sk as <-. cbn [o_data set_data] in D.
  unfold view, is_sym. rewrite T, K1, K2, K4. unfold as_sym. rewrite D. cbn [bind]. unfold take_buf.
  assert (Fb : firstn (Z.to_nat (zlen b)) b = b) by (unfold zlen; rewrite Nat2Z.id; apply firstn_all). rewrite Fb.
  assert (Lo : (zlen b <= zlen (overlay (zeros SYM_BUF) b))%Z) by (unfold overlay, zlen; rewrite app_length; lia).
  destruct (Z.ltb_spec (zlen b) 0) as [Q|_]; [unfold zlen in Q; lia|]. destruct (Z.ltb_spec (Z.of_nat SYM_BUF) (zlen b)) as [Q|_]; [lia|]. destruct (Z.ltb_spec (zlen (overlay (zeros SYM_BUF) b)) (zlen b)) as [Q|_]; [lia|].
  cbn [orb bind]. do 2 f_equal. unfold overlay, zlen. rewrite Nat2Z.id, firstn_app, Nat.sub_diag, firstn_all. cbn [firstn]. apply app_nil_r.
Qed.
Section W.
Variable w : world.
Lemma held_step rnd s c s' r h o x : inv s -> stays_open h c -> spared (o_handle o) c -> step w rnd s c = Ok (s', r) -> sess_get s h = Some x -> has s h o ->
  has s' h o /\ exists x', sess_get s' h = Some x'.
Proof.
  intros I [A2 A3] Sp E G Hs. destruct (objop c) as [h0|] eqn:O.
  - pose proof (objop_prims w _ _ _ _ _ _ I O E) as P. split; [eapply prims_has; eauto|].
    destruct (prims_inv w _ _ _ _ P I) as [_ (_ & Q & _)]. pose proof (mode_modes _ _ Q h) as M. unfold mode in M. rewrite G in M. destruct (sess_get s' h); [eauto|discriminate].
  - assert (A : aside h c) by (split; [intros _; rewrite O; discriminate|auto]).
    split; [eapply step_has; eauto|]. destruct (aside_op w _ _ _ _ _ _ _ I A E G) as (x' & G' & _). eauto.
Qed.
Lemma held_run d h o l : forall m s s' os, orderly w True d m s -> (m + 2 * zlen l < 2^28)%Z -> Forall (fun c => bool_call (fst c)) l ->
  Forall (fun c => stays_open h (fst c) /\ spared (o_handle o) (fst c)) l -> run w s l = Ok (s', os) -> has s h o -> (exists x, sess_get s h = Some x) ->
  has s' h o /\ (exists x, sess_get s' h = Some x) /\ exists m', orderly w True d m' s' /\ (m' < 2^28)%Z.
Proof.
  induction l as [|[c rnd] l IH]; intros m s s' os Od M B F R Hs (x & G).
  - cbn [run] in R. injection R as <- _. split; [exact Hs|]. split; [eauto|]. exists m. split; [exact Od|]. unfold zlen in M. cbn [List.length] in M. lia.
  - apply run_split in R as (s1 & q & os' & S & R & ->). inversion B as [|? ? B1 B2]. subst. inversion F as [|? ? [F1 F1'] F2]. subst. cbn [fst] in *.
    pose proof (reach_inv w d s (orderly_reach _ _ _ _ _ Od)) as I. destruct (held_step _ _ _ _ _ _ _ _ I F1 F1' S G Hs) as [H1 G1].
    pose proof (uses_two c) as U2. assert (O1 : orderly w True d (m + uses c) s1) by (econstructor; [exact Od|exact S|apply usual_bytes, bool_usual; exact B1]).
    apply (IH _ _ _ _ O1) in R; auto. unfold zlen in *. cbn [List.length] in M. lia.
Qed.
Lemma orderly_run d l : forall m s s' os, orderly w True d m s -> Forall (fun c => bool_call (fst c)) l -> run w s l = Ok (s', os) -> exists m', orderly w True d m' s' /\ (m' <= m + 2 * zlen l)%Z.
Proof.
  induction l as [|[c rnd] l IH]; intros m s s' os Od B R.
  - cbn [run] in R. injection R as <- _. exists m. split; [exact Od|]. unfold zlen. cbn [List.length]. lia.
  - apply run_split in R as (s1 & q & os' & S & R & ->). inversion B as [|? ? B1 B2]. subst. cbn [fst] in *. pose proof (uses_two c) as U2.
    assert (O1 : orderly w True d (m + uses c) s1) by (econstructor; [exact Od|exact S|apply usual_bytes, bool_usual; exact B1]).
    destruct (IH _ _ _ _ O1 B2 R) as (m' & O' & L). exists m'. split; [exact O'|]. unfold zlen in *. cbn [List.length]. lia.
Qed.
Lemma run_app l1 : forall l2 s s' os, run w s (l1 ++ l2) = Ok (s', os) -> exists s1 o1 o2, run w s l1 = Ok (s1, o1) /\ run w s1 l2 = Ok (s', o2) /\ os = o1 ++ o2 /\ List.length o1 = List.length l1.
Proof.
  induction l1 as [|[c rnd] l1 IH]; intros l2 s s' os R; cbn [app] in R; [exists s, [], os; auto|].
  apply run_split in R as (s1 & q & os' & S & R & ->). destruct (IH _ _ _ _ R) as (s2 & o1 & o2 & R1 & R2 & -> & L). exists s2, (q :: o1), o2. cbn [run]. rewrite S. cbn [bind]. rewrite R1. cbn [bind List.length]. auto.
Qed.
End W.
Lemma app_same A (a : list A) : forall b c d, a ++ b = c ++ d -> List.length a = List.length c -> a = c /\ b = d.
Proof. induction a as [|x a IH]; intros b [|y c] d E L; try discriminate L; [auto|]. cbn in E, L. injection E as -> E. injection L as L. destruct (IH _ _ _ E L) as [-> ->]. auto. Qed.

(** The key is there, in the session that imported it, or in every session if it is on the token, with the value given. *)
Theorem C125_there : forall w d s h ho kt b h2 x, laws (w_se w) -> imported w d s h ho kt b -> sess_get s h2 = Some x -> h2 = h \/ (2^28 <= ho)%Z ->
  exists o, ready w s h2 x ho o (mkKey kt b [] 0).
Proof.
  intros w d s h ho kt b h2 x L (l1 & t & r1 & l2 & os1 & os2 & D & R & Le & M & B & Gv & F) G2 H2.
  apply run_app in R as (s1 & o1 & o2 & R1 & R2 & Eo & Lo). destruct (app_same _ _ _ _ _ (eq_sym Eo)) as [-> ->]; [congruence|]. clear Eo.
  apply run_split in R2 as (s2 & q & os' & S & R2 & E). injection E as <- <-.
  apply Forall_app in B as [B1 B2]. inversion B2 as [|? ? B3 B4]. subst. cbn [fst] in B3.
  destruct (orderly_run w d l1 0 (sys0 d) s1 os1 (od_0 w True d D) B1 R1) as (m1 & Od1 & M1).
  assert (Od2 : orderly w True d (m1 + uses (OCreateObject h t)) s2) by (econstructor; [exact Od1|exact S|apply usual_bytes, bool_usual; exact B3]).
  pose proof (uses_two (OCreateObject h t)) as U2.
  assert (M2 : (m1 + uses (OCreateObject h t) + 2 * zlen l2 < 2^28)%Z) by (unfold zlen in *; rewrite app_length in M; cbn [List.length] in M; lia).
  assert (Zl : (0 <= zlen l2)%Z) by (unfold zlen; lia).
  destruct (gives_view w d s1 h t r1 s2 ho kt b (orderly_reach _ _ _ _ _ Od1) Gv S) as (o & (y & Gy & Jy & Eh) & V).
  destruct (orderly_kept w True (l_hash _ L) _ _ _ Od2) as [Gd2 _]; [lia|].
  assert (Fo : find_obj s2 y ho = Some o) by (rewrite <- Eh; exact (good_finds True _ _ _ _ _ Logic.I Gd2 ltac:(lia) Gy Jy)).
  pose proof (find_has _ _ _ _ _ Gy Fo) as Hs. rewrite <- Eh in F.
  destruct (held_run w d h o l2 _ _ _ _ Od2 M2 B4 F R2 Hs (ex_intro _ y Gy)) as ((z & o' & Z & Hz & Jo & Ec) & (z' & Gz) & (m' & Od' & M')).
  destruct (orderly_kept w True (l_hash _ L) _ _ _ Od' M') as [Gd _]. pose proof (orderly_reach _ _ _ _ _ Od') as Re. pose proof (reach_inv w d s Re) as I.
  assert (z = z') by (apply sess_get_in in Gz as (Z' & Hz' & _); apply (NoDup_map_inj _ _ ss_h (s_sess s)); [apply inv_uniq; exact I|exact Z|exact Z'|congruence]). subst z'.
  assert (J : In o' (t_objs (s_tok s) ++ ss_objs x)).
  { destruct (Z.eq_dec h2 h) as [->|N]; [rewrite Gz in G2; injection G2 as <-; eapply place_in; exact Jo|].
    destruct H2 as [|H2]; [contradiction|]. apply in_or_app. left. unfold KeyHeld.place in Jo. destruct (on_token (o_handle o)) eqn:Ot; [exact Jo|]. exfalso.
    assert (Lt : (o_handle o' < 2^28)%Z). { destruct Gd as [_ Gs]. rewrite Forall_forall in Gs. destruct (Gs z Z) as [_ A]. rewrite Forall_forall in A. specialize (A _ (in_map o_handle _ _ Jo)). lia. }
    apply core_uid in Ec as [_ Ec]. lia. }
  exists o'. split; [exists d; exact Re|exact G2| |].
  - pose proof (proj2 (core_uid _ _ Ec)) as Q. rewrite <- Eh, <- Q. exact (good_finds True _ _ _ _ _ Logic.I Gd M' G2 J).
  - rewrite (core_view w _ _ Ec). exact V.
Qed.
Print Assumptions C125_there.
(** ** HMAC *)
Lemma ok_outs outs : Forall (fun o => o = mkOut CKR_OK 0 []) outs -> outs = repeat (mkOut CKR_OK 0 []) (List.length outs).
Proof. induction 1 as [|y l -> _ IH]; [reflexivity|]. cbn. rewrite <- IH. reflexivity. Qed.
Lemma ops_len ev objs c : forall st q r, Ops.run ev objs st c = Ok (q, r) -> List.length r = List.length c.
Proof.
  induction c as [|c cs IH]; intros st q r E; cbn [Ops.run] in E; [injection E as _ <-; reflexivity|].
  destruct (Ops.step _ _ _ _) as [[q1 o1]| |]; cbn [bind] in E; try discriminate. destruct (Ops.run ev objs q1 cs) as [[q2 o2]| |] eqn:R; cbn [bind] in E; try discriminate.
  injection E as _ <-. cbn [List.length]. rewrite (IH _ _ _ R). reflexivity.
Qed.
(** A signature made in parts is the HMAC of the data under the value given at the import. *)
Theorem C125_sign : forall w d s h ho b h2 x a chunks n outs, laws (w_se w) -> imported w d s h ho 16 b -> sess_get s h2 = Some x -> h2 = h \/ (2^28 <= ho)%Z ->
  e_hmac_ok (w_ev w) a b = true -> Forall (fun c => (zlen c < 2^32)%Z) chunks -> (hmac_sz a <= n < 2^32)%Z ->
  amid w s h2 (KSignInit (M_HMAC a) MPnull 0) ho (map KSignUpdate chunks ++ [KSignFinal (Buf n)]) outs ->
  outs = repeat (mkOut CKR_OK 0 []) (List.length chunks) ++ [mkOut CKR_OK (hmac_sz a) (e_hmac (w_ev w) a b (concat chunks))].
Proof.
  intros w d s h ho b h2 x a chunks n outs L Im G Hh Hk Fc Fn Am. destruct (C125_there w d s h ho 16%Z b h2 x L Im G Hh) as (o & Rd).
  destruct (C41_sign_multipart (w_ev w) (only (o_uid o) (mkKey 16 b [] 0)) (ss_op x) a (o_uid o) (mkKey 16 b [] 0) chunks n (only_self _ _) eq_refl Hk Fc Fn) as (st' & os & Q & Fo).
  pose proof (ops_len _ _ _ _ _ _ Q) as Ln. cbn [List.length] in Ln. rewrite !app_length, map_length in Ln. cbn [List.length] in Ln.
  destruct os as [|y os]; [cbn in Ln; lia|]. inversion Fo as [|? ? -> Fo']. subst. cbn [List.length] in Ln.
  rewrite (lift_copied w s h2 x ho o _ (KSignInit (M_HMAC a) MPnull 0) (KSignInit (M_HMAC a) MPnull (o_uid o)) (M_HMAC a) _ outs _ _ _ Rd eq_refl eq_refl eq_refl Am Q eq_refl).
  assert (Lc : List.length chunks = List.length os) by lia. rewrite Lc, <- (ok_outs os Fo'). reflexivity.
Qed.
Print Assumptions C125_sign.
(** A signature is accepted if and only if it is that one. *)
Theorem C125_verify : forall w d s h ho b h2 x a chunks sig outs, laws (w_se w) -> imported w d s h ho 16 b -> sess_get s h2 = Some x -> h2 = h \/ (2^28 <= ho)%Z ->
  (forall data, zlen (e_hmac (w_ev w) a b data) = hmac_sz a) -> e_hmac_ok (w_ev w) a b = true -> Forall (fun c => (zlen c < 2^32)%Z) chunks -> (zlen sig < 2^32)%Z ->
  amid w s h2 (KVerifyInit (M_HMAC a) MPnull 0) ho (map KVerifyUpdate chunks ++ [KVerifyFinal sig]) outs ->
  exists rv, outs = repeat (mkOut CKR_OK 0 []) (List.length chunks) ++ [mkOut rv 0 []] /\ (rv = CKR_OK \/ rv = CKR_SIGNATURE_INVALID) /\
    (rv = CKR_OK <-> sig = e_hmac (w_ev w) a b (concat chunks)).
Proof.
  intros w d s h ho b h2 x a chunks sig outs L Im G Hh Hl Hk Fc Fn Am. destruct (C125_there w d s h ho 16%Z b h2 x L Im G Hh) as (o & Rd).
  destruct (C41_verify_multipart (w_ev w) (only (o_uid o) (mkKey 16 b [] 0)) (ss_op x) a (o_uid o) (mkKey 16 b [] 0) chunks sig Hl (only_self _ _) eq_refl Hk Fc Fn) as (st' & os & rv & Q & Fo & R1 & R2).
  pose proof (ops_len _ _ _ _ _ _ Q) as Ln. cbn [List.length] in Ln. rewrite !app_length, map_length in Ln. cbn [List.length] in Ln.
  destruct os as [|y os]; [cbn in Ln; lia|]. inversion Fo as [|? ? -> Fo']. subst. cbn [List.length] in Ln. exists rv. split; [|auto].
  rewrite (lift_copied w s h2 x ho o _ (KVerifyInit (M_HMAC a) MPnull 0) (KVerifyInit (M_HMAC a) MPnull (o_uid o)) (M_HMAC a) _ outs _ _ _ Rd eq_refl eq_refl eq_refl Am Q eq_refl).
  assert (Lc : List.length chunks = List.length os) by lia. rewrite Lc, <- (ok_outs os Fo'). reflexivity.
Qed.
Print Assumptions C125_verify.

(** ** AES-CBC *)
Theorem C125_encrypt : forall w d s h ho b h2 x iv blks cbs nf outs, laws (w_se w) -> imported w d s h ho 31 b -> sess_get s h2 = Some x -> h2 = h \/ (2^28 <= ho)%Z ->
  cipher_ok (e_ci (w_ev w)) -> e_aes_ok (w_ev w) b = true -> List.length iv = 16 -> OpsCbcProofs.fresh (ss_op x) ->
  are_blocks blks -> concat (map fst cbs) = concat blks -> OpsCbcProofs.fits cbs -> (zlen (concat blks) < 2^32)%Z ->
  amid w s h2 (KEncryptInit M_AES_CBC (MPraw iv) 0) ho (enc_upds cbs ++ [KEncryptFinal (Buf nf)]) outs ->
  Forall OpsCbcProofs.good outs /\ concat (map o_out outs) = concat (spec_cbc_enc (ci_E (e_ci (w_ev w)) b) iv blks).
Proof.
  intros w d s h ho b h2 x iv blks cbs nf outs L Im G Hh Ci A Li Fr Bl Cc Fi Ln Am. destruct (C125_there w d s h ho 31%Z b h2 x L Im G Hh) as (o & Rd).
  exact (C117_cbc_encrypt w s h2 x ho o _ iv blks cbs nf outs Rd Ci eq_refl A Li Fr Bl Cc Fi Ln Am).
Qed.
Print Assumptions C125_encrypt.
(** Two parties who import the same value understand each other: what one encrypts in its library with its storage, the
    other decrypts in its own, whatever both do besides. *)
Theorem C125_meet : forall w iv b d s h ho hs x cbs nf outs d2 s2 h2 ho2 hs2 x2 cbs2 nf2 outs2, laws (w_se w) -> cipher_ok (e_ci (w_ev w)) -> e_aes_ok (w_ev w) b = true -> List.length iv = 16 ->
  imported w d s h ho 31 b -> sess_get s hs = Some x -> hs = h \/ (2^28 <= ho)%Z -> OpsCbcProofs.fresh (ss_op x) ->
  imported w d2 s2 h2 ho2 31 b -> sess_get s2 hs2 = Some x2 -> hs2 = h2 \/ (2^28 <= ho2)%Z -> OpsCbcProofs.fresh (ss_op x2) ->
  OpsCbcProofs.fits cbs -> (16 <= nf < 2^32)%Z -> (zlen (concat (map fst cbs)) < 2^31)%Z ->
  amid w s hs (KEncryptInit M_AES_CBC_PAD (MPraw iv) 0) ho (enc_upds cbs ++ [KEncryptFinal (Buf nf)]) outs ->
  concat (map fst cbs2) = concat (map o_out outs) -> OpsCbcProofs.fits cbs2 -> (zlen (concat (map fst cbs2)) < 2^31)%Z ->
  amid w s2 hs2 (KDecryptInit M_AES_CBC_PAD (MPraw iv) 0) ho2 (dec_upds cbs2 ++ [KDecryptFinal (Buf nf2)]) outs2 ->
  Forall OpsCbcProofs.good outs2 /\ concat (map o_out outs2) = concat (map fst cbs).
Proof.
  intros w iv b d s h ho hs x cbs nf outs d2 s2 h2 ho2 hs2 x2 cbs2 nf2 outs2 L Ci A Li Im G Hh Fr Im2 G2 Hh2 Fr2 Fi Nf Ln Am Ec Fi2 Ln2 Am2.
  destruct (C125_there w d s h ho 31%Z b hs x L Im G Hh) as (o & Rd). destruct (C125_there w d2 s2 h2 ho2 31%Z b hs2 x2 L Im2 G2 Hh2) as (o2 & Rd2).
  exact (C117_roundtrip w iv cbs nf outs cbs2 nf2 outs2 s hs x ho o _ s2 hs2 x2 ho2 o2 _ Ci Rd Fr eq_refl A Rd2 Fr2 eq_refl eq_refl Li Fi Nf Ln Am Ec Fi2 Ln2 Am2).
Qed.
Print Assumptions C125_meet.

(** ** Histories that meet the hypotheses *)
Definition spares (h ho : Z) (c : op) : bool :=
  match c with
  | OCloseSession h' => negb (h' =? h)%Z
  | ODestroyObject _ h' | OSetAttributeValue _ h' _ => negb (h' =? ho)%Z
  | OLogin _ _ _ _ | OLogout _ => negb (on_token ho)
  | OInitToken _ _ _ => false
  | _ => negb (ends_all c)
  end.
Lemma spares_ok h ho c : spares h ho c = true -> stays_open h c /\ spared ho c.
Proof.
  unfold stays_open, spares, spared. intros E. destruct c; try (apply negb_true_iff in E); try discriminate E;
    try (apply Z.eqb_neq in E); try (split; [split; [congruence|reflexivity]|auto; fail]); try (split; [split; [discriminate|exact E]|exact I]).
Qed.
Lemma imported_by l1 h t l2 ho kt b : nth (List.length l1) (outs (l1 ++ OCreateObject h t :: l2)) (OutRv 1) = OutH CKR_OK ho ->
  List.length (outs (l1 ++ OCreateObject h t :: l2)) = List.length (l1 ++ OCreateObject h t :: l2) -> (2 * zlen (l1 ++ OCreateObject h t :: l2) < 2^28)%Z ->
  forallb (fun c => forallb (forallb bool_attr) (templates c)) (l1 ++ OCreateObject h t :: l2) = true -> gives kt b t -> forallb (spares h ho) l2 = true ->
  imported tw nofiles (after (l1 ++ OCreateObject h t :: l2)) h ho kt b.
Proof.
  intros E1 E2 E3 E4 Gv Sp.
  assert (Nb : forall l k, map fst (numbered k l) = l) by (induction l as [|c l IH]; intros k; cbn; [reflexivity|f_equal; apply IH]).
  assert (Sl : forall l k l', exists k', numbered k (l ++ l') = numbered k l ++ numbered k' l') by (induction l as [|c l IH]; intros k l'; [exists k; reflexivity|destruct (IH (k + 10)%N l') as (k' & E); exists k'; cbn; rewrite E; reflexivity]).
  destruct (Sl l1 1%N (OCreateObject h t :: l2)) as (k & Ek). cbn [numbered] in Ek.
  assert (Ll : forall l k, List.length (numbered k l) = List.length l) by (intros l k0; rewrite <- (map_length fst), Nb; reflexivity).
  unfold outs, after, hist in *. destruct (run tw (sys0 nofiles) (numbered 1 (l1 ++ OCreateObject h t :: l2))) as [[s os]| |] eqn:R; try (rewrite app_length in E2; cbn in E2; lia).
  rewrite Ek in R. exists (numbered 1 l1), t, (rnd k), (numbered (k + 10) l2), (firstn (List.length l1) os), (skipn (S (List.length l1)) os).
  assert (Lo : List.length l1 < List.length os) by (rewrite E2, app_length; cbn; lia).
  assert (Eo : os = firstn (List.length l1) os ++ OutH CKR_OK ho :: skipn (S (List.length l1)) os).
  { rewrite <- E1. clear - Lo. revert os Lo. induction (List.length l1) as [|n IH]; intros [|y os] L; cbn in L; try lia; [reflexivity|]. cbn [firstn nth skipn app]. f_equal. apply IH. lia. }
  split; [reflexivity|]. split; [rewrite <- Eo; exact R|]. split; [rewrite firstn_length, Ll; lia|].
  split; [rewrite <- Ek; unfold zlen in *; rewrite Ll; exact E3|]. split; [rewrite <- Ek; apply bool_calls; rewrite Nb; exact E4|]. split; [exact Gv|].
  apply Forall_forall. intros c C. apply spares_ok. rewrite forallb_forall in Sp. apply Sp. rewrite <- (Nb l2 (k + 10)%N). apply in_map. exact C.
Qed.
Lemma gives_gen : gives 16 (repeat 7%N 16) gen_tmpl.
Proof.
  split; [split; [|split]|split; [|split; [|split]]].
  - cbn. repeat constructor; cbn; intuition discriminate.
  - right. left. reflexivity.
  - intros b [E|[E|[E|[]]]]; try discriminate E. injection E as <-. vm_compute. discriminate.
  - left. reflexivity.
  - right. right. left. reflexivity.
  - cbn. intuition discriminate.
  - vm_compute. reflexivity.
Qed.
Lemma gives_aes t : t = aes_tmpl \/ t = tok_aes -> gives 31 (repeat 7%N 16) t.
Proof.
  intros T. split; [split; [|split]|split; [|split; [|split]]].
  - destruct T as [-> | ->]; cbn; repeat constructor; cbn; intuition discriminate.
  - destruct T as [-> | ->]; cbn; auto.
  - intros b J. assert (J' : In (mkA CKA_CLASS (AV b)) tok_aes) by (destruct T as [-> | ->]; [right|]; exact J). destruct J' as [E|[E|[E|[E|[E|[]]]]]]; try discriminate E. injection E as <-. vm_compute. discriminate.
  - right. left. reflexivity.
  - destruct T as [-> | ->]; cbn; auto 7.
  - destruct T as [-> | ->]; cbn; intuition discriminate.
  - vm_compute. reflexivity.
Qed.
Definition u1 : list op := setup ++ [OOpenSession 1 RW; OOpenSession 1 RW; OLogin H1 CKU_USER upin (Some 9%Z)].
Definition gen_after : list op := [OCreateObject H1 aes_tmpl; OLogout H1; OSetAttributeValue H1 2 new_value; ODestroyObject H1 2; OCloseSession H2].
Definition tok_after : list op := [OCreateObject H1 aes_tmpl; OSetAttributeValue H1 1 new_value; OFindObjectsInit H2 []; OFindObjectsFinal H2; ODestroyObject H1 1].
Definition gen_hist : list op := u1 ++ OCreateObject H1 gen_tmpl :: gen_after.
Definition tok_hist : list op := u1 ++ OCreateObject H1 tok_aes :: tok_after.
Definition sign_l : list op := [OCrypto H1 (KSignUpdate [1; 2]%N) 0; ODestroyObject H1 1; OCrypto H1 (KSignUpdate [3]%N) 0; OCrypto H1 (KSignFinal (Buf 64)) 0].
Definition sign_outs : list outc :=
  match run tw (after gen_hist) (numb (OCrypto H1 (KSignInit (M_HMAC H_SHA256) MPnull 0) 1 :: sign_l)) with Ok (_, _ :: os) => map snd (mine H1 (numb sign_l) os) | _ => [] end.
Definition enc2_outs : list outc :=
  match run tw (after tok_hist) (numb (OCrypto H2 (KEncryptInit M_AES_CBC_PAD (MPraw iv16) 0) KT :: enc_l)) with Ok (_, _ :: os) => map snd (mine H2 (numb enc_l) os) | _ => [] end.
Example C125_case :
  imported tw nofiles (after gen_hist) H1 1 16 (repeat 7%N 16) /\ rvs gen_hist = repeat CKR_OK (List.length gen_hist) /\
  amid tw (after gen_hist) H1 (KSignInit (M_HMAC H_SHA256) MPnull 0) 1 (map KSignUpdate [[1; 2]; [3]]%N ++ [KSignFinal (Buf 64)]) sign_outs /\
  e_hmac_ok (w_ev tw) H_SHA256 (repeat 7%N 16) = true /\ List.length (concat (map o_out sign_outs)) = 32 /\
  imported tw nofiles (after tok_hist) H1 KT 31 (repeat 7%N 16) /\ rvs tok_hist = repeat CKR_OK (List.length tok_hist) /\
  sess_get (after tok_hist) H2 = Some (sx tok_hist H2) /\ (2^28 <= KT)%Z /\ OpsCbcProofs.fresh (ss_op (sx tok_hist H2)) /\
  amid tw (after tok_hist) H2 (KEncryptInit M_AES_CBC_PAD (MPraw iv16) 0) KT (enc_upds parts1 ++ [KEncryptFinal (Buf 16)]) enc2_outs /\
  concat (map o_out enc2_outs) = ct21.
Proof.
  split; [apply imported_by; [vm_compute; reflexivity|vm_compute; reflexivity|vm_compute; reflexivity|vm_compute; reflexivity|exact gives_gen|vm_compute; reflexivity]|].
  split; [vm_compute; reflexivity|].
  split; [apply amid_by with (l := sign_l); [vm_compute; reflexivity|apply goes_by; vm_compute; reflexivity|vm_compute; reflexivity]|].
  split; [vm_compute; reflexivity|]. split; [vm_compute; reflexivity|].
  split; [apply imported_by; [vm_compute; reflexivity|vm_compute; reflexivity|vm_compute; reflexivity|vm_compute; reflexivity|apply gives_aes; auto|vm_compute; reflexivity]|].
  split; [vm_compute; reflexivity|]. split; [vm_compute; reflexivity|]. split; [vm_compute; discriminate|]. split; [split; vm_compute; reflexivity|].
  split; [apply amid_by with (l := enc_l); [vm_compute; reflexivity|apply goes_by; vm_compute; reflexivity|vm_compute; reflexivity]|].
  vm_compute. reflexivity.
Qed.
