(** C130, ECDSA: a signature made with an EC private key of the token in one history is accepted with the matching public key in any other,
    across restarts.  The calls are C_SignInit/C_Sign and C_VerifyInit/C_Verify (crypto.c 2683-2700, 3181-3192; WP11_Ec_Sign and
    WP11_Ec_Verify, internal.c 7345-7440, are the oracles [e_pk_sign] and [e_pk_verify]). *)
From Verif Require Import Base Cbc CbcProofs CbcSpec Codec Ops OpsSpec OpsCbcProofs OpsProofs OpsProofs2 OpsProofs3 OpsProofs4 OpsClaims OpsFinal Object ObjectProofs Store StoreSpec StoreProofs Sys SysProofs SysProofs2 SysProofs3 SysProofs4 WfProofs
  LoginProofs RvProofs ObjFrame ObjProofs HandleProofs DiskHandles FindState UseProofs KeyProofs KeyHeld ToyEnv ToySys PropObject PropSys1 PropSys2 PropSys3 PropStore PropKeys PropKeys2 PropInUse PropFind PropOps PropHold PropMsg PropObj PropImport
  Device DeviceProofs PropDevice Table TableProofs PropTable PropUse PropSurvive PropEndure SurviveAny PropPrivate PropPublic.
From Coq Require Import List Bool.
Import ListNotations.
Open Scope nat_scope.
Open Scope list_scope.
(** ECDSA for the key [e]: what is signed with any key of its curve and private value is verified with every key of its curve and point. *)
Definition ec_key (w : world) (e : eck) : keyobj := mkKey CKK_EC [] (w_pk w (KEc e)) (w_klen w (KEc e)).
Definition ec_matches (w : world) (e : eck) : Prop := forall e1 e2, ec_curve e1 = ec_curve e -> ec_k e1 = ec_k e -> ec_curve e2 = ec_curve e -> ec_pt e2 = ec_pt e -> forall rs data,
  match e_pk_sign (w_ev w) M_ECDSA (ec_key w e1) PKnone rs data with
  | Ok sig => (zlen sig < 2^32)%Z /\ e_pk_verify (w_ev w) M_ECDSA (ec_key w e2) PKnone sig data = Ok true
  | Err _ => True
  | Undef _ => False end.
Lemma ec_sign_run ev u ko st rs data n : ko_type ko = CKK_EC -> (zlen data < 2^32)%Z -> (ko_len ko <= n)%Z -> (0 <= n < 2^32)%Z -> (forall u, e_pk_sign ev M_ECDSA ko PKnone rs data <> Undef u) ->
  exists p, Ops.run ev (only u ko) st [KSignInit M_ECDSA MPnull u; KSign rs data (Buf n)] =
    Ok (p, [fail Query CKR_OK; match e_pk_sign ev M_ECDSA ko PKnone rs data with Ok sig => mkOut CKR_OK (zlen sig) sig | _ => mkOut CKR_FUNCTION_FAILED (ko_len ko) [] end]).
Proof.
  intros T Ld Ln Rn Nu. cbn [Ops.run Ops.step]. unfold init_call. rewrite only_self. cbn [C_SignInit]. unfold ecdsa_init. rewrite T. cbn [Z.eqb negb no_param bind CKK_EC].
  cbv beta iota zeta. unfold C_Sign, with_obj. cbn [init_done os_curr set_init os_mech]. unfold pk_sign, need_init. cbn. unfold deref. rewrite only_self. cbn [bind]. unfold sized. rewrite (u32_small n Rn). destruct (Z.ltb_spec n (ko_len ko)); [lia|].
  cbn [get_pk bind]. rewrite (trunc32_small _ Ld). destruct (e_pk_sign ev M_ECDSA ko PKnone rs data) as [sig| |v]; [| |exfalso; exact (Nu v eq_refl)]; cbn [bind]; eexists; reflexivity.
Qed.
Lemma ec_verify_run ev u ko st data sig : ko_type ko = CKK_EC -> (zlen data < 2^32)%Z -> (zlen sig < 2^32)%Z -> e_pk_verify ev M_ECDSA ko PKnone sig data = Ok true ->
  exists p, Ops.run ev (only u ko) st [KVerifyInit M_ECDSA MPnull u; KVerify data sig] = Ok (p, [fail Query CKR_OK; fail Query CKR_OK]).
Proof.
  intros T Ld Ls Sg. cbn [Ops.run Ops.step]. unfold init_call. rewrite only_self. cbn [C_VerifyInit]. unfold ecdsa_init. rewrite T. cbn [Z.eqb negb no_param bind CKK_EC].
  cbv beta iota zeta. unfold C_Verify, with_obj. cbn [init_done os_curr set_init os_mech]. unfold pk_verify, need_init. cbn. unfold deref. rewrite only_self. cbn [bind].
  cbn [get_pk bind]. rewrite (trunc32_small _ Ld), (trunc32_small _ Ls), Sg. cbn [bind]. eexists. reflexivity.
Qed.
Theorem C130_ec_pair : forall w d s c s2 o2 h ho e p hs x rs data n outs d' s' c' s2' o2' h' hb e0 p' hs' x' outs', laws (w_se w) -> ec_der_private w -> ec_der_public w -> ec_matches w e ->
  endured w d s c s2 o2 h ho p -> has_private s2 h ho CKK_EC (KEc e) -> t_login (s_tok s) = RW_USER -> sess_get s hs = Some x ->
  endured w d' s' c' s2' o2' h' hb p' -> has_public s2' h' hb CKK_EC (KEc e0) -> t_login (s_tok s') = RW_USER -> sess_get s' hs' = Some x' ->
  ec_curve e0 = ec_curve e -> ec_pt e0 = ec_pt e -> (zlen data < 2^32)%Z -> (forall e', (w_klen w (KEc e') <= n)%Z) -> (0 <= n < 2^32)%Z ->
  amid_spared w s hs (KSignInit M_ECDSA MPnull 0) ho [KSign rs data (Buf n)] outs -> map o_rv outs = [CKR_OK] ->
  amid_spared w s' hs' (KVerifyInit M_ECDSA MPnull 0) hb [KVerify data (concat (map o_out outs))] outs' ->
  map o_rv outs' = [CKR_OK].
Proof.
  intros w d s c s2 o2 h ho e p hs x rs data n outs d' s' c' s2' o2' h' hb e0 p' hs' x' outs' L Hv Hp Mt En Pr Lg G En' Pb Lg' G' Q1 Q2 Ld Ln Rn Am Ok1 Am'.
  destruct (C129_ec w d s c s2 o2 h ho e p hs x L Hv En Pr Lg G) as (e1 & o1 & A1 & A2 & _ & Rd1). destruct (C130_ec w d' s' c' s2' o2' h' hb e0 p' hs' x' L Hp En' Pb Lg' G') as (e2 & o & B1 & B2 & _ & Rd).
  pose proof (Mt e1 e2 A1 A2 ltac:(congruence) ltac:(congruence) rs data) as M.
  destruct (ec_sign_run (w_ev w) (o_uid o1) (ec_key w e1) (ss_op x) rs data n eq_refl Ld (Ln e1) Rn) as (p1 & Q); [intros u Hu; rewrite Hu in M; exact M|].
  rewrite (lift_spared w s hs x ho o1 _ (KSignInit M_ECDSA MPnull 0) (KSignInit M_ECDSA MPnull (o_uid o1)) _ outs _ _ _ Rd1 eq_refl Am Q eq_refl) in *. clear Q.
  destruct (e_pk_sign (w_ev w) M_ECDSA (ec_key w e1) PKnone rs data) as [sig| |]; [|discriminate Ok1|discriminate Ok1]. destruct M as [Ls Vf]. cbn [map o_out concat] in Am'. rewrite app_nil_r in Am'.
  destruct (ec_verify_run (w_ev w) (o_uid o) (ec_key w e2) (ss_op x') data sig eq_refl Ld Ls Vf) as (p2 & Q).
  rewrite (lift_spared w s' hs' x' hb o _ (KVerifyInit M_ECDSA MPnull 0) (KVerifyInit M_ECDSA MPnull (o_uid o)) _ outs' _ _ _ Rd eq_refl Am' Q eq_refl). reflexivity.
Qed.
Print Assumptions C130_ec_pair.
Definition pair_ec : eck := mkEc (Some 7%Z) 2 5 [4; 1; 2]%N.
Lemma tw_ec_matches e : ec_matches tw e.
Proof.
  intros e1 e2 _ _ _ _ rs data. cbn. unfold toy_pk. cbn. destruct (Z.leb_spec (zlen data) 256) as [L|L]; [|exact I]. split; [unfold zlen in *; rewrite map_length; lia|]. f_equal.
  generalize (map (fun x => N.lxor x 7) data). induction l as [|x l IH]; [reflexivity|]. cbn. rewrite N.eqb_refl. exact IH.
Qed.
Lemma private_ec_at : has_private (after (story both_ec [])) H2 (KT + 1) CKK_EC (KEc pair_ec).
Proof.
  exists (sx (story both_ec []) H2). destruct (find_obj (after (story both_ec [])) (sx (story both_ec []) H2) (KT + 1)) as [o|] eqn:F; [|exfalso; vm_compute in F; discriminate F].
  exists o. split; [vm_compute; reflexivity|]. split; [reflexivity|]. vm_compute in F; injection F as <-; repeat split.
Qed.
Lemma private_ec_endured : endured tw nofiles (after (story both_ec [])) both_ec (after (story both_ec [])) (OutH2 CKR_OK KT (KT + 1)) H2 (KT + 1) upin.
Proof.
  exists (firstn 8 (numbered 1 (story both_ec []))), H2, (Some 9%Z), (rnd 81), (firstn 2 (skipn 9 (numbered 1 (story both_ec [])))), (rnd 111), [], (after (prep both_ec)), (firstn 8 (outs (story both_ec []))), (firstn 2 (skipn 9 (outs (story both_ec [])))), [].
  split; [reflexivity|]. split; [vm_compute; reflexivity|]. split; [vm_compute; reflexivity|].
  split; [match goal with |- context [combine ?a ?b] => let r := eval vm_compute in (combine a b) in change (combine a b) with r end; intros c o J; repeat (destruct J as [J|J]; [injection J as <- <-; cbn; auto|]); destruct J|].
  split; [vm_compute; reflexivity|]. split; [reflexivity|]. split; [vm_compute; reflexivity|]. split; [right; left; reflexivity|]. split; [vm_compute; discriminate|]. split; [reflexivity|]. split; [intros c o []|].
  cbv zeta. match goal with |- PropArchive.tidy_run _ _ ?q /\ _ => assert (Q : q = numbered 1 (story both_ec [])) by reflexivity; rewrite Q; clear Q end.
  split; [apply PropArchive.tidy_runb_ok; vm_compute; reflexivity|]. split; [vm_compute; reflexivity|]. apply bool_calls. vm_compute. reflexivity.
Qed.
Example C130_ec_case : ec_der_private tw /\ ec_der_public tw /\ ec_matches tw pair_ec /\ (forall e, (w_klen tw (KEc e) <= 300)%Z) /\
  endured tw nofiles (after (story both_ec [])) both_ec (after (story both_ec [])) (OutH2 CKR_OK KT (KT + 1)) H2 (KT + 1) upin /\ has_private (after (story both_ec [])) H2 (KT + 1) CKK_EC (KEc pair_ec) /\
  endured tw nofiles (after (story both_ec onwards)) both_ec (after (story both_ec [])) (OutH2 CKR_OK KT (KT + 1)) H2 KT upin /\ has_public (after (story both_ec [])) H2 KT CKK_EC (KEc (mkEc (Some 7%Z) 1 0 [4; 1; 2]%N)) /\
  amid_spared tw (after (story both_ec [])) H2 (KSignInit M_ECDSA MPnull 0) (KT + 1) [KSign [] [9; 8]%N (Buf 300)] [mkOut CKR_OK 2 [14; 15]%N] /\
  amid_spared tw (after (story both_ec onwards)) H2 (KVerifyInit M_ECDSA MPnull 0) KT [KVerify [9; 8]%N [14; 15]%N] [fail Query CKR_OK].
Proof.
  split; [exact tw_der_private|]. split; [apply tw_public|]. split; [apply tw_ec_matches|]. split; [intros e; cbn; lia|]. split; [exact private_ec_endured|]. split; [exact private_ec_at|].
  split; [apply both_endured; [right; reflexivity|cbn; auto]|]. split; [exact (public_at both_ec (or_intror eq_refl))|]. split.
  - apply spared_by with (l := sgn1); [vm_compute; reflexivity|apply goes_by; vm_compute; reflexivity|intros c [<-|[<-|[]]]; exact I|reflexivity].
  - apply spared_by with (l := vfy1); [vm_compute; reflexivity|apply goes_by; vm_compute; reflexivity|intros c [<-|[<-|[]]]; exact I|reflexivity].
Qed.
