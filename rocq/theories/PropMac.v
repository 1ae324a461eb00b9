(** C128, HMAC: what was signed under a secret of the token in one history is verified under it in any other, and nothing else is, across restarts.
    The calls are C_SignInit, C_SignUpdate, C_SignFinal and the same for verifying (crypto.c, HMAC branches). *)
From Verif Require Import Base Cbc CbcProofs CbcSpec Codec Ops OpsSpec OpsCbcProofs OpsProofs OpsProofs2 OpsProofs3 OpsProofs4 OpsClaims OpsFinal Object ObjectSpec ObjectProofs Store StoreSpec StoreProofs Sys SysProofs SysProofs2 SysProofs3 SysProofs4 WfProofs
  LoginProofs RvProofs ObjFrame ObjProofs HandleProofs DiskHandles FindState UseProofs KeyProofs KeyHeld ToyEnv ToySys PropObject PropSys1 PropSys2 PropSys3 PropStore PropKeys PropKeys2 PropInUse PropFind PropOps PropHold PropMsg PropObj PropImport
  Device DeviceProofs PropDevice Table TableProofs PropTable PropUse PropSurvive PropEndure.
From Verif Require PropArchive.
From Coq Require Import List Bool.
Import ListNotations.
Open Scope nat_scope.
Open Scope list_scope.

Theorem C128_sign : forall w d s c s2 o2 h ho b p hs x a chunks n outs, laws (w_se w) -> endured w d s c s2 o2 h ho p -> has_value w s2 h ho 16 b -> t_login (s_tok s) = RW_USER -> sess_get s hs = Some x ->
  e_hmac_ok (w_ev w) a b = true -> Forall (fun c => (zlen c < 2^32)%Z) chunks -> (hmac_sz a <= n < 2^32)%Z ->
  amid w s hs (KSignInit (M_HMAC a) MPnull 0) ho (map KSignUpdate chunks ++ [KSignFinal (Buf n)]) outs ->
  outs = repeat (mkOut CKR_OK 0 []) (List.length chunks) ++ [mkOut CKR_OK (hmac_sz a) (e_hmac (w_ev w) a b (concat chunks))].
Proof.
  intros w d s c s2 o2 h ho b p hs x a chunks n outs L En Hv Lg G Hk Fc Fn Am. destruct (C128_there w d s c s2 o2 h ho 16%Z b p hs x L En Hv Lg G) as (o & Rd).
  destruct (C41_sign_multipart (w_ev w) (only (o_uid o) (mkKey 16 b [] 0)) (ss_op x) a (o_uid o) (mkKey 16 b [] 0) chunks n (only_self _ _) eq_refl Hk Fc Fn) as (st' & os & Q & Fo).
  pose proof (ops_len _ _ _ _ _ _ Q) as Ln. cbn [List.length] in Ln. rewrite !app_length, map_length in Ln. cbn [List.length] in Ln.
  destruct os as [|y os]; [cbn in Ln; lia|]. inversion Fo as [|? ? -> Fo']. subst. cbn [List.length] in Ln.
  rewrite (lift_copied w s hs x ho o _ (KSignInit (M_HMAC a) MPnull 0) (KSignInit (M_HMAC a) MPnull (o_uid o)) (M_HMAC a) _ outs _ _ _ Rd eq_refl eq_refl eq_refl Am Q eq_refl).
  assert (Lc : List.length chunks = List.length os) by lia. rewrite Lc, <- (ok_outs os Fo'). reflexivity.
Qed.
Print Assumptions C128_sign.
Theorem C128_verify : forall w d s c s2 o2 h ho b p hs x a chunks sig outs, laws (w_se w) -> endured w d s c s2 o2 h ho p -> has_value w s2 h ho 16 b -> t_login (s_tok s) = RW_USER -> sess_get s hs = Some x ->
  (forall data, zlen (e_hmac (w_ev w) a b data) = hmac_sz a) -> e_hmac_ok (w_ev w) a b = true -> Forall (fun c => (zlen c < 2^32)%Z) chunks -> (zlen sig < 2^32)%Z ->
  amid w s hs (KVerifyInit (M_HMAC a) MPnull 0) ho (map KVerifyUpdate chunks ++ [KVerifyFinal sig]) outs ->
  exists rv, outs = repeat (mkOut CKR_OK 0 []) (List.length chunks) ++ [mkOut rv 0 []] /\ (rv = CKR_OK \/ rv = CKR_SIGNATURE_INVALID) /\
    (rv = CKR_OK <-> sig = e_hmac (w_ev w) a b (concat chunks)).
Proof.
  intros w d s c s2 o2 h ho b p hs x a chunks sig outs L En Hv Lg G Hl Hk Fc Fn Am. destruct (C128_there w d s c s2 o2 h ho 16%Z b p hs x L En Hv Lg G) as (o & Rd).
  destruct (C41_verify_multipart (w_ev w) (only (o_uid o) (mkKey 16 b [] 0)) (ss_op x) a (o_uid o) (mkKey 16 b [] 0) chunks sig Hl (only_self _ _) eq_refl Hk Fc Fn) as (st' & os & rv & Q & Fo & R1 & R2).
  pose proof (ops_len _ _ _ _ _ _ Q) as Ln. cbn [List.length] in Ln. rewrite !app_length, map_length in Ln. cbn [List.length] in Ln.
  destruct os as [|y os]; [cbn in Ln; lia|]. inversion Fo as [|? ? -> Fo']. subst. cbn [List.length] in Ln. exists rv. split; [|auto].
  rewrite (lift_copied w s hs x ho o _ (KVerifyInit (M_HMAC a) MPnull 0) (KVerifyInit (M_HMAC a) MPnull (o_uid o)) (M_HMAC a) _ outs _ _ _ Rd eq_refl eq_refl eq_refl Am Q eq_refl).
  assert (Lc : List.length chunks = List.length os) by lia. rewrite Lc, <- (ok_outs os Fo'). reflexivity.
Qed.
Print Assumptions C128_verify.

(** Signed in one history, checked in another, in other parts: accepted just when HMAC gives the same for both messages. *)
Theorem C128_mac : forall w a b d s c sc oc h ho p hs x chunks n outs d2 s2 c2 sc2 oc2 h2 ho2 p2 hs2 x2 chunks2 outs2, laws (w_se w) ->
  (forall data, zlen (e_hmac (w_ev w) a b data) = hmac_sz a) -> e_hmac_ok (w_ev w) a b = true ->
  endured w d s c sc oc h ho p -> has_value w sc h ho 16 b -> t_login (s_tok s) = RW_USER -> sess_get s hs = Some x ->
  endured w d2 s2 c2 sc2 oc2 h2 ho2 p2 -> has_value w sc2 h2 ho2 16 b -> t_login (s_tok s2) = RW_USER -> sess_get s2 hs2 = Some x2 ->
  Forall (fun c => (zlen c < 2^32)%Z) chunks -> (hmac_sz a <= n < 2^32)%Z -> Forall (fun c => (zlen c < 2^32)%Z) chunks2 ->
  amid w s hs (KSignInit (M_HMAC a) MPnull 0) ho (map KSignUpdate chunks ++ [KSignFinal (Buf n)]) outs ->
  amid w s2 hs2 (KVerifyInit (M_HMAC a) MPnull 0) ho2 (map KVerifyUpdate chunks2 ++ [KVerifyFinal (concat (map o_out outs))]) outs2 ->
  exists rv, map o_rv outs2 = repeat CKR_OK (List.length chunks2) ++ [rv] /\ (rv = CKR_OK \/ rv = CKR_SIGNATURE_INVALID) /\ (concat chunks2 = concat chunks -> rv = CKR_OK) /\
    (rv = CKR_OK <-> e_hmac (w_ev w) a b (concat chunks2) = e_hmac (w_ev w) a b (concat chunks)).
Proof.
  intros w a b d s c sc oc h ho p hs x chunks n outs d2 s2 c2 sc2 oc2 h2 ho2 p2 hs2 x2 chunks2 outs2 L Hl Hk En Hv Lg G En2 Hv2 Lg2 G2 Fc Fn Fc2 Am Am2.
  rewrite (C128_sign w d s c sc oc h ho b p hs x a chunks n outs L En Hv Lg G Hk Fc Fn Am) in Am2. clear Am.
  assert (Q : concat (map o_out (repeat (mkOut CKR_OK 0 []) (List.length chunks) ++ [mkOut CKR_OK (hmac_sz a) (e_hmac (w_ev w) a b (concat chunks))])) = e_hmac (w_ev w) a b (concat chunks)).
  { clear. induction (List.length chunks) as [|m IH]; [cbn; apply app_nil_r|exact IH]. }
  rewrite Q in Am2. clear Q.
  destruct (C128_verify w d2 s2 c2 sc2 oc2 h2 ho2 b p2 hs2 x2 a chunks2 _ outs2 L En2 Hv2 Lg2 G2 Hl Hk Fc2 ltac:(rewrite Hl; lia) Am2) as (rv & -> & R1 & R2).
  exists rv. split; [rewrite map_app; f_equal; clear; induction (List.length chunks2) as [|m IH]; [reflexivity|cbn; f_equal; exact IH]|]. split; [exact R1|]. split; [intros E; apply R2; rewrite E; reflexivity|].
  split; intros E; [symmetry; apply R2; exact E|apply R2; symmetry; exact E].
Qed.
Print Assumptions C128_mac.

(** ** Histories that meet the hypotheses: a secret derived on the token; signed at once, checked after restarts. *)
Definition mac_t : template := tokenly [mkA CKA_CLASS (ULONG CKO_SECRET_KEY); mkA CKA_KEY_TYPE (ULONG 16); mkA CKA_SIGN TRUE; mkA CKA_VERIFY TRUE].
Definition mac_c : op := ODeriveKey H2 D_DH 1 (Some (repeat 7%N 16)) mac_t.
Lemma mac_endured l : l = [] \/ l = onwards -> endured tw nofiles (after (story mac_c l)) mac_c (after (story mac_c [])) (OutH CKR_OK KT) H2 KT upin.
Proof.
  intros T2. set (n := numbered 1 (story mac_c l)). set (k := List.length (prep mac_c)).
  exists (firstn 8 n), H2, (Some 9%Z), (rnd 81), (firstn (k - 9) (skipn 9 n)), (rnd (10 * N.of_nat k + 1)), (skipn (S k) n), (after (prep mac_c)), (firstn 8 (outs (story mac_c l))), (firstn (k - 9) (skipn 9 (outs (story mac_c l)))), (skipn (S k) (outs (story mac_c l))).
  subst n k. split; [reflexivity|].
  split; [destruct T2 as [-> | ->]; vm_compute; reflexivity|]. split; [destruct T2 as [-> | ->]; vm_compute; reflexivity|].
  split; [destruct T2 as [-> | ->]; (match goal with |- context [combine ?a ?b] => let r := eval vm_compute in (combine a b) in change (combine a b) with r end;
    intros c o J; repeat (destruct J as [J|J]; [injection J as <- <-; cbn; auto|]); destruct J)|].
  split; [vm_compute; reflexivity|]. split; [reflexivity|]. split; [vm_compute; reflexivity|].
  split; [left; reflexivity|]. split; [vm_compute; discriminate|]. split; [destruct T2 as [-> | ->]; vm_compute; reflexivity|].
  split; [destruct T2 as [-> | ->]; (match goal with |- context [combine ?a ?b] => let r := eval vm_compute in (combine a b) in change (combine a b) with r end;
    intros c o J; repeat (destruct J as [J|J]; [injection J as <- <-; split; [cbn; try exact I; try (split; discriminate); try (intros; try discriminate; reflexivity)|cbn; try exact I; discriminate]|]); destruct J)|].
  cbv zeta. match goal with |- PropArchive.tidy_run _ _ ?q /\ _ => assert (Q : q = numbered 1 (story mac_c l)) by (destruct T2 as [-> | ->]; reflexivity); rewrite Q; clear Q end.
  split; [apply PropArchive.tidy_runb_ok; destruct T2 as [-> | ->]; vm_compute; reflexivity|]. split; [destruct T2 as [-> | ->]; vm_compute; reflexivity|]. apply bool_calls.
  destruct T2 as [-> | ->]; vm_compute; reflexivity.
Qed.
Lemma mac_valued : has_value tw (after (story mac_c [])) H2 KT 16 (repeat 7%N 16).
Proof.
  split; [cbn; auto|]. exists (sx (story mac_c []) H2). destruct (find_obj (after (story mac_c [])) (sx (story mac_c []) H2) KT) as [o|] eqn:F; [|exfalso; vm_compute in F; discriminate F].
  exists o. split; [vm_compute; reflexivity|]. split; [reflexivity|]. vm_compute in F; injection F as <-; (split; [vm_compute; discriminate|vm_compute; reflexivity]).
Qed.
Definition mac_go : list op := [OCrypto H2 (KSignUpdate [1; 2]%N) 0; OLogout H2; OCrypto H2 (KSignUpdate [3]%N) 0; OCrypto H2 (KSignFinal (Buf 40)) 0].
Definition mac_of (l : list N) : list N := toy_hmac H_SHA256 (repeat 7%N 16) l.
Definition mac_chk (m : N) : list op := [OCrypto H2 (KVerifyUpdate [1]%N) 0; OLogout H2; OCrypto H2 (KVerifyUpdate [2; m]%N) 0; OCrypto H2 (KVerifyFinal (mac_of [1; 2; 3]%N)) 0].
Example C128_mac_case :
  (forall l, l = [] \/ l = onwards -> endured tw nofiles (after (story mac_c l)) mac_c (after (story mac_c [])) (OutH CKR_OK KT) H2 KT upin /\ t_login (s_tok (after (story mac_c l))) = RW_USER /\
    sess_get (after (story mac_c l)) H2 = Some (sx (story mac_c l) H2)) /\
  has_value tw (after (story mac_c [])) H2 KT 16 (repeat 7%N 16) /\ e_hmac_ok (w_ev tw) H_SHA256 (repeat 7%N 16) = true /\
  amid tw (after (story mac_c [])) H2 (KSignInit (M_HMAC H_SHA256) MPnull 0) KT (map KSignUpdate [[1; 2]; [3]]%N ++ [KSignFinal (Buf 40)]) [mkOut CKR_OK 0 []; mkOut CKR_OK 0 []; mkOut CKR_OK 32 (mac_of [1; 2; 3]%N)] /\
  amid tw (after (story mac_c onwards)) H2 (KVerifyInit (M_HMAC H_SHA256) MPnull 0) KT (map KVerifyUpdate [[1]; [2; 3]]%N ++ [KVerifyFinal (mac_of [1; 2; 3]%N)]) [mkOut CKR_OK 0 []; mkOut CKR_OK 0 []; mkOut CKR_OK 0 []] /\
  amid tw (after (story mac_c onwards)) H2 (KVerifyInit (M_HMAC H_SHA256) MPnull 0) KT (map KVerifyUpdate [[1]; [2; 4]]%N ++ [KVerifyFinal (mac_of [1; 2; 3]%N)]) [mkOut CKR_OK 0 []; mkOut CKR_OK 0 []; mkOut CKR_SIGNATURE_INVALID 0 []].
Proof.
  split; [intros l T2; split; [exact (mac_endured l T2)|]; destruct T2 as [-> | ->]; split; vm_compute; reflexivity|].
  split; [exact mac_valued|]. split; [reflexivity|].
  split; [apply amid_by with (l := mac_go); [vm_compute; reflexivity|apply goes_by; vm_compute; reflexivity|reflexivity]|].
  split; [apply amid_by with (l := mac_chk 3); [vm_compute; reflexivity|apply goes_by; vm_compute; reflexivity|reflexivity]|].
  apply amid_by with (l := mac_chk 4); [vm_compute; reflexivity|apply goes_by; vm_compute; reflexivity|reflexivity].
Qed.
