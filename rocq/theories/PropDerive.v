(** C128, C_DeriveKey (crypto.c 4163-4275): a key derived on the token is the agreed secret whenever the user is logged in, across restarts,
    and two parties that agreed on a secret can open each other's messages. *)
From Verif Require Import Base Cbc CbcProofs CbcSpec Codec Ops OpsSpec OpsCbcProofs OpsProofs OpsProofs2 OpsProofs3 OpsProofs4 OpsClaims OpsFinal Object ObjectSpec ObjectProofs Store StoreSpec StoreProofs Sys SysProofs SysProofs2 SysProofs3 SysProofs4 WfProofs
  LoginProofs RvProofs ObjFrame ObjProofs HandleProofs DiskHandles FindState UseProofs KeyProofs KeyHeld ToyEnv ToySys PropObject PropSys1 PropSys2 PropSys3 PropStore PropKeys PropKeys2 PropInUse PropFind PropOps PropHold PropMsg PropObj PropImport
  Device DeviceProofs PropDevice Table TableProofs PropTable PropUse PropSurvive PropEndure PropGcm.
From Verif Require PropArchive PropObject2.
From Coq Require Import List Bool.
Import ListNotations.
Open Scope nat_scope.
Open Scope list_scope.

(** An object made from a template that gives the key type [kt] once has that type and is no certificate. *)
Lemma create_kind w rw uid t rv o kt : key_tmpl kt t -> In kt [16; 31]%Z -> CreateObject (w_oe w) rw uid t = Ok (rv, Some o) -> o_type o = kt /\ o_class o <> CKO_CERTIFICATE.
Proof.
  intros (D & Kt & Nc) Hk C.
  assert (Kl : tmpl_ulong (mkA CKA_KEY_TYPE (ULONG kt)) = Some kt) by (cbn in Hk; repeat destruct Hk as [<-|Hk]; [..|destruct Hk]; reflexivity).
  assert (Q : exists cls, cls <> CKO_CERTIFICATE /\ NewObject (w_oe w) rw uid kt cls t = Ok (rv, Some o)).
  { unfold CreateObject in C. cbv zeta in C.
    assert (Go : forall cls, cls <> CKO_CERTIFICATE -> (let '(ty, good) := if (cls =? CKO_CERTIFICATE)%Z then (CKA_CERTIFICATE_TYPE, [0; 1; 2]%Z) else (CKA_KEY_TYPE, [CKK_RSA; CKK_EC; CKK_DH; CKK_AES; CKK_GENERIC_SECRET]) in
      match find_last t ty with None => Ok (CKR_TEMPLATE_INCOMPLETE, None) | Some a => match tmpl_ulong a with None => Ok (CKR_ATTRIBUTE_VALUE_INVALID, None)
        | Some k => if mem k good then NewObject (w_oe w) rw uid k cls t else Ok (CKR_ATTRIBUTE_VALUE_INVALID, None) end end) = Ok (rv, Some o) -> NewObject (w_oe w) rw uid kt cls t = Ok (rv, Some o)).
    { intros cls Ne G. destruct (Z.eqb_spec cls CKO_CERTIFICATE); [contradiction|]. rewrite (last_of t _ _ D Kt), Kl in G. destruct (mem kt _); [exact G|discriminate G]. }
    destruct (find_last t CKA_CLASS) as [a|] eqn:F.
    - destruct (tmpl_ulong a) as [cls|] eqn:U; [|discriminate C]. assert (Fi : In a t /\ a_type a = CKA_CLASS). { unfold find_last in F. apply find_some in F as [F1 F2]. apply in_rev in F1. apply Z.eqb_eq in F2. auto. } destruct Fi as [Fi Ft].
      destruct a as [aty av]. cbn [a_type] in Ft. subst aty. unfold tmpl_ulong in U. cbn [a_val] in U. destruct av as [b| |]; try discriminate U. destruct (zlen b =? 8)%Z; [|discriminate U]. injection U as <-.
      exists (ulong_of b). split; [exact (Nc b Fi)|]. apply Go; [exact (Nc b Fi)|exact C].
    - exists UNAVAILABLE. split; [discriminate|]. apply Go; [discriminate|exact C]. }
  destruct Q as (cls & Ne & Nw). pose proof (NewObject_some _ _ _ _ _ _ _ _ Nw) as ->. apply NewObject_ok in Nw. apply SetAttributeValue_ok in Nw as (_ & Ck & ps & v & o1 & P & V & K & L).
  pose proof (set_loop_core _ _ _ _ L) as (_ & L2 & _). apply SetKey_frame in K as (dd & n & ->). split; [rewrite L2; reflexivity|].
  apply (set_loop_keep (fun o => o_class o <> CKO_CERTIFICATE) (fun a => a_type a = CKA_CLASS -> ulong_of (v_bytes (a_val a)) <> CKO_CERTIFICATE)) in L; [exact L| | |exact Ne].
  - clear. intros o a c o' Na E Ec. unfold SetAttr in E. destruct (set_opflag_of _); [injection E as _ <-; exact Ec|]. destruct (set_flag_of _); [injection E as _ <-; exact Ec|].
    destruct (Z.eqb_spec (a_type a) CKA_CLASS) as [Eq|_]; [injection E as _ <-; exact (Na Eq)|].
    destruct (a_type a =? CKA_ID)%Z; [destruct (new_sval _ _) as [[? ?]| |]; cbn [bind] in E; try discriminate E; injection E as _ <-; exact Ec|].
    destruct (a_type a =? CKA_LABEL)%Z; [destruct (new_sval _ _) as [[? ?]| |]; cbn [bind] in E; try discriminate E; injection E as _ <-; exact Ec|].
    repeat match type of E with (if ?b then _ else _) = _ => destruct b end; injection E as _ <-; exact Ec.
  - apply Forall_forall. intros [aty av] Ja Ea. cbn [a_type] in Ea. subst aty. cbn [a_val]. rewrite check_attrs_Forall, Forall_forall in Ck. specialize (Ck _ Ja). unfold check_attr in Ck. change (kind_of (a_type (mkA CKA_CLASS av))) with (Some AK_ulong) in Ck. cbv iota in Ck. cbn [a_val] in Ck.
    destruct av as [bb|n0|bb]; [exact (Nc bb Ja)|discriminate Ck|]. destruct (v_len (AUnav bb) =? 8)%Z eqn:E8; [|discriminate Ck]. unfold v_len in E8. discriminate E8.
Qed.

Lemma derived w d m s h dm hb sec t kt rnd s' ho : laws (w_se w) -> orderly w True d m s -> (m + 2 < 2^28)%Z -> bool_call (ODeriveKey h dm hb (Some sec) t) -> step w rnd s (ODeriveKey h dm hb (Some sec) t) = Ok (s', OutH CKR_OK ho) ->
  In kt [16; 31]%Z -> key_tmpl kt t -> (zlen sec < 2^32)%Z -> has_value w s' h ho kt sec.
Proof.
  intros L Od M Bc E Hkt Kt Sm. set (c := ODeriveKey h dm hb (Some sec) t) in *. pose proof (orderly_reach _ _ _ _ _ Od) as Re. pose proof (reach_inv w d s Re) as I. pose proof (orderly_pos _ _ _ _ _ Od) as M0.
  assert (Od' : orderly w True d (m + uses c) s') by (econstructor; [exact Od|exact E|apply usual_bytes, bool_usual; exact Bc]). pose proof (uses_two c) as U2.
  destruct (orderly_kept w True (l_hash _ L) _ _ _ Od') as [Gd' _]; [lia|]. assert (M' : (m + uses c < 2^28)%Z) by lia.
  assert (U : u32 (zlen sec) = zlen sec) by (unfold u32; apply Z.mod_small; split; [apply zlen_nonneg|exact Sm]).
  assert (Q : exists x o, sess_get s' h = Some x /\ In o (PropObj.within s' x) /\ o_handle o = ho /\ o_type o = kt /\ o_class o <> CKO_CERTIFICATE /\ (zlen sec <= 512)%Z /\ o_data o = KSym (zlen sec) (overlay (zeros SYM_BUF) sec)).
  { clear Gd' M' Od' U2 Bc. subst c. cbn [step] in E. unfold with_sess, need_lib in E. destruct (0 <? s_count s)%Z; [|discriminate E]. destruct (sess_get s h) as [x|] eqn:X; [|discriminate E].
    unfold with_object in E. destruct (find_obj s x hb) as [kb|]; [|discriminate E]. unfold Derive in E. assert (Q : dm <> D_other) by (intros ->; discriminate E).
    assert (H' : bind (CreateObject (w_oe w) (is_rw x) (s_uid s) t) (fun p => let '(rv, o) := p in let s1 := bump s 1 in match o with None => rv_ s1 rv | Some o =>
     bind (GetAttr (w_oe w) o CKA_VALUE_LEN (Some 8%Z)) (fun q => let '(c, _, dd) := q in if negb (c =? 0)%Z then rv_ s1 CKR_OK else
       let vl := u32 (ulong_of dd) in let sl := if andb (0 <? vl)%Z (vl <=? zlen sec)%Z then vl else zlen sec in if (sl <? zlen sec)%Z then Undef UB_read_overflow else
       bind (SetSecretKey o [None; Some sec]) (fun q2 => let '(c2, o1) := q2 in if negb (c2 =? 0)%Z then rv_ s1 CKR_FUNCTION_FAILED else bind (AddObject w rnd s1 x t o1) (fun q3 => let '(rv2, h, s2) := q3 in Ok (s2, OutH rv2 h)))) end) = Ok (s', OutH CKR_OK ho)).
    { destruct dm; [destruct (as_ec kb)|destruct (as_dh kb)|contradiction]; cbn [bind] in E; try discriminate E; exact E. }
    clear E Q. destruct (CreateObject _ _ _ _) as [[rv [o|]]| |] eqn:C; cbn [bind] in H'; try discriminate H'. destruct (create_kind w _ _ t _ o kt Kt Hkt C) as [Ty Nc].
    cbv zeta in H'. destruct (GetAttr _ _ _ _) as [[[c l] dd]| |]; cbn [bind] in H'; try discriminate H'.
    destruct (negb (c =? 0)%Z); [discriminate H'|]. match type of H' with (if ?b then _ else _) = _ => destruct b; [discriminate H'|] end.
    destruct (SetSecretKey o _) as [[c2 o1]| |] eqn:S; cbn [bind] in H'; try discriminate H'. destruct (negb (c2 =? 0)%Z); [discriminate H'|].
    destruct (AddObject _ _ _ _ _ _) as [[[rv2 h2] s2]| |] eqn:A; cbn [bind] in H'; try discriminate H'. injection H' as -> -> ->.
    apply (PropKeys2.AddObject_same w rnd (bump s 1) h x) in A as (x' & X' & (o2 & J & Hh & Sk1 & Sk2 & Sk3) & _); [|exact (inv_uniq s I)|exact X]. exists x', o2. split; [exact X'|]. split; [exact J|]. split; [exact Hh|].
    unfold SetSecretKey in S. cbn [nth] in S. cbv zeta in S. change (0 =? 0)%Z with true in S. cbn [negb andb] in S. rewrite U in S.
    destruct (Z.ltb_spec (Z.of_nat SYM_BUF) (zlen sec)) as [|B]; [discriminate S|]. injection S as _ <-. cbn [set_data o_data o_type o_class] in *.
    split; [congruence|]. split; [congruence|]. split; [exact B|]. rewrite Sk1. assert (T : Z.to_nat (zlen sec) = length sec) by (unfold zlen; lia). rewrite T, firstn_all. reflexivity. }
  destruct Q as (x & o & G & J & Eh & Ty & Nc & Ls & Da).
  pose proof (good_finds True _ _ _ _ _ Logic.I Gd' M' G J) as F. rewrite Eh in F.
  split; [exact Hkt|]. exists x, o. split; [exact G|]. split; [exact F|]. split; [exact Nc|].
  apply (clear_view w kt _ Hkt o Ty). exists (overlay (zeros SYM_BUF) sec). unfold as_sym. rewrite Da. split; [reflexivity|]. unfold take_buf. change (Z.of_nat SYM_BUF) with 512%Z.
  pose proof (zlen_nonneg _ sec). assert (Lo : zlen (overlay (zeros SYM_BUF) sec) = 512%Z) by (rewrite PropObject2.overlay_zlen; [reflexivity|exact Ls]). rewrite Lo.
  destruct (Z.ltb_spec (zlen sec) 0); [lia|]. destruct (Z.ltb_spec 512 (zlen sec)); [lia|]. cbn [orb]. f_equal.
  assert (T : Z.to_nat (zlen sec) = length sec) by (unfold zlen; lia). rewrite T. unfold overlay. rewrite firstn_app, firstn_all, Nat.sub_diag. cbn [firstn]. apply app_nil_r.
Qed.
Lemma derived_end w d s dm hb sec t kt s2 h ho p : laws (w_se w) -> endured w d s (ODeriveKey h dm hb (Some sec) t) s2 (OutH CKR_OK ho) h ho p ->
  In kt [16; 31]%Z -> key_tmpl kt t -> (zlen sec < 2^32)%Z -> has_value w s2 h ho kt sec.
Proof.
  intros L (l0 & hu & now & r0 & l1 & r1 & l2 & s1 & os0 & os1 & os2 & D & R1 & Le & P1 & Lg1 & O & E & Nh & Hh & R2 & P2 & Td & M & B) Hkt Kt Sm. cbv zeta in *.
  apply Forall_app in B as [B1 B2]. inversion B2 as [|? ? B3 B4]. subst. cbn [fst] in B3. destruct (orderly_run w d _ 0 (sys0 d) s1 _ (od_0 w True d D) B1 R1) as (m1 & Od1 & M1).
  assert (Ml : (m1 + 2 < 2^28)%Z) by (unfold zlen in *; rewrite app_length in M; cbn [List.length] in M; lia).
  exact (derived w d m1 s1 h dm hb sec t kt r1 s2 ho L Od1 Ml B3 E Hkt Kt Sm).
Qed.

(** ** The theorems *)
Theorem C128_derived : forall w d s dm hb sec t kt s2 h ho p hs x, laws (w_se w) -> endured w d s (ODeriveKey h dm hb (Some sec) t) s2 (OutH CKR_OK ho) h ho p ->
  In kt [16; 31]%Z -> key_tmpl kt t -> (zlen sec < 2^32)%Z -> t_login (s_tok s) = RW_USER -> sess_get s hs = Some x ->
  exists o, ready w s hs x ho o (mkKey kt sec [] 0).
Proof.
  intros w d s dm hb sec t kt s2 h ho p hs x L En Hkt Kt Sm Lg G. eapply C128_there; [exact L|exact En| |exact Lg|exact G]. eapply derived_end; eauto.
Qed.
Print Assumptions C128_derived.
(** Two parties, each with a token of its own, agree on a secret and keep it as an AES key. What one encrypts with AES-GCM the other opens, whatever either did in between. *)
Theorem C128_agreed : forall w iv aad tb b d s dm hb t sc h ho p hs x rs data n outs d2 s2 dm2 hb2 t2 sc2 h2 ho2 p2 hs2 x2 cbs n2 outs2, laws (w_se w) -> env_sizes (w_ev w) -> gcm_opens (w_ev w) b -> e_gcm_ok (w_ev w) b = true ->
  (zlen b < 2^32)%Z -> (zlen iv <= 16)%Z -> (0 <= tb <= 128)%Z -> match aad with Some a => (zlen a < 2^31)%Z | None => True end -> (zlen data + tb / 8 < 2^31)%Z -> (zlen data + tb / 8 <= n < 2^32)%Z -> (zlen data <= n2 < 2^32)%Z ->
  endured w d s (ODeriveKey h dm hb (Some b) t) sc (OutH CKR_OK ho) h ho p -> key_tmpl 31 t -> t_login (s_tok s) = RW_USER -> sess_get s hs = Some x ->
  endured w d2 s2 (ODeriveKey h2 dm2 hb2 (Some b) t2) sc2 (OutH CKR_OK ho2) h2 ho2 p2 -> key_tmpl 31 t2 -> t_login (s_tok s2) = RW_USER -> sess_get s2 hs2 = Some x2 ->
  amid_spared w s hs (KEncryptInit M_AES_GCM (MPgcm iv aad tb) 0) ho [KEncrypt rs data (Buf n)] outs -> map o_rv outs = [CKR_OK] -> concat (map fst cbs) = concat (map o_out outs) ->
  amid_spared w s2 hs2 (KDecryptInit M_AES_GCM (MPgcm iv aad tb) 0) ho2 (dec_upds cbs ++ [KDecryptFinal (Buf n2)]) outs2 ->
  Forall (fun o => o_rv o = CKR_OK) outs2 /\ concat (map o_out outs2) = data.
Proof.
  intros w iv aad tb b d s dm hb t sc h ho p hs x rs data n outs d2 s2 dm2 hb2 t2 sc2 h2 ho2 p2 hs2 x2 cbs n2 outs2 L Sz Op A Lb Li Tb Aa Ld Ln Ln2 En Kt Lg G En2 Kt2 Lg2 G2 Am Ok1 Ec Am2.
  eapply (C128_gcm w iv aad tb b d s _ sc _ h ho p hs x rs data n outs d2 s2 _ sc2 _ h2 ho2 p2 hs2 x2 cbs n2 outs2); eauto; eapply derived_end; eauto; cbn; auto.
Qed.
Print Assumptions C128_agreed.

(** The hypotheses are met: the key derived in the story of PropEndure.v ([C128_case] has the rest of [endured]), and a message under it at once and after the restarts. *)
Example C128_derived_case : der_c = ODeriveKey H2 D_DH 1 (Some (repeat 7%N 16)) der_t /\ key_tmpl 31 der_t /\ gcm_opens (w_ev tw) (key_of der_c) /\ e_gcm_ok (w_ev tw) (key_of der_c) = true /\
  List.length (g_ct der_c) = 37 /\ g_ct der_c <> g_ct gen_c /\ concat (map fst (g_parts der_c)) = g_ct der_c /\
  amid_spared tw (after (story der_c [])) H2 (KEncryptInit M_AES_GCM (MPgcm g_iv12 (Some [5%N]) 128) 0) KT [KEncrypt [] msg21 (Buf 40)] [mkOut CKR_OK 37 (g_ct der_c)] /\
  amid_spared tw (after (story der_c onwards)) H2 (KDecryptInit M_AES_GCM (MPgcm g_iv12 (Some [5%N]) 128) 0) KT (dec_upds (g_parts der_c) ++ [KDecryptFinal (Buf 40)]) [mkOut CKR_OK 0 []; mkOut CKR_OK 0 []; mkOut CKR_OK 21 msg21].
Proof.
  split; [reflexivity|]. split; [|split; [apply toy_opens|]; split; [reflexivity|]; split; [vm_compute; reflexivity|]; split; [vm_compute; discriminate|]; split; [vm_compute; reflexivity|]; split].
  - split; [vm_compute; repeat constructor; cbn; intuition discriminate|]. split; [vm_compute; auto|]. intros b J. vm_compute in J. repeat (destruct J as [J|J]; [try discriminate J; injection J as <-; vm_compute; discriminate|]). destruct J.
  - apply g_spared with (l := g_go); [vm_compute; reflexivity|apply goes_by; vm_compute; reflexivity|intros c [<-|[<-|[]]]; exact I|reflexivity].
  - apply g_spared with (l := g_back der_c); [vm_compute; reflexivity|apply goes_by; vm_compute; reflexivity|intros c [<-|[<-|[<-|[<-|[]]]]]; exact I|reflexivity].
Qed.
