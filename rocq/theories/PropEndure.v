(** C128: every secret key made on the token while the user is logged in, however it was made, keeps its value. *)
From Verif Require Import Base Cbc CbcProofs CbcSpec Codec Ops OpsSpec OpsCbcProofs OpsProofs OpsProofs2 OpsProofs3 OpsProofs4 OpsClaims OpsFinal Object ObjectSpec ObjectProofs Store StoreSpec StoreProofs Sys SysProofs SysProofs2 SysProofs3 SysProofs4 WfProofs
  LoginProofs RvProofs ObjFrame ObjProofs HandleProofs DiskHandles FindState UseProofs KeyProofs KeyHeld ToyEnv ToySys PropObject PropSys1 PropSys2 PropSys3 PropStore PropKeys PropKeys2 PropInUse PropFind PropOps PropHold PropMsg PropObj PropImport
  Device DeviceProofs PropDevice Table TableProofs PropTable PropUse PropSurvive.
From Verif Require DurableProofs DurableKeys PropArchive Vault PropVault PropObject2.
From Coq Require Import List Bool.
Import ListNotations.
Open Scope nat_scope.
Open Scope list_scope.

(** ** Specification *)
(** Session [h] finds under the handle [ho] a key of type [kt] (16: generic, 31: AES), no certificate, with the value [b]. *)
Definition has_value (w : world) (s : sys) (h ho kt : Z) (b : list N) : Prop :=
  In kt [16; 31]%Z /\ exists x o, sess_get s h = Some x /\ find_obj s x ho = Some o /\ o_class o <> CKO_CERTIFICATE /\ view w o = Ok (mkKey kt b [] 0).
(** A history from empty storage to state [s]: the user logs in with the PIN [p]; later, still or again logged in, a call [c] in session [h] (C_CreateObject, C_CopyObject, C_GenerateKey,
    C_UnwrapKey, C_DeriveKey, ...) leads to the state [s2] with the outcome [o2] that hands out the handle [ho] of an object on the token. From there to [s] anything may be called and the process may
    end, so long as the PIN stays and the handle is not named to C_DestroyObject or C_SetAttributeValue. *)
Definition endured (w : world) (d : fs) (s : sys) (c : op) (s2 : sys) (o2 : out) (h ho : Z) (p : list N) : Prop :=
  exists l0 hu now r0 l1 r1 l2 s1 os0 os1 os2, d (F_TOKEN, 0) = None /\
    run w (sys0 d) (l0 ++ (OLogin hu CKU_USER p now, r0) :: l1) = Ok (s1, os0 ++ OutRv CKR_OK :: os1) /\ List.length os0 = List.length l0 /\
    (forall c o, In (c, o) (combine (map fst l1) os1) -> same_pin p c o) /\ t_login (s_tok s1) = RW_USER /\
    objop c = Some h /\ step w r1 s1 c = Ok (s2, o2) /\ In ho (new_handles o2) /\ (2^28 <= ho)%Z /\
    run w s2 l2 = Ok (s, os2) /\ (forall c o, In (c, o) (combine (map fst l2) os2) -> same_pin p c o /\ unnamed ho c) /\
    let l := (l0 ++ (OLogin hu CKU_USER p now, r0) :: l1) ++ (c, r1) :: l2 in
    PropArchive.tidy_run w (sys0 d) l /\ (2 * (zlen l + 1) < 2^28)%Z /\ Forall (fun c => bool_call (fst c)) l.

(** ** Proof *)
Section W.
Variable w : world.
Notation se := (w_se w).
Lemma store_objs_back key0 r l : forall c l' ws o', In o' l' -> store_objs se key0 r l = Ok (c, l', ws) -> exists o, In o l /\ core_obj o' = core_obj o /\ (is_cert o = false -> o_keyData o <> None -> o' = o).
Proof.
  induction l as [|y l IH]; intros c l' ws o' J H; cbn [store_objs] in H; [injection H as _ <- _; destruct J|]. destruct (store_obj _ _ _ _ _) as [[[c1 y1] w1]| |] eqn:S; cbn [bind] in H; try discriminate.
  assert (Hd : exists o, In o (y :: l) /\ core_obj y1 = core_obj o /\ (is_cert o = false -> o_keyData o <> None -> y1 = o)).
  { exists y. split; [left; reflexivity|]. split.
    - exact (store_obj_core _ _ _ _ _ _ _ _ S).
    - intros Nc Nd. apply DurableProofs.store_obj_same in S; [exact S|right; exact Nd|congruence]. }
  assert (Tl : forall q, In q l -> exists o, In o (y :: l) /\ core_obj q = core_obj o /\ (is_cert o = false -> o_keyData o <> None -> q = o)) by (intros q Jq; exists q; split; [right; exact Jq|auto]).
  destruct (negb _); [injection H as _ <- _; destruct J as [<-|J]; [exact Hd|apply Tl; exact J]|].
  destruct (store_objs _ _ _ l) as [[[c2 l2] w2]| |] eqn:R; cbn [bind] in H; try discriminate. injection H as _ <- _. destruct J as [<-|J]; [exact Hd|].
  destruct (IH _ _ _ _ J eq_refl) as (o & Jo & Co). exists o. split; [right; exact Jo|exact Co].
Qed.
(** The stored form agrees with the value. *)
Definition agreed (key : list N) (o : obj) : Prop :=
  is_cert o = false -> In (o_type o) [16; 31]%Z -> forall b, view w o = Ok (mkKey (o_type o) b [] 0) -> o_keyData o = Some (se_enc se key (o_iv o) b).
Lemma encode_agreed key o c o2 : Encode se key false o = Ok (c, o2) -> c = 0%Z -> agreed key o2.
Proof.
  intros En C0 Nc Kt b V. unfold Encode in En. destruct (is_cert o) eqn:Cb; [injection En as <- <-; congruence|]. destruct (EncodeKey _ _ _) as [[c5 o5]| |] eqn:Ek; cbn [bind] in En; try discriminate En. cbn [andb] in En. injection En as <- <-.
  assert (F5 : exists kd ev, o5 = set_store o (o_iv o) kd ev).
  { unfold EncodeKey, enc_asym in Ek. sinv; eauto. all: try discriminate. all: try (exists (o_keyData o), (o_enc o); destruct o; reflexivity). all: repeat match goal with H : context [if ?q then _ else _] |- _ => destruct q; sinv; eauto end. }
  destruct F5 as (kd & ev & F5). destruct (view_clear w (o_type o5) b Kt o5 eq_refl V) as (bf & As & Tb). destruct (kt_sym (o_type o5) Kt o5 eq_refl) as (K1 & K2 & K3 & K4). unfold EncodeKey in Ek.
  assert (To : o_type o = o_type o5) by (rewrite F5; reflexivity). assert (Iy : is_sym o = is_sym o5) by (rewrite F5; reflexivity). assert (Ao : as_sym o = as_sym o5) by (rewrite F5; reflexivity).
  rewrite To, K1, K2, K3, Iy, K4, Ao, As in Ek. cbn [bind] in Ek. rewrite Tb in Ek. cbn [bind] in Ek. injection Ek as _ Ek. rewrite <- Ek. reflexivity.
Qed.
Definition newer (U : list nat) (key : list N) (s : sys) : Prop := t_key (s_tok s) = key /\ forall o, In o (t_objs (s_tok s)) -> In (o_uid o) U \/ (DurableProofs.held o /\ agreed key o).
Lemma prims_newer U key cl h s s' : prims w cl h s s' -> creates cl = true -> newer U key s -> newer U key s'.
Proof.
  intros P Cr. induction P as [s|s s1 s2 P Ps IH]; intros Q; [exact Q|]. apply IH. clear IH Ps s2. destruct Q as [Ky Q].
  destruct P as [s x x'|s n|s x rnd c s' X R Hx St|s x q|s x b0 q X R Hx Z1 U1 U2 B Hh Ot (o1 & o2 & Mk & En & ->) Cr'|s x q|s x q X R Hx Jq Ot (h0 & -> & _)|s x q q' X R Hx Io Si (h0 & t & rv & -> & _)]; try discriminate Cr; try (split; [exact Ky|exact Q]).
  - pose proof (store_frame w _ _ _ _ St) as (_ & _ & _ & Tk & _). split; [rewrite <- Ky; exact (f_equal t_key Tk)|]. intros o' J'. unfold store in St. destruct (Token_Store se _ (s_tok s)) as [[[c1 t1] ws]| |] eqn:T; cbn [bind] in St; try discriminate. injection St as _ <-.
    unfold Token_Store in T. destruct (tok_header _); cbn [bind] in T; try discriminate. destruct (store_objs _ _ _ _) as [[[c2 l2] w2]| |] eqn:So; cbn [bind] in T; try discriminate. injection T as _ <- _. cbn in J'.
    destruct (store_objs_back _ _ _ _ _ _ _ J' So) as (o & Jo & Co & Sm). pose proof (proj1 (core_uid _ _ Co)) as Eu. rewrite Eu. destruct (Q _ Jo) as [Old|[Hd Ag]]; [left; exact Old|right].
    pose proof (DurableProofs.core_cert _ _ Co) as (Cc & _). destruct (is_cert o) eqn:C; [split; [left; exact Cc|intros Nc; congruence]|]. destruct Hd as [Hd|Hd]; [congruence|]. rewrite (Sm eq_refl Hd). split; [right; exact Hd|exact Ag].
  - split; [exact Ky|]. intros o [<-|J]; [right|exact (Q o J)]. rewrite Ky in En. split; [apply (DurableProofs.Encode_held w) in En; exact En|]. exact (encode_agreed _ _ _ _ En eq_refl).
Qed.
End W.
Lemma made_kept w d m s h c rnd s' o2 ho kt b p : laws (w_se w) -> orderly w True d m s -> (m + 2 < 2^28)%Z -> bool_call c -> tidy w s -> tidy w s' -> objop c = Some h -> In ho (new_handles o2) -> (2^28 <= ho)%Z -> has_value w s' h ho kt b ->
  t_key (s_tok s) = se_hash (w_se w) p (t_seed (s_tok s)) ->
  step w rnd s c = Ok (s', o2) -> kept w p (t_seed (s_tok s)) kt b ho s'.
Proof.
  intros L Od M Bc Td Td' O Nh Hh (Hkt & x & o & G & Fo & Nc & V) Ky E. pose proof (orderly_reach _ _ _ _ _ Od) as Re. pose proof (reach_inv w d s Re) as I. pose proof (orderly_pos _ _ _ _ _ Od) as M0.
  assert (Od' : orderly w True d (m + uses c) s') by (econstructor; [exact Od|exact E|apply usual_bytes, bool_usual; exact Bc]). pose proof (uses_two c) as U2.
  destruct (orderly_kept w True (l_hash _ L) _ _ _ Od) as [Gd _]; [lia|]. destruct (orderly_kept w True (l_hash _ L) _ _ _ Od') as [Gd' _]; [lia|].
  destruct (good_handles w m s I Gd M0 M) as [Fr _]. destruct (Fr c (bool_usual _ Bc) rnd s' o2 h E O) as [_ Fr']. destruct (Fr' ho Nh) as (x' & ob & G' & Fo' & Eh & Un). clear Fr Fr'.
  rewrite G in G'. injection G' as <-. rewrite Fo in Fo'. injection Fo' as <-.
  assert (Cr : creates c = true). { destruct (creates c) eqn:C; [reflexivity|]. exfalso. pose proof (step_out _ _ _ _ _ _ _ O E) as K. rewrite (new_none _ _ K C) in Nh. destruct Nh. }
  pose proof (objop_prims w _ _ _ _ _ _ I O E) as Ps. destruct (prims_frame w _ _ _ _ Ps) as (F1 & F2 & F3).
  destruct (prims_newer w (uids (live s)) (t_key (s_tok s)) c h s s' Ps Cr) as [_ Ne].
  { split; [reflexivity|]. intros q J. left. apply in_map. unfold live. apply in_or_app. left. exact J. }
  assert (Jt : In o (t_objs (s_tok s'))).
  { pose proof (SysProofs3.find_obj_in _ _ _ _ Fo) as [J Hq]. destruct (on_token ho) eqn:Ot; [exact J|]. exfalso. destruct Gd' as [_ Gs]. rewrite Forall_forall in Gs. apply sess_get_in in G as (X & _). destruct (Gs _ X) as [_ A].
    rewrite Forall_forall in A. specialize (A _ (in_map o_handle _ _ J)). lia. }
  assert (Ty : o_type o = kt).
  { clear - V. unfold view in V. repeat (match type of V with (if ?q then _ else _) = _ => destruct q | bind ?r _ = _ => destruct r; cbn [bind] in V; try discriminate V | (let (_, _) := ?y in _) = _ => destruct y end); injection V; auto. }
  assert (Nc' : is_cert o = false) by (apply Z.eqb_neq; exact Nc). destruct (Ne o Jt) as [Old|[_ Ag]]; [contradiction|]. rewrite <- Ty in Hkt, V. specialize (Ag Nc' Hkt b V). rewrite Ty in Hkt, V. rewrite Ky in Ag.
  destruct (view_clear w kt b Hkt o Ty V) as (bf & As & Tb).
  assert (IT : in_tok w p (t_seed (s_tok s)) kt b ho (s_tok s')).
  { split; [exact F1|]. exists o. split; [exact Jt|]. split; [split; [exact Eh|]; split; [exact Ty|]; split; [exact Nc'|]; split; [exact Ag|eauto]|]. intros _. split; [congruence|exists bf; auto]. }
  split; [|intros _; exact IT].
  destruct (DurableProofs.objop_up w rnd s c h s' o2 I (DurableProofs.tidy_held _ _ Td) O ltac:(destruct c; try discriminate Cr; reflexivity) E) as [_ [[Et _]|Sv]].
  - exfalso. apply Un. apply in_map. unfold live. apply in_or_app. left. rewrite <- Et. exact Jt.
  - apply (saved_file w L p _ kt b ho Hkt); [exact Sv|exact (reach_ginv w (l_hash _ L) _ _ (orderly_reach _ _ _ _ _ Od'))|exact Td'|exact IT].
Qed.

(** C_GenerateKey: the object has the bytes that the generator gave. *)
Lemma generated w d m s h t n key rnd s' ho : laws (w_se w) -> orderly w True d m s -> (m + 2 < 2^28)%Z -> bool_call (OGenerateKey h true t key) -> step w rnd s (OGenerateKey h true t key) = Ok (s', OutH CKR_OK ho) ->
  given_len t = Some n -> (32 <= zlen key)%Z -> (forall b, In (mkA CKA_CLASS (AV b)) t -> ulong_of b <> CKO_CERTIFICATE) -> has_value w s' h ho 31 (firstn (Z.to_nat n) key).
Proof.
  intros L Od M Bc E Gl Lk Cl. pose proof (orderly_reach _ _ _ _ _ Od) as Re. pose proof (reach_inv w d s Re) as I. pose proof (orderly_pos _ _ _ _ _ Od) as M0.
  assert (Od' : orderly w True d (m + uses (OGenerateKey h true t key)) s') by (econstructor; [exact Od|exact E|apply usual_bytes, bool_usual; exact Bc]). pose proof (uses_two (OGenerateKey h true t key)) as U2.
  destruct (orderly_kept w True (l_hash _ L) _ _ _ Od') as [Gd' _]; [lia|]. assert (M' : (m + uses (OGenerateKey h true t key) < 2^28)%Z) by lia.
  destruct (C68_partial w d s h t n key rnd s' ho Re E Gl Lk) as (Hn & x1 & o1 & G1 & J1 & H1 & V1).
  assert (Q : exists x o, sess_get s' h = Some x /\ In o (PropObj.within s' x) /\ o_handle o = ho /\ o_type o = 31%Z /\ o_class o <> CKO_CERTIFICATE /\ exists l b, o_data o = KSym l b /\ (l <= zlen b)%Z).
  { clear Gd' M' Od' G1 J1 H1 V1 o1 x1. cbn [step] in E. unfold with_sess, need_lib in E. destruct (0 <? s_count s)%Z; [|discriminate E]. destruct (sess_get s h) as [x|] eqn:X; [|discriminate E].
    unfold GenKey in E. destruct (NewObject _ _ _ _ _ _) as [[rv o]| |] eqn:N; cbn [bind] in E; try discriminate E. destruct o as [o|]; [|discriminate E]. pose proof (NewObject_some _ _ _ _ _ _ _ _ N) as ->.
    apply NewObject_ok in N. apply SetAttributeValue_ok in N as (_ & Ck & ps & v & o1 & _ & _ & K & Lp). pose proof (set_loop_core _ _ _ _ Lp) as (_ & L2 & _). apply SetKey_frame in K as (dd & nn & ->).
    destruct (as_sym o) as [[l b]| |] eqn:As; cbn [bind] in E; try discriminate E. destruct (Z.ltb_spec (zlen b) l); [discriminate E|]. destruct (AddObject _ _ _ _ _ _) as [[[rv2 h2] s2]| |] eqn:A; cbn [bind] in E; try discriminate E. injection E as -> -> ->.
    apply (PropKeys2.AddObject_same w rnd (bump s 1) h x) in A as (x' & X' & (o2 & J & Hh & Sk1 & Sk2 & Sk3) & _); [|exact (inv_uniq s I)|exact X]. exists x', o2. split; [exact X'|]. split; [exact J|]. split; [exact Hh|].
    split; [rewrite Sk3; cbn [set_data o_type]; rewrite L2; reflexivity|]. split; [|rewrite Sk1; cbn [set_data o_data]; do 2 eexists; split; [reflexivity|]].
    - rewrite Sk2. cbn [set_data o_class].
      apply (set_loop_keep (fun o => o_class o <> CKO_CERTIFICATE) (fun a => a_type a = CKA_CLASS -> ulong_of (v_bytes (a_val a)) <> CKO_CERTIFICATE)) in Lp; [exact Lp| | |cbn; discriminate].
      + clear. intros o a c o' Na E Ec. unfold SetAttr in E. destruct (set_opflag_of _); [injection E as _ <-; exact Ec|]. destruct (set_flag_of _); [injection E as _ <-; exact Ec|].
        destruct (Z.eqb_spec (a_type a) CKA_CLASS) as [Eq|_]; [injection E as _ <-; exact (Na Eq)|].
        destruct (a_type a =? CKA_ID)%Z; [destruct (new_sval _ _) as [[? ?]| |]; cbn [bind] in E; try discriminate E; injection E as _ <-; exact Ec|].
        destruct (a_type a =? CKA_LABEL)%Z; [destruct (new_sval _ _) as [[? ?]| |]; cbn [bind] in E; try discriminate E; injection E as _ <-; exact Ec|].
        repeat match type of E with (if ?b then _ else _) = _ => destruct b end; injection E as _ <-; exact Ec.
      + apply Forall_forall. intros [aty av] Ja Ea. cbn [a_type] in Ea. subst aty. cbn [a_val]. rewrite check_attrs_Forall, Forall_forall in Ck. specialize (Ck _ Ja). unfold check_attr in Ck. change (kind_of (a_type (mkA CKA_CLASS av))) with (Some AK_ulong) in Ck. cbv iota in Ck. cbn [a_val] in Ck.
        destruct av as [bb|n0|bb]; [exact (Cl bb Ja)|discriminate Ck|]. destruct (v_len (AUnav bb) =? 8)%Z eqn:E8; [|discriminate Ck]. unfold v_len in E8. discriminate E8.
    - rewrite PropObject2.overlay_zlen; [assumption|]. unfold zlen in *. rewrite firstn_length. lia. }
  destruct Q as (x & o & G & J & Eh & Ty & Nc & l & b & Da & Lb). rewrite G in G1. injection G1 as <-.
  pose proof (good_finds True _ _ _ _ _ Logic.I Gd' M' G J) as F. pose proof (good_finds True _ _ _ _ _ Logic.I Gd' M' G J1) as F1. rewrite Eh in F. rewrite H1 in F1. rewrite F in F1. injection F1 as <-.
  split; [cbn; auto|]. exists x, o. split; [exact G|]. split; [exact F|]. split; [exact Nc|]. unfold stored_value in V1. rewrite Da in V1. injection V1 as V1.
  set (v := firstn (Z.to_nat n) key) in *. assert (Lv : zlen v = n) by (unfold v, zlen in *; rewrite firstn_length; destruct Hn as [<-|[<-|[<-|[]]]]; lia).
  assert (El : l = n) by (pose proof (f_equal (@List.length N) V1) as Q; rewrite firstn_length in Q; unfold zlen in *; destruct Hn as [<-|[<-|[<-|[]]]]; lia). subst l.
  apply (clear_view w 31%Z _ ltac:(cbn; auto) o Ty). exists b. unfold as_sym. rewrite Da, Lv. split; [reflexivity|]. unfold take_buf. change (Z.of_nat SYM_BUF) with 512%Z. rewrite V1.
  destruct (Z.ltb_spec n 0); [destruct Hn as [<-|[<-|[<-|[]]]]; lia|]. destruct (Z.ltb_spec 512 n); [destruct Hn as [<-|[<-|[<-|[]]]]; lia|]. destruct (Z.ltb_spec (zlen b) n); [lia|reflexivity].
Qed.

(** ** The theorems *)
(** The key is there with the value it was made with, in every session, whenever the user is logged in. *)
Theorem C128_there : forall w d s c s2 o2 h ho kt b p hs x, laws (w_se w) -> endured w d s c s2 o2 h ho p -> has_value w s2 h ho kt b -> t_login (s_tok s) = RW_USER -> sess_get s hs = Some x ->
  exists o, ready w s hs x ho o (mkKey kt b [] 0).
Proof.
  intros w d s c s2 o2 h ho kt b p hs x L (l0 & hu & now & r0 & l1 & r1 & l2 & s1 & os0 & os1 & os2 & D & R1 & Le & P1 & Lg1 & O & E & Nh & Hh & R2 & P2 & Td & M & B) Hv Lg G. cbv zeta in *.
  set (la := l0 ++ (OLogin hu CKU_USER p now, r0) :: l1) in *. destruct (PropArchive.tidy_run_app w la _ _ _ _ Td R1) as [Tda Tdb].
  apply Forall_app in B as [B1 B2]. inversion B2 as [|? ? B3 B4]. subst. cbn [fst] in B3. destruct (orderly_run w d la 0 (sys0 d) s1 _ (od_0 w True d D) B1 R1) as (m1 & Od1 & M1).
  assert (Od2 : orderly w True d (m1 + uses c) s2) by (econstructor; [exact Od1|exact E|apply usual_bytes, bool_usual; exact B3]). pose proof (uses_two c) as U2.
  destruct (orderly_run w d l2 _ _ _ _ Od2 B4 R2) as (m3 & Od3 & M3).
  assert (Zl : (0 <= zlen l2)%Z) by (unfold zlen; lia).
  assert (Ml : (m1 + 2 + 2 * zlen l2 < 2^28)%Z) by (unfold zlen in *; rewrite app_length in M; cbn [List.length] in M; lia).
  pose proof (orderly_reach _ _ _ _ _ Od1) as Re1. pose proof (orderly_reach _ _ _ _ _ Od2) as Re2. pose proof (orderly_reach _ _ _ _ _ Od3) as Re3.
  cbn [PropArchive.tidy_run] in Tdb. rewrite E in Tdb. destruct Tdb as [Td1 Td2]. assert (Td2' : tidy w s2) by (destruct l2 as [|[? ?] ?]; apply Td2).
  assert (Ky : keyed w p s1).
  { unfold la in R1, Tda. apply run_app in R1 as (sa & oa & ob & Ra & Rb & Eo & Lo). destruct (app_same _ _ _ _ _ (eq_sym Eo)) as [-> ->]; [congruence|]. clear Eo.
    destruct (PropArchive.tidy_run_app w l0 _ _ _ _ Tda Ra) as [_ Tdc]. pose proof (run_reach w (sys0 d) (sys0 d) l0 sa os0 (reach_0 w _) Ra) as Rea.
    apply run_split in Rb as (sb & q & os' & S & Rb & Eo). injection Eo as <- <-. cbn [PropArchive.tidy_run] in Tdc. rewrite S in Tdc. destruct Tdc as [_ Tdc].
    apply (run_keyed w p d l1 sb s1 os1); [econstructor; [exact Rea|exact S]|exact Tdc|exact (login_keyed w p _ _ _ _ _ S)|exact P1|exact Rb]. }
  assert (K1 : t_key (s_tok s1) = se_hash (w_se w) p (t_seed (s_tok s1))) by (apply Ky; unfold user; rewrite Lg1; reflexivity).
  pose proof (made_kept w d m1 s1 h c r1 s2 o2 ho kt b p L Od1 ltac:(lia) B3 Td1 Td2' O Nh Hh Hv K1 E) as K2. assert (Hkt : In kt [16; 31]%Z) by apply Hv.
  pose proof (run_kept w L p _ kt b ho Hkt d l2 s2 s os2 Re2 Td2 K2 P2 R2) as [_ K3]. pose proof (reach_inv w d s Re3) as I. specialize (K3 (get_count _ _ _ I G)).
  destruct K3 as (_ & o & J & S & U). destruct U as [_ Cl]; [unfold user; rewrite Lg; reflexivity|]. destruct S as (S1 & S2 & _).
  destruct (orderly_kept w True (l_hash _ L) _ _ _ Od3) as [Gd _]; [lia|]. exists o. split; [exists d; exact Re3|exact G| |apply (clear_view w kt b Hkt); assumption].
  rewrite <- S1. apply (good_finds True _ _ _ _ _ Logic.I Gd ltac:(lia) G). apply in_or_app. left. exact J.
Qed.
Print Assumptions C128_there.

(** An AES key that C_GenerateKey made on the token is there with the bytes the generator gave. *)
Theorem C128_generated : forall w d s t n key s2 h ho p hs x, laws (w_se w) -> endured w d s (OGenerateKey h true t key) s2 (OutH CKR_OK ho) h ho p ->
  given_len t = Some n -> (32 <= zlen key)%Z -> (forall b, In (mkA CKA_CLASS (AV b)) t -> ulong_of b <> CKO_CERTIFICATE) -> t_login (s_tok s) = RW_USER -> sess_get s hs = Some x ->
  In n [16; 24; 32]%Z /\ exists o, ready w s hs x ho o (mkKey 31 (firstn (Z.to_nat n) key) [] 0).
Proof.
  intros w d s t n key s2 h ho p hs x L En Gl Lk Cl Lg G. pose proof En as (l0 & hu & now & r0 & l1 & r1 & l2 & s1 & os0 & os1 & os2 & D & R1 & Le & P1 & Lg1 & O & E & Nh & Hh & R2 & P2 & Td & M & B). cbv zeta in *.
  apply Forall_app in B as [B1 B2]. inversion B2 as [|? ? B3 B4]. subst. cbn [fst] in B3. destruct (orderly_run w d _ 0 (sys0 d) s1 _ (od_0 w True d D) B1 R1) as (m1 & Od1 & M1).
  assert (Ml : (m1 + 2 < 2^28)%Z) by (unfold zlen in *; rewrite app_length in M; cbn [List.length] in M; lia).
  split; [exact (proj1 (C68_partial w d s1 h t n key r1 s2 ho (orderly_reach _ _ _ _ _ Od1) E Gl Lk))|].
  eapply C128_there; [exact L|exact En| |exact Lg|exact G]. exact (generated w d m1 s1 h t n key r1 s2 ho L Od1 Ml B3 E Gl Lk Cl).
Qed.
Print Assumptions C128_generated.
(** What is encrypted in one state of such histories is decrypted in another if the keys were made with the same value, as it is when the second history goes on from the first. *)
Theorem C128_meet : forall w iv b d s c sc oc h ho p hs x cbs nf outs d2 s2 c2 sc2 oc2 h2 ho2 p2 hs2 x2 cbs2 nf2 outs2, laws (w_se w) -> cipher_ok (e_ci (w_ev w)) -> e_aes_ok (w_ev w) b = true -> List.length iv = 16 ->
  endured w d s c sc oc h ho p -> has_value w sc h ho 31 b -> t_login (s_tok s) = RW_USER -> sess_get s hs = Some x -> OpsCbcProofs.fresh (ss_op x) ->
  endured w d2 s2 c2 sc2 oc2 h2 ho2 p2 -> has_value w sc2 h2 ho2 31 b -> t_login (s_tok s2) = RW_USER -> sess_get s2 hs2 = Some x2 -> OpsCbcProofs.fresh (ss_op x2) ->
  OpsCbcProofs.fits cbs -> (16 <= nf < 2^32)%Z -> (zlen (concat (map fst cbs)) < 2^31)%Z ->
  amid w s hs (KEncryptInit M_AES_CBC_PAD (MPraw iv) 0) ho (enc_upds cbs ++ [KEncryptFinal (Buf nf)]) outs ->
  concat (map fst cbs2) = concat (map o_out outs) -> OpsCbcProofs.fits cbs2 -> (zlen (concat (map fst cbs2)) < 2^31)%Z ->
  amid w s2 hs2 (KDecryptInit M_AES_CBC_PAD (MPraw iv) 0) ho2 (dec_upds cbs2 ++ [KDecryptFinal (Buf nf2)]) outs2 ->
  Forall OpsCbcProofs.good outs2 /\ concat (map o_out outs2) = concat (map fst cbs).
Proof.
  intros w iv b d s c sc oc h ho p hs x cbs nf outs d2 s2 c2 sc2 oc2 h2 ho2 p2 hs2 x2 cbs2 nf2 outs2 L Ci A Li En Hv Lg G Fr En2 Hv2 Lg2 G2 Fr2 Fi Nf Ln Am Ec Fi2 Ln2 Am2.
  destruct (C128_there _ _ _ _ _ _ _ _ _ _ _ hs x L En Hv Lg G) as (o & Rd). destruct (C128_there _ _ _ _ _ _ _ _ _ _ _ hs2 x2 L En2 Hv2 Lg2 G2) as (o2 & Rd2).
  exact (C117_roundtrip w iv cbs nf outs cbs2 nf2 outs2 s hs x ho o _ s2 hs2 x2 ho2 o2 _ Ci Rd Fr eq_refl A Rd2 Fr2 eq_refl eq_refl Li Fi Nf Ln Am Ec Fi2 Ln2 Am2).
Qed.
Print Assumptions C128_meet.


(** ** Histories that meet the hypotheses *)
(** A key is generated on the token, or derived there from a Diffie-Hellman key of the session; then, as in PropSurvive.v, a logout, a wrong PIN, logins, a restart and a process that just ends. *)
Definition gen_t : template := tokenly [mkA CKA_ENCRYPT TRUE; mkA CKA_DECRYPT TRUE; mkA CKA_VALUE_LEN (ULONG 16)].
Definition gen_c : op := OGenerateKey H2 true gen_t (repeat 9%N 32).
Definition base_t : template := [mkA CKA_CLASS (ULONG CKO_PRIVATE_KEY); mkA CKA_KEY_TYPE (ULONG CKK_DH); mkA CKA_DERIVE TRUE; mkA CKA_PRIME (AV [23%N]); mkA CKA_BASE (AV [5%N]); mkA CKA_VALUE (AV [9; 8; 7; 6]%N)].
Definition der_t : template := tokenly [mkA CKA_CLASS (ULONG CKO_SECRET_KEY); mkA CKA_KEY_TYPE (ULONG CKK_AES); mkA CKA_ENCRYPT TRUE; mkA CKA_DECRYPT TRUE].
Definition der_c : op := ODeriveKey H2 D_DH 1 (Some (repeat 7%N 16)) der_t.
Definition prep (c : op) : list op := before ++ match c with ODeriveKey _ _ _ _ _ => [OCreateObject H2 base_t] | _ => [] end.
Definition story (c : op) (l : list op) : list op := prep c ++ c :: l.
Lemma endured_by c l : c = gen_c \/ c = der_c -> l = [] \/ l = onwards -> endured tw nofiles (after (story c l)) c (after (story c [])) (OutH CKR_OK KT) H2 KT upin.
Proof.
  intros T T2. set (n := numbered 1 (story c l)). set (k := List.length (prep c)).
  exists (firstn 8 n), H2, (Some 9%Z), (rnd 81), (firstn (k - 9) (skipn 9 n)), (rnd (10 * N.of_nat k + 1)), (skipn (S k) n), (after (prep c)), (firstn 8 (outs (story c l))), (firstn (k - 9) (skipn 9 (outs (story c l)))), (skipn (S k) (outs (story c l))).
  subst n k. split; [reflexivity|].
  split; [destruct T as [-> | ->], T2 as [-> | ->]; vm_compute; reflexivity|]. split; [destruct T as [-> | ->], T2 as [-> | ->]; vm_compute; reflexivity|].
  split; [destruct T as [-> | ->], T2 as [-> | ->]; (match goal with |- context [combine ?a ?b] => let r := eval vm_compute in (combine a b) in change (combine a b) with r end;
    intros c o J; repeat (destruct J as [J|J]; [injection J as <- <-; cbn; auto|]); destruct J)|].
  split; [destruct T as [-> | ->]; vm_compute; reflexivity|]. split; [destruct T as [-> | ->]; reflexivity|]. split; [destruct T as [-> | ->]; vm_compute; reflexivity|].
  split; [left; reflexivity|]. split; [vm_compute; discriminate|]. split; [destruct T as [-> | ->], T2 as [-> | ->]; vm_compute; reflexivity|].
  split; [destruct T as [-> | ->], T2 as [-> | ->]; (match goal with |- context [combine ?a ?b] => let r := eval vm_compute in (combine a b) in change (combine a b) with r end;
    intros c o J; repeat (destruct J as [J|J]; [injection J as <- <-; split; [cbn; try exact I; try (split; discriminate); try (intros; try discriminate; reflexivity)|cbn; try exact I; discriminate]|]); destruct J)|].
  cbv zeta. match goal with |- PropArchive.tidy_run _ _ ?q /\ _ => assert (Q : q = numbered 1 (story c l)) by (destruct T as [-> | ->], T2 as [-> | ->]; reflexivity); rewrite Q; clear Q end.
  split; [apply PropArchive.tidy_runb_ok; destruct T as [-> | ->], T2 as [-> | ->]; vm_compute; reflexivity|]. split; [destruct T as [-> | ->], T2 as [-> | ->]; vm_compute; reflexivity|]. apply bool_calls.
  destruct T as [-> | ->], T2 as [-> | ->]; vm_compute; reflexivity.
Qed.
Definition key_of (c : op) : list N := match c with ODeriveKey _ _ _ _ _ => repeat 7%N 16 | _ => repeat 9%N 16 end.
Lemma valued c : c = gen_c \/ c = der_c -> has_value tw (after (story c [])) H2 KT 31 (key_of c).
Proof.
  intros T. split; [cbn; auto|]. exists (sx (story c []) H2). destruct (find_obj (after (story c [])) (sx (story c []) H2) KT) as [o|] eqn:F; [|exfalso; destruct T as [-> | ->]; vm_compute in F; discriminate F].
  exists o. split; [destruct T as [-> | ->]; vm_compute; reflexivity|]. split; [reflexivity|].
  destruct T as [-> | ->]; vm_compute in F; injection F as <-; (split; [vm_compute; discriminate|vm_compute; reflexivity]).
Qed.
(** Encrypted right after the key was made, decrypted at the end of the story. *)
Definition msg_c (c : op) : list op := [eupd H2 (firstn 3 msg21) 18; OLogout H2; eupd H2 (firstn 15 (skipn 3 msg21)) 30; eupd H2 (skipn 18 msg21) 18; OCrypto H2 (KEncryptFinal (Buf 16)) 0].
Definition msg_outs (c : op) : list outc :=
  match run tw (after (story c [])) (numb (OCrypto H2 (KEncryptInit M_AES_CBC_PAD (MPraw iv16) 0) KT :: msg_c c)) with Ok (_, _ :: os) => map snd (mine H2 (numb (msg_c c)) os) | _ => [] end.
Definition ct_c (c : op) : list N := concat (map o_out (msg_outs c)).
Definition parts_c (c : op) : list (list N * Z) := [(firstn 20 (ct_c c), 40%Z); (skipn 20 (ct_c c), 40%Z)].
Definition back_c (c : op) : list op := [dupd H2 (firstn 20 (ct_c c)) 40; dupd H2 (skipn 20 (ct_c c)) 40; OCrypto H2 (KDecryptFinal (Buf 16)) 0].
Definition back_outs (c : op) : list outc :=
  match run tw (after (story c onwards)) (numb (OCrypto H2 (KDecryptInit M_AES_CBC_PAD (MPraw iv16) 0) KT :: back_c c)) with Ok (_, _ :: os) => map snd (mine H2 (numb (back_c c)) os) | _ => [] end.
Example C128_case : forall c, c = gen_c \/ c = der_c ->
  (forall l, l = [] \/ l = onwards -> endured tw nofiles (after (story c l)) c (after (story c [])) (OutH CKR_OK KT) H2 KT upin /\ t_login (s_tok (after (story c l))) = RW_USER /\
    sess_get (after (story c l)) H2 = Some (sx (story c l) H2) /\ OpsCbcProofs.fresh (ss_op (sx (story c l) H2))) /\
  has_value tw (after (story c [])) H2 KT 31 (key_of c) /\ e_aes_ok (w_ev tw) (key_of c) = true /\
  amid tw (after (story c [])) H2 (KEncryptInit M_AES_CBC_PAD (MPraw iv16) 0) KT (enc_upds parts1 ++ [KEncryptFinal (Buf 16)]) (msg_outs c) /\
  List.length (ct_c c) = 32 /\ ct_c c <> firstn 32 (msg21 ++ repeat 11%N 11) /\ concat (map fst (parts_c c)) = ct_c c /\
  amid tw (after (story c onwards)) H2 (KDecryptInit M_AES_CBC_PAD (MPraw iv16) 0) KT (dec_upds (parts_c c) ++ [KDecryptFinal (Buf 16)]) (back_outs c) /\ concat (map o_out (back_outs c)) = msg21.
Proof.
  intros c T. split.
  { intros l T2. split; [apply endured_by; assumption|]. destruct T as [-> | ->], T2 as [-> | ->]; (split; [vm_compute; reflexivity|]; split; [vm_compute; reflexivity|]; split; vm_compute; reflexivity). }
  split; [apply valued; exact T|]. destruct T as [-> | ->].
  all: split; [vm_compute; reflexivity|].
  1: split; [apply amid_by with (l := msg_c gen_c); [vm_compute; reflexivity|apply goes_by; vm_compute; reflexivity|vm_compute; reflexivity]|].
  2: split; [apply amid_by with (l := msg_c der_c); [vm_compute; reflexivity|apply goes_by; vm_compute; reflexivity|vm_compute; reflexivity]|].
  all: split; [vm_compute; reflexivity|]; split; [vm_compute; discriminate|]; split; [vm_compute; reflexivity|].
  1: split; [apply amid_by with (l := back_c gen_c); [vm_compute; reflexivity|apply goes_by; vm_compute; reflexivity|vm_compute; reflexivity]|].
  2: split; [apply amid_by with (l := back_c der_c); [vm_compute; reflexivity|apply goes_by; vm_compute; reflexivity|vm_compute; reflexivity]|].
  all: vm_compute; reflexivity.
Qed.
