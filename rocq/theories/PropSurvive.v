(** C127: an imported secret key keeps its value through logouts and logins, restarts and processes that just end. *)
From Verif Require Import Base Cbc CbcProofs CbcSpec Codec Ops OpsSpec OpsCbcProofs OpsProofs OpsProofs2 OpsProofs3 OpsProofs4 OpsClaims OpsFinal Object ObjectProofs Store StoreSpec StoreProofs Sys SysProofs SysProofs2 SysProofs3 SysProofs4 WfProofs
  LoginProofs RvProofs ObjFrame ObjProofs HandleProofs DiskHandles FindState UseProofs KeyProofs KeyHeld ToyEnv ToySys PropObject PropSys1 PropSys2 PropSys3 PropStore PropKeys PropKeys2 PropInUse PropFind PropOps PropHold PropMsg PropObj PropImport
  Device DeviceProofs PropDevice Table TableProofs PropTable PropUse.
From Verif Require DurableProofs DurableKeys PropArchive Vault PropVault.
From Coq Require Import List Bool.
Import ListNotations.
Open Scope nat_scope.
Open Scope list_scope.
Notation tidy := DurableProofs.tidy.
Notation saved := DurableProofs.saved.
Notation lib_op := DurableProofs.lib_op.

(** ** Specification *)
(** A call and its answer: no PIN is set and the token not initialised, and if the user logs in it is with the PIN [p]. *)
Definition same_pin (p : list N) (c : op) (o : out) : Prop :=
  match c with
  | OInitToken _ _ _ | OInitPIN _ _ | OSetPIN _ _ _ => out_rv o <> CKR_OK /\ out_rv o <> CKR_FUNCTION_FAILED
  | OLogin _ ut q _ => ut = CKU_USER -> out_rv o = CKR_OK -> q = p
  | _ => True
  end.
(** A call that does not name the handle to C_DestroyObject or C_SetAttributeValue. *)
Definition unnamed (ho : Z) (c : op) : Prop := match c with ODestroyObject _ h | OSetAttributeValue _ h _ => h <> ho | _ => True end.
(** A history from empty storage to state [s]: the user logs in with the PIN [p]; while a user is logged in, C_CreateObject gives the key value [b] on the token the
    handle [ho]; then anything may be called, among it C_Logout, C_Login, C_Finalize and C_Initialize, and the process may end, so long as the PIN stays and the
    handle is not named to C_DestroyObject or C_SetAttributeValue. *)
Definition brought (w : world) (d : fs) (s : sys) (h ho kt : Z) (b p : list N) : Prop :=
  exists l0 hu now r0 l1 t r1 l2 s1 os0 os1 s2 os2, d (F_TOKEN, 0) = None /\
    run w (sys0 d) (l0 ++ (OLogin hu CKU_USER p now, r0) :: l1) = Ok (s1, os0 ++ OutRv CKR_OK :: os1) /\ List.length os0 = List.length l0 /\
    (forall c o, In (c, o) (combine (map fst l1) os1) -> same_pin p c o) /\ t_login (s_tok s1) = RW_USER /\
    gives kt b t /\ step w r1 s1 (OCreateObject h t) = Ok (s2, OutH CKR_OK ho) /\ (2^28 <= ho)%Z /\
    run w s2 l2 = Ok (s, os2) /\ (forall c o, In (c, o) (combine (map fst l2) os2) -> same_pin p c o /\ unnamed ho c) /\
    let l := (l0 ++ (OLogin hu CKU_USER p now, r0) :: l1) ++ (OCreateObject h t, r1) :: l2 in
    PropArchive.tidy_run w (sys0 d) l /\ (2 * zlen l < 2^28)%Z /\ Forall (fun c => bool_call (fst c)) l.

(** ** Proof *)
Section W.
Variable w : world.
Notation se := (w_se w).
Hypothesis L : laws se.
Variables (p sd : list N) (kt : Z) (b : list N) (ho : Z).
Notation K := (se_hash se p sd).

(** The object's stored form is the value sealed under the key made from the user's PIN. *)
Definition sealed (o : obj) : Prop :=
  o_handle o = ho /\ o_type o = kt /\ is_cert o = false /\ o_keyData o = Some (se_enc se K (o_iv o) b) /\ exists l bf, as_sym o = Ok (l, bf).
Definition clear (o : obj) : Prop := exists bf, as_sym o = Ok (zlen b, bf) /\ take_buf (zlen b) bf = Ok b.
Hypothesis Hkt : In kt [16; 31]%Z.
Lemma kt_sym o : o_type o = kt -> (o_type o =? CKK_RSA)%Z = false /\ (o_type o =? CKK_EC)%Z = false /\ (o_type o =? CKK_DH)%Z = false /\ is_sym o = true.
Proof. intros T. unfold is_sym. rewrite T. cbn in Hkt. destruct Hkt as [<-|[<-|[]]]; repeat split; reflexivity. Qed.
Lemma clear_view o : o_type o = kt -> clear o -> view w o = Ok (mkKey kt b [] 0).
Proof. intros T (bf & A & B). destruct (kt_sym o T) as (K1 & K2 & _ & K4). unfold view. rewrite K1, K2, K4, A. cbn [bind]. rewrite B, T. reflexivity. Qed.
Lemma view_clear o : o_type o = kt -> view w o = Ok (mkKey kt b [] 0) -> clear o.
Proof.
  intros T V. destruct (kt_sym o T) as (K1 & K2 & _ & K4). unfold view in V. rewrite K1, K2, K4 in V. destruct (as_sym o) as [[l bf]| |] eqn:A; cbn [bind] in V; try discriminate.
  destruct (take_buf l bf) as [d| |] eqn:B; cbn [bind] in V; try discriminate. injection V as _ ->. exists bf. pose proof B as B0. unfold take_buf in B.
  destruct (Z.ltb_spec l 0) as [|N1]; [discriminate|]. destruct (Z.ltb_spec (Z.of_nat SYM_BUF) l) as [|N2]; [discriminate|]. destruct (Z.ltb_spec (zlen bf) l) as [|N3]; [discriminate|]. cbn [orb] in B. injection B as B.
  assert (Q : zlen b = l) by (rewrite <- B; unfold zlen in *; rewrite firstn_length; lia). rewrite Q, A. auto.
Qed.
(** *** Decoding and encoding *)
Lemma decode_sealed key o c o' : sealed o -> Decode se key o = Ok (c, o') -> sealed o' /\ (key = K -> c = 0%Z /\ clear o').
Proof.
  intros (S1 & S2 & S3 & S4 & l & bf & S5) D. destruct (kt_sym o S2) as (K1 & K2 & K3 & K4). unfold Decode in D. rewrite S3 in D. unfold DecodeKey in D. rewrite K1, K2, K3, K4, S5 in D. cbn [bind] in D.
  unfold dec_into in D. rewrite S4 in D. destruct (zlen (se_enc se K (o_iv o) b) <? 16)%Z; [discriminate D|]. destruct (Z.ltb_spec (Z.of_nat SYM_BUF) (zlen (se_enc se K (o_iv o) b) - 16)) as [|Lb]; [discriminate D|].
  destruct (dec_kd se key o) as [c1 d] eqn:Dk. cbn [bind] in D. destruct (fin o c1 (KSym (zlen d) (overlay bf d))) as [c2 o2] eqn:F. cbn [bind] in D. injection D as <- <-. unfold fin in F. split.
  - destruct (c1 =? 0)%Z; injection F as _ <-; (split; [exact S1|]); (split; [exact S2|]); (split; [exact S3|]); (split; [exact S4|]); unfold as_sym in *; cbn [set_store set_data o_data]; eauto.
  - intros ->. unfold dec_kd, kd_bytes in Dk. rewrite S4, (l_gcm _ L) in Dk. injection Dk as <- <-. change (0 =? 0)%Z with true in F. cbv iota in F. injection F as <- <-. split; [reflexivity|].
    exists (overlay bf b). split; [reflexivity|]. unfold take_buf. rewrite (l_tag _ L) in Lb.
    assert (Lo : (zlen b <= zlen (overlay bf b))%Z) by (unfold overlay, zlen; rewrite app_length; lia).
    destruct (Z.ltb_spec (zlen b) 0) as [Q|_]; [unfold zlen in Q; lia|]. destruct (Z.ltb_spec (Z.of_nat SYM_BUF) (zlen b)) as [Q|_]; [lia|]. destruct (Z.ltb_spec (zlen (overlay bf b)) (zlen b)) as [Q|_]; [lia|].
    cbn [orb]. f_equal. unfold zlen. rewrite Nat2Z.id. apply overlay_firstn.
Qed.
Lemma decode_all_sealed key l : forall c l' o, In o l -> sealed o -> decode_all w key l = Ok (c, l') -> exists o', In o' l' /\ sealed o' /\ (key = K -> c = 0%Z -> clear o').
Proof.
  induction l as [|y l IH]; intros c l' o J S D; [destruct J|]. cbn [decode_all] in D. destruct (Decode se key y) as [[c1 y1]| |] eqn:Dy; cbn [bind] in D; try discriminate.
  destruct J as [->|J].
  - destruct (decode_sealed _ _ _ _ S Dy) as [S' Cl]. exists y1. split; [|split; [exact S'|intros Kk _; apply Cl; exact Kk]].
    destruct (negb _); [injection D as _ <-; left; reflexivity|]. destruct (decode_all w key l) as [[c2 r]| |]; cbn [bind] in D; try discriminate. injection D as _ <-. left. reflexivity.
  - destruct (c1 =? 0)%Z eqn:C1; cbn [negb] in D.
    + destruct (decode_all w key l) as [[c2 r]| |] eqn:Da; cbn [bind] in D; try discriminate. injection D as <- <-. destruct (IH _ _ _ J S eq_refl) as (o' & J' & S' & Cl). exists o'. split; [right; exact J'|]. auto.
    + injection D as <- <-. exists o. split; [right; exact J|]. split; [exact S|]. intros _ ->. discriminate C1.
Qed.
Lemma encode_sealed o c o' : sealed o -> clear o -> Encode se K true o = Ok (c, o') -> sealed o' /\ c = 0%Z.
Proof.
  intros (S1 & S2 & S3 & S4 & l & bf & S5) (bf' & C1 & C2) E. rewrite S5 in C1. injection C1 as -> ->. destruct (kt_sym o S2) as (K1 & K2 & K3 & K4). unfold Encode in E. rewrite S3 in E. unfold EncodeKey in E.
  rewrite K1, K2, K3, K4, S5 in E. cbn [bind] in E. rewrite C2 in E. cbn [bind] in E. injection E as <- <-. split; [|reflexivity]. change (andb true (0 =? 0)%Z) with true. cbv iota. unfold protect_key.
  set (q := set_store o _ _ _). change (o_type q) with (o_type o). change (is_sym q) with (is_sym o). rewrite K1, K2, K3, K4. change (o_data q) with (o_data o).
  split; [exact S1|]. split; [exact S2|]. split; [exact S3|]. split; [reflexivity|]. unfold as_sym in *. cbn [set_store set_data o_data q]. destruct (o_data o); try discriminate S5; eauto.
Qed.
Lemma encode_all_sealed l : forall l' o, In o l -> sealed o -> clear o -> encode_all w K l = Ok l' -> exists o', In o' l' /\ sealed o'.
Proof.
  induction l as [|y l IH]; intros l' o J S C D; [destruct J|]. cbn [encode_all] in D. destruct (Encode se K true y) as [[c1 y1]| |] eqn:Dy; cbn [bind] in D; try discriminate.
  destruct J as [->|J].
  - destruct (encode_sealed _ _ _ S C Dy) as [S' ->]. change (negb (0 =? 0)%Z) with false in D. cbv iota in D. destruct (encode_all w K l); cbn [bind] in D; try discriminate. injection D as <-. exists y1. split; [left; reflexivity|exact S'].
  - destruct (negb _); [injection D as <-; exists o; split; [right; exact J|exact S]|]. destruct (encode_all w K l) as [r| |] eqn:Da; cbn [bind] in D; try discriminate. injection D as <-.
    destruct (IH _ _ J S C eq_refl) as (o' & J' & S'). exists o'. split; [right; exact J'|exact S'].
Qed.
Lemma store_objs_in key0 r l : forall c l' ws o, In o l -> is_cert o = false -> o_keyData o <> None -> store_objs se key0 r l = Ok (c, l', ws) -> In o l'.
Proof.
  induction l as [|y l IH]; intros c l' ws o J C D H; [destruct J|]. cbn [store_objs] in H. destruct (store_obj _ _ _ _ _) as [[[c1 y1] w1]| |] eqn:S; cbn [bind] in H; try discriminate.
  destruct J as [->|J].
  - apply DurableProofs.store_obj_same in S; [|right; exact D|congruence]. subst y1. destruct (negb _); [injection H as _ <- _; left; reflexivity|].
    destruct (store_objs _ _ _ l) as [[[c2 l2] w2]| |]; cbn [bind] in H; try discriminate. injection H as _ <- _. left. reflexivity.
  - destruct (negb _); [injection H as _ <- _; right; exact J|]. destruct (store_objs _ _ _ l) as [[[c2 l2] w2]| |] eqn:R; cbn [bind] in H; try discriminate. injection H as _ <- _. right. eapply IH; eauto.
Qed.
Lemma store_in rnd s c s' o : store w rnd s = Ok (c, s') -> In o (t_objs (s_tok s)) -> is_cert o = false -> o_keyData o <> None ->
  In o (t_objs (s_tok s')) /\ t_seed (s_tok s') = t_seed (s_tok s) /\ t_key (s_tok s') = t_key (s_tok s) /\ t_login (s_tok s') = t_login (s_tok s).
Proof.
  intros H J C D. unfold store in H. destruct (Token_Store se _ (s_tok s)) as [[[c1 t1] ws]| |] eqn:T; cbn [bind] in H; try discriminate. injection H as _ <-.
  unfold Token_Store in T. destruct (tok_header _); cbn [bind] in T; try discriminate. destruct (store_objs _ _ _ _) as [[[c2 l2] w2]| |] eqn:Q; cbn [bind] in T; try discriminate. injection T as _ <- _. cbn.
  split; [eapply store_objs_in; eauto|auto].
Qed.
(** *** What the calls do *)
Definition frame (s s' : sys) : Prop := t_seed (s_tok s') = t_seed (s_tok s) /\ t_key (s_tok s') = t_key (s_tok s) /\ t_login (s_tok s') = t_login (s_tok s).
Lemma prim_in cl h s s' o : inv s -> prim w cl h s s' -> match cl with ODestroyObject _ h0 | OSetAttributeValue _ h0 _ => h0 <> ho | _ => True end ->
  In o (t_objs (s_tok s)) -> sealed o -> In o (t_objs (s_tok s')) /\ frame s s'.
Proof.
  intros I P Sp J (S1 & S2 & S3 & S4 & _). assert (Nd : o_keyData o <> None) by congruence. pose proof (proj1 (proj2 (proj2 I))) as [Nu _].
  assert (Df : forall q, In q (live s) -> o_handle q <> ho -> o_uid o <> o_uid q).
  { intros q Q Hq E. assert (Jl : In o (live s)) by (unfold live; apply in_or_app; left; exact J). assert (o = q) by (apply (NoDup_map_inj _ _ o_uid (live s)); auto). congruence. }
  destruct P as [s x x'|s n|s x rnd c s' X R Hx St|s x q|s x b0 q X R Hx Z1 U1 U2 B Hh Ot Q Cr|s x q|s x q X R Hx Jq Ot (h0 & -> & Fo)|s x q q' X R Hx Io Si (h0 & t & rv & -> & Fo & Se)];
    try (split; [exact J|repeat split]).
  - destruct (store_in _ _ _ _ _ St J S3 Nd) as (A & B & C & D). split; [exact A|repeat split; assumption].
  - split; [right; exact J|repeat split].
  - split; [|repeat split]. cbn. apply remove_keeps; [exact J|]. apply Df; [unfold live; apply in_or_app; left; exact Jq|]. apply SysProofs3.find_obj_in in Fo as [_ Fo]. congruence.
  - split; [|repeat split]. cbn. unfold upd_objs. apply in_map_iff. exists o. split; [|exact J]. assert (Eu : o_uid q' = o_uid q) by apply Si. rewrite Eu. destruct (Nat.eqb_spec (o_uid o) (o_uid q)) as [E|]; [|reflexivity].
    exfalso. revert E. apply Df; [eapply reach_live; eauto|]. apply SysProofs3.find_obj_in in Fo as [_ Fo]. congruence.
Qed.
Lemma prims_in cl h s s' o : inv s -> prims w cl h s s' -> match cl with ODestroyObject _ h0 | OSetAttributeValue _ h0 _ => h0 <> ho | _ => True end ->
  In o (t_objs (s_tok s)) -> sealed o -> In o (t_objs (s_tok s')) /\ frame s s'.
Proof.
  intros I P. revert I. induction P as [s|s s1 s2 P Ps IH]; intros I Sp J S; [split; [exact J|repeat split]|]. destruct (prim_in _ _ _ _ _ I P Sp J S) as [J1 (A1 & A2 & A3)].
  destruct (IH (prim_inv w _ _ _ _ P I) Sp J1 S) as [J2 (B1 & B2 & B3)]. split; [exact J2|]. repeat split; congruence.
Qed.
(** ** The invariant *)
Definition user (t : token) : bool := orb (t_login t =? RO_USER)%Z (t_login t =? RW_USER)%Z.
Definition in_tok (t : token) : Prop := t_seed t = sd /\ exists o, In o (t_objs t) /\ sealed o /\ (user t = true -> t_key t = K /\ clear o).
Definition on_file (s : sys) : Prop := forall uid, exists t, Token_Load se (s_fs s) uid = Ok t /\ user t = false /\ in_tok t.
Definition kept (s : sys) : Prop := on_file s /\ ((0 < s_count s)%Z -> in_tok (s_tok s)).
Definition keeps (c : op) (o : out) : Prop := same_pin p c o /\ unnamed ho c.
Lemma reloaded_sealed u o : sealed o -> sealed (reloaded u o).
Proof.
  intros (S1 & S2 & S3 & S4 & _). destruct (kt_sym o S2) as (K1 & K2 & K3 & K4). unfold reloaded. rewrite S3, K3. unfold kd_bytes. rewrite S4. split; [exact S1|]. split; [exact S2|]. split; [exact S3|]. split; [reflexivity|].
  cbn. eauto.
Qed.
Lemma reload_in l : forall u o, In o l -> exists v, In (reloaded v o) (reload_objs u l).
Proof. induction l as [|y l IH]; intros u o J; [destruct J|]. destruct J as [->|J]; [exists u; left; reflexivity|]. destruct (IH (S u) o J) as (v & V). exists v. right. exact V. Qed.
Lemma reload_tok u t : in_tok t -> user (reload u t) = false /\ in_tok (reload u t).
Proof.
  intros (Sd & o & J & S & _). split; [reflexivity|]. split; [exact Sd|]. destruct (reload_in _ u _ J) as (v & V). exists (reloaded v o). split; [exact V|]. split; [apply reloaded_sealed; exact S|discriminate].
Qed.
Lemma saved_file s : saved w s -> ginv (s_tok s) -> tidy w s -> in_tok (s_tok s) -> on_file s.
Proof. intros Sv G Td T uid. destruct (DurableProofs.saved_load w L s Sv G Td) as [_ Ld]. exists (reload uid (s_tok s)). split; [apply Ld|]. apply reload_tok. exact T. Qed.
Lemma logout_tok t t' : in_tok t -> Logout w t = Ok t' -> in_tok t' /\ user t' = false.
Proof.
  intros (Sd & o & J & S & U) E. unfold Logout in E. unfold user in U at 1. destruct (orb _ _).
  - destruct (U eq_refl) as [Kk Cl]. rewrite Kk in E. destruct (encode_all _ _ _) as [l| |] eqn:Ea; cbn [bind] in E; try discriminate. injection E as <-. destruct (encode_all_sealed _ _ _ J S Cl Ea) as (o' & J' & S').
    split; [|reflexivity]. split; [exact Sd|]. exists o'. split; [exact J'|]. split; [exact S'|discriminate].
  - injection E as <-. split; [|reflexivity]. split; [exact Sd|]. exists o. split; [exact J|]. split; [exact S|discriminate].
Qed.
Lemma same_tok t t' : in_tok t -> t_seed t' = t_seed t -> t_key t' = t_key t -> t_objs t' = t_objs t -> (user t' = true -> user t = true) -> in_tok t'.
Proof. intros (Sd & o & J & S & U) E1 E2 E3 E4. split; [congruence|]. exists o. rewrite E3, E2. auto. Qed.
Lemma login_tok t q now c t' : in_tok t -> UserLogin w t q now = Ok (c, t') -> (c = 0%Z -> q = p) -> in_tok t'.
Proof.
  intros T E Q. unfold UserLogin in E. destruct now as [n|]; [|injection E as _ <-; exact T]. destruct (logged_in (t_login t)) eqn:Li; [injection E as _ <-; exact T|].
  assert (Nu : user t = false) by (unfold logged_in in Li; unfold user; apply orb_false_iff in Li as [_ Li]; exact Li).
  destruct (lock_check _ _) as [pp|]; [|injection E as _ <-; exact T]. cbv zeta in E.
  destruct (_ =? PIN_INVALID_E)%Z; [injection E as _ <-; apply (same_tok t); auto|]. destruct (CheckPin _ _ _ _ =? 0)%Z; [|injection E as _ <-; apply (same_tok t); auto].
  destruct (decode_all _ _ _) as [[c2 l]| |] eqn:Da; cbn [bind] in E; try discriminate. destruct T as (Sd & o & J & S & U). cbn [t_key t_objs set_key set_user] in Da.
  destruct (decode_all_sealed _ _ _ _ _ J S Da) as (o' & J' & S' & Cl). destruct (Z.eqb_spec c2 0) as [->|Nz]; injection E as <- <-.
  - rewrite (Q eq_refl) in *. split; [exact Sd|]. exists o'. split; [exact J'|]. split; [exact S'|]. intros _. cbn [set_login set_objs t_key set_key]. rewrite Sd in *. split; [reflexivity|]. apply Cl; reflexivity.
  - split; [exact Sd|]. exists o'. split; [exact J'|]. split; [exact S'|]. intros Us. exfalso. change (user (set_objs (set_key (set_user (set_user t pp) (reset_fail pp)) (se_hash se q (t_seed t))) l)) with (user t) in Us. congruence.
Qed.
Lemma so_tok l t q now c t' : in_tok t -> SOLogin w l t q now = (c, t') -> in_tok t'.
Proof.
  intros T E. unfold SOLogin in E. destruct now as [n|]; [|injection E as _ <-; exact T]. destruct (logged_in (t_login t)) eqn:Li; [injection E as _ <-; exact T|].
  destruct (lock_check _ _) as [pp|]; [|injection E as _ <-; exact T]. cbv zeta in E. destruct (existsb _ _); [injection E as _ <-; apply (same_tok t); auto|].
  destruct (_ =? PIN_INVALID_E)%Z; [injection E as _ <-; apply (same_tok t); auto|]. destruct (_ =? 0)%Z; injection E as _ <-; apply (same_tok t); auto. discriminate.
Qed.
Lemma step_tok rnd s c s' o : inv s -> (0 < s_count s)%Z -> lib_op c = false -> match c with OInitToken _ _ _ | OInitPIN _ _ | OSetPIN _ _ _ => False | _ => True end ->
  keeps c o -> in_tok (s_tok s) -> step w rnd s c = Ok (s', o) -> in_tok (s_tok s').
Proof.
  intros I Cn Lo P Kp T E. destruct (objop c) as [h|] eqn:O.
  - pose proof (objop_prims w _ _ _ _ _ _ I O E) as Ps. destruct T as (Sd & ob & J & S & U).
    destruct (prims_in c h s s' ob I Ps) as [J' (A & B & C)]; [exact (proj2 Kp)|exact J|exact S|]. split; [congruence|]. exists ob. split; [exact J'|]. split; [exact S|]. unfold user in *. rewrite B, C. exact U.
  - apply Z.ltb_lt in Cn. destruct c; try discriminate O; try discriminate Lo; try contradiction; cbn [step] in E; unfold with_slot, with_sess, need_lib in E; rewrite Cn in E; apply Z.ltb_lt in Cn.
    all: try (destruct (slot_ok slot); [|sinv; exact T]). all: try (destruct (sess_get s h) as [x|]; [|sinv; exact T]).
    + apply OpenSession_ok in E as [[-> _] | (l & y & -> & _)]; auto.
    + unfold CloseSession in E. destruct (close_sess _ _) as [l| |]; cbn [bind] in E; try discriminate. cbv zeta in E. destruct (existsb in_use l); [sinv; exact T|].
      destruct (Logout _ _) as [t| |] eqn:Lg; cbn [bind] in E; try discriminate. sinv. exact (proj1 (logout_tok _ _ T Lg)).
    + sinv. exact T.
    + unfold Login in E. destruct (negb _); [sinv; exact T|]. destruct (Z.eqb_spec ut CKU_SO) as [->|].
      * destruct (SOLogin _ _ _ _ _) as [c1 t1] eqn:Sl. sinv. exact (so_tok _ _ _ _ _ _ T Sl).
      * destruct (Z.eqb_spec ut CKU_USER) as [->|]; [|destruct (_ =? _)%Z; sinv; exact T]. destruct (UserLogin _ _ _ _) as [[c1 t1]| |] eqn:Ul; cbn [bind] in E; try discriminate.
        unfold rv_ in E. injection E as <- <-. apply (login_tok _ _ _ _ _ T Ul). intros ->. apply (proj1 Kp); reflexivity.
    + destruct (Logout _ _) as [t| |] eqn:Lg; cbn [bind] in E; try discriminate. sinv. exact (proj1 (logout_tok _ _ T Lg)).
    + sinv. exact T.
Qed.
Lemma file_same s s' : on_file s -> s_fs s' = s_fs s -> on_file s'.
Proof. intros F E uid. rewrite E. apply F. Qed.
(** Every such call keeps the key on file and, while the library is up, in memory. *)
Lemma step_kept rnd s c s' o : inv s -> ginv (s_tok s) -> ginv (s_tok s') -> tidy w s -> tidy w s' -> keeps c o -> kept s -> step w rnd s c = Ok (s', o) -> kept s'.
Proof.
  intros I Gi Gi' Td Td' Kp (F & M) E. destruct (lib_op c) eqn:Lo.
  - destruct c; try discriminate Lo; cbn [step] in E.
    + unfold Initialize in E. destruct (Z.eqb_spec (s_count s) 0) as [C0|C0].
      * destruct (Token_Load _ _ _) as [t| |] eqn:Ld; cbn [bind] in E; try discriminate. injection E as <- _. split; [exact F|]. intros _. cbn [s_tok]. destruct (F (s_uid s)) as (t0 & Ld0 & _ & T). congruence.
      * injection E as <- _. split; [exact F|]. cbn. intros C. apply M. lia.
    + unfold Finalize in E. destruct (Z.eqb_spec (s_count s - 1) 0) as [C1|C1].
      * destruct (store _ _ _) as [[c1 s1]| |] eqn:Sto; cbn [bind] in E; try discriminate. destruct (final_all _); cbn [bind] in E; try discriminate. destruct (free_all _); cbn [bind] in E; try discriminate. injection E as <- _.
        split; [|cbn; lia]. destruct Td as [Fi So]. assert (W : wf_tok (s_tok s)) by exact (wf_of (s_tok s) (t_objs (s_tok s)) Gi Fi eq_refl).
        unfold store in Sto. destruct (store_load se (dh_law' _ L) (fun i => rnd (2 + i)%nat) (s_tok s) (s_fs s) W So) as (ws & Es & Ld). rewrite Es in Sto. cbn [bind] in Sto. injection Sto as _ <-.
        intros uid. eexists. split; [apply Ld|]. apply reload_tok. apply M. lia.
      * injection E as <- _. split; [exact F|]. cbn. intros C. apply M. lia.
    + injection E as <- _. split; [exact F|cbn; lia].
  - destruct (Z.ltb_spec 0 (s_count s)) as [C|C]; [|destruct (PropVault.down_step w rnd s c s' o C Lo E) as [-> _]; split; assumption].
    specialize (M C). destruct (match c with OInitToken _ _ _ | OInitPIN _ _ | OSetPIN _ _ _ => true | _ => false end) eqn:Pc.
    + assert (P : match c with OInitToken _ _ _ | OInitPIN _ _ | OSetPIN _ _ _ => True | _ => False end) by (destruct c; try discriminate Pc; exact Logic.I).
      destruct (PropVault.stores_pin w rnd s c s' o (DurableProofs.tidy_held _ _ Td) P E) as [[-> An]|(_ & An & _)]; [split; [exact F|intros _; exact M]|]. exfalso.
      assert (Q : out_rv o <> CKR_OK /\ out_rv o <> CKR_FUNCTION_FAILED) by (destruct Kp as [Kp _]; destruct c; try contradiction; exact Kp). unfold Vault.answered in An. cbn [existsb] in An.
      destruct (Z.eqb_spec (out_rv o) CKR_OK); [tauto|]. destruct (Z.eqb_spec (out_rv o) CKR_FUNCTION_FAILED); [tauto|discriminate].
    + assert (P : match c with OInitToken _ _ _ | OInitPIN _ _ | OSetPIN _ _ _ => False | _ => True end) by (destruct c; try discriminate Pc; exact Logic.I).
      pose proof (step_tok rnd s c s' o I C Lo P Kp M E) as M'. split; [|intros _; exact M']. destruct (Vault.may_store c) eqn:Ms.
      * destruct (DurableProofs.step_level w rnd s c s' o I (DurableProofs.tidy_held _ _ Td) Lo ltac:(destruct c; try discriminate Ms; reflexivity) E) as [_ [[Ef _]|Sv]]; [exact (file_same _ _ F Ef)|apply saved_file; assumption].
      * exact (file_same _ _ F (PropVault.fs_same w rnd s c s' o Lo Ms P E)).
Qed.
Lemma run_kept d l : forall s s' os, reach w (sys0 d) s -> PropArchive.tidy_run w s l -> kept s -> (forall c o, In (c, o) (combine (map fst l) os) -> keeps c o) -> run w s l = Ok (s', os) -> kept s'.
Proof.
  induction l as [|[c rnd] l IH]; intros s s' os Re Td S Kp E; cbn [run] in E; [injection E as <- _; exact S|].
  cbn [PropArchive.tidy_run] in Td. destruct (step w rnd s c) as [[s1 o]| |] eqn:E1; cbn [bind] in E; try discriminate. destruct (run w s1 l) as [[s2 os2]| |] eqn:E2; cbn [bind] in E; try discriminate. injection E as <- <-.
  destruct Td as [Td Td2]. assert (Td1 : tidy w s1) by (destruct l as [|[? ?] ?]; apply Td2). assert (Re1 : reach w (sys0 d) s1) by (econstructor; eauto).
  apply (IH s1 s2 os2 Re1 Td2); [|intros c0 o0 J; apply Kp; right; exact J|exact E2].
  apply (step_kept rnd s c s1 o (reach_inv w d s Re) (reach_ginv w (l_hash _ L) _ _ Re) (reach_ginv w (l_hash _ L) _ _ Re1) Td Td1); [apply Kp; left; reflexivity|exact S|exact E1].
Qed.
(** *** The login before the import *)
Definition keyed (s : sys) : Prop := user (s_tok s) = true -> t_key (s_tok s) = se_hash se p (t_seed (s_tok s)).
Lemma prims_frame cl h s s' : prims w cl h s s' -> frame s s'.
Proof.
  induction 1 as [s|s s1 s2 P Ps (B1 & B2 & B3)]; [repeat split|]. enough (A : frame s s1) by (destruct A as (A1 & A2 & A3); repeat split; congruence).
  destruct P as [s x x'|s n|s x rnd c s' X R Hx St|s x q|s x b0 q|s x q|s x q|s x q q']; try (repeat split; fail).
  apply store_frame in St as (_ & _ & _ & St & _). split; [exact (f_equal t_seed St)|]. split; [exact (f_equal t_key St)|exact (f_equal t_login St)].
Qed.
Lemma load_public d u t : Token_Load se d u = Ok t -> user t = false.
Proof. intros E. apply DurableKeys.Token_Load_public in E. unfold logged_in in E. apply orb_false_iff in E as [_ E]. exact E. Qed.
Lemma step_keyed rnd s c s' o : inv s -> tidy w s -> same_pin p c o -> keyed s -> step w rnd s c = Ok (s', o) -> keyed s'.
Proof.
  intros I Td Kp T E. destruct (lib_op c) eqn:Lo.
  - destruct c; try discriminate Lo; cbn [step] in E.
    + unfold Initialize in E. destruct (Z.eqb_spec (s_count s) 0) as [C0|C0]; [|injection E as <- _; exact T].
      destruct (Token_Load _ _ _) as [t| |] eqn:Ld; cbn [bind] in E; try discriminate. injection E as <- _. unfold keyed. cbn [s_tok]. rewrite (load_public _ _ _ Ld). discriminate.
    + unfold Finalize in E. destruct (Z.eqb_spec (s_count s - 1) 0) as [C1|C1]; [|injection E as <- _; exact T].
      destruct (store _ _ _) as [[c1 s1]| |] eqn:Sto; cbn [bind] in E; try discriminate. destruct (final_all _); cbn [bind] in E; try discriminate. destruct (free_all _); cbn [bind] in E; try discriminate. injection E as <- _.
      intros U. discriminate U.
    + injection E as <- _. intros U. discriminate U.
  - destruct (Z.ltb_spec 0 (s_count s)) as [C|C]; [|destruct (PropVault.down_step w rnd s c s' o C Lo E) as [-> _]; exact T].
    destruct (match c with OInitToken _ _ _ | OInitPIN _ _ | OSetPIN _ _ _ => true | _ => false end) eqn:Pc.
    { assert (P : match c with OInitToken _ _ _ | OInitPIN _ _ | OSetPIN _ _ _ => True | _ => False end) by (destruct c; try discriminate Pc; exact Logic.I).
      destruct (PropVault.stores_pin w rnd s c s' o (DurableProofs.tidy_held _ _ Td) P E) as [[-> An]|(_ & An & _)]; [exact T|]. exfalso.
      assert (Q : out_rv o <> CKR_OK /\ out_rv o <> CKR_FUNCTION_FAILED) by (destruct c; try contradiction; exact Kp). unfold Vault.answered in An. cbn [existsb] in An.
      destruct (Z.eqb_spec (out_rv o) CKR_OK); [tauto|]. destruct (Z.eqb_spec (out_rv o) CKR_FUNCTION_FAILED); [tauto|discriminate]. }
    destruct (objop c) as [h|] eqn:O.
    { destruct (prims_frame _ _ _ _ (objop_prims w _ _ _ _ _ _ I O E)) as (A & B & D). unfold keyed, user in *. rewrite A, B, D. exact T. }
    assert (Lgo : forall u t, Logout w u = Ok t -> user t = false) by (intros u t Lg; unfold Logout in Lg; destruct (orb _ _); [destruct (encode_all _ _ _); cbn [bind] in Lg; try discriminate|]; injection Lg as <-; reflexivity).
    apply Z.ltb_lt in C. destruct c; try discriminate O; try discriminate Lo; try discriminate Pc; cbn [step] in E; unfold with_slot, with_sess, need_lib in E; rewrite C in E; apply Z.ltb_lt in C.
    all: try (destruct (slot_ok slot); [|sinv; exact T]). all: try (destruct (sess_get s h) as [x|]; [|sinv; exact T]).
    + apply OpenSession_ok in E as [[-> _] | (l & y & -> & _)]; auto.
    + unfold CloseSession in E. destruct (close_sess _ _) as [l| |]; cbn [bind] in E; try discriminate. cbv zeta in E. destruct (existsb in_use l); [sinv; exact T|].
      destruct (Logout _ _) as [t| |] eqn:Lg; cbn [bind] in E; try discriminate. sinv. unfold keyed. cbn [s_tok set_tok]. rewrite (Lgo _ _ Lg). discriminate.
    + sinv. exact T.
    + unfold Login in E. destruct (negb _); [sinv; exact T|]. destruct (Z.eqb_spec ut CKU_SO) as [->|Nso].
      * destruct (SOLogin _ _ _ _ _) as [c1 t1] eqn:Sl. unfold rv_ in E. injection E as <- _. unfold keyed in *. cbn [s_tok set_tok]. unfold SOLogin in Sl. destruct now as [n0|]; [|injection Sl as _ <-; exact T].
        destruct (logged_in _); [injection Sl as _ <-; exact T|]. destruct (lock_check _ _) as [pp|]; [|injection Sl as _ <-; exact T]. cbv zeta in Sl. destruct (existsb _ _); [injection Sl as _ <-; exact T|].
        destruct (_ =? PIN_INVALID_E)%Z; [injection Sl as _ <-; exact T|]. destruct (_ =? 0)%Z; injection Sl as _ <-; [discriminate|exact T].
      * destruct (Z.eqb_spec ut CKU_USER) as [->|Nus]; [|destruct (_ =? _)%Z; sinv; exact T]. destruct (UserLogin _ _ _ _) as [[c1 t1]| |] eqn:Ul; cbn [bind] in E; try discriminate.
        unfold rv_ in E. injection E as <- <-. unfold keyed in *. cbn [s_tok set_tok]. unfold UserLogin in Ul. destruct now as [n0|]; [|injection Ul as _ <-; exact T].
        destruct (logged_in (t_login (s_tok s))) eqn:Li; [injection Ul as _ <-; exact T|]. assert (Nu : user (s_tok s) = false) by (unfold logged_in in Li; unfold user; apply orb_false_iff in Li as [_ Li]; exact Li).
        destruct (lock_check _ _) as [pp|]; [|injection Ul as _ <-; exact T]. cbv zeta in Ul. destruct (_ =? PIN_INVALID_E)%Z; [injection Ul as _ <-; exact T|].
        destruct (CheckPin _ _ _ _ =? 0)%Z; [|injection Ul as _ <-; exact T]. destruct (decode_all _ _ _) as [[c2 l]| |]; cbn [bind] in Ul; try discriminate.
        destruct (Z.eqb_spec c2 0) as [->|Nz]; injection Ul as <- <-; [intros _; cbn; rewrite (Kp eq_refl eq_refl); reflexivity|].
        intros U. change (user (s_tok s) = true) in U. congruence.
    + destruct (Logout _ _) as [t| |] eqn:Lg; cbn [bind] in E; try discriminate. sinv. unfold keyed. cbn [s_tok set_tok]. rewrite (Lgo _ _ Lg). discriminate.
    + sinv. exact T.
Qed.
Lemma run_keyed d l : forall s s' os, reach w (sys0 d) s -> PropArchive.tidy_run w s l -> keyed s -> (forall c o, In (c, o) (combine (map fst l) os) -> same_pin p c o) -> run w s l = Ok (s', os) -> keyed s'.
Proof.
  induction l as [|[c rnd] l IH]; intros s s' os Re Td S Kp E; cbn [run] in E; [injection E as <- _; exact S|].
  cbn [PropArchive.tidy_run] in Td. destruct (step w rnd s c) as [[s1 o]| |] eqn:E1; cbn [bind] in E; try discriminate. destruct (run w s1 l) as [[s2 os2]| |] eqn:E2; cbn [bind] in E; try discriminate. injection E as <- <-.
  destruct Td as [Td Td2]. assert (Re1 : reach w (sys0 d) s1) by (econstructor; eauto). apply (IH s1 s2 os2 Re1 Td2); [|intros c0 o0 J; apply Kp; right; exact J|exact E2].
  apply (step_keyed rnd s c s1 o (reach_inv w d s Re) Td); [apply Kp; left; reflexivity|exact S|exact E1].
Qed.
Lemma login_keyed rnd s h now s' : step w rnd s (OLogin h CKU_USER p now) = Ok (s', OutRv CKR_OK) -> keyed s'.
Proof.
  intros E _. cbn [step] in E. unfold with_sess, need_lib in E. destruct (0 <? s_count s)%Z; [|discriminate E]. destruct (sess_get s h) as [x|]; [|discriminate E]. unfold Login in E. destruct (negb _); [discriminate E|].
  change (CKU_USER =? CKU_SO)%Z with false in E. change (CKU_USER =? CKU_USER)%Z with true in E. cbv iota in E. destruct (UserLogin _ _ _ _) as [[c t]| |] eqn:Ul; cbn [bind] in E; try discriminate. unfold rv_ in E.
  injection E as <- Er. assert (C0 : c = 0%Z).
  { unfold login_rv in Er. destruct (c =? LOGGED_IN_E)%Z; [discriminate Er|]. destruct (andb _ _); [discriminate Er|]. destruct (c =? PIN_NOT_SET_E)%Z; [discriminate Er|]. destruct (Z.eqb_spec c 0); [assumption|discriminate Er]. }
  subst c. cbn [s_tok set_tok]. unfold UserLogin in Ul. destruct now as [n|]; [|discriminate Ul]. destruct (logged_in _); [discriminate Ul|]. destruct (lock_check _ _); [|discriminate Ul]. cbv zeta in Ul.
  destruct (Z.eqb_spec (CheckPin w (set_user (s_tok s) p0) p0 p) PIN_INVALID_E) as [Q|_]; [rewrite Q in Ul; discriminate Ul|].
  destruct (Z.eqb_spec (CheckPin w (set_user (s_tok s) p0) p0 p) 0) as [_|Q]; [|injection Ul as Q' _; contradiction].
  destruct (decode_all _ _ _) as [[c2 l]| |]; cbn [bind] in Ul; try discriminate. destruct (Z.eqb_spec c2 0) as [_|Nz]; [|injection Ul as Q' _; contradiction]. injection Ul as <-. reflexivity.
Qed.
End W.
(** *** The import *)
Lemma import_kept w d m s h t rnd s' ho kt b p : laws (w_se w) -> orderly w True d m s' -> (m < 2^28)%Z -> reach w (sys0 d) s -> tidy w s -> tidy w s' -> gives kt b t -> (2^28 <= ho)%Z ->
  t_login (s_tok s) = RW_USER -> t_key (s_tok s) = se_hash (w_se w) p (t_seed (s_tok s)) ->
  step w rnd s (OCreateObject h t) = Ok (s', OutH CKR_OK ho) -> kept w p (t_seed (s_tok s)) kt b ho s'.
Proof.
  intros L Od M Re Td Td' Gv Hh Lg Ky E. destruct (gives_view w d s h t rnd s' ho kt b Re Gv E) as (o & (y & Gy & Jy & Eh) & V).
  pose proof Gv as (Kt & Hkt & _). assert (Hkt' : In kt [0; 2; 3; 16; 31]%Z) by (cbn in *; tauto).
  destruct (created w d s h t rnd s' ho kt Re Kt Hkt' E) as (_ & _ & _ & _ & _ & o' & _ & _ & _ & _ & (y' & Gy' & Jy' & Eh') & _ & T & Cl).
  destruct (orderly_kept w True (l_hash _ L) _ _ _ Od M) as [Gd _]. rewrite Gy in Gy'. injection Gy' as <-.
  assert (Un : forall q, In q (PropObj.within s' y) -> o_handle q = ho -> q = o).
  { intros q Jq Eq. pose proof (good_finds True _ _ _ _ _ Logic.I Gd M Gy Jq) as F1. pose proof (good_finds True _ _ _ _ _ Logic.I Gd M Gy Jy) as F2. rewrite Eq in F1. rewrite Eh in F2. congruence. }
  pose proof (Un _ Jy' Eh') as ->. clear Jy' Eh'. assert (Nc : is_cert o = false) by (apply Z.eqb_neq; exact Cl).
  pose proof E as E0. cbn [step] in E. unfold with_sess, need_lib in E. destruct (0 <? s_count s)%Z; [|discriminate E]. destruct (sess_get s h) as [x|] eqn:X; [|discriminate E].
  unfold need_rw in E. destruct (is_rw x) eqn:RW; cbn [negb] in E; [|discriminate E]. unfold Create in E. destruct (CreateObject _ _ _ _) as [[rv ob]| |] eqn:C; cbn [bind] in E; try discriminate E. cbv zeta in E.
  destruct ob as [ob|]; [|discriminate E]. destruct (AddObject _ _ _ _ _ _) as [[[rv2 h2] s2]| |] eqn:A; cbn [bind] in E; try discriminate E. injection E as <- -> ->.
  unfold AddObject in A. destruct (tmpl_token t) as [bt|]; [|discriminate A]. destruct (AddToSession _ _ _ _ _ _) as [[[c2 h2] s3]| |] eqn:A2; cbn [bind] in A; try discriminate A. injection A as Ec -> <-.
  assert (c2 = 0%Z) by (destruct (Z.eqb_spec c2 0); [assumption|discriminate Ec]). subst c2. clear Ec. unfold AddToSession in A2. cbv zeta in A2. destruct (bt =? 0)%N.
  - exfalso. destruct (_ <=? _)%Z; [discriminate A2|]. injection A2 as E1 <-. destruct Gd as [_ Gs]. rewrite Forall_forall in Gs. set (n := set_handle _ _) in *.
    destruct (Gs (set_sobjs x (n :: ss_objs x))) as [_ B]; [cbn; unfold upd_sess; apply in_map_iff; exists x; cbn; rewrite Z.eqb_refl; split; [reflexivity|apply sess_get_in in X; tauto]|].
    rewrite Forall_forall in B. specialize (B (o_handle n) ltac:(left; reflexivity)). change (o_handle n) with (next_handle (ss_objs x) bt) in B. lia.
  - destruct (_ <=? _)%Z; [discriminate A2|]. destruct (Encode _ _ _ _) as [[c3 o2]| |] eqn:En; cbn [bind] in A2; try discriminate A2. destruct (Z.eqb_spec c3 0) as [->|N3]; cbn [negb] in A2; [|injection A2 as N3' _ _; contradiction].
    destruct (store _ _ _) as [[c4 s4]| |] eqn:St; cbn [bind] in A2; try discriminate A2. injection A2 as E1 <-. set (n := set_handle o2 _) in *.
    assert (Hn : o_handle n = ho) by exact E1. pose proof (store_frame w _ _ _ _ St) as (_ & _ & _ & Tk & Co). cbn [s_tok set_tok t_objs set_objs bump] in Co.
    destruct (core_list_in _ _ n Co ltac:(left; reflexivity)) as (n' & Jn & Cn). assert (n' = o) by (apply Un; [apply in_or_app; left; exact Jn|rewrite (proj2 (core_uid _ _ Cn)); exact Hn]). subst n'.
    pose proof (f_equal o_type Cn) as Et. change (o_type o = o_type n) in Et. pose proof (DurableProofs.core_cert _ _ Cn) as (Cc & _). rewrite Nc in Cc.
    unfold Encode in En. change (is_cert (set_onTok ob (N.odd bt))) with (is_cert ob) in En.
    assert (Ty : o_type n = kt) by congruence.
    assert (Sn : sealed w p (t_seed (s_tok s)) kt b ho n).
    { assert (V' : view w n = Ok (mkKey kt b [] 0)) by (rewrite <- V; symmetry; apply core_view; exact Cn). destruct (view_clear w kt b Hkt n Ty V') as (bf & As & Tb).
      destruct (is_cert ob) eqn:Cb; [injection En as <-; exfalso; cbn in Cc; change (is_cert n) with (is_cert ob) in Cc; congruence|].
      destruct (EncodeKey _ _ _) as [[c5 o5]| |] eqn:Ek; cbn [bind] in En; try discriminate En. cbn [andb] in En. injection En as -> <-.
      destruct (kt_sym kt Hkt n Ty) as (K1 & K2 & K3 & K4).
      assert (F5 : exists kd ev, o5 = set_store (set_onTok ob (N.odd bt)) (o_iv ob) kd ev).
      { unfold EncodeKey, enc_asym in Ek. sinv; eauto. all: try (exists (o_keyData ob), (o_enc ob); destruct ob; reflexivity). all: repeat match goal with H : context [if ?q then _ else _] |- _ => destruct q; sinv; eauto end. }
      destruct F5 as (kd & ev & F5). unfold EncodeKey in Ek.
      assert (To : o_type (set_onTok ob (N.odd bt)) = o_type n) by (unfold n; rewrite F5; reflexivity). assert (Iy : is_sym (set_onTok ob (N.odd bt)) = is_sym n) by (unfold n; rewrite F5; reflexivity).
      assert (Ao : as_sym (set_onTok ob (N.odd bt)) = as_sym n) by (unfold n; rewrite F5; reflexivity). rewrite To, K1, K2, K3, Iy, K4, Ao, As in Ek. cbn [bind] in Ek. rewrite Tb in Ek. cbn [bind] in Ek. injection Ek as Ek.
      split; [exact Hn|]. split; [exact Ty|]. split; [symmetry; exact Cc|]. split; [|eauto]. unfold n. rewrite <- Ek. cbn. rewrite Ky. reflexivity. }
    assert (Nd : o_keyData n <> None) by (destruct Sn as (_ & _ & _ & Sn & _); congruence).
    destruct (store_in w _ _ _ _ n St ltac:(left; reflexivity) ltac:(symmetry; exact Cc) Nd) as (In' & Sd' & Ky' & Lg'). cbn [s_tok set_tok set_objs t_seed t_key t_login bump] in Sd', Ky', Lg'.
    assert (IT : in_tok w p (t_seed (s_tok s)) kt b ho (s_tok s4)).
    { split; [exact Sd'|]. exists n. split; [exact In'|]. split; [exact Sn|]. intros _. split; [exact (eq_trans Ky' Ky)|]. apply (view_clear w kt b Hkt n Ty). rewrite <- V. symmetry. apply core_view. exact Cn. }
    split; [|intros _; exact IT]. apply (saved_file w L p _ kt b ho Hkt); [|exact (reach_ginv w (l_hash _ L) _ _ (orderly_reach _ _ _ _ _ Od))|exact Td'|exact IT].
    eapply DurableProofs.store_saved; [|exact St]. cbn. constructor; [right; exact Nd|]. apply (DurableProofs.tidy_held w). exact Td.
Qed.

(** ** The theorems *)
(** The key is there with the value given, in every session, whenever the user is logged in. *)
Theorem C127_there : forall w d s h ho kt b p h2 x, laws (w_se w) -> brought w d s h ho kt b p -> t_login (s_tok s) = RW_USER -> sess_get s h2 = Some x ->
  exists o, ready w s h2 x ho o (mkKey kt b [] 0).
Proof.
  intros w d s h ho kt b p h2 x L (l0 & hu & now & r0 & l1 & t & r1 & l2 & s1 & os0 & os1 & s2 & os2 & D & R1 & Le & P1 & Lg1 & Gv & E & Hh & R2 & P2 & Td & M & B) Lg G. cbv zeta in *.
  set (la := l0 ++ (OLogin hu CKU_USER p now, r0) :: l1) in *. destruct (PropArchive.tidy_run_app w la _ _ _ _ Td R1) as [Tda Tdb].
  apply Forall_app in B as [B1 B2]. inversion B2 as [|? ? B3 B4]. subst. cbn [fst] in B3. destruct (orderly_run w d la 0 (sys0 d) s1 _ (od_0 w True d D) B1 R1) as (m1 & Od1 & M1).
  assert (Od2 : orderly w True d (m1 + uses (OCreateObject h t)) s2) by (econstructor; [exact Od1|exact E|apply usual_bytes, bool_usual; exact B3]). pose proof (uses_two (OCreateObject h t)) as U2.
  destruct (orderly_run w d l2 _ _ _ _ Od2 B4 R2) as (m3 & Od3 & M3).
  assert (Ml : (m1 + uses (OCreateObject h t) + 2 * zlen l2 < 2^28)%Z) by (unfold zlen in *; rewrite app_length in M; cbn [List.length] in M; lia).
  assert (Zl : (0 <= zlen l2)%Z) by (unfold zlen; lia). pose proof (orderly_reach _ _ _ _ _ Od1) as Re1. pose proof (orderly_reach _ _ _ _ _ Od2) as Re2. pose proof (orderly_reach _ _ _ _ _ Od3) as Re3.
  cbn [PropArchive.tidy_run] in Tdb. rewrite E in Tdb. destruct Tdb as [Td1 Td2]. assert (Td2' : tidy w s2) by (destruct l2 as [|[? ?] ?]; apply Td2).
  (* the login *)
  assert (Ky : keyed w p s1).
  { unfold la in R1, Tda. apply run_app in R1 as (sa & oa & ob & Ra & Rb & Eo & Lo). destruct (app_same _ _ _ _ _ (eq_sym Eo)) as [-> ->]; [congruence|]. clear Eo.
    destruct (PropArchive.tidy_run_app w l0 _ _ _ _ Tda Ra) as [_ Tdc]. pose proof (run_reach w (sys0 d) (sys0 d) l0 sa os0 (reach_0 w _) Ra) as Rea.
    apply run_split in Rb as (sb & q & os' & S & Rb & Eo). injection Eo as <- <-. cbn [PropArchive.tidy_run] in Tdc. rewrite S in Tdc. destruct Tdc as [_ Tdc].
    apply (run_keyed w p d l1 sb s1 os1); [econstructor; [exact Rea|exact S]|exact Tdc|exact (login_keyed w p _ _ _ _ _ S)|exact P1|exact Rb]. }
  assert (K1 : t_key (s_tok s1) = se_hash (w_se w) p (t_seed (s_tok s1))) by (apply Ky; unfold user; rewrite Lg1; reflexivity).
  pose proof (import_kept w d _ s1 h t r1 s2 ho kt b p L Od2 ltac:(lia) Re1 Td1 Td2' Gv Hh Lg1 K1 E) as K2. assert (Hkt : In kt [16; 31]%Z) by apply Gv.
  pose proof (run_kept w L p _ kt b ho Hkt d l2 s2 s os2 Re2 Td2 K2 P2 R2) as [_ K3]. pose proof (reach_inv w d s Re3) as I. specialize (K3 (get_count _ _ _ I G)).
  destruct K3 as (_ & o & J & S & U). destruct U as [_ Cl]; [unfold user; rewrite Lg; reflexivity|]. destruct S as (S1 & S2 & _).
  destruct (orderly_kept w True (l_hash _ L) _ _ _ Od3) as [Gd _]; [lia|]. exists o. split; [exists d; exact Re3|exact G| |apply (clear_view w kt b Hkt); assumption].
  rewrite <- S1. apply (good_finds True _ _ _ _ _ Logic.I Gd ltac:(lia) G). apply in_or_app. left. exact J.
Qed.
Print Assumptions C127_there.
(** A signature made in parts is the HMAC of the data under the value given at the import. *)
Theorem C127_sign : forall w d s h ho b p h2 x a chunks n outs, laws (w_se w) -> brought w d s h ho 16 b p -> t_login (s_tok s) = RW_USER -> sess_get s h2 = Some x ->
  e_hmac_ok (w_ev w) a b = true -> Forall (fun c => (zlen c < 2^32)%Z) chunks -> (hmac_sz a <= n < 2^32)%Z ->
  amid w s h2 (KSignInit (M_HMAC a) MPnull 0) ho (map KSignUpdate chunks ++ [KSignFinal (Buf n)]) outs ->
  outs = repeat (mkOut CKR_OK 0 []) (List.length chunks) ++ [mkOut CKR_OK (hmac_sz a) (e_hmac (w_ev w) a b (concat chunks))].
Proof.
  intros w d s h ho b p h2 x a chunks n outs L Im Lg G Hk Fc Fn Am. destruct (C127_there w d s h ho 16%Z b p h2 x L Im Lg G) as (o & Rd).
  destruct (C41_sign_multipart (w_ev w) (only (o_uid o) (mkKey 16 b [] 0)) (ss_op x) a (o_uid o) (mkKey 16 b [] 0) chunks n (only_self _ _) eq_refl Hk Fc Fn) as (st' & os & Q & Fo).
  pose proof (ops_len _ _ _ _ _ _ Q) as Ln. cbn [List.length] in Ln. rewrite !app_length, map_length in Ln. cbn [List.length] in Ln.
  destruct os as [|y os]; [cbn in Ln; lia|]. inversion Fo as [|? ? -> Fo']. subst. cbn [List.length] in Ln.
  rewrite (lift_copied w s h2 x ho o _ (KSignInit (M_HMAC a) MPnull 0) (KSignInit (M_HMAC a) MPnull (o_uid o)) (M_HMAC a) _ outs _ _ _ Rd eq_refl eq_refl eq_refl Am Q eq_refl).
  assert (Lc : List.length chunks = List.length os) by lia. rewrite Lc, <- (ok_outs os Fo'). reflexivity.
Qed.
Print Assumptions C127_sign.
(** A signature is accepted if and only if it is that one. *)
Theorem C127_verify : forall w d s h ho b p h2 x a chunks sig outs, laws (w_se w) -> brought w d s h ho 16 b p -> t_login (s_tok s) = RW_USER -> sess_get s h2 = Some x ->
  (forall data, zlen (e_hmac (w_ev w) a b data) = hmac_sz a) -> e_hmac_ok (w_ev w) a b = true -> Forall (fun c => (zlen c < 2^32)%Z) chunks -> (zlen sig < 2^32)%Z ->
  amid w s h2 (KVerifyInit (M_HMAC a) MPnull 0) ho (map KVerifyUpdate chunks ++ [KVerifyFinal sig]) outs ->
  exists rv, outs = repeat (mkOut CKR_OK 0 []) (List.length chunks) ++ [mkOut rv 0 []] /\ (rv = CKR_OK \/ rv = CKR_SIGNATURE_INVALID) /\
    (rv = CKR_OK <-> sig = e_hmac (w_ev w) a b (concat chunks)).
Proof.
  intros w d s h ho b p h2 x a chunks sig outs L Im Lg G Hl Hk Fc Fn Am. destruct (C127_there w d s h ho 16%Z b p h2 x L Im Lg G) as (o & Rd).
  destruct (C41_verify_multipart (w_ev w) (only (o_uid o) (mkKey 16 b [] 0)) (ss_op x) a (o_uid o) (mkKey 16 b [] 0) chunks sig Hl (only_self _ _) eq_refl Hk Fc Fn) as (st' & os & rv & Q & Fo & R1 & R2).
  pose proof (ops_len _ _ _ _ _ _ Q) as Ln. cbn [List.length] in Ln. rewrite !app_length, map_length in Ln. cbn [List.length] in Ln.
  destruct os as [|y os]; [cbn in Ln; lia|]. inversion Fo as [|? ? -> Fo']. subst. cbn [List.length] in Ln. exists rv. split; [|auto].
  rewrite (lift_copied w s h2 x ho o _ (KVerifyInit (M_HMAC a) MPnull 0) (KVerifyInit (M_HMAC a) MPnull (o_uid o)) (M_HMAC a) _ outs _ _ _ Rd eq_refl eq_refl eq_refl Am Q eq_refl).
  assert (Lc : List.length chunks = List.length os) by lia. rewrite Lc, <- (ok_outs os Fo'). reflexivity.
Qed.
Print Assumptions C127_verify.

(** ** AES-CBC *)
Theorem C127_encrypt : forall w d s h ho b p h2 x iv blks cbs nf outs, laws (w_se w) -> brought w d s h ho 31 b p -> t_login (s_tok s) = RW_USER -> sess_get s h2 = Some x ->
  cipher_ok (e_ci (w_ev w)) -> e_aes_ok (w_ev w) b = true -> List.length iv = 16 -> OpsCbcProofs.fresh (ss_op x) ->
  are_blocks blks -> concat (map fst cbs) = concat blks -> OpsCbcProofs.fits cbs -> (zlen (concat blks) < 2^32)%Z ->
  amid w s h2 (KEncryptInit M_AES_CBC (MPraw iv) 0) ho (enc_upds cbs ++ [KEncryptFinal (Buf nf)]) outs ->
  Forall OpsCbcProofs.good outs /\ concat (map o_out outs) = concat (spec_cbc_enc (ci_E (e_ci (w_ev w)) b) iv blks).
Proof.
  intros w d s h ho b p h2 x iv blks cbs nf outs L Im Lg G Ci A Li Fr Bl Cc Fi Ln Am. destruct (C127_there w d s h ho 31%Z b p h2 x L Im Lg G) as (o & Rd).
  exact (C117_cbc_encrypt w s h2 x ho o _ iv blks cbs nf outs Rd Ci eq_refl A Li Fr Bl Cc Fi Ln Am).
Qed.
Print Assumptions C127_encrypt.
(** What is encrypted before a restart is decrypted after it; more generally, in any two such histories with the same value. *)
Theorem C127_meet : forall w iv b p d s h ho hs x cbs nf outs p2 d2 s2 h2 ho2 hs2 x2 cbs2 nf2 outs2, laws (w_se w) -> cipher_ok (e_ci (w_ev w)) -> e_aes_ok (w_ev w) b = true -> List.length iv = 16 ->
  brought w d s h ho 31 b p -> t_login (s_tok s) = RW_USER -> sess_get s hs = Some x -> OpsCbcProofs.fresh (ss_op x) ->
  brought w d2 s2 h2 ho2 31 b p2 -> t_login (s_tok s2) = RW_USER -> sess_get s2 hs2 = Some x2 -> OpsCbcProofs.fresh (ss_op x2) ->
  OpsCbcProofs.fits cbs -> (16 <= nf < 2^32)%Z -> (zlen (concat (map fst cbs)) < 2^31)%Z ->
  amid w s hs (KEncryptInit M_AES_CBC_PAD (MPraw iv) 0) ho (enc_upds cbs ++ [KEncryptFinal (Buf nf)]) outs ->
  concat (map fst cbs2) = concat (map o_out outs) -> OpsCbcProofs.fits cbs2 -> (zlen (concat (map fst cbs2)) < 2^31)%Z ->
  amid w s2 hs2 (KDecryptInit M_AES_CBC_PAD (MPraw iv) 0) ho2 (dec_upds cbs2 ++ [KDecryptFinal (Buf nf2)]) outs2 ->
  Forall OpsCbcProofs.good outs2 /\ concat (map o_out outs2) = concat (map fst cbs).
Proof.
  intros w iv b p d s h ho hs x cbs nf outs p2 d2 s2 h2 ho2 hs2 x2 cbs2 nf2 outs2 L Ci A Li Im Lg G Fr Im2 Lg2 G2 Fr2 Fi Nf Ln Am Ec Fi2 Ln2 Am2.
  destruct (C127_there w d s h ho 31%Z b p hs x L Im Lg G) as (o & Rd). destruct (C127_there w d2 s2 h2 ho2 31%Z b p2 hs2 x2 L Im2 Lg2 G2) as (o2 & Rd2).
  exact (C117_roundtrip w iv cbs nf outs cbs2 nf2 outs2 s hs x ho o _ s2 hs2 x2 ho2 o2 _ Ci Rd Fr eq_refl A Rd2 Fr2 eq_refl eq_refl Li Fi Nf Ln Am Ec Fi2 Ln2 Am2).
Qed.
Print Assumptions C127_meet.


(** ** Histories that meet the hypotheses *)
(** A key on the token is imported; then logout, a wrong PIN, login, an orderly restart, a process that just ends, a login of the security officer, another key made and destroyed, and
    again a login of the user. *)
Definition gen_tok : template := tokenly gen_tmpl.
Definition before : list op := setup ++ [OOpenSession 1 RW; OLogin H2 CKU_USER upin (Some 9%Z); OLogout H2; OLogin H2 CKU_USER upin (Some 9%Z)].
Definition onwards : list op :=
  [OLogout H2; OLogin H2 CKU_USER wrong (Some 10%Z); OLogin H2 CKU_USER upin (Some 11%Z); OFinalize; OInitialize; OOpenSession 1 RW; OLogin H2 CKU_USER upin (Some 12%Z); ORestart; OInitialize;
   OOpenSession 1 RW; OLogin H2 CKU_SO sopin (Some 13%Z); OLogout H2; OLogin H2 CKU_USER upin (Some 14%Z); OCreateObject H2 tok_aes; ODestroyObject H2 (KT + 1); OSetPIN H2 wrong pin2].
Definition lasts (t : template) : list op := before ++ OCreateObject H2 t :: onwards.
Lemma gives_gen_tok : gives 16 (repeat 7%N 16) gen_tok.
Proof.
  split; [split; [|split]|split; [|split; [|split]]].
  - cbn. repeat constructor; cbn; intuition discriminate.
  - right. right. left. reflexivity.
  - intros b [E|[E|[E|[E|[]]]]]; try discriminate E. injection E as <-. vm_compute. discriminate.
  - left. reflexivity.
  - cbn. auto 7.
  - cbn. intuition discriminate.
  - vm_compute. reflexivity.
Qed.
Lemma brought_by t kt : gives kt (repeat 7%N 16) t -> t = tok_aes \/ t = gen_tok -> brought tw nofiles (after (lasts t)) H2 KT kt (repeat 7%N 16) upin.
Proof.
  intros Gv T. set (n := numbered 1 (lasts t)).
  exists (firstn 8 n), H2, (Some 9%Z), (rnd 81), (firstn 2 (skipn 9 n)), t, (rnd 111), (skipn 12 n), (after (firstn 11 (lasts t))), (firstn 8 (outs (lasts t))), (firstn 2 (skipn 9 (outs (lasts t)))),
    (after (firstn 12 (lasts t))), (skipn 12 (outs (lasts t))).
  split; [reflexivity|]. split; [destruct T as [-> | ->]; vm_compute; reflexivity|]. split; [destruct T as [-> | ->]; vm_compute; reflexivity|].
  split; [match goal with |- context [combine ?a ?b] => assert (Q : combine a b = [(OLogout H2, OutRv CKR_OK); (OLogin H2 CKU_USER upin (Some 9%Z), OutRv CKR_OK)]) by (destruct T as [-> | ->]; vm_compute; reflexivity); rewrite Q; clear Q end;
    intros c o J; repeat (destruct J as [J|J]; [injection J as <- <-; cbn; auto|]); destruct J|].
  split; [destruct T as [-> | ->]; vm_compute; reflexivity|]. split; [exact Gv|]. split; [destruct T as [-> | ->]; vm_compute; reflexivity|]. split; [vm_compute; discriminate|].
  split; [destruct T as [-> | ->]; vm_compute; reflexivity|].
  split; [destruct T as [-> | ->]; (match goal with |- context [combine ?a ?b] => let r := eval vm_compute in (combine a b) in change (combine a b) with r end;
    intros c o J; repeat (destruct J as [J|J]; [injection J as <- <-; split; [cbn; try exact I; try (split; discriminate); try (intros; try discriminate; reflexivity)|cbn; try exact I; discriminate]|]); destruct J)|].
  cbv zeta. match goal with |- PropArchive.tidy_run _ _ ?l /\ _ => assert (Q : l = n) by reflexivity; rewrite Q; clear Q end.
  split; [apply PropArchive.tidy_runb_ok; destruct T as [-> | ->]; vm_compute; reflexivity|]. split; [vm_compute; reflexivity|]. apply bool_calls.
  destruct T as [-> | ->]; vm_compute; reflexivity.
Qed.
Definition mac_l : list op := [OCrypto H2 (KSignUpdate [1; 2]%N) 0; OLogout H2; ODestroyObject H2 KT; OCrypto H2 (KSignUpdate [3]%N) 0; OCrypto H2 (KSignFinal (Buf 64)) 0].
Definition mac_outs : list outc :=
  match run tw (after (lasts gen_tok)) (numb (OCrypto H2 (KSignInit (M_HMAC H_SHA256) MPnull 0) KT :: mac_l)) with Ok (_, _ :: os) => map snd (mine H2 (numb mac_l) os) | _ => [] end.
Definition sealed_outs : list outc :=
  match run tw (after (lasts tok_aes)) (numb (OCrypto H2 (KEncryptInit M_AES_CBC_PAD (MPraw iv16) 0) KT :: enc_l)) with Ok (_, _ :: os) => map snd (mine H2 (numb enc_l) os) | _ => [] end.
Example C127_case :
  brought tw nofiles (after (lasts gen_tok)) H2 KT 16 (repeat 7%N 16) upin /\ t_login (s_tok (after (lasts gen_tok))) = RW_USER /\ sess_get (after (lasts gen_tok)) H2 = Some (sx (lasts gen_tok) H2) /\
  skipn 12 (rvs (lasts gen_tok)) = [CKR_OK; CKR_PIN_INCORRECT; CKR_OK; CKR_OK; CKR_OK; CKR_OK; CKR_OK; CKR_OK; CKR_OK; CKR_OK; CKR_OK; CKR_OK; CKR_OK; CKR_OK; CKR_OK; CKR_PIN_INCORRECT] /\
  amid tw (after (lasts gen_tok)) H2 (KSignInit (M_HMAC H_SHA256) MPnull 0) KT (map KSignUpdate [[1; 2]; [3]]%N ++ [KSignFinal (Buf 64)]) mac_outs /\
  e_hmac_ok (w_ev tw) H_SHA256 (repeat 7%N 16) = true /\ List.length (concat (map o_out mac_outs)) = 32 /\
  brought tw nofiles (after (lasts tok_aes)) H2 KT 31 (repeat 7%N 16) upin /\ t_login (s_tok (after (lasts tok_aes))) = RW_USER /\ sess_get (after (lasts tok_aes)) H2 = Some (sx (lasts tok_aes) H2) /\
  OpsCbcProofs.fresh (ss_op (sx (lasts tok_aes) H2)) /\
  amid tw (after (lasts tok_aes)) H2 (KEncryptInit M_AES_CBC_PAD (MPraw iv16) 0) KT (enc_upds parts1 ++ [KEncryptFinal (Buf 16)]) sealed_outs /\ concat (map o_out sealed_outs) = ct21.
Proof.
  split; [apply brought_by; [exact gives_gen_tok|auto]|]. split; [vm_compute; reflexivity|]. split; [vm_compute; reflexivity|]. split; [vm_compute; reflexivity|].
  split; [apply amid_by with (l := mac_l); [vm_compute; reflexivity|apply goes_by; vm_compute; reflexivity|vm_compute; reflexivity]|].
  split; [vm_compute; reflexivity|]. split; [vm_compute; reflexivity|]. split; [apply brought_by; [apply gives_aes; auto|auto]|]. split; [vm_compute; reflexivity|]. split; [vm_compute; reflexivity|].
  split; [split; vm_compute; reflexivity|]. split; [apply amid_by with (l := enc_l); [vm_compute; reflexivity|apply goes_by; vm_compute; reflexivity|vm_compute; reflexivity]|]. vm_compute. reflexivity.
Qed.
