(** Proofs about Mem.v. *)
From Verif Require Import Base Codec Ops Object ObjectProofs Store Sys SysProofs SysProofs2 SysProofs3 SysProofs4 Mem.
From Coq Require Import List.
Import ListNotations.
Open Scope nat_scope.
Open Scope list_scope.

Section W.
Variable w : world.
Variable a : supply.
Notation oe := (w_oe w).
Notation se := (w_se w).

(** ** Setting attributes *)
(** What a denied copy leaves behind. *)
Definition lost_id (o : obj) : obj := set_keyId o (SNull (s_len (o_keyId o))).
Definition lost_label (o : obj) : obj := set_label o (SNull (s_len (o_label o))).
Lemma mSetAttr_or i o x : mSetAttr a i o x = SetAttr o x \/
  (a_type x = CKA_ID /\ mSetAttr a i o x = Ok (MEMORY_E, lost_id o)) \/
  (a_type x = CKA_LABEL /\ mSetAttr a i o x = Ok (MEMORY_E, lost_label o)).
Proof.
  unfold mSetAttr. destruct (m_attr a i); [left; reflexivity|].
  destruct (a_type x =? CKA_ID)%Z eqn:E1; [right; left; apply Z.eqb_eq in E1; split; [exact E1|reflexivity]|].
  destruct (a_type x =? CKA_LABEL)%Z eqn:E2; [right; right; apply Z.eqb_eq in E2; split; [exact E2|reflexivity]|].
  left; reflexivity.
Qed.
Lemma mset_loop_or t : forall i o, mset_loop a i o t = set_loop o t \/
  exists pre x post o1 o', t = pre ++ x :: post /\ set_loop o pre = Ok (CKR_OK, o1) /\
    (a_type x = CKA_ID /\ o' = lost_id o1 \/ a_type x = CKA_LABEL /\ o' = lost_label o1) /\
    mset_loop a i o t = Ok (CKR_FUNCTION_FAILED, o').
Proof.
  induction t as [|x r IH]; intros i o; [left; reflexivity|]. cbn [mset_loop set_loop].
  destruct (mSetAttr_or i o x) as [-> | [[T ->] | [T ->]]].
  - destruct (SetAttr o x) as [[c o1]| |] eqn:E; cbn [bind]; auto.
    destruct (set_rv c =? CKR_OK)%Z eqn:C; auto.
    destruct (IH (S i) o1) as [-> | (pre & y & post & o2 & o' & -> & E1 & E2 & E3)]; [left; reflexivity|right].
    exists (x :: pre), y, post, o2, o'. split; [reflexivity|]. split; [|split; [exact E2|exact E3]].
    cbn [set_loop]. rewrite E. cbn [bind]. rewrite C. exact E1.
  - right. exists [], x, r, o, (lost_id o). repeat split; auto.
  - right. exists [], x, r, o, (lost_label o). repeat split; auto.
Qed.
Lemma mSetAttributeValue_or rw o t : mSetAttributeValue w a rw o t = SetAttributeValue oe rw o t \/
  exists pre x post o1 o', t = pre ++ x :: post /\
    (a_type x = CKA_ID /\ o' = lost_id o1 \/ a_type x = CKA_LABEL /\ o' = lost_label o1) /\
    mSetAttributeValue w a rw o t = Ok (CKR_FUNCTION_FAILED, o') /\ same_id o o1 /\
    (exists d n, set_loop (set_size (set_data o d) n) pre = Ok (CKR_OK, o1)).
Proof.
  unfold mSetAttributeValue, SetAttributeValue. destruct (negb rw); [left; reflexivity|].
  cbv zeta. destruct (negb _); [left; reflexivity|].
  destruct (params_of o); [|left; reflexivity]. destruct (param_vals t l); [|left; reflexivity].
  destruct (SetKey oe o l0) as [[c o1]| |] eqn:K; cbn [bind]; auto.
  destruct (c =? MEMORY_E)%Z; auto. destruct (negb _); auto.
  destruct (mset_loop_or t 0 o1) as [-> | (pre & y & post & o2 & o' & -> & E1 & E2 & E3)]; [left; reflexivity|right].
  exists pre, y, post, o2, o'. split; [reflexivity|]. split; [exact E2|]. split; [exact E3|].
  apply SetKey_frame in K as (d & n & ->). split.
  - apply set_loop_core in E1. unfold same_core, same_id in *. cbn in *. intuition congruence.
  - exists d, n. exact E1.
Qed.
Lemma mSetAttributeValue_ok rw o t o' : mSetAttributeValue w a rw o t = Ok (CKR_OK, o') ->
  SetAttributeValue oe rw o t = Ok (CKR_OK, o').
Proof.
  intros H. destruct (mSetAttributeValue_or rw o t) as [E | (pre & x & post & o1 & o2 & _ & _ & E & _)]; rewrite E in H; [exact H|discriminate].
Qed.
Lemma mSetAttributeValue_id rw o t rv o' : mSetAttributeValue w a rw o t = Ok (rv, o') -> same_id o o'.
Proof.
  intros H. destruct (mSetAttributeValue_or rw o t) as [E | (pre & x & post & o1 & o2 & _ & L & E & I & _)]; rewrite E in H.
  - apply SetAttributeValue_id in H. apply H.
  - injection H as <- <-. unfold same_id in *. destruct L as [[_ ->] | [_ ->]]; exact I.
Qed.
Lemma mCreateObject_some rw uid t rv o : mCreateObject w a rw uid t = Ok (rv, Some o) -> CreateObject oe rw uid t = Ok (rv, Some o).
Proof.
  assert (G : forall ty cls, mNewObject w a rw uid ty cls t = Ok (rv, Some o) -> NewObject oe rw uid ty cls t = Ok (rv, Some o)).
  { intros ty cls. unfold mNewObject, NewObject. destruct (m_new a); [|discriminate].
    destruct (mSetAttributeValue w a rw (set_class (obj_new uid ty) cls) t) as [[c o1]| |] eqn:E; cbn [bind]; try discriminate.
    intros [= -> H]. destruct (rv =? CKR_OK)%Z eqn:R; [|discriminate]. apply Z.eqb_eq in R. subst rv. injection H as ->.
    apply mSetAttributeValue_ok in E. rewrite E. cbn [bind]. reflexivity. }
  unfold mCreateObject, CreateObject. cbv zeta.
  destruct (find_last t CKA_CLASS) as [x|].
  - destruct (tmpl_ulong x) as [cls|]; [|discriminate]. destruct (cls =? CKO_CERTIFICATE)%Z;
    (destruct (find_last t _) as [y|]; [|discriminate]); (destruct (tmpl_ulong y); [|discriminate]); (destruct (mem _ _); [apply G|discriminate]).
  - destruct (UNAVAILABLE =? CKO_CERTIFICATE)%Z;
    (destruct (find_last t _) as [y|]; [|discriminate]); (destruct (tmpl_ulong y); [|discriminate]); (destruct (mem _ _); [apply G|discriminate]).
Qed.

(** ** Encoding, storing *)
Lemma mEncodeKey_or ok key o c o' : mEncodeKey w ok key o = Ok (c, o') ->
  EncodeKey se key o = Ok (c, o') \/ (ok = false /\ c = MEMORY_E /\ o' = set_store o (o_iv o) None (o_enc o)).
Proof.
  unfold mEncodeKey. destruct (EncodeKey se key o) as [[c1 o1]| |]; cbn [bind]; try discriminate.
  destruct ok; cbn [orb]; [auto|]. destruct (c1 =? 0)%Z; cbn [negb]; [intros [= <- <-]; auto|auto].
Qed.
Lemma mEncode_ok ok key p o o' : mEncode w ok key p o = Ok (0%Z, o') -> Encode se key p o = Ok (0%Z, o').
Proof.
  unfold mEncode, Encode. destruct (is_cert o); [auto|].
  destruct (mEncodeKey w ok key o) as [[c1 o1]| |] eqn:E; cbn [bind]; try discriminate. intros [= -> <-].
  apply mEncodeKey_or in E as [-> | (_ & E & _)]; [reflexivity|discriminate].
Qed.
Lemma mEncode_ident ok key p o c o' : mEncode w ok key p o = Ok (c, o') -> ident o' = ident o.
Proof.
  unfold mEncode. intros H. destruct (is_cert o) eqn:IC; [injection H as <- <-; reflexivity|].
  destruct (mEncodeKey w ok key o) as [[c1 o1]| |] eqn:E; cbn [bind] in H; try discriminate.
  apply mEncodeKey_or in E as [E | (_ & -> & ->)].
  - apply (Encode_ident w key p o c o'). unfold Encode. rewrite IC, E. exact H.
  - injection H as <- <-. rewrite andb_false_r. reflexivity.
Qed.
Lemma mEncodeKey_core ok key o c o' : mEncodeKey w ok key o = Ok (c, o') -> core_obj o' = core_obj o.
Proof. intros H. apply mEncodeKey_or in H as [H | (_ & _ & ->)]; [eapply EncodeKey_core; eauto|reflexivity]. Qed.
Lemma mstore_kd_core key f o c o' ws : mstore_kd w a key f o = Ok (c, o', ws) -> core_obj o' = core_obj o.
Proof.
  unfold mstore_kd. intros H. destruct (o_keyData o).
  - cbn [bind] in H. sinv; reflexivity.
  - sinv; eapply mEncodeKey_core; eassumption.
Qed.
Lemma mstore_key_core key id o c o' ws : mstore_key w a key id o = Ok (c, o', ws) -> core_obj o' = core_obj o.
Proof.
  unfold mstore_key. intros H. destruct (is_cert o).
  - sinv; reflexivity.
  - destruct (key_kind o); [|sinv; reflexivity].
    destruct (o_type o =? CKK_DH)%Z; sinv; try (eapply mstore_kd_core; eassumption).
Qed.
Lemma mstore_obj_core key r id o c o' ws : mstore_obj w a key r id o = Ok (c, o', ws) -> core_obj o' = core_obj o.
Proof.
  unfold mstore_obj. intros H. sinv. apply mstore_key_core in E0. rewrite E0.
  destruct (o_keyData o); [reflexivity|]. destruct (orb _ _); reflexivity.
Qed.
Lemma mstore_objs_core key r l : forall c l' ws, mstore_objs w a key r l = Ok (c, l', ws) -> map core_obj l' = map core_obj l.
Proof.
  induction l as [|o l IH]; cbn; intros c l' ws H; [sinv; reflexivity|].
  sinv.
  - cbn. f_equal. eapply mstore_obj_core; eassumption.
  - cbn. f_equal; [eapply mstore_obj_core; eassumption|eapply IH; reflexivity].
Qed.
Lemma mstore_frame rnd s c s' : mstore w a rnd s = Ok (c, s') ->
  s_count s' = s_count s /\ s_sess s' = s_sess s /\ s_uid s' = s_uid s /\
  tok0 (s_tok s') = tok0 (s_tok s) /\ map core_obj (t_objs (s_tok s')) = map core_obj (t_objs (s_tok s)).
Proof.
  unfold mstore. intros H. sinv. cbn. repeat split; auto. eapply mstore_objs_core; eassumption.
Qed.
Lemma mstore_inv rnd s c s' : mstore w a rnd s = Ok (c, s') -> inv s -> inv s'.
Proof.
  intros H I. pose proof (mstore_frame _ _ _ _ H) as (E1 & E2 & E3 & E4 & E5).
  destruct s' as [k b t d l u]. cbn in *. subst.
  apply (inv_tok s t (mkSys 0 [] t d l 0)); auto.
  - left. apply core_uids; exact E5.
  - apply tok0_eq in E4 as (_ & _ & _ & _ & _ & _ & E4). rewrite E4. apply I.
  - apply tok0_eq in E4 as (_ & _ & _ & _ & _ & _ & E4). rewrite E4. apply I.
Qed.

(** ** Adding *)
Lemma mAddToSession_inv rnd s x b o c h s' : inv s -> In x (s_sess s) -> is_rw x = true ->
  fresh_obj s o -> made w o -> mAddToSession w a rnd s x b o = Ok (c, h, s') ->
  inv s' /\ (c <> 0%Z -> s' = s).
Proof.
  unfold mAddToSession. intros I X R [F1 F2] M H. destruct (b =? 0)%N eqn:B.
  - destruct (SESS_OBJ_MAX <=? _)%Z eqn:L; sinv; [auto|]. apply N.eqb_eq in B. subst b.
    split; [|intros K; contradiction].
    eapply (prim_inv w (OCreateObject (ss_h x) []) (ss_h x)); [apply pr_adds; auto; [lia|]|exact I]. exists o. split; [exact M|reflexivity].
  - destruct (TOK_OBJ_MAX <=? _)%Z eqn:L; [sinv; auto|]. apply N.eqb_neq in B.
    destruct (mEncode w (m_add a) (t_key (s_tok s)) false _) as [[c2 o2]| |] eqn:E; cbn [bind] in H; try discriminate.
    destruct (negb (c2 =? 0)%Z) eqn:C2; [sinv; auto|].
    destruct (mstore w a rnd _) as [[c3 s3]| |] eqn:S; cbn [bind] in H; try discriminate. sinv.
    assert (c2 = 0%Z) by (apply negb_false_iff, Z.eqb_eq in C2; exact C2). subst c2. clear C2.
    apply mEncode_ok in E.
    pose proof E as E0. apply Encode_id in E as (E1 & E2 & _). cbn in E1, E2.
    split; [|intros K; contradiction]. eapply mstore_inv; [exact S|].
    eapply (prim_inv w (OCreateObject (ss_h x) []) (ss_h x)); [|exact I].
    apply (pr_addt w _ _ s x b (set_handle o2 (next_handle (t_objs (s_tok s)) b))); cbn; auto; try lia; try congruence.
    exists o, o2. split; [exact M|]. split; [exact E0|reflexivity].
Qed.
Lemma mCreate_inv rnd s x t s' o : inv s -> In x (s_sess s) -> mCreate w a rnd s x t = Ok (s', o) ->
  inv s' /\ (out_rv o <> CKR_OK -> s' = bump s 1).
Proof.
  unfold mCreate. intros I X H.
  assert (I1 : inv (bump s 1)) by (eapply (prim_inv w (OCreateObject (ss_h x) []) (ss_h x)); [apply pr_bump|exact I]).
  destruct (mCreateObject w a (is_rw x) (s_uid s) t) as [[rv [ob|]]| |] eqn:E; cbn [bind] in H; try discriminate.
  - apply mCreateObject_some in E.
    pose proof (md_create w _ _ _ _ _ E) as M. apply CreateObject_id in E as (R & U & _).
    destruct (mAddObject w a rnd (bump s 1) x t ob) as [[[c1 h1] s1]| |] eqn:A; cbn [bind] in H; try discriminate.
    injection H as <- <-. unfold mAddObject in A.
    destruct (tmpl_token t); [|injection A as <- <- <-; auto].
    destruct (mAddToSession w a rnd (bump s 1) x n ob) as [[[c2 h2] s2]| |] eqn:A2; cbn [bind] in A; try discriminate.
    injection A as <- <- <-.
    apply mAddToSession_inv in A2 as [A2 A3]; auto; [|apply (fresh_bump (OCreateObject (ss_h x) []) eq_refl s 1 0); auto; [apply I|cbn; lia]].
    split; [exact A2|]. cbn [out_rv]. intros K. apply A3. intros ->. apply K. reflexivity.
  - unfold rv_ in H. injection H as <- <-. auto.
Qed.

(** ** Login, logout *)
Lemma mDecode_ident key o c o' : mDecode w a key o = Ok (c, o') -> ident o' = ident o.
Proof.
  unfold mDecode. destruct (andb _ _); [intros [= <- <-]; reflexivity|]. intros H. apply Decode_ident in H. apply H.
Qed.
Lemma mdecode_all_ident key l : forall c l', mdecode_all w a key l = Ok (c, l') -> map ident l' = map ident l.
Proof.
  induction l as [|o r IH]; cbn; intros c l' H; [sinv; auto|].
  destruct (mDecode w a key o) as [[c1 o1]| |] eqn:D; cbn [bind] in H; try discriminate.
  apply mDecode_ident in D.
  destruct (negb _); [sinv; cbn; f_equal; auto|].
  destruct (mdecode_all w a key r) as [[c2 r1]| |]; cbn [bind] in H; try discriminate. sinv.
  cbn; f_equal; eauto.
Qed.
Lemma mencode_all_ident key l : forall l', mencode_all w a key l = Ok l' -> map ident l' = map ident l.
Proof.
  induction l as [|o r IH]; cbn; intros l' H; [sinv; auto|].
  destruct (mEncode w _ key true o) as [[c1 o1]| |] eqn:D; cbn [bind] in H; try discriminate.
  apply mEncode_ident in D.
  destruct (negb _); [sinv; cbn; f_equal; auto|].
  destruct (mencode_all w a key r) as [r1| |]; cbn [bind] in H; try discriminate. sinv.
  cbn. f_equal; auto.
Qed.
Lemma mLogout_inv s t : inv s -> mLogout w a (s_tok s) = Ok t -> inv (set_tok s t).
Proof.
  intros I L.
  assert (K : t_login t = RW_PUBLIC /\ uids (t_objs t) = uids (t_objs (s_tok s))).
  { unfold mLogout in L. destruct (orb _ _).
    - destruct (mencode_all _ _ _ _) as [l| |] eqn:E; cbn [bind] in L; try discriminate. injection L as <-.
      split; [reflexivity|]. apply ident_uids. cbn. eapply mencode_all_ident; eauto.
    - injection L as <-. split; reflexivity. }
  destruct K as [K1 K2]. apply (inv_tok s t s); auto; rewrite K1; [cbn; auto|discriminate].
Qed.
Lemma mUserLogin_inv s p now c t : inv s -> mUserLogin w a (s_tok s) p now = Ok (c, t) -> inv (set_tok s t).
Proof.
  intros I H.
  assert (K : uids (t_objs t) = uids (t_objs (s_tok s)) /\ (t_login t = t_login (s_tok s) \/ t_login t = RW_USER)).
  { unfold mUserLogin in H. destruct now as [n|]; [|injection H as <- <-; auto].
    destruct (logged_in _); [injection H as <- <-; auto|].
    destruct (lock_check _ n) as [q|]; [|injection H as <- <-; auto]. cbv zeta in H.
    destruct (_ =? PIN_INVALID_E)%Z; [injection H as <- <-; auto|].
    destruct (_ =? 0)%Z; [|injection H as <- <-; auto].
    destruct (mdecode_all _ _ _ _) as [[c2 l]| |] eqn:E; cbn [bind] in H; try discriminate.
    apply mdecode_all_ident in E. destruct (c2 =? 0)%Z; injection H as <- <-; cbn; split; auto; apply ident_uids; exact E. }
  destruct K as [K1 K2]. apply (inv_tok s t s); auto.
  - destruct K2 as [-> | ->]; [apply I|cbn; auto].
  - destruct K2 as [-> | ->]; [apply I|discriminate].
Qed.

Lemma mToken_Load_ok d uid t : mToken_Load w a d uid = Ok t ->
  t_login t = RW_PUBLIC /\ uids (t_objs t) = seq uid (length (t_objs t)).
Proof.
  unfold mToken_Load. destruct (m_load a); [apply Token_Load_ok|].
  destruct (d (F_TOKEN, 0)) as [f|]; [|intros [= <-]; auto].
  destruct (read_tok_file f) as [[tf g]| |]; try apply Token_Load_ok.
  destruct (tf_types tf); [apply Token_Load_ok|intros [= <-]; auto].
Qed.
Lemma mOpenSession_or s fl : mOpenSession a s fl = OpenSession s fl \/
  (m_sess a = false /\ first_unused (s_sess s) = None /\ mOpenSession a s fl = Ok (s, OutRv CKR_OK)).
Proof.
  unfold mOpenSession, OpenSession. destruct (_ =? 0)%Z; auto. cbv zeta. destruct (andb _ _); auto.
  destruct (first_unused (s_sess s)) as [x|]; auto.
  destruct (match s_sess s with [] => false | x :: _ => _ end); auto. destruct (m_sess a); auto.
Qed.

(** ** The invariant *)
Lemma mem_step_inv rnd s c s' o : inv s -> mem_step w a rnd s c = Ok (s', o) -> inv s'.
Proof.
  intros I H. destruct c; cbn [mem_step] in H;
  try (match type of H with step _ _ _ _ = _ => apply (step_inv w _ _ _ _ _ I H) end); unfold with_slot, with_sess, need_lib in H.
  - (* Initialize *) unfold mInitialize in H. destruct (s_count s =? 0)%Z eqn:C0.
    + destruct (mToken_Load _ _ _ _) as [t| |] eqn:L; cbn [bind] in H; try discriminate. sinv.
      apply mToken_Load_ok in L as [L1 L2]. split; [|split; [cbn; lia|]].
      * intros _. cbn. split; [cbn; auto|]. split; [unfold zlen; cbn; lia|]. repeat constructor; cbn; auto.
      * split; [|split; cbn; rewrite L1; [auto|discriminate]]. unfold uid_ok, live. cbn. rewrite app_nil_r, L2. split.
        -- apply seq_NoDup.
        -- apply Forall_forall. intros u J. apply in_seq in J. lia.
    + sinv. apply Z.eqb_neq in C0. destruct I as (A & B & C & D). split; [|split; [|split]]; cbn; auto.
      * intros L. apply A. lia.
      * intros L. apply B. lia.
  - (* Finalize *) unfold mFinalize in H. destruct (s_count s - 1 =? 0)%Z eqn:C0.
    + sinv. split; [cbn; lia|]. split; [reflexivity|]. split; [split; constructor|]. split; cbn; auto.
    + sinv. apply Z.eqb_neq in C0. destruct I as (A & B & C & D). split; [|split; [|split]]; cbn; auto.
      * intros L. apply A. lia.
      * intros L. apply B. lia.
  - (* OpenSession *) destruct (0 <? s_count s)%Z eqn:Cn; [|sinv; exact I]. destruct (slot_ok slot); [|sinv; exact I].
    apply Z.ltb_lt in Cn. destruct (mOpenSession_or s flags) as [E | (_ & _ & E)]; rewrite E in H; [|injection H as <- <-; exact I].
    apply OpenSession_ok in H as [[-> _] | (l & x & -> & _ & ?)]; auto.
    apply open_inv; try tauto.
  - (* CloseSession *) destruct (0 <? s_count s)%Z eqn:Cn; [|sinv; exact I]. destruct (sess_get s h) as [x|] eqn:G; [|sinv; exact I].
    apply Z.ltb_lt in Cn. apply sess_get_in in G as (X & Hx & Ux & _).
    unfold mCloseSession in H. destruct (close_sess _ _) as [l| |] eqn:CL; cbn [bind] in H; try discriminate.
    pose proof (close_sess_sub _ _ _ (proj1 I Cn) X CL) as Sb.
    apply close_sess_ok in CL as (K1 & K2 & K3); [|apply I; exact Cn|exact X].
    assert (I1 : inv (set_sess s l)).
    { apply sess_inv_step; auto. intros y J. destruct (K2 y J) as [[? _] | (_ & ? & _)]; auto. }
    destruct (existsb in_use l); [sinv; exact I1|].
    destruct (mLogout _ _ _) as [t| |] eqn:L; cbn [bind] in H; try discriminate. sinv. eapply (mLogout_inv (set_sess s l)); eauto.
  - (* Login *) destruct (0 <? _)%Z eqn:Cn; [|sinv; exact I]. destruct (sess_get s h) as [x|] eqn:G; [|sinv; exact I].
    unfold mLogin in H. destruct (negb _) eqn:NP; [sinv; exact I|].
    destruct (ut =? CKU_SO)%Z eqn:U0; [|destruct (ut =? CKU_USER)%Z; [|destruct (ut =? CKU_CONTEXT_SPECIFIC)%Z; sinv; exact I]].
    + apply (step_inv w rnd s (OLogin h ut pin now) s' o I). cbn [step]. unfold with_sess, need_lib. rewrite Cn, G.
      unfold Login. rewrite NP, U0. exact H.
    + destruct (mUserLogin _ _ _ _ _) as [[c t]| |] eqn:L; cbn [bind] in H; try discriminate. sinv.
      eapply mUserLogin_inv; eauto.
  - destruct (0 <? _)%Z; [|sinv; exact I]. destruct (sess_get s h); [|sinv; exact I].
    destruct (mLogout _ _ _) as [t| |] eqn:L; cbn [bind] in H; try discriminate. sinv. eapply mLogout_inv; eauto.
  - (* CreateObject *) destruct (0 <? _)%Z; [|sinv; exact I]. destruct (sess_get s h) as [x|] eqn:G; [|sinv; exact I].
    apply sess_get_in in G as (X & _). unfold need_rw in H. destruct (is_rw x); [|sinv; exact I].
    eapply mCreate_inv; eauto.
  - (* SetAttributeValue *) destruct (0 <? _)%Z; [|sinv; exact I]. destruct (sess_get s h) as [x|] eqn:G; [|sinv; exact I].
    unfold need_rw in H. destruct (is_rw x); [|sinv; exact I]. unfold with_object in H.
    destruct (find_obj s x ho) as [ob|]; [|sinv; exact I].
    destruct (mSetAttributeValue _ _ _ _ _) as [[rv o1]| |] eqn:L; cbn [bind] in H; try discriminate. sinv.
    destruct I as (A & B & C & D). pose proof (put_obj_quiet s o1) as Q. split; [|split; [|split]].
    + intros Cn. eapply sess_ok_quiet; [exact Q| |apply A; exact Cn].
      intros y J. cbn in J. apply in_map_iff in J as (z & <- & J).
      destruct (A Cn) as (_ & _ & F). rewrite Forall_forall in F. intros R. apply F in J as [_ J].
      cbn. rewrite (J R). reflexivity.
    + intros Cn. cbn. rewrite (B Cn). reflexivity.
    + apply (uid_ok_perm s); [rewrite live_put_obj; apply Permutation.Permutation_refl|cbn; lia|exact C].
    + eapply quiet_login; eauto.
  - (* FindObjectsInit *) destruct (0 <? _)%Z; [|sinv; exact I]. destruct (sess_get s h) as [x|] eqn:G; [|sinv; exact I].
    apply sess_get_in in G as (X & Hx & Ux & _).
    assert (P : forall b f n, inv (put_sess s (set_find x b f n))).
    { intros b f n. eapply prims_inv; [apply (put_find_prims w (OFindObjectsInit h t) s x b f n); auto|exact I]. }
    unfold mFindInit in H. destruct (ss_find x); [sinv; exact I|]. cbv zeta in H.
    destruct (find_last _ _); [destruct (tmpl_token t)|]; try (destruct (mFind _ _ _ _ _ _); cbn [bind] in H; try discriminate); sinv; apply P.
Qed.
End W.

Lemma mreach_inv w d s : mreach w (sys0 d) s -> inv s.
Proof. induction 1; [apply inv0|]. eapply mem_step_inv; eauto. Qed.
