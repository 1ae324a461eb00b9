(** When memory is short: what success means, and what a search finds. *)
From Verif Require Import Base Codec Ops Object ObjectProofs Store Sys SysProofs SysProofs2 SysProofs3 SysProofs4 Mem MemProofs.
From Coq Require Import List.
Import ListNotations.
Open Scope nat_scope.
Open Scope list_scope.

(** An object that can be stored without allocating. *)
Definition settled (o : obj) : Prop := is_cert o = true \/ (o_keyData o <> None /\ o_type o <> CKK_DH).

Section W.
Variable w : world.
Variable a : supply.
Notation oe := (w_oe w).
Notation se := (w_se w).

Lemma mstore_obj_settled key r id o : settled o -> mstore_obj w a key r id o = store_obj se key r id o.
Proof.
  intros S. unfold mstore_obj, store_obj. destruct (obj_header o) as [h| |]; cbn [bind]; try reflexivity. cbv zeta.
  destruct S as [S | [S T]].
  - assert (C : forall o1, is_cert o1 = true -> mstore_key w a key id o1 = store_key se key id o1).
    { intros o1 E. unfold mstore_key, store_key. rewrite E. reflexivity. }
    rewrite C; [reflexivity|]. destruct (o_keyData o); [exact S|]. destruct (orb _ _); exact S.
  - destruct (o_keyData o) eqn:K; [|contradiction].
    assert (C : mstore_key w a key id o = store_key se key id o).
    { unfold mstore_key, store_key. destruct (is_cert o); [reflexivity|]. destruct (key_kind o); [|reflexivity].
      apply Z.eqb_neq in T. rewrite T. unfold mstore_kd, store_kd. rewrite K. reflexivity. }
    rewrite C. reflexivity.
Qed.
Lemma mstore_objs_settled key r l : Forall settled l -> mstore_objs w a key r l = store_objs se key r l.
Proof.
  induction 1 as [|o l S _ IH]; [reflexivity|]. cbn [mstore_objs store_objs]. rewrite mstore_obj_settled by exact S. rewrite IH. reflexivity.
Qed.
Lemma mstore_settled rnd s : Forall settled (t_objs (s_tok s)) -> mstore w a rnd s = store w rnd s.
Proof.
  intros S. unfold mstore, store, Token_Store. rewrite mstore_objs_settled by exact S.
  destruct (tok_header (s_tok s)); cbn [bind]; try reflexivity.
  destruct (store_objs _ _ _ _) as [[[c l] ws]| |]; reflexivity.
Qed.
Lemma mFinalize_settled rnd s : Forall settled (t_objs (s_tok s)) -> mFinalize w a rnd s = Finalize w rnd s.
Proof. intros S. unfold mFinalize, Finalize. rewrite mstore_settled by exact S. reflexivity. Qed.

Lemma Encode_settled key o o' : Encode se key false o = Ok (0%Z, o') -> o_type o <> CKK_DH -> settled o'.
Proof.
  unfold Encode, settled. destruct (is_cert o) eqn:C; [intros [= <-]; auto|]. intros H T.
  destruct (EncodeKey se key o) as [[c o1]| |] eqn:E; cbn [bind] in H; try discriminate. cbn [andb] in H. injection H as -> <-.
  right. split.
  - unfold EncodeKey, enc_asym in E.
    destruct (o_type o =? CKK_RSA)%Z; [|destruct (o_type o =? CKK_EC)%Z; [|destruct (o_type o =? CKK_DH)%Z; [|destruct (is_sym o)]]];
    sinv; discriminate.
  - apply EncodeKey_core in E. apply (f_equal o_type) in E. cbn in E. rewrite E. exact T.
Qed.
Lemma settled_handle o h : settled o -> settled (set_handle o h).
Proof. exact (fun x => x). Qed.
Lemma mAddToSession_ok rnd s x b o h s' : (b <> 0%N -> Forall settled (t_objs (s_tok s)) /\ (is_cert o = true \/ o_type o <> CKK_DH)) ->
  mAddToSession w a rnd s x b o = Ok (0%Z, h, s') -> AddToSession w rnd s x b o = Ok (0%Z, h, s').
Proof.
  unfold mAddToSession, AddToSession. intros S H. destruct (b =? 0)%N eqn:B; [exact H|]. apply N.eqb_neq in B. destruct (S B) as [S1 S2].
  destruct (_ <=? _)%Z; [exact H|].
  destruct (mEncode w (m_add a) (t_key (s_tok s)) false (set_onTok o (N.odd b))) as [[c o2]| |] eqn:E; cbn [bind] in H; try discriminate.
  destruct (negb (c =? 0)%Z) eqn:C; [injection H as -> <- <-; discriminate|].
  apply negb_false_iff, Z.eqb_eq in C. subst c. apply mEncode_ok in E. rewrite E. cbn [bind]. cbn [negb Z.eqb].
  rewrite mstore_settled in H; [exact H|]. cbn. constructor; [|exact S1]. apply settled_handle.
  destruct S2 as [S2|S2]; [|eapply Encode_settled; eauto].
  left. unfold Encode in E. replace (is_cert (set_onTok o (N.odd b))) with true in E by (symmetry; exact S2). injection E as <-. exact S2.
Qed.
Lemma CreateObject_type rw uid t rv o : CreateObject oe rw uid t = Ok (rv, Some o) ->
  (forall y, find_last t CKA_KEY_TYPE = Some y -> tmpl_ulong y <> Some CKK_DH) -> 
  o_type o <> CKK_DH \/ (exists y, find_last t CKA_CLASS = Some y /\ tmpl_ulong y = Some CKO_CERTIFICATE).
Proof.
  unfold CreateObject. cbv zeta. intros H T.
  destruct (find_last t CKA_CLASS) as [y|].
  - destruct (tmpl_ulong y) as [cls|] eqn:Ey; [|discriminate]. destruct (cls =? CKO_CERTIFICATE)%Z eqn:C.
    + right. apply Z.eqb_eq in C. subst cls. eauto.
    + left. destruct (find_last t CKA_KEY_TYPE) as [z|]; [|discriminate]. specialize (T z eq_refl).
      destruct (tmpl_ulong z) as [k|]; [|discriminate]. destruct (mem _ _); [|discriminate].
      apply NewObject_id in H as (_ & _ & _ & -> & _). congruence.
  - left. replace (UNAVAILABLE =? CKO_CERTIFICATE)%Z with false in H by reflexivity.
    destruct (find_last t CKA_KEY_TYPE) as [z|]; [|discriminate]. specialize (T z eq_refl).
      destruct (tmpl_ulong z) as [k|]; [|discriminate]. destruct (mem _ _); [|discriminate].
      apply NewObject_id in H as (_ & _ & _ & -> & _). congruence.
Qed.

(** ** Login *)
Lemma mdecode_all_ok key l : forall l', mdecode_all w a key l = Ok (0%Z, l') -> decode_all w key l = Ok (0%Z, l').
Proof.
  induction l as [|o r IH]; cbn [mdecode_all decode_all]; intros l' H; [exact H|].
  unfold mDecode in H. destruct (andb _ _); [cbn [bind] in H; discriminate|].
  destruct (Decode se key o) as [[c o1]| |]; cbn [bind] in *; try discriminate.
  destruct (negb (c =? 0)%Z); [exact H|].
  destruct (mdecode_all w a key r) as [[c2 r1]| |]; cbn [bind] in H; try discriminate. injection H as -> <-.
  rewrite (IH r1 eq_refl). reflexivity.
Qed.
Lemma mUserLogin_ok t p now t' : mUserLogin w a t p now = Ok (0%Z, t') -> UserLogin w t p now = Ok (0%Z, t').
Proof.
  unfold mUserLogin, UserLogin. destruct now as [n|]; [|auto]. destruct (logged_in _); [auto|].
  destruct (lock_check _ n) as [q|]; [|auto]. cbv zeta. destruct (_ =? PIN_INVALID_E)%Z; [auto|]. destruct (_ =? 0)%Z; [|auto].
  intros H. destruct (mdecode_all w a _ _) as [[c l]| |] eqn:E; cbn [bind] in H; try discriminate.
  destruct (c =? 0)%Z eqn:C; [|injection H as -> <-; discriminate]. apply Z.eqb_eq in C. subst c.
  apply mdecode_all_ok in E. rewrite E. exact H.
Qed.
Lemma login_rv_ok so c : login_rv so c = CKR_OK -> c = 0%Z.
Proof.
  unfold login_rv. destruct (c =? LOGGED_IN_E)%Z; [discriminate|]. destruct (andb _ _); [discriminate|].
  destruct (c =? PIN_NOT_SET_E)%Z; [discriminate|]. destruct (c =? 0)%Z eqn:E; [|discriminate]. intros _. apply Z.eqb_eq; exact E.
Qed.

(** ** Searching *)
Definition short (t : template) : Prop := Forall (fun x => (a_len x <= 8)%Z) t.
Lemma mmatch_short o t : short t -> forall i, mmatch_all w a i o t = match_all w o t.
Proof.
  induction 1 as [|x r L _ IH]; intros i; [reflexivity|]. cbn [mmatch_all match_all]. unfold mMatchAttr.
  apply Z.leb_le in L. rewrite L, orb_true_r. destruct (MatchAttr oe o x) as [[|]| |]; cbn [bind]; auto.
Qed.
Lemma mfind_loop_short tk t : short t -> forall l acc, mfind_loop w a tk t l acc = find_loop w tk t l acc.
Proof.
  intros S. induction l as [|o r IH]; intros acc; [reflexivity|]. cbn [mfind_loop find_loop].
  destruct (visible tk o); [|apply IH]. rewrite mmatch_short by exact S.
  destruct (match_all w o t) as [[|]| |]; cbn [bind]; auto. destruct (_ =? _)%nat; auto.
Qed.
Lemma mfind_tok_short tk t : short t -> forall n acc, mfind_tok w a n tk t acc = find_tok w n tk t acc.
Proof.
  intros S. induction n as [|n IH]; intros acc; cbn [mfind_tok find_tok]; rewrite mfind_loop_short by exact S;
  (destruct (find_loop w tk t (t_objs tk) acc) as [[acc1 [|]]| |]; cbn [bind]; auto).
  destruct (loops _); [|reflexivity]. destruct (_ =? _)%nat; auto.
Qed.
Lemma mFindInit_short s x t : short t -> mFindInit w a s x t = FindInit w s x t.
Proof.
  intros S. unfold mFindInit, FindInit, mFind, Find. rewrite mfind_loop_short by exact S.
  destruct (ss_find x); [reflexivity|]. cbv zeta.
  assert (E : forall acc, mfind_tok w a (Datatypes.S FIND_MAX) (s_tok s) t acc = find_tok w (Datatypes.S FIND_MAX) (s_tok s) t acc) by (intros; apply mfind_tok_short; exact S).
  destruct (find_last t CKA_TOKEN); [destruct (tmpl_token t); [|reflexivity]|];
  (destruct (find_loop w (s_tok s) t (ss_objs x) []) as [[acc f]| |]; cbn [bind]; [|reflexivity|reflexivity]);
  (destruct (orb _ _); [reflexivity|]); rewrite E; reflexivity.
Qed.
(** Whatever is denied, what is found matches. *)
Definition good (tk : token) (t : template) (l : list obj) (h : Z) : Prop :=
  exists o, In o l /\ o_handle o = h /\ visible tk o = true /\ match_all w o t = Ok true.
Lemma mmatch_sound o t : forall i, mmatch_all w a i o t = Ok true -> match_all w o t = Ok true.
Proof.
  induction t as [|x r IH]; intros i H; [reflexivity|]. cbn [mmatch_all match_all] in *. unfold mMatchAttr in H.
  destruct (orb _ _); [|discriminate H]. destruct (MatchAttr oe o x) as [[|]| |]; cbn [bind] in *; try discriminate. eauto.
Qed.
Lemma mfind_loop_sound tk t m l : forall acc r f, (forall o, In o l -> In o m) -> mfind_loop w a tk t l acc = Ok (r, f) ->
  Forall (good tk t m) acc -> Forall (good tk t m) r.
Proof.
  induction l as [|o l IH]; intros acc r f Sub H F; cbn [mfind_loop] in H; [injection H as <- <-; exact F|].
  assert (Sub' : forall o, In o l -> In o m) by (intros; apply Sub; right; assumption).
  destruct (visible tk o) eqn:V; [|eapply IH; eauto].
  destruct (mmatch_all w a 0 o t) as [[|]| |] eqn:M; cbn [bind] in H; try discriminate; [|eapply IH; eauto].
  destruct (_ =? _)%nat; [injection H as <- <-; exact F|]. eapply IH; eauto. constructor; [|exact F].
  exists o. split; [apply Sub; left; reflexivity|]. split; [reflexivity|]. split; [exact V|]. eapply mmatch_sound; eauto.
Qed.
Lemma mfind_tok_sound tk t m n : forall acc r, (forall o, In o (t_objs tk) -> In o m) -> mfind_tok w a n tk t acc = Ok r ->
  Forall (good tk t m) acc -> Forall (good tk t m) r.
Proof.
  induction n as [|n IH]; intros acc r Sub H F; cbn [mfind_tok] in H;
  (destruct (mfind_loop w a tk t (t_objs tk) acc) as [[acc1 f]| |] eqn:E; cbn [bind] in H; try discriminate);
  (assert (F1 : Forall (good tk t m) acc1) by (eapply mfind_loop_sound; eauto));
  (destruct f; [injection H as <-; exact F1|]); (destruct (loops _); [|injection H as <-; exact F1]); try discriminate.
  destruct (_ =? _)%nat; [discriminate|]. eapply IH; eauto.
Qed.
Lemma mFind_sound tk x b t l : mFind w a tk x b t = Ok l -> Forall (good tk t (t_objs tk ++ ss_objs x)) l.
Proof.
  unfold mFind. intros H. destruct (mfind_loop w a tk t (ss_objs x) []) as [[acc f]| |] eqn:E; cbn [bind] in H; try discriminate.
  assert (F : Forall (good tk t (t_objs tk ++ ss_objs x)) acc).
  { eapply mfind_loop_sound; [|exact E|constructor]. intros; apply in_or_app; auto. }
  destruct (orb _ _); [injection H as <-; apply Forall_rev; exact F|].
  destruct (mfind_tok _ _ _ _ _ _) as [acc1| |] eqn:E1; cbn [bind] in H; try discriminate. injection H as <-. apply Forall_rev.
  eapply mfind_tok_sound; [|exact E1|exact F]. intros; apply in_or_app; auto.
Qed.
End W.

(** ** With enough memory nothing is different *)
Section P.
Variable w : world.
Notation oe := (w_oe w).
Notation se := (w_se w).
Lemma plenty_set t : forall i o, mset_loop plenty i o t = set_loop o t.
Proof.
  induction t as [|x r IH]; intros i o; [reflexivity|]. cbn [mset_loop set_loop]. unfold mSetAttr. cbn [m_attr plenty].
  destruct (SetAttr o x) as [[c o1]| |]; cbn [bind]; auto. destruct (_ =? _)%Z; auto.
Qed.
Lemma plenty_SetAttributeValue rw o t : mSetAttributeValue w plenty rw o t = SetAttributeValue oe rw o t.
Proof.
  unfold mSetAttributeValue, SetAttributeValue. destruct (negb rw); [reflexivity|]. cbv zeta. destruct (negb _); [reflexivity|].
  destruct (params_of o); [|reflexivity]. destruct (param_vals _ _); [|reflexivity]. destruct (SetKey _ _ _) as [[c o1]| |]; cbn [bind]; auto.
  destruct (c =? MEMORY_E)%Z; [reflexivity|]. destruct (negb _); [reflexivity|]. apply plenty_set.
Qed.
Lemma plenty_CreateObject rw uid t : mCreateObject w plenty rw uid t = CreateObject oe rw uid t.
Proof.
  assert (E : forall ty cls, mNewObject w plenty rw uid ty cls t = NewObject oe rw uid ty cls t).
  { intros. unfold mNewObject, NewObject. cbn [m_new plenty]. rewrite plenty_SetAttributeValue. reflexivity. }
  unfold mCreateObject, CreateObject. cbv zeta.
  destruct (find_last t CKA_CLASS) as [x|]; [destruct (tmpl_ulong x) as [cls|]; [|reflexivity]|];
  (match goal with |- context [if ?b then (CKA_CERTIFICATE_TYPE, _) else _] => destruct b end);
  (destruct (find_last t _) as [y|]; [|reflexivity]); (destruct (tmpl_ulong y); [|reflexivity]); (destruct (mem _ _); [apply E|reflexivity]).
Qed.
Lemma plenty_EncodeKey key o : mEncodeKey w true key o = EncodeKey se key o.
Proof. unfold mEncodeKey. destruct (EncodeKey se key o) as [[c o1]| |]; reflexivity. Qed.
Lemma plenty_Encode key p o : mEncode w true key p o = Encode se key p o.
Proof. unfold mEncode, Encode. rewrite plenty_EncodeKey. reflexivity. Qed.
Lemma plenty_store_kd key f o : mstore_kd w plenty key f o = store_kd se key f o.
Proof. unfold mstore_kd, store_kd. cbn [m_enc plenty]. rewrite plenty_EncodeKey. reflexivity. Qed.
Lemma plenty_store_key key id o : mstore_key w plenty key id o = store_key se key id o.
Proof. unfold mstore_key, store_key. destruct (is_cert o); [reflexivity|]. destruct (key_kind o); [|reflexivity]. rewrite plenty_store_kd. reflexivity. Qed.
Lemma plenty_store_obj key r id o : mstore_obj w plenty key r id o = store_obj se key r id o.
Proof. unfold mstore_obj, store_obj. destruct (obj_header o); cbn [bind]; auto. cbv zeta. rewrite plenty_store_key. reflexivity. Qed.
Lemma plenty_store_objs key r l : mstore_objs w plenty key r l = store_objs se key r l.
Proof. induction l as [|o l IH]; [reflexivity|]. cbn [mstore_objs store_objs]. rewrite plenty_store_obj, IH. reflexivity. Qed.
Lemma plenty_store rnd s : mstore w plenty rnd s = store w rnd s.
Proof.
  unfold mstore, store, Token_Store. rewrite plenty_store_objs. destruct (tok_header _); cbn [bind]; auto.
  destruct (store_objs _ _ _ _) as [[[c l] ws]| |]; reflexivity.
Qed.
Lemma plenty_encode_all key l : mencode_all w plenty key l = encode_all w key l.
Proof. induction l as [|o l IH]; [reflexivity|]. cbn [mencode_all encode_all]. cbn [m_enc plenty]. rewrite plenty_Encode, IH. reflexivity. Qed.
Lemma plenty_Logout t : mLogout w plenty t = Logout w t.
Proof. unfold mLogout, Logout. rewrite plenty_encode_all. reflexivity. Qed.
Lemma plenty_decode_all key l : mdecode_all w plenty key l = decode_all w key l.
Proof. induction l as [|o l IH]; [reflexivity|]. cbn [mdecode_all decode_all]. unfold mDecode. cbn [m_der plenty negb andb]. rewrite IH. reflexivity. Qed.
Lemma plenty_match o t : forall i, mmatch_all w plenty i o t = match_all w o t.
Proof. induction t as [|x r IH]; intros i; [reflexivity|]. cbn [mmatch_all match_all]. unfold mMatchAttr. cbn [m_match plenty orb]. destruct (MatchAttr oe o x) as [[|]| |]; cbn [bind]; auto. Qed.
Lemma plenty_find_loop tk t l : forall acc, mfind_loop w plenty tk t l acc = find_loop w tk t l acc.
Proof.
  induction l as [|o r IH]; intros acc; [reflexivity|]. cbn [mfind_loop find_loop].
  destruct (visible tk o); [|apply IH]. rewrite plenty_match.
  destruct (match_all w o t) as [[|]| |]; cbn [bind]; auto. destruct (_ =? _)%nat; auto.
Qed.
Lemma plenty_find_tok tk t n : forall acc, mfind_tok w plenty n tk t acc = find_tok w n tk t acc.
Proof.
  induction n as [|n IH]; intros acc; cbn [mfind_tok find_tok]; rewrite plenty_find_loop;
  (destruct (find_loop w tk t (t_objs tk) acc) as [[acc1 [|]]| |]; cbn [bind]; auto).
  destruct (loops _); [|reflexivity]. destruct (_ =? _)%nat; auto.
Qed.
Lemma plenty_Find tk x b t : mFind w plenty tk x b t = Find w tk x b t.
Proof.
  unfold mFind, Find. rewrite plenty_find_loop. destruct (find_loop _ _ _ _ _) as [[acc f]| |]; cbn [bind]; [|reflexivity|reflexivity].
  destruct (orb _ _); [reflexivity|]. rewrite plenty_find_tok. reflexivity.
Qed.
Lemma plenty_step rnd s c : mem_step w plenty rnd s c = step w rnd s c.
Proof.
  destruct c; cbn [mem_step]; try (match goal with |- ?x = ?x => reflexivity end); cbn [step];
  [|unfold with_sess, with_slot, need_lib, need_rw, with_object..].
  { unfold mInitialize, Initialize, mToken_Load. reflexivity. }
  all: repeat match goal with |- (match ?x with _ => _ end) = (match ?x with _ => _ end) => destruct x; try (match goal with |- rv_ _ _ = _ => reflexivity end) end.
  - unfold mFinalize, Finalize. rewrite plenty_store. reflexivity.
  - unfold mOpenSession, OpenSession. reflexivity.
  - unfold mCloseSession, CloseSession. destruct (close_sess _ _); cbn [bind]; auto. destruct (existsb _ _); [reflexivity|]. cbv zeta. rewrite plenty_Logout. reflexivity.
  - unfold mLogin, Login, mUserLogin, UserLogin. cbv zeta. destruct now as [n|]; [|reflexivity]. destruct (lock_check _ _); [|reflexivity]. rewrite plenty_decode_all. reflexivity.
  - rewrite plenty_Logout. reflexivity.
  - unfold mCreate, Create. rewrite plenty_CreateObject. destruct (CreateObject _ _ _ _) as [[rv [o|]]| |]; cbn [bind]; auto. cbv zeta.
    unfold mAddObject, AddObject. destruct (tmpl_token t); [|reflexivity].
    assert (E : forall s1, mAddToSession w plenty rnd s1 s0 n o = AddToSession w rnd s1 s0 n o).
    { intros s1. unfold mAddToSession, AddToSession. destruct (_ =? _)%N; [reflexivity|]. cbv zeta. destruct (_ <=? _)%Z; [reflexivity|]. cbn [m_add plenty]. rewrite plenty_Encode.
      destruct (Encode _ _ _ _) as [[c1 o2]| |]; cbn [bind]; auto. destruct (negb _); [reflexivity|]. rewrite plenty_store. reflexivity. }
    rewrite E. reflexivity.
  - rewrite plenty_SetAttributeValue. reflexivity.
  - unfold mFindInit, FindInit. destruct (ss_find _); [reflexivity|]. cbv zeta. destruct (find_last _ _); [destruct (tmpl_token t); [|reflexivity]|]; rewrite plenty_Find; reflexivity.
Qed.
End P.
