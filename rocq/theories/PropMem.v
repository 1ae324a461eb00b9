(** C106: a call that runs out of memory fails and leaves everything usable. *)
From Verif Require Import Base Ops Object Store Sys SysProofs SysProofs2 SysProofs3 SysProofs4 ToyEnv ToySys Mem MemProofs MemProofs2 PropObject PropStore PropKeys PropWipe PropImport.
From Coq Require Import List Lia ZArith.
Import ListNotations.
Open Scope list_scope.

(** ** Specification *)
(** [step] is the library with enough memory. A call that answers CKR_OK did what it
    does with enough memory. *)
Definition C106_success (P : op -> Prop) (w : world) : Prop := forall d s a rnd c s' o, mreach w (sys0 d) s -> P c ->
  mem_step w a rnd s c = Ok (s', o) -> out_rv o = CKR_OK -> step w rnd s c = Ok (s', o).
Definition C106_success_claim (w : world) : Prop := C106_success (fun _ => True) w.
(** A call that answers otherwise does so with enough memory too, or changes neither
    sessions, nor the token, nor a file. *)
Definition alike (s s' : sys) : Prop := s_count s' = s_count s /\ s_sess s' = s_sess s /\ s_tok s' = s_tok s /\ forall f, s_fs s' f = s_fs s f.
Definition C106_failure (P : op -> Prop) (w : world) : Prop := forall d s a rnd c s' o, mreach w (sys0 d) s -> P c ->
  mem_step w a rnd s c = Ok (s', o) -> out_rv o <> CKR_OK -> step w rnd s c = Ok (s', o) \/ alike s s'.
Definition C106_failure_claim (w : world) : Prop := C106_failure (fun _ => True) w.
(** A call that fails leaves readable what was readable: if C_GetAttributeValue was
    defined before, it is afterwards. *)
Definition C106_defined_claim (w : world) : Prop := forall d s a rnd c s' o, mreach w (sys0 d) s -> mem_step w a rnd s c = Ok (s', o) -> out_rv o <> CKR_OK ->
  forall h ho t, (forall e, step w rnd s (OGetAttributeValue h ho t) <> Undef e) -> forall e, step w rnd s' (OGetAttributeValue h ho t) <> Undef e.
(** What is on the disk after C_Finalize does not depend on the memory there was. *)
Definition C106_stored_claim (w : world) : Prop := forall d s a rnd s' o s1 o1, mreach w (sys0 d) s ->
  mem_step w a rnd s OFinalize = Ok (s', o) -> step w rnd s OFinalize = Ok (s1, o1) -> forall f, s_fs s' f = s_fs s1 f.

(** ** With enough memory it is the model of the other files *)
Theorem C106_plenty w rnd s c : mem_step w plenty rnd s c = step w rnd s c.
Proof. apply plenty_step. Qed.
Print Assumptions C106_plenty.
Lemma reach_mreach w d s : reach w (sys0 d) s -> mreach w (sys0 d) s.
Proof. induction 1 as [|s rnd c s' o R IH St]; [constructor|]. eapply (mreach_step w _ s plenty rnd c); [exact IH|]. rewrite C106_plenty. exact St. Qed.

(** ** Success *)
(** When an answer CKR_OK can be relied on. *)
Definition told (s : sys) (c : op) (o : out) : Prop :=
  match c with
  | OInitialize => s_count s <> 0%Z \/ s_fs s (F_TOKEN, 0) = None
  | OFinalize => (s_count s <> 1)%Z \/ Forall settled (t_objs (s_tok s))
  | OOpenSession _ _ => exists h, o = OutH CKR_OK h
  | OCloseSession _ | OLogout _ => t_login (s_tok s) <> RO_USER /\ t_login (s_tok s) <> RW_USER
  | OCreateObject _ t => tmpl_token t = Some 0%N \/
      (Forall settled (t_objs (s_tok s)) /\ (forall y, find_last t CKA_KEY_TYPE = Some y \/ find_last t CKA_CERTIFICATE_TYPE = Some y -> tmpl_ulong y <> Some CKK_DH))
  | OFindObjectsInit _ t => short t
  | _ => True
  end.

Lemma create_type w rw uid t rv o : CreateObject (w_oe w) rw uid t = Ok (rv, Some o) ->
  (forall y, find_last t CKA_KEY_TYPE = Some y \/ find_last t CKA_CERTIFICATE_TYPE = Some y -> tmpl_ulong y <> Some CKK_DH) -> o_type o <> CKK_DH.
Proof.
  intros H T.
  assert (B : forall ty good cls, (ty = CKA_KEY_TYPE \/ ty = CKA_CERTIFICATE_TYPE) ->
    match find_last t ty with None => Ok (CKR_TEMPLATE_INCOMPLETE, None) | Some x => match tmpl_ulong x with None => Ok (CKR_ATTRIBUTE_VALUE_INVALID, None)
      | Some k => if mem k good then NewObject (w_oe w) rw uid k cls t else Ok (CKR_ATTRIBUTE_VALUE_INVALID, None) end end = Ok (rv, Some o) -> o_type o <> CKK_DH).
  { intros ty good cls Ty E. destruct (find_last t ty) as [x|] eqn:F; [|discriminate].
    assert (T1 : tmpl_ulong x <> Some CKK_DH) by (apply T; destruct Ty as [<-|<-]; auto).
    destruct (tmpl_ulong x) as [k|]; [|discriminate]. destruct (mem k good); [|discriminate].
    apply NewObject_id in E as (_ & _ & _ & -> & _). congruence. }
  unfold CreateObject in H. cbv zeta in H. destruct (find_last t CKA_CLASS) as [y|].
  - destruct (tmpl_ulong y) as [cls|]; [|discriminate]. destruct (cls =? CKO_CERTIFICATE)%Z; (eapply B; [|exact H]; auto).
  - replace (UNAVAILABLE =? CKO_CERTIFICATE)%Z with false in H by reflexivity. eapply B; [|exact H]; auto.
Qed.
Lemma mCreateObject_none w a rw uid t : mCreateObject w a rw uid t <> Ok (CKR_OK, None).
Proof.
  assert (N1 : forall k cls, mNewObject w a rw uid k cls t <> Ok (CKR_OK, None)).
  { intros k cls. unfold mNewObject. destruct (m_new a); [|discriminate]. destruct (mSetAttributeValue w a rw (set_class (obj_new uid k) cls) t) as [[c o]| |]; cbn [bind]; try discriminate.
    destruct (c =? CKR_OK)%Z eqn:E; [discriminate|]. intros [= ->]. discriminate. }
  unfold mCreateObject. cbv zeta. destruct (find_last t CKA_CLASS) as [y|]; [destruct (tmpl_ulong y) as [cls|]; [|discriminate]|].
  - destruct (cls =? CKO_CERTIFICATE)%Z; (destruct (find_last t _) as [x|]; [|discriminate]; destruct (tmpl_ulong x) as [k|]; [|discriminate]; destruct (mem k _); [apply N1|discriminate]).
  - replace (UNAVAILABLE =? CKO_CERTIFICATE)%Z with false by reflexivity. destruct (find_last t _) as [x|]; [|discriminate]; destruct (tmpl_ulong x) as [k|]; [|discriminate]; destruct (mem k _); [apply N1|discriminate].
Qed.
Lemma mLogout_public w a t : t_login t <> RO_USER -> t_login t <> RW_USER -> mLogout w a t = Logout w t.
Proof.
  intros A B. unfold mLogout, Logout. apply Z.eqb_neq in A, B. rewrite A, B. reflexivity.
Qed.

(** Success is success: always for C_Login, C_SetAttributeValue and session objects;
    for searches by values of at most 8 bytes; for C_OpenSession when there is a
    handle; for a logout or the closing of a session when the user was not logged in;
    for calls that store when every object has its encoded form and none is a DH key;
    for C_Initialize when there is nothing to read. Missing: the others, and they
    are false ([C106_success_refuted]). *)
Theorem C106_partial w a rnd s c s' o : mem_step w a rnd s c = Ok (s', o) -> out_rv o = CKR_OK -> told s c o -> step w rnd s c = Ok (s', o).
Proof.
  intros H K T. destruct c; cbn [mem_step told] in H, T;
  try (match type of H with step _ _ _ _ = _ => exact H end); cbn [step]; unfold with_slot, with_sess, need_rw, with_object, need_lib in *.
  - (* Initialize *) unfold mInitialize, Initialize in *. destruct (s_count s =? 0)%Z eqn:C0; [|exact H].
    destruct T as [T|T]; [apply Z.eqb_eq in C0; contradiction|]. unfold mToken_Load in H. destruct (m_load a); [exact H|].
    rewrite T in H. unfold Token_Load. rewrite T. exact H.
  - (* Finalize *) destruct T as [T|T].
    + unfold mFinalize, Finalize in *. destruct (s_count s - 1 =? 0)%Z eqn:C0; [apply Z.eqb_eq in C0; lia|exact H].
    + rewrite mFinalize_settled in H by exact T. exact H.
  - (* OpenSession *) destruct T as [h ->]. destruct (0 <? s_count s)%Z; [|exact H]. destruct (slot_ok slot); [|exact H].
    destruct (mOpenSession_or a s flags) as [E | (_ & _ & E)]; rewrite E in H; [exact H|discriminate].
  - (* CloseSession *) destruct (0 <? s_count s)%Z; [|exact H]. destruct (sess_get s h) as [x|]; [|exact H].
    unfold mCloseSession, CloseSession in *. destruct (close_sess (s_sess s) x) as [l| |]; cbn [bind] in *; try discriminate. cbv zeta in *.
    destruct (existsb in_use l); [exact H|]. rewrite mLogout_public in H by apply T. exact H.
  - (* Login *) destruct (0 <? s_count s)%Z; [|exact H]. destruct (sess_get s h) as [x|]; [|exact H].
    unfold mLogin, Login in *. destruct (negb _); [exact H|]. destruct (ut =? CKU_SO)%Z; [exact H|]. destruct (ut =? CKU_USER)%Z; [|exact H].
    destruct (mUserLogin w a (s_tok s) pin now) as [[c t]| |] eqn:E; cbn [bind] in H; try discriminate.
    unfold rv_ in H. injection H as <- <-. cbn [out_rv] in K. apply login_rv_ok in K. subst c. apply mUserLogin_ok in E. rewrite E. reflexivity.
  - (* Logout *) destruct (0 <? s_count s)%Z; [|exact H]. destruct (sess_get s h) as [x|]; [|exact H].
    rewrite mLogout_public in H by apply T. exact H.
  - (* CreateObject *) destruct (0 <? s_count s)%Z; [|exact H]. destruct (sess_get s h) as [x|]; [|exact H]. destruct (is_rw x) eqn:RWx; [|exact H].
    unfold mCreate, Create in *. rewrite RWx in *. destruct (mCreateObject w a true (s_uid s) t) as [[rv [ob|]]| |] eqn:E; cbn [bind] in H; try discriminate.
    + apply mCreateObject_some in E. rewrite E. cbn [bind]. unfold mAddObject, AddObject in *. destruct (tmpl_token t) as [b|]; [|exact H].
      destruct (mAddToSession w a rnd (bump s 1) x b ob) as [[[c2 h2] s2]| |] eqn:E2; cbn [bind] in H; try discriminate.
      injection H as <- <-. cbn [out_rv] in K. destruct (c2 =? 0)%Z eqn:C2; [|discriminate]. apply Z.eqb_eq in C2. subst c2.
      apply mAddToSession_ok in E2; [rewrite E2; reflexivity|]. intros B. destruct T as [[= ->] | [T1 T2]]; [contradiction|]. split; [exact T1|].
      right. eapply create_type; eauto.
    + unfold rv_ in H. injection H as <- <-. cbn [out_rv] in K. subst rv. apply mCreateObject_none in E. contradiction.
  - (* SetAttributeValue *) destruct (0 <? s_count s)%Z; [|exact H]. destruct (sess_get s h) as [x|]; [|exact H]. destruct (is_rw x) eqn:RWx; [|exact H].
    destruct (find_obj s x ho) as [ob|]; [|exact H].
    destruct (mSetAttributeValue w a true ob t) as [[rv o1]| |] eqn:E; cbn [bind] in H; try discriminate.
    unfold rv_ in H. injection H as <- <-. cbn [out_rv] in K. subst rv. apply mSetAttributeValue_ok in E. rewrite E. reflexivity.
  - (* FindObjectsInit *) destruct (0 <? s_count s)%Z; [|exact H]. destruct (sess_get s h) as [x|]; [|exact H]. rewrite mFindInit_short in H by exact T. exact H.
Qed.
Print Assumptions C106_partial.

(** ** Failure *)
(** A call that fails for want of memory changes nothing, C_SetAttributeValue and
    C_Login of the user excepted. *)
Theorem C106_failure_partial w : C106_failure (fun c => match c with OSetAttributeValue _ _ _ | OLogin _ _ _ _ => False | _ => True end) w.
Proof.
  intros d s a rnd c s' o R P H K. apply mreach_inv in R. destruct c; cbn [mem_step] in H, P; try contradiction;
  try (match type of H with step _ _ _ _ = _ => left; exact H end); [right|right|right|right|right|right|]; unfold with_slot, with_sess, need_rw, need_lib in *;
  (assert (Same : forall v, rv_ s v = Ok (s', o) -> alike s s') by (unfold rv_; intros v [= <- <-]; repeat split; reflexivity)).
  - unfold mInitialize in H. destruct (_ =? 0)%Z; [destruct (mToken_Load w a (s_fs s) (s_uid s)) as [t| |]; cbn [bind] in H; try discriminate|]; injection H as <- <-; contradiction.
  - unfold mFinalize in H. destruct (_ =? 0)%Z; [|injection H as <- <-; contradiction]. sinv; contradiction.
  - destruct (0 <? s_count s)%Z eqn:Cn; [|eauto]. apply Z.ltb_lt in Cn. destruct (slot_ok slot); [|eauto]. destruct (mOpenSession_or a s flags) as [E | (_ & _ & E)]; rewrite E in H; [|injection H as <- <-; contradiction].
    apply (OpenSession_ok s flags s' o R Cn) in H as [[-> _] | (l & x & -> & V & _)]; [repeat split; reflexivity|]. clear -K V. subst o. contradiction.
  - destruct (0 <? s_count s)%Z; [|eauto]. destruct (sess_get s h) as [x|]; [|eauto]. unfold mCloseSession in H.
    destruct (close_sess (s_sess s) x) as [l| |]; cbn [bind] in H; try discriminate. cbv zeta in H. destruct (existsb in_use l); [injection H as <- <-; contradiction|].
    destruct (mLogout w a _) as [t| |]; cbn [bind] in H; try discriminate. injection H as <- <-; contradiction.
  - destruct (0 <? s_count s)%Z; [|eauto]. destruct (sess_get s h) as [x|]; [|eauto].
    destruct (mLogout w a _) as [t| |]; cbn [bind] in H; try discriminate. injection H as <- <-; contradiction.
  - destruct (0 <? s_count s)%Z; [|eauto]. destruct (sess_get s h) as [x|] eqn:G; [|eauto]. destruct (is_rw x); [|eauto].
    apply sess_get_in in G as (X & _). apply mCreate_inv in H as [_ H]; [|exact R|exact X]. rewrite (H K). repeat split; reflexivity.
  - cbn [step]. unfold with_sess, need_lib. destruct (0 <? s_count s)%Z; [|eauto]. destruct (sess_get s h) as [x|]; [|eauto].
    unfold mFindInit, FindInit in *. destruct (ss_find x); [eauto|]. cbv zeta in *. 
    assert (Go : forall b, (l <- mFind w a (s_tok s) x b t ;; rv_ (put_sess s (set_find x true l 0)) CKR_OK) = Ok (s', o) -> False).
    { intros b E. destruct (mFind w a (s_tok s) x b t) as [l| |]; cbn [bind] in E; try discriminate. injection E as <- <-. contradiction. }
    destruct (find_last t CKA_TOKEN); [|destruct (Go _ H)]. destruct (tmpl_token t); [destruct (Go _ H)|]. left. exact H.
Qed.
Print Assumptions C106_failure_partial.

(** When C_SetAttributeValue fails for want of memory, it is the label or the key
    identifier that is lost: its length stays, its bytes are gone (NULL). Everything
    before it in the template is applied. No other object and no file changes. *)
Theorem C106_attr_partial w a rnd s h ho t s' o : mem_step w a rnd s (OSetAttributeValue h ho t) = Ok (s', o) ->
  step w rnd s (OSetAttributeValue h ho t) = Ok (s', o) \/
  exists x ob pre y post o1 d n, sess_get s h = Some x /\ find_obj s x ho = Some ob /\ t = pre ++ y :: post /\
    set_loop (set_size (set_data ob d) n) pre = Ok (CKR_OK, o1) /\ o = OutRv CKR_FUNCTION_FAILED /\
    (a_type y = CKA_ID /\ s' = put_obj s (set_keyId o1 (SNull (s_len (o_keyId o1)))) \/
     a_type y = CKA_LABEL /\ s' = put_obj s (set_label o1 (SNull (s_len (o_label o1))))).
Proof.
  cbn [mem_step step]. unfold with_sess, need_rw, with_object, need_lib. intros H. destruct (0 <? s_count s)%Z; [|auto]. destruct (sess_get s h) as [x|]; [|auto].
  destruct (is_rw x); [|auto]. destruct (find_obj s x ho) as [ob|] eqn:F; [|auto].
  destruct (mSetAttributeValue_or w a true ob t) as [E | (pre & y & post & o1 & o2 & T & L & E & _ & d & n & S1)]; rewrite E in H; [auto|].
  cbn [bind] in H. unfold rv_ in H. injection H as <- <-. right. exists x, ob, pre, y, post, o1, d, n. split; [reflexivity|]. split; [exact F|]. split; [exact T|]. split; [exact S1|]. split; [reflexivity|].
  destruct L as [[L ->] | [L ->]]; auto.
Qed.
Print Assumptions C106_attr_partial.

(** A login that fails for want of memory logs nobody in and changes no file, no
    session, no handle and no attribute; only the key data in memory may be other. *)
Theorem C106_login_partial w a rnd s h ut pin now s' o : mem_step w a rnd s (OLogin h ut pin now) = Ok (s', o) -> out_rv o <> CKR_OK ->
  step w rnd s (OLogin h ut pin now) = Ok (s', o) \/
  (t_login (s_tok s') = t_login (s_tok s) /\ s_sess s' = s_sess s /\ (forall f, s_fs s' f = s_fs s f) /\
   map ident (t_objs (s_tok s')) = map ident (t_objs (s_tok s))).
Proof.
  cbn [mem_step step]. unfold with_sess, need_lib. intros H K. destruct (0 <? s_count s)%Z; [|auto]. destruct (sess_get s h) as [x|]; [|auto].
  unfold mLogin, Login in *. destruct (negb _); [auto|]. destruct (ut =? CKU_SO)%Z; [auto|]. destruct (ut =? CKU_USER)%Z; [|auto].
  unfold mUserLogin, UserLogin in *. destruct now as [n|]; [|auto]. destruct (logged_in _); [auto|].
  destruct (lock_check _ n) as [q|]; [|auto]. cbv zeta in *. destruct (_ =? PIN_INVALID_E)%Z; [auto|]. destruct (_ =? 0)%Z; [|auto]. right.
  match type of H with context [mdecode_all w a ?k ?l] => destruct (mdecode_all w a k l) as [[c l']| |] eqn:E; cbn [bind] in H; try discriminate end.
  apply mdecode_all_ident in E. destruct (c =? 0)%Z eqn:C; cbn [bind] in H; unfold rv_ in H; injection H as <- <-; [contradiction|].
  cbn. split; [reflexivity|]. split; [reflexivity|]. split; [reflexivity|]. exact E.
Qed.
Print Assumptions C106_login_partial.

(** A search never finds what does not match or may not be seen. *)
Theorem C106_search_partial w a rnd s h t s' o : mem_step w a rnd s (OFindObjectsInit h t) = Ok (s', o) -> out_rv o = CKR_OK ->
  exists x l, sess_get s h = Some x /\ s' = put_sess s (set_find x true l 0) /\
    forall hd, In hd l -> exists ob, In ob (t_objs (s_tok s) ++ ss_objs x) /\ o_handle ob = hd /\ visible (s_tok s) ob = true /\ match_all w ob t = Ok true.
Proof.
  cbn [mem_step]. unfold with_sess, need_lib. intros H K. destruct (0 <? s_count s)%Z; [|injection H as <- <-; discriminate]. destruct (sess_get s h) as [x|]; [|injection H as <- <-; discriminate].
  unfold mFindInit in H. destruct (ss_find x); [injection H as <- <-; discriminate|]. cbv zeta in H.
  assert (Go : forall b, (l <- mFind w a (s_tok s) x b t ;; rv_ (put_sess s (set_find x true l 0)) CKR_OK) = Ok (s', o) ->
    exists l, s' = put_sess s (set_find x true l 0) /\ forall hd, In hd l -> exists ob, In ob (t_objs (s_tok s) ++ ss_objs x) /\ o_handle ob = hd /\ visible (s_tok s) ob = true /\ match_all w ob t = Ok true).
  { intros b E. destruct (mFind w a (s_tok s) x b t) as [l| |] eqn:F; cbn [bind] in E; try discriminate. injection E as <- <-. exists l. split; [reflexivity|].
    apply mFind_sound in F. intros hd I. exact (proj1 (Forall_forall _ _) F hd I). }
  destruct (find_last t CKA_TOKEN); [destruct (tmpl_token t) as [b|]|].
  - destruct (Go _ H) as (l & ? & ?). eauto.
  - injection H as <- <-. discriminate.
  - destruct (Go _ H) as (l & ? & ?). eauto.
Qed.
Print Assumptions C106_search_partial.

(** Whatever memory there was, call by call: the sessions are numbered and at most 70,
    no read-only session is open while the SO is logged in, read-only sessions own no
    object, and no object is in two lists or twice in one. *)
Theorem C106_usable_partial w d s : mreach w (sys0 d) s ->
  NoDup (map ss_h (s_sess s)) /\ (zlen (s_sess s) <= 70)%Z /\ NoDup (uids (live s)) /\
  (t_login (s_tok s) = RW_SO -> Forall (fun x => ss_use x <> SESSION_RO) (s_sess s)) /\
  (forall x, In x (s_sess s) -> is_rw x = false -> ss_objs x = []).
Proof.
  intros R. apply mreach_inv in R. destruct R as (A & B & C & D). destruct (Z_lt_le_dec 0 (s_count s)) as [L|L].
  - destruct (A L) as (A1 & A2 & A3). split; [apply chain_uniq; exact A1|]. split; [apply A2|]. split; [apply C|]. split; [apply D|].
    intros x I. apply (proj1 (Forall_forall _ _) A3 x I).
  - rewrite (B L). split; [constructor|]. split; [unfold zlen; cbn; lia|]. split; [apply C|]. split; [constructor|]. intros x [].
Qed.
Print Assumptions C106_usable_partial.
(** If every object has its encoded form and none is a DH key, what C_Finalize stores
    does not depend on the memory. *)
Theorem C106_stored_partial w a rnd s : Forall settled (t_objs (s_tok s)) -> mem_step w a rnd s OFinalize = step w rnd s OFinalize.
Proof. exact (mFinalize_settled w a rnd s). Qed.
Print Assumptions C106_stored_partial.

(** ** Histories with too little memory *)
Definition few : supply := mkSup (fun _ => false) true false true (fun _ => false) (fun _ => false) (fun _ _ => false) false.
Fixpoint mrun (w : world) (n : N) (s : sys) (l : list (supply * op)) : res (sys * list out) :=
  match l with [] => Ok (s, []) | (a, c) :: r => '(s1, o) <- mem_step w a (rnd n) s c ;; '(s2, os) <- mrun w (n + 10) s1 r ;; Ok (s2, o :: os) end.
Lemma mrun_reach w s0 l : forall n s s' o, mreach w s0 s -> mrun w n s l = Ok (s', o) -> mreach w s0 s'.
Proof.
  induction l as [|[a c] r IH]; cbn [mrun]; intros n s s' o R H; [injection H as <- <-; exact R|].
  destruct (mem_step w a (rnd n) s c) as [[s1 o1]| |] eqn:E; cbn [bind] in H; try discriminate.
  destruct (mrun w (n + 10) s1 r) as [[s2 os]| |] eqn:E2; cbn [bind] in H; try discriminate. injection H as <- <-. eapply IH; [|exact E2]. econstructor; eauto.
Qed.
Definition rich (l : list op) : list (supply * op) := map (fun c : op => (plenty, c)) l.
Definition mhist (l : list (supply * op)) : res (sys * list out) := mrun tw 1 (sys0 nofiles) l.
Definition mafter (l : list (supply * op)) : sys := match mhist l with Ok (s, _) => s | _ => sys0 nofiles end.
Definition mouts (l : list (supply * op)) : list out := match mhist l with Ok (_, o) => o | _ => [] end.
Lemma mafter_reach l : (match mhist l with Ok _ => True | _ => False end) -> mreach tw (sys0 nofiles) (mafter l).
Proof. unfold mafter, mhist. destruct (mrun tw 1 (sys0 nofiles) l) as [[s o]| |] eqn:E; try contradiction. intros _. eapply mrun_reach; [constructor|exact E]. Qed.

Definition long : aval := AV (repeat 65%N 12).
Definition named_key : template := mkA CKA_LABEL long :: aes_tmpl.
Definition inuse : list op := setup ++ [OOpenSession 1 RW; userlogin upin; OCreateObject H2 (tokenly named_key)].
Definition search : op := OFindObjectsInit H2 [mkA CKA_LABEL long].
(** CKR_OK, and not what was asked: a search that misses the key; a session that is not
    there and whose handle is not written; a logout after which the key data has no
    encoded form; a C_Finalize that leaves a DH key incomplete; a C_Initialize
    that clears the token. *)
Theorem C106_success_refuted :
  ~ C106_success (fun c => exists h t, c = OFindObjectsInit h t) tw /\ ~ C106_success (fun c => exists n f, c = OOpenSession n f) tw /\
  ~ C106_success (fun c => exists h, c = OLogout h) tw /\ ~ C106_success (fun c => c = OFinalize) tw /\ ~ C106_success (fun c => c = OInitialize) tw.
Proof.
  assert (Q : forall (P : op -> Prop) l c (f : sys -> out -> bool), P c -> (match mhist (rich l) with Ok _ => True | _ => False end) ->
    (match mem_step tw few (rnd 200) (mafter (rich l)) c with Ok (s', o) => andb (out_rv o =? CKR_OK)%Z (f s' o) | _ => false end) = true ->
    (match step tw (rnd 200) (mafter (rich l)) c with Ok (s', o) => f s' o | _ => false end) = false -> ~ C106_success P tw).
  { intros P l c f Pc R A B C. apply mafter_reach in R. destruct (mem_step tw few (rnd 200) (mafter (rich l)) c) as [[s' o]| |] eqn:E; try discriminate A.
    apply andb_prop in A as [A1 A2]. apply Z.eqb_eq in A1. specialize (C nofiles _ _ _ _ _ _ R Pc E A1). rewrite C in B. congruence. }
  split; [|split; [|split; [|split]]].
  - apply (Q _ inuse search (fun s _ => forallb (fun x => (length (ss_found x) =? 0)%nat) (s_sess s))); [unfold search; eauto|vm_compute; exact Logic.I|vm_compute; reflexivity|vm_compute; reflexivity].
  - apply (Q _ (inuse ++ [OOpenSession 1 RW]) (OOpenSession 1 RW) (fun _ o => match o with OutRv _ => true | _ => false end)); [eauto|vm_compute; exact Logic.I|vm_compute; reflexivity|vm_compute; reflexivity].
  - apply (Q _ inuse (OLogout H2) (fun s _ => existsb (fun o => match o_keyData o with None => true | _ => false end) (t_objs (s_tok s)))); [eauto|vm_compute; exact Logic.I|vm_compute; reflexivity|vm_compute; reflexivity].
  - apply (Q _ dh_key OFinalize (fun s _ => match s_fs s (F_DH_PRIV, 0) with Some b => (length b <? 30)%nat | None => true end)); [reflexivity|vm_compute; exact Logic.I|vm_compute; reflexivity|vm_compute; reflexivity].
  - apply (Q _ (inuse ++ [OFinalize]) OInitialize (fun s _ => (length (t_objs (s_tok s)) =? 0)%nat)); [reflexivity|vm_compute; exact Logic.I|vm_compute; reflexivity|vm_compute; reflexivity].
Qed.
Print Assumptions C106_success_refuted.

(** CKR_FUNCTION_FAILED, and the old label is gone; CKR_PIN_INCORRECT for the right
    PIN, and a key is in the clear. *)
Definition relabel : op := OSetAttributeValue H2 (2^28 + 1) [mkA CKA_LABEL (AV [1; 2]%N)].
Definition ec_behind : list op := setup ++ [OOpenSession 1 RW; userlogin upin; OCreateObject H2 (tokenly ec_full); OCreateObject H2 (tokenly aes_tmpl); OLogout H2].
Theorem C106_failure_refuted : ~ C106_failure (fun c => exists h ho t, c = OSetAttributeValue h ho t) tw /\ ~ C106_failure (fun c => exists h p n, c = OLogin h CKU_USER p n) tw.
Proof.
  assert (Q : forall (P : op -> Prop) l c (f : sys -> bool), P c -> (match mhist (rich l) with Ok _ => True | _ => False end) ->
    (match mem_step tw few (rnd 200) (mafter (rich l)) c with Ok (s', o) => andb (negb (out_rv o =? CKR_OK)%Z) (f s') | _ => false end) = true ->
    (match step tw (rnd 200) (mafter (rich l)) c with Ok (s', o) => (out_rv o =? CKR_OK)%Z | _ => false end) = true -> f (mafter (rich l)) = false ->
    (forall s s', s_tok s' = s_tok s -> f s' = f s) -> ~ C106_failure P tw).
  { intros P l c f Pc R A B F X C. apply mafter_reach in R. destruct (mem_step tw few (rnd 200) (mafter (rich l)) c) as [[s' o]| |] eqn:E; try discriminate A.
    apply andb_prop in A as [A1 A2]. apply negb_true_iff, Z.eqb_neq in A1. destruct (C nofiles _ _ _ _ _ _ R Pc E A1) as [D | (_ & _ & D & _)].
    - rewrite D in B. apply Z.eqb_eq in B. contradiction.
    - apply X in D. congruence. }
  split.
  - apply (Q _ inuse relabel (fun s => existsb (fun o => match o_label o with SNull n => negb (n =? 0)%Z | _ => false end) (t_objs (s_tok s))));
      [unfold relabel; eauto|vm_compute; exact Logic.I|vm_compute; reflexivity|vm_compute; reflexivity|vm_compute; reflexivity|intros s s' ->; reflexivity].
  - apply (Q _ ec_behind (userlogin upin) (fun s => existsb (fun o => match o_data o with KSym _ b => existsb (fun x => (x =? 7)%N) b | _ => false end) (t_objs (s_tok s))));
      [unfold userlogin; eauto|vm_compute; exact Logic.I|vm_compute; reflexivity|vm_compute; reflexivity|vm_compute; reflexivity|intros s s' ->; reflexivity].
Qed.
Print Assumptions C106_failure_refuted.
(** The label set to NULL with its old length is then read. *)
Theorem C106_defined_refuted : ~ C106_defined_claim tw.
Proof.
  intros C. assert (R : mreach tw (sys0 nofiles) (mafter (rich inuse))) by (apply mafter_reach; vm_compute; exact Logic.I).
  destruct (mem_step tw few (rnd 200) (mafter (rich inuse)) relabel) as [[s' o]| |] eqn:E; [|vm_compute in E; discriminate..].
  assert (K : out_rv o <> CKR_OK) by (vm_compute in E; injection E as _ <-; discriminate).
  destruct (step tw (rnd 200) s' (OGetAttributeValue H2 (2^28 + 1) [mkA CKA_LABEL (AV (repeat 0%N 40))])) as [x|u|u] eqn:G.
  - vm_compute in E. injection E as <- _. vm_compute in G. discriminate.
  - vm_compute in E. injection E as <- _. vm_compute in G. discriminate.
  - refine (C nofiles _ _ _ _ _ _ R E K _ _ _ _ _ G). intros e G1. vm_compute in G1. discriminate.
Qed.
Print Assumptions C106_defined_refuted.
(** After logout and C_Finalize with too little memory, the key file is empty; the
    next process can log nobody in. A DH key needs no more than the C_Finalize. *)
Theorem C106_stored_refuted : ~ C106_stored_claim tw.
Proof.
  intros C. assert (R : mreach tw (sys0 nofiles) (mafter (rich dh_key))) by (apply mafter_reach; vm_compute; exact Logic.I).
  destruct (mem_step tw few (rnd 200) (mafter (rich dh_key)) OFinalize) as [[s' o]| |] eqn:E; [|vm_compute in E; discriminate..].
  destruct (step tw (rnd 200) (mafter (rich dh_key)) OFinalize) as [[s1 o1]| |] eqn:E1; [|vm_compute in E1; discriminate..].
  pose proof (C nofiles _ _ _ _ _ _ _ R E E1 (F_DH_PRIV, 0)) as G. vm_compute in E. injection E as <- _. vm_compute in E1. injection E1 as <- _. vm_compute in G. discriminate.
Qed.
Print Assumptions C106_stored_refuted.
Definition again : list (supply * op) := rich [ORestart; OInitialize; OOpenSession 1 RW; userlogin upin].
Example C106_case : map out_rv (mouts (rich inuse ++ [(few, OLogout H2); (few, OFinalize)] ++ again)) = repeat CKR_OK 15 ++ [CKR_USER_PIN_NOT_INITIALIZED] /\
  map out_rv (mouts (rich inuse ++ [(plenty, OLogout H2); (few, OFinalize)] ++ again)) = repeat CKR_OK 16 /\
  map out_rv (mouts (rich inuse ++ [(few, OLogout H2); (plenty, OFinalize)] ++ again)) = repeat CKR_OK 16 /\
  map out_rv (mouts (rich dh_key ++ [(few, OFinalize)] ++ again)) = repeat CKR_OK 14 ++ [CKR_USER_PIN_NOT_INITIALIZED] /\
  map out_rv (mouts (rich ec_behind ++ [(few, userlogin upin)] ++ rich [userlogin upin])) = repeat CKR_OK 12 ++ [CKR_PIN_INCORRECT; CKR_OK].
Proof. vm_compute. repeat split. Qed.
(** Cases for the hypotheses of the partial theorems. *)
Example told_case :
  told (after inuse) OFinalize (OutRv CKR_OK) /\ told (after inuse) (OCreateObject H2 (tokenly aes_tmpl)) (OutH CKR_OK 1) /\
  told (after setup) (OLogout H2) (OutRv CKR_OK) /\ told (after inuse) (OFindObjectsInit H2 [mkA CKA_CLASS (ULONG CKO_SECRET_KEY)]) (OutRv CKR_OK) /\
  (match mem_step tw few (rnd 200) (after inuse) (OCreateObject H2 (tokenly aes_tmpl)) with Ok (_, o) => out_rv o = CKR_OK | _ => False end).
Proof.
  assert (F : Forall settled (t_objs (s_tok (after inuse)))).
  { destruct (t_objs (s_tok (after inuse))) as [|o [|o2 l]] eqn:O; [constructor| |vm_compute in O; discriminate]. constructor; [|constructor].
    assert (E : o = hd o (t_objs (s_tok (after inuse)))) by (rewrite O; reflexivity). rewrite E. clear. right. split; vm_compute; discriminate. }
  split; [right; exact F|]. split; [right; split; [exact F|]|].
  - intros y [E|E]; vm_compute in E; [injection E as <-; vm_compute; discriminate|discriminate].
  - split; [split; vm_compute; discriminate|]. split; [repeat constructor; vm_compute; discriminate|]. vm_compute. reflexivity.
Qed.
