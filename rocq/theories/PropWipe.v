(** C103: keys leave the memory when the user logs out and when they are destroyed. *)
From Verif Require Import Base Ops Object Store StoreSpec Sys SysProofs LoginProofs ToyEnv ToySys KeyProofs Wipe PropSys1 PropObject PropStore.
From Coq Require Import List.
Import ListNotations.
Open Scope list_scope.

(** ** Specification *)
(** A private or a secret key. *)
Definition hot (o : obj) : Prop := o_class o = CKO_PRIVATE_KEY \/ o_class o = CKO_SECRET_KEY.
(** The value of the key is not in the object's memory. *)
Definition blank (o : obj) : Prop :=
  match o_data o with
  | KRsa r => r = rsa0
  | KEc e => e = ec0
  | KSym l b | KDh _ _ l b => Forall (fun x => x = 0%N) (firstn (Z.to_nat l) b)
  | KCert _ _ | KZero => True
  end.
(** Not even in the part of the buffer beyond its length. *)
Definition blank_all (o : obj) : Prop :=
  match o_data o with KSym _ b | KDh _ _ _ b => Forall (fun x => x = 0%N) b | _ => blank o end.

Definition C103_claim (w : world) : Prop := forall d s h rnd s', laws (w_se w) -> reach w (sys0 d) s -> step w rnd s (OLogout h) = Ok (s', OutRv CKR_OK) ->
  Forall (fun o => hot o -> blank o) (t_objs (s_tok s')).
(** A login that is refused brings no key into memory. *)
Definition C103_login_claim (w : world) : Prop := forall d s h p now rnd s' rv, laws (w_se w) -> reach w (sys0 d) s ->
  step w rnd s (OLogin h CKU_USER p now) = Ok (s', OutRv rv) -> rv <> CKR_OK ->
  Forall (fun o => hot o -> blank o) (t_objs (s_tok s)) -> Forall (fun o => hot o -> blank o) (t_objs (s_tok s')).
(** The memory of a destroyed key holds nothing of it. *)
Definition C103_free_claim (w : world) : Prop := forall d s o, laws (w_se w) -> reach w (sys0 d) s -> In o (t_objs (s_tok s)) -> hot o -> blank (Object_Free o).
(** The same with the rest of the buffer. *)
Definition C103_rest_claim (w : world) : Prop := forall d s h rnd s', laws (w_se w) -> reach w (sys0 d) s -> Forall (live_key (w_se w)) (t_objs (s_tok s)) ->
  step w rnd s (OLogout h) = Ok (s', OutRv CKR_OK) -> Forall (fun o => hot o -> blank_all o) (t_objs (s_tok s')).

(** ** What is proved *)
(** A certificate, or a key with an encoding; secret keys are AES or generic keys. *)
Definition proper (se : senv) (o : obj) : Prop :=
  o_class o = CKO_CERTIFICATE \/ (live_key se o /\ (o_class o = CKO_SECRET_KEY -> o_type o = CKK_AES \/ o_type o = CKK_GENERIC_SECRET)).
Definition rest_blank (o : obj) : Prop :=
  match o_data o with KSym l b | KDh _ _ l b => Forall (fun x => x = 0%N) (skipn (Z.to_nat l) b) | _ => True end.
(** Before and after: everything but the key stays; a private or secret key is marked
    as encoded, gone from the object, and there only encrypted. *)
Definition hushed (se : senv) (key : list N) (o o' : obj) : Prop :=
  obj_view o' = obj_view o /\ o_uid o' = o_uid o /\
  (hot o -> o_enc o' = true /\ blank o' /\ (rest_blank o -> blank_all o') /\ exists p, o_keyData o' = Some (se_enc se key (o_iv o) p)).

Lemma zeros_0 n : Forall (fun x => x = 0%N) (zeros n).
Proof. unfold zeros. apply Forall_forall. intros x I. exact (repeat_spec _ _ _ I). Qed.
Lemma over_zero l b : (Z.to_nat l <= length b)%nat -> Forall (fun x => x = 0%N) (firstn (Z.to_nat l) (overlay b (zeros (Z.to_nat l)))).
Proof.
  intros L. unfold overlay. rewrite firstn_app. assert (Z : length (zeros (Z.to_nat l)) = Z.to_nat l) by apply repeat_length.
  rewrite Z, Nat.sub_diag. cbn [firstn]. rewrite app_nil_r. rewrite firstn_all2 by lia. apply zeros_0.
Qed.
Lemma over_all l b : Forall (fun x => x = 0%N) (skipn (Z.to_nat l) b) -> Forall (fun x => x = 0%N) (overlay b (zeros (Z.to_nat l))).
Proof. intros F. unfold overlay. apply Forall_app. split; [apply zeros_0|]. replace (length (zeros (Z.to_nat l))) with (Z.to_nat l) by (symmetry; apply repeat_length). exact F. Qed.
Lemma take_ok l b : (0 <= l <= 512)%Z -> length b = 512%nat -> take_buf l b = Ok (firstn (Z.to_nat l) b).
Proof. intros L B. unfold take_buf. change (Z.of_nat SYM_BUF) with 512%Z. unfold zlen. rewrite B. destruct (orb _ _) eqn:E; [lia|reflexivity]. Qed.

Lemma Encode_hushed se key o : proper se o -> exists o', Encode se key true o = Ok (0%Z, o') /\ hushed se key o o'.
Proof.
  intros [C|[[NC K] Sy]].
  { exists o. unfold Encode, is_cert. rewrite C. split; [reflexivity|]. split; [reflexivity|]. split; [reflexivity|]. intros [H|H]; rewrite C in H; discriminate. }
  unfold Encode. assert (Ic : is_cert o = false) by (apply Z.eqb_neq; exact NC). rewrite Ic. unfold EncodeKey.
  destruct (o_type o =? CKK_RSA)%Z eqn:T1.
  { destruct K as (r & As & K). rewrite As. cbn [bind]. unfold enc_asym, is_priv. destruct (o_class o =? CKO_PRIVATE_KEY)%Z eqn:P.
    - destruct K as [K _]. destruct (se_rsa_priv se r) as [c der]. cbn [fst] in K. destruct (Z.ltb_spec c 0); [lia|]. cbn [bind]. unfold protect_key. cbn [set_store o_type]. rewrite T1. unfold is_priv. cbn [set_store o_class]. rewrite P. eexists. split; [reflexivity|].
      split; [reflexivity|]. split; [reflexivity|]. intros _. split; [reflexivity|]. split; [reflexivity|]. split; [reflexivity|]. exists der. reflexivity.
    - destruct K as [Kc [K _]]. destruct (se_rsa_pub se r) as [c der]. cbn [fst] in K. destruct (Z.ltb_spec c 0); [lia|]. rewrite Kc. change (CKO_PUBLIC_KEY =? CKO_PUBLIC_KEY)%Z with true. cbn [bind]. unfold protect_key. cbn [set_store o_type]. rewrite T1. unfold is_priv. cbn [set_store o_class]. rewrite Kc.
      eexists. split; [reflexivity|]. split; [reflexivity|]. split; [reflexivity|]. intros [H1|H1]; rewrite Kc in H1; discriminate. }
  destruct (o_type o =? CKK_EC)%Z eqn:T2.
  { destruct K as (r & As & K). rewrite As. cbn [bind]. unfold enc_asym, is_priv. destruct (o_class o =? CKO_PRIVATE_KEY)%Z eqn:P.
    - destruct K as [K _]. destruct (se_ec_priv se r) as [c der]. cbn [fst] in K. destruct (Z.ltb_spec c 0); [lia|]. cbn [bind]. unfold protect_key. cbn [set_store o_type]. rewrite T1, T2. unfold is_priv. cbn [set_store o_class]. rewrite P. eexists. split; [reflexivity|].
      split; [reflexivity|]. split; [reflexivity|]. intros _. split; [reflexivity|]. split; [reflexivity|]. split; [reflexivity|]. exists der. reflexivity.
    - destruct K as [Kc [K _]]. destruct (se_ec_pub se r) as [c der]. cbn [fst] in K. destruct (Z.ltb_spec c 0); [lia|]. rewrite Kc. change (CKO_PUBLIC_KEY =? CKO_PUBLIC_KEY)%Z with true. cbn [bind]. unfold protect_key. cbn [set_store o_type]. rewrite T1, T2. unfold is_priv. cbn [set_store o_class]. rewrite Kc.
      eexists. split; [reflexivity|]. split; [reflexivity|]. split; [reflexivity|]. intros [H1|H1]; rewrite Kc in H1; discriminate. }
  destruct (o_type o =? CKK_DH)%Z eqn:T3.
  { destruct K as (p & g & l & b & As & Lr & Lb & _). rewrite As. cbn [bind]. rewrite (take_ok l b Lr Lb). cbn [bind]. unfold protect_key. cbn [set_store o_type]. rewrite T1, T2, T3. unfold is_priv. cbn [set_store o_class].
    destruct (o_class o =? CKO_PRIVATE_KEY)%Z eqn:P.
    - eexists. split; [reflexivity|]. split; [reflexivity|]. split; [reflexivity|]. intros _. cbn [set_store set_data o_enc o_keyData o_data]. split; [reflexivity|]. cbn [set_store o_data]. unfold blank_all, blank, rest_blank. cbn [set_store set_data o_data].
      unfold as_dh in As. destruct (o_data o) eqn:D; try discriminate; injection As as E1 E2 E3 E4; subst.
      + split; [exact I|]. split; [intros _; exact I|eexists; reflexivity].
      + split; [apply over_zero; rewrite Lb; lia|]. split; [intros F; apply over_all; exact F|eexists; reflexivity].
    - eexists. split; [reflexivity|]. split; [reflexivity|]. split; [reflexivity|]. intros [Q|Q]; [apply Z.eqb_neq in P; contradiction|]. apply Z.eqb_eq in T3. destruct (Sy Q) as [Y|Y]; rewrite Y in T3; discriminate. }
  destruct K as (Ty & l & b & As & Lr & Lb). assert (Is : is_sym o = true) by (unfold is_sym; destruct Ty as [->| ->]; reflexivity). rewrite Is, As. cbn [bind]. rewrite (take_ok l b Lr Lb). cbn [bind]. unfold protect_key. cbn [set_store o_type]. rewrite T1, T2, T3.
  match goal with |- context [is_sym ?q] => change (is_sym q) with (is_sym o) end. rewrite Is. eexists. split; [reflexivity|]. split; [reflexivity|]. split; [reflexivity|]. intros _. cbn [set_store set_data o_enc o_keyData o_data]. split; [reflexivity|]. unfold blank_all, blank, rest_blank. cbn [set_store set_data o_data].
  unfold as_sym in As. destruct (o_data o) eqn:D; try discriminate; injection As as E1 E2; subst.
  - split; [exact I|]. split; [intros _; exact I|eexists; reflexivity].
  - split; [apply over_zero; rewrite Lb; lia|]. split; [intros F; apply over_all; exact F|eexists; reflexivity].
Qed.
Lemma encode_all_hushed w key l : Forall (proper (w_se w)) l -> exists l', encode_all w key l = Ok l' /\ Forall2 (hushed (w_se w) key) l l'.
Proof.
  induction 1 as [|o l P F (l' & E & H)]; [exists []; split; [reflexivity|constructor]|]. destruct (Encode_hushed (w_se w) key o P) as (o' & E' & H'). exists (o' :: l'). cbn [encode_all]. rewrite E'. cbn [bind]. change (negb (0 =? 0)%Z) with false. cbv iota. rewrite E. cbn [bind]. split; [reflexivity|constructor; assumption].
Qed.
Theorem C103_partial w s h rnd s' : Forall (proper (w_se w)) (t_objs (s_tok s)) -> t_login (s_tok s) = RW_USER -> step w rnd s (OLogout h) = Ok (s', OutRv CKR_OK) ->
  Forall2 (hushed (w_se w) (t_key (s_tok s))) (t_objs (s_tok s)) (t_objs (s_tok s')) /\ t_login (s_tok s') = RW_PUBLIC.
Proof.
  intros F Lg H. apply step_logout in H as (t & Lo & -> & _). unfold Logout in Lo. rewrite Lg in Lo. change (orb (RW_USER =? RO_USER)%Z (RW_USER =? RW_USER)%Z) with true in Lo. cbv iota in Lo.
  destruct (encode_all_hushed w (t_key (s_tok s)) _ F) as (l' & E & Hu). rewrite E in Lo. cbn [bind] in Lo. injection Lo as <-. split; [exact Hu|reflexivity].
Qed.
Print Assumptions C103_partial.
(** A wrong PIN leaves all objects as they are. *)
Theorem C103_login_partial w s h p now rnd s' o : ~ right w (s_tok s) User p -> step w rnd s (OLogin h CKU_USER p now) = Ok (s', o) ->
  t_objs (s_tok s') = t_objs (s_tok s) /\ out_rv o <> CKR_OK.
Proof.
  intros NR. rewrite right_check in NR. cbn [pin_of] in NR. cbn [step]. unfold with_sess, need_lib. destruct (0 <? _)%Z; [|intros [= <- <-]; split; [reflexivity|discriminate]]. destruct (sess_get s h); [|intros [= <- <-]; split; [reflexivity|discriminate]].
  unfold Login. destruct (negb (pin_len_ok p)); [intros [= <- <-]; split; [reflexivity|discriminate]|]. change (CKU_USER =? CKU_SO)%Z with false. change (CKU_USER =? CKU_USER)%Z with true. cbv iota.
  unfold UserLogin. destruct now as [n|]; cbn [bind]; [|intros [= <- <-]; split; [reflexivity|discriminate]].
  destruct (logged_in _); cbn [bind]; [intros [= <- <-]; split; [reflexivity|discriminate]|].
  destruct (lock_check _ _) as [q|] eqn:Lk; cbn [bind]; [|intros [= <- <-]; split; [reflexivity|discriminate]].
  replace (CheckPin w (set_user (s_tok s) q) q p) with (CheckPin w (s_tok s) (t_user (s_tok s)) p).
  2:{ apply lock_same in Lk as (A1 & A2 & A3 & _). symmetry. apply check_same; auto. }
  set (c := CheckPin w (s_tok s) (t_user (s_tok s)) p) in *. destruct (c =? PIN_INVALID_E)%Z eqn:E1; cbn [bind].
  { apply Z.eqb_eq in E1. rewrite E1. intros [= <- <-]. split; [reflexivity|discriminate]. }
  destruct (c =? 0)%Z eqn:E2; [apply Z.eqb_eq in E2; contradiction|]. cbn [bind]. intros [= <- <-]. split; [reflexivity|]. apply Z.eqb_neq in E1, E2. destruct (check_cases w (s_tok s) (t_user (s_tok s)) p) as [K|[K|[K|[]]]]; fold c in K; try congruence. rewrite <- K. discriminate.
Qed.
Print Assumptions C103_login_partial.
(** The memory of keys given back. *)
Theorem C103_free_partial se o : live_key se o -> hot o -> (o_type o <> CKK_DH \/ blank o) -> blank (Object_Free o) /\ (o_type o <> CKK_DH -> rest_blank o -> blank_all (Object_Free o)).
Proof.
  intros [NC K] H Ty. unfold Object_Free. rewrite (proj2 (Z.eqb_neq _ _) NC).
  destruct (o_type o =? CKK_RSA)%Z eqn:T1.
  { destruct K as (r & As & _). unfold as_rsa in As. destruct (o_data o) eqn:D; try discriminate; unfold blank_all, blank, rest_blank; cbn [set_data o_data]; rewrite ?D; (split; [first [exact I|reflexivity]|intros _ _; first [exact I|reflexivity]]). }
  destruct (o_type o =? CKK_EC)%Z eqn:T2.
  { destruct K as (r & As & _). unfold as_ec in As. destruct (o_data o) eqn:D; try discriminate; unfold blank_all, blank, rest_blank; cbn [set_data o_data]; rewrite ?D; (split; [first [exact I|reflexivity]|intros _ _; first [exact I|reflexivity]]). }
  destruct (o_type o =? CKK_DH)%Z eqn:T3.
  { apply Z.eqb_eq in T3. destruct Ty as [Ty|Ty]; [contradiction|]. split; [|intros N; contradiction]. destruct (o_data o) eqn:D; unfold blank in *; cbn [set_data o_data]; rewrite D in *; exact Ty. }
  destruct K as (Sy & l & b & As & Lr & Lb). assert (E : orb (o_type o =? CKK_AES)%Z (o_type o =? CKK_GENERIC_SECRET)%Z = true) by (destruct Sy as [->| ->]; reflexivity). rewrite E.
  unfold as_sym in As. destruct (o_data o) eqn:D; try discriminate; injection As as E1 E2; subst; unfold blank_all, blank, rest_blank; cbn [set_data o_data]; rewrite ?D.
  - split; [exact I|intros _ _; exact I].
  - split; [apply over_zero; rewrite Lb; lia|intros _ F; apply over_all; exact F].
Qed.
Print Assumptions C103_free_partial.

(** ** What is not so *)
(** An attribute certificate that was turned into a secret key cannot be encoded:
    logout stops there and leaves the keys behind it. *)
Definition odd_cert : template := tokenly [mkA CKA_CLASS (ULONG CKO_CERTIFICATE); mkA CKA_CERTIFICATE_TYPE (ULONG 1); mkA CKA_VALUE (AV [48; 1; 2]%N)].
Definition stopper : list op := setup ++ [OOpenSession 1 RW; userlogin upin; OCreateObject H2 (tokenly aes_tmpl); OCreateObject H2 odd_cert; OSetAttributeValue H2 (2^28 + 2) [mkA CKA_CLASS (ULONG CKO_SECRET_KEY)]].
Definition bare (o : obj) : bool := andb (o_class o =? CKO_SECRET_KEY)%Z (match o_data o with KSym l b => existsb (fun x => negb (x =? 0)%N) (firstn (Z.to_nat l) b) | _ => false end).
Lemma bare_hot o : bare o = true -> hot o /\ ~ blank o.
Proof.
  unfold bare. intros E. apply andb_prop in E as [E1 E2]. apply Z.eqb_eq in E1. split; [right; exact E1|]. intros B. unfold blank in B. destruct (o_data o); try discriminate. apply existsb_exists in E2 as (x & Ix & E2). apply (proj1 (Forall_forall _ _) B) in Ix. subst x. discriminate.
Qed.
Lemma bare_not l : existsb bare l = true -> ~ Forall (fun o => hot o -> blank o) l.
Proof. intros E F. apply existsb_exists in E as (o & Io & E). apply bare_hot in E as [H B]. apply B. exact (proj1 (Forall_forall _ _) F o Io H). Qed.
Theorem C103_refuted : ~ C103_claim tw.
Proof.
  intros C. assert (E : exists s', step tw (rnd 0) (after stopper) (OLogout H2) = Ok (s', OutRv CKR_OK) /\ existsb bare (t_objs (s_tok s')) = true).
  { eexists. split; vm_compute; reflexivity. }
  destruct E as (s' & E & B). assert (R : reach tw (sys0 nofiles) (after stopper)) by (apply after_reach; vm_compute; exact Logic.I).
  exact (bare_not _ B (C nofiles (after stopper) H2 (rnd 0) s' toy_laws R E)).
Qed.
Print Assumptions C103_refuted.
(** The same object makes the next login fail after the keys before it have been
    decoded: they stay in memory, and the right PIN is called incorrect from now on. *)
Definition stopper2 : list op := setup ++ [OOpenSession 1 RW; userlogin upin; OCreateObject H2 odd_cert; OSetAttributeValue H2 (2^28 + 1) [mkA CKA_CLASS (ULONG CKO_SECRET_KEY)]; OCreateObject H2 (tokenly aes_tmpl); OLogout H2].
Definition wholly (o : obj) : bool := match o_data o with KSym l b => forallb (fun x => (x =? 0)%N) (firstn (Z.to_nat l) b) | KCert _ _ => true | _ => false end.
Lemma wholly_blank l : forallb wholly l = true -> Forall (fun o => hot o -> blank o) l.
Proof.
  intros E. apply Forall_forall. intros o Io _. apply (proj1 (forallb_forall _ _) E) in Io. unfold wholly in Io. unfold blank. destruct (o_data o); try discriminate; [|exact I]. apply Forall_forall. intros x Ix. apply N.eqb_eq. exact (proj1 (forallb_forall _ _) Io x Ix).
Qed.
Theorem C103_login_refuted : ~ C103_login_claim tw.
Proof.
  intros C. assert (E : exists s', step tw (rnd 0) (after stopper2) (userlogin upin) = Ok (s', OutRv CKR_PIN_INCORRECT) /\ existsb bare (t_objs (s_tok s')) = true).
  { eexists. split; vm_compute; reflexivity. }
  destruct E as (s' & E & B). assert (R : reach tw (sys0 nofiles) (after stopper2)) by (apply after_reach; vm_compute; exact Logic.I).
  assert (W : forallb wholly (t_objs (s_tok (after stopper2))) = true) by (vm_compute; reflexivity).
  exact (bare_not _ B (C nofiles (after stopper2) H2 upin (Some 0%Z) (rnd 0) s' CKR_PIN_INCORRECT toy_laws R E ltac:(discriminate) (wholly_blank _ W))).
Qed.
Print Assumptions C103_login_refuted.
(** A DH key is not cleared when it is given back. *)
Definition dh_tmpl (v : list N) : template := [mkA CKA_PRIME (AV [23%N]); mkA CKA_BASE (AV [5%N]); mkA CKA_VALUE (AV v)].
Definition dh_key : list op := setup ++ [OOpenSession 1 RW; userlogin upin;
  OCreateObject H2 (tokenly ([mkA CKA_CLASS (ULONG CKO_PRIVATE_KEY); mkA CKA_KEY_TYPE (ULONG CKK_DH)] ++ dh_tmpl [9; 8; 7; 6]%N))].
Theorem C103_free_refuted : ~ C103_free_claim tw.
Proof.
  intros C. destruct (t_objs (s_tok (after dh_key))) as [|o l] eqn:O; [vm_compute in O; discriminate|].
  assert (R : reach tw (sys0 nofiles) (after dh_key)) by (apply after_reach; vm_compute; exact Logic.I).
  assert (I1 : In o (t_objs (s_tok (after dh_key)))) by (rewrite O; left; reflexivity).
  assert (E : o = hd o (t_objs (s_tok (after dh_key)))) by (rewrite O; reflexivity).
  assert (Hc : o_class o = CKO_PRIVATE_KEY) by (rewrite E; vm_compute; reflexivity).
  pose proof (C nofiles (after dh_key) o toy_laws R I1 (or_introl Hc)) as K. rewrite E in K. vm_compute in K. inversion K. discriminate.
Qed.
Print Assumptions C103_free_refuted.
(** A DH key replaced by a shorter one leaves its end in the buffer, which logout
    does not clear. *)
Definition dh_short : list op := dh_key ++ [OSetAttributeValue H2 (2^28 + 1) (dh_tmpl [1; 2]%N)].
Theorem C103_rest_refuted : ~ C103_rest_claim tw.
Proof.
  intros C.
  assert (R : reach tw (sys0 nofiles) (after dh_short)) by (apply after_reach; vm_compute; exact Logic.I).
  destruct (t_objs (s_tok (after dh_short))) as [|o [|o2 l]] eqn:O; [vm_compute in O; discriminate| |vm_compute in O; discriminate].
  assert (F : Forall (live_key (w_se tw)) (t_objs (s_tok (after dh_short)))).
  { rewrite O. constructor; [|constructor]. assert (E : o = hd o (t_objs (s_tok (after dh_short)))) by (rewrite O; reflexivity). rewrite E. clear. split; [vm_compute; discriminate|].
    assert (T : (o_type (hd o (t_objs (s_tok (after dh_short)))) = CKK_DH)%Z) by (vm_compute; reflexivity). rewrite T. change (CKK_DH =? CKK_RSA)%Z with false. change (CKK_DH =? CKK_EC)%Z with false. change (CKK_DH =? CKK_DH)%Z with true. cbv iota.
    exists 23%N, 5%N, 2%Z, ([1; 2; 7; 6]%N ++ repeat 0%N 508). split; [vm_compute; reflexivity|]. split; [lia|]. split; [reflexivity|]. split; vm_compute; [discriminate|reflexivity]. }
  assert (E : exists s', step tw (rnd 0) (after dh_short) (OLogout H2) = Ok (s', OutRv CKR_OK) /\ existsb (fun o => match o_data o with KDh _ _ _ b => andb (o_class o =? CKO_PRIVATE_KEY)%Z (existsb (fun x => negb (x =? 0)%N) b) | _ => false end) (t_objs (s_tok s')) = true).
  { eexists. split; vm_compute; reflexivity. }
  destruct E as (s' & E & B). pose proof (C nofiles (after dh_short) H2 (rnd 0) s' toy_laws R F E) as K. apply existsb_exists in B as (q & Iq & B). pose proof (proj1 (Forall_forall _ _) K q Iq) as Bq. cbv beta in Bq. clear - Bq B. unfold blank_all in Bq.
  destruct (o_data q); try discriminate. apply andb_prop in B as [B1 B2]. apply Z.eqb_eq in B1. specialize (Bq (or_introl B1)). apply existsb_exists in B2 as (x & Ix & B2). apply (proj1 (Forall_forall _ _) Bq) in Ix. subst x. discriminate.
Qed.
Print Assumptions C103_rest_refuted.

(** ** A case for the theorems: a token with keys of every kind *)
Example C103_case : Forall (proper (w_se tw)) (t_objs (s_tok (after zoo))) /\ t_login (s_tok (after zoo)) = RW_USER /\ existsb bare (t_objs (s_tok (after zoo))) = true /\
  (exists s', step tw (rnd 0) (after zoo) (OLogout H2) = Ok (s', OutRv CKR_OK)) /\ ~ right tw (s_tok (after zoo)) User wrong.
Proof.
  split; [|split; [vm_compute; reflexivity|split; [vm_compute; reflexivity|split; [eexists; vm_compute; reflexivity|rewrite right_check; vm_compute; discriminate]]]].
  assert (E : forallb (fun o => orb (negb (o_class o =? CKO_SECRET_KEY)%Z) (o_type o =? CKK_AES)%Z) (t_objs (s_tok (after zoo))) = true) by (vm_compute; reflexivity).
  pose proof zoo_live as L. rewrite Forall_forall in *. intros o Io. right. split; [exact (L o Io)|]. intros Sc. apply (proj1 (forallb_forall _ _) E) in Io. rewrite Sc in Io. left. apply Z.eqb_eq. exact Io.
Qed.
