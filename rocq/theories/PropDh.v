(** C132: Diffie-Hellman keys on the token, private and public, keep their parameters and value through logouts, logins, restarts and processes that just end. *)
From Verif Require Import Base Cbc CbcProofs CbcSpec Codec Ops OpsSpec OpsCbcProofs OpsProofs OpsProofs2 OpsProofs3 OpsProofs4 OpsClaims OpsFinal Object ObjectProofs Store StoreSpec StoreProofs Sys SysProofs SysProofs2 SysProofs3 SysProofs4 WfProofs
  LoginProofs RvProofs ObjFrame ObjProofs HandleProofs DiskHandles FindState UseProofs KeyProofs KeyHeld ToyEnv ToySys PropObject PropSys1 PropSys2 PropSys3 PropStore PropKeys PropKeys2 PropInUse PropFind PropOps PropHold PropMsg PropObj PropImport
  Device DeviceProofs PropDevice Table TableProofs PropTable PropUse PropSurvive PropEndure SurviveAny PropPrivate PropPublic.
From Verif Require DurableProofs DurableKeys PropArchive Vault PropVault.
From Coq Require Import List Bool.
Import ListNotations.
Open Scope nat_scope.
Open Scope list_scope.

(** ** Specification *)
(** Session [h] finds under the handle [ho] a Diffie-Hellman key, private or public, over the prime [pr] and base [g] with the value [v]. *)
Definition has_dh (s : sys) (h ho : Z) (priv : bool) (pr g : N) (v : list N) : Prop :=
  exists x o b, sess_get s h = Some x /\ find_obj s x ho = Some o /\ o_class o = (if priv then CKO_PRIVATE_KEY else CKO_PUBLIC_KEY) /\ o_type o = CKK_DH /\
    o_data o = KDh pr g (zlen v) b /\ (zlen v <= zlen b)%Z /\ firstn (length v) b = v.

(** ** Proof *)
Section D.
Variable w : world.
Notation se := (w_se w).
Hypothesis L : laws se.
Variables (ho : Z) (priv : bool) (pr g : N) (v : list N).
Definition cls : Z := if priv then CKO_PRIVATE_KEY else CKO_PUBLIC_KEY.
Definition dh_sealed (key : list N) (o : obj) : Prop :=
  o_handle o = ho /\ o_class o = cls /\ o_type o = CKK_DH /\ o_keyData o = Some (if priv then se_enc se key (o_iv o) v else v) /\ (zlen v <= Z.of_nat SYM_BUF)%Z /\ exists l bf, o_data o = KDh pr g l bf.
Definition dh_clear (o : obj) : Prop := exists bf, o_data o = KDh pr g (zlen v) bf /\ take_buf (zlen v) bf = Ok v.
Definition dh_fit (key : list N) (o : obj) : Prop :=
  o_class o = cls -> o_type o = CKK_DH -> forall l bf, o_data o = KDh pr g l bf -> exists d, take_buf l bf = Ok d /\ o_keyData o = Some (if priv then se_enc se key (o_iv o) d else d).
Lemma cls_is o : o_class o = cls -> is_priv o = priv /\ is_cert o = false.
Proof. intros C. unfold is_priv, is_cert. rewrite C. unfold cls. destruct priv; split; reflexivity. Qed.
Lemma dh_is k o : dh_sealed k o -> o_handle o = ho /\ is_cert o = false /\ o_keyData o <> None.
Proof. intros (S1 & S2 & _ & S4 & _). split; [exact S1|]. split; [apply cls_is; exact S2|congruence]. Qed.
Lemma take_overlay bf : (zlen v <= Z.of_nat SYM_BUF)%Z -> take_buf (zlen v) (overlay bf v) = Ok v.
Proof.
  intros Lb. unfold take_buf. assert (Lo : (zlen v <= zlen (overlay bf v))%Z) by (unfold overlay, zlen; rewrite app_length; lia).
  destruct (Z.ltb_spec (zlen v) 0) as [Q|_]; [unfold zlen in Q; lia|]. destruct (Z.ltb_spec (Z.of_nat SYM_BUF) (zlen v)) as [Q|_]; [lia|]. destruct (Z.ltb_spec (zlen (overlay bf v)) (zlen v)) as [Q|_]; [lia|].
  cbn [orb]. f_equal. unfold zlen. rewrite Nat2Z.id. apply overlay_firstn.
Qed.
Lemma dh_decode k key o c o' : dh_sealed k o -> Decode se key o = Ok (c, o') -> dh_sealed k o' /\ (key = k -> c = 0%Z /\ dh_clear o').
Proof.
  intros (S1 & S2 & S3 & S4 & S5 & l & bf & S6) D. destruct (cls_is o S2) as [P1 P2]. unfold Decode in D. rewrite P2 in D. unfold DecodeKey in D. rewrite S3 in D.
  change (CKK_DH =? CKK_RSA)%Z with false in D. change (CKK_DH =? CKK_EC)%Z with false in D. change (CKK_DH =? CKK_DH)%Z with true in D. cbv iota in D. unfold as_dh in D. rewrite S6 in D. cbn [bind] in D. rewrite P1 in D.
  assert (F : forall c0 d c1 o1, fin o c0 (KDh pr g (zlen d) (overlay bf d)) = (c1, o1) -> dh_sealed k o1).
  { intros c0 d c1 o1 F. unfold fin in F. destruct (Z.eqb_spec c0 0) as [->|]; injection F as _ <-; (split; [exact S1|]); (split; [exact S2|]); (split; [exact S3|]); (split; [exact S4|]); (split; [exact S5|]); cbn; eauto. }
  destruct priv.
  - unfold dec_into in D. rewrite S4 in D. destruct (_ <? 16)%Z; [discriminate D|]. destruct (_ <? _ - 16)%Z; [discriminate D|]. destruct (dec_kd se key o) as [c1 d] eqn:Dk. cbn [bind] in D.
    destruct (fin o c1 (KDh pr g (zlen d) (overlay bf d))) as [c2 o2] eqn:Fi. cbn [bind] in D. injection D as <- <-. split; [exact (F _ _ _ _ Fi)|].
    intros ->. unfold dec_kd, kd_bytes in Dk. rewrite S4, (l_gcm _ L) in Dk. injection Dk as <- <-. unfold fin in Fi. change (0 =? 0)%Z with true in Fi. cbv iota in Fi. injection Fi as <- <-. split; [reflexivity|].
    exists (overlay bf v). split; [reflexivity|apply take_overlay; exact S5].
  - destruct (_ <? zlen (kd_bytes o))%Z; [discriminate D|]. cbn [bind] in D. unfold kd_bytes in D. rewrite S4 in D. destruct (fin o 0 (KDh pr g (zlen v) (overlay bf v))) as [c2 o2] eqn:Fi. cbn [bind] in D. injection D as <- <-. split; [exact (F _ _ _ _ Fi)|].
    intros _. unfold fin in Fi. change (0 =? 0)%Z with true in Fi. cbv iota in Fi. injection Fi as <- <-. split; [reflexivity|]. exists (overlay bf v). split; [reflexivity|apply take_overlay; exact S5].
Qed.
Lemma dh_encode k o c o' : dh_sealed k o -> dh_clear o -> Encode se k true o = Ok (c, o') -> dh_sealed k o' /\ c = 0%Z.
Proof.
  intros (S1 & S2 & S3 & S4 & S5 & l & bf & S6) (bf' & Cl & Tb) E. destruct (cls_is o S2) as [P1 P2]. unfold Encode in E. rewrite P2 in E. unfold EncodeKey in E. rewrite S3 in E.
  change (CKK_DH =? CKK_RSA)%Z with false in E. change (CKK_DH =? CKK_EC)%Z with false in E. change (CKK_DH =? CKK_DH)%Z with true in E. cbv iota in E. unfold as_dh in E. rewrite Cl in E. cbn [bind] in E. rewrite Tb in E. cbn [bind] in E. injection E as <- <-.
  split; [|reflexivity]. change (andb true (0 =? 0)%Z) with true. cbv iota. rewrite P1. unfold protect_key. set (q := set_store o _ _ _). change (o_type q) with (o_type o). rewrite S3. change (CKK_DH =? CKK_RSA)%Z with false. change (CKK_DH =? CKK_EC)%Z with false. change (CKK_DH =? CKK_DH)%Z with true. cbv iota.
  change (is_priv q) with (is_priv o). change (o_data q) with (o_data o). rewrite P1, Cl. unfold dh_sealed. destruct priv; (split; [exact S1|]); (split; [exact S2|]); (split; [exact S3|]); (split; [reflexivity|]); (split; [exact S5|]); cbn; eauto.
Qed.
Lemma dh_reload k u o : dh_sealed k o -> dh_sealed k (reloaded u o).
Proof.
  intros (S1 & S2 & S3 & S4 & S5 & l & bf & S6). destruct (cls_is o S2) as [P1 P2]. unfold reloaded. rewrite P2, S3. change (CKK_DH =? CKK_DH)%Z with true. cbv iota zeta. unfold as_dh. rewrite S6. unfold kd_bytes. rewrite S4.
  split; [exact S1|]. split; [exact S2|]. split; [exact S3|]. split; [reflexivity|]. split; [exact S5|]. cbn. eauto.
Qed.
Lemma dh_fits key o o2 h : Encode se key false o = Ok (0%Z, o2) -> dh_fit key (set_handle o2 h).
Proof.
  intros E C T l bf Dq. unfold Encode in E. destruct (is_cert o) eqn:Ce; [injection E as <-; destruct (cls_is o C) as [_ P2]; congruence|]. destruct (EncodeKey se key o) as [[c1 o1]| |] eqn:Ek; cbn [bind] in E; try discriminate E. cbn [andb] in E. injection E as -> <-.
  cbn [set_handle o_class o_type o_data o_iv o_keyData] in *.
  assert (F : exists kd ev, o1 = set_store o (o_iv o) kd ev).
  { unfold EncodeKey, enc_asym in Ek. sinv; eauto. all: try discriminate. all: try (exists (o_keyData o), (o_enc o); destruct o; reflexivity). all: repeat match goal with H : context [if ?q then _ else _] |- _ => destruct q; sinv; eauto end. }
  destruct F as (kd & ev & F). assert (C0 : o_class o = cls) by (rewrite F in C; exact C). assert (T0 : o_type o = CKK_DH) by (rewrite F in T; exact T). assert (D0 : o_data o = KDh pr g l bf) by (rewrite F in Dq; exact Dq).
  destruct (cls_is o C0) as [P1 _]. unfold EncodeKey in Ek. rewrite T0 in Ek. change (CKK_DH =? CKK_RSA)%Z with false in Ek. change (CKK_DH =? CKK_EC)%Z with false in Ek. change (CKK_DH =? CKK_DH)%Z with true in Ek. cbv iota in Ek. unfold as_dh in Ek. rewrite D0 in Ek. cbn [bind] in Ek.
  destruct (take_buf l bf) as [d| |]; cbn [bind] in Ek; try discriminate Ek. rewrite P1 in Ek. injection Ek as <-. exists d. split; reflexivity.
Qed.
Lemma dh_cert key o : is_cert o = true -> dh_fit key o.
Proof. intros C P. destruct (cls_is o P) as [_ Q]. congruence. Qed.
End D.
(** ** The theorem *)
Theorem C132_there : forall w d s c s2 o2 h ho priv pr g v p hs x, laws (w_se w) -> endured w d s c s2 o2 h ho p -> has_dh s2 h ho priv pr g v -> t_login (s_tok s) = RW_USER -> sess_get s hs = Some x ->
  has_dh s hs ho priv pr g v.
Proof.
  intros w d s c s2 o2 h ho priv pr g v p hs x L En (x0 & o0 & b0 & G0 & F0 & C0 & T0 & D0 & Lb & Fb) Lg G.
  destruct (any_there w d s c s2 o2 h ho p (dh_sealed w ho priv pr g v) (dh_clear pr g v) (dh_fit w priv pr g) hs x x0 o0 L (dh_is w ho priv pr g v) (dh_decode w L ho priv pr g v) (dh_encode w ho priv pr g v) (dh_reload w ho priv pr g v) (dh_fits w priv pr g) (dh_cert w priv pr g)) as (_ & o & k & Fo & S & bf & Cl & Tb); auto.
  { intros key Eh Ft. destruct (Ft C0 T0 _ _ D0) as (dd & Q1 & Q2). pose proof Q1 as Q3. unfold take_buf in Q1. destruct (Z.ltb_spec (zlen v) 0) as [|N1]; [discriminate|]. destruct (Z.ltb_spec (Z.of_nat SYM_BUF) (zlen v)) as [|N2]; [discriminate|]. destruct (Z.ltb_spec (zlen b0) (zlen v)) as [|N3]; [discriminate|].
    cbn [orb] in Q1. injection Q1 as Q1. unfold zlen in Q1. rewrite Nat2Z.id, Fb in Q1. subst dd. split; [|exists b0; auto]. split; [exact Eh|]. split; [exact C0|]. split; [exact T0|]. split; [exact Q2|]. split; [exact N2|]. eauto. }
  destruct S as (_ & S2 & S3 & _). exists x, o, bf. split; [exact G|]. split; [exact Fo|]. split; [exact S2|]. split; [exact S3|]. split; [exact Cl|].
  unfold take_buf in Tb. destruct (Z.ltb_spec (zlen v) 0) as [|N1]; [discriminate|]. destruct (Z.ltb_spec (Z.of_nat SYM_BUF) (zlen v)) as [|N2]; [discriminate|]. destruct (Z.ltb_spec (zlen bf) (zlen v)) as [|N3]; [discriminate|].
  cbn [orb] in Tb. injection Tb as Tb. unfold zlen in Tb. rewrite Nat2Z.id in Tb. split; [exact N3|exact Tb].
Qed.
Print Assumptions C132_there.

(** ** Histories that meet the hypotheses *)
(** A private key is generated on the token, its public key in the session; both are on the token; then as in PropSurvive.v. *)
Definition pair_dh : op := OGenerateKeyPair H2 KP_DH [mkA CKA_PRIME (AV [23%N]); mkA CKA_BASE (AV [5%N])] (tokenly [mkA CKA_DERIVE TRUE]) (Some (GDh [6; 1]%N [8; 3; 2]%N)).
Definition both_dh : op := OGenerateKeyPair H2 KP_DH (tokenly [mkA CKA_PRIME (AV [23%N]); mkA CKA_BASE (AV [5%N])]) (tokenly [mkA CKA_DERIVE TRUE]) (Some (GDh [6; 1]%N [8; 3; 2]%N)).
Definition is_pair (c : op) : bool := match c with OGenerateKeyPair _ _ (_ :: _ :: []) _ _ => true | _ => false end.
Definition dh_out (c : op) : out := if is_pair c then OutH2 CKR_OK 1 KT else OutH2 CKR_OK KT (KT + 1).
Definition dh_val (c : op) : list N := if is_pair c then [6; 1]%N else [8; 3; 2]%N.
Lemma dh_endured c l : c = pair_dh \/ c = both_dh -> l = [] \/ l = onwards -> endured tw nofiles (after (story c l)) c (after (story c [])) (dh_out c) H2 KT upin.
Proof.
  intros T T2. set (n := numbered 1 (story c l)). set (k := List.length (prep c)).
  exists (firstn 8 n), H2, (Some 9%Z), (rnd 81), (firstn (k - 9) (skipn 9 n)), (rnd (10 * N.of_nat k + 1)), (skipn (S k) n), (after (prep c)), (firstn 8 (outs (story c l))), (firstn (k - 9) (skipn 9 (outs (story c l)))), (skipn (S k) (outs (story c l))).
  subst n k. split; [reflexivity|].
  split; [destruct T as [-> | ->], T2 as [-> | ->]; vm_compute; reflexivity|]. split; [destruct T as [-> | ->], T2 as [-> | ->]; vm_compute; reflexivity|].
  split; [destruct T as [-> | ->], T2 as [-> | ->]; (match goal with |- context [combine ?a ?b] => let r := eval vm_compute in (combine a b) in change (combine a b) with r end;
    intros c o J; repeat (destruct J as [J|J]; [injection J as <- <-; cbn; auto|]); destruct J)|].
  split; [destruct T as [-> | ->]; vm_compute; reflexivity|]. split; [destruct T as [-> | ->]; reflexivity|]. split; [destruct T as [-> | ->]; vm_compute; reflexivity|].
  split; [destruct T as [-> | ->]; [right; left|left]; reflexivity|]. split; [vm_compute; discriminate|]. split; [destruct T as [-> | ->], T2 as [-> | ->]; vm_compute; reflexivity|].
  split; [destruct T as [-> | ->], T2 as [-> | ->]; (match goal with |- context [combine ?a ?b] => let r := eval vm_compute in (combine a b) in change (combine a b) with r end;
    intros c o J; repeat (destruct J as [J|J]; [injection J as <- <-; split; [cbn; try exact I; try (split; discriminate); try (intros; try discriminate; reflexivity)|cbn; try exact I; discriminate]|]); destruct J)|].
  cbv zeta. match goal with |- PropArchive.tidy_run _ _ ?q /\ _ => assert (Q : q = numbered 1 (story c l)) by (destruct T as [-> | ->], T2 as [-> | ->]; reflexivity); rewrite Q; clear Q end.
  split; [apply PropArchive.tidy_runb_ok; destruct T as [-> | ->], T2 as [-> | ->]; vm_compute; reflexivity|]. split; [destruct T as [-> | ->], T2 as [-> | ->]; vm_compute; reflexivity|]. apply bool_calls.
  destruct T as [-> | ->], T2 as [-> | ->]; vm_compute; reflexivity.
Qed.
Definition in_dh (s : sys) (x : session) (ho : Z) (priv : bool) (pr g : N) (v : list N) : bool :=
  match find_obj s x ho with
  | Some o => ((o_class o =? (if priv then CKO_PRIVATE_KEY else CKO_PUBLIC_KEY)) && (o_type o =? CKK_DH))%Z && match o_data o with KDh p1 g1 l b => (p1 =? pr)%N && (g1 =? g)%N && (l =? zlen v)%Z && (zlen v <=? zlen b)%Z && list_eqb (firstn (length v) b) v | _ => false end
  | None => false end.
Lemma list_eqb_ok a : forall b, list_eqb a b = true -> a = b.
Proof. induction a as [|x a IH]; intros [|y b] E; try discriminate E; [reflexivity|]. cbn in E. apply andb_prop in E as [E1 E2]. apply N.eqb_eq in E1. rewrite E1, (IH _ E2). reflexivity. Qed.
Lemma in_dh_ok s x h ho priv pr g v : sess_get s h = Some x -> in_dh s x ho priv pr g v = true -> has_dh s h ho priv pr g v.
Proof.
  intros G E. unfold in_dh in E. destruct (find_obj s x ho) as [o|] eqn:F; [|discriminate E]. apply andb_prop in E as [E1 E2]. apply andb_prop in E1 as [E3 E4]. destruct (o_data o) as [| | | | |] eqn:Dq; try discriminate E2.
  all: repeat (apply andb_prop in E2 as [E2 ?]). all: repeat match goal with H : (_ =? _)%Z = true |- _ => apply Z.eqb_eq in H | H : (_ =? _)%N = true |- _ => apply N.eqb_eq in H | H : (_ <=? _)%Z = true |- _ => apply Z.leb_le in H | H : list_eqb _ _ = true |- _ => apply list_eqb_ok in H end.
  subst. exists x, o. eexists. split; [exact G|]. split; [exact F|]. split; [assumption|]. split; [assumption|]. split; [exact Dq|]. split; assumption.
Qed.
Example C132_case : laws tse /\ forall c, c = pair_dh \/ c = both_dh -> has_dh (after (story c [])) H2 KT (is_pair c) 23 5 (dh_val c) /\
  forall l, l = [] \/ l = onwards -> endured tw nofiles (after (story c l)) c (after (story c [])) (dh_out c) H2 KT upin /\ t_login (s_tok (after (story c l))) = RW_USER /\ sess_get (after (story c l)) H2 = Some (sx (story c l) H2).
Proof.
  split; [exact toy_laws|]. intros c T. split; [apply in_dh_ok with (x := sx (story c []) H2); destruct T as [-> | ->]; vm_compute; reflexivity|].
  intros l T2. split; [apply dh_endured; assumption|]. destruct T as [-> | ->], T2 as [-> | ->]; split; vm_compute; reflexivity.
Qed.
