(** The answers the functions' texts name but that no reachable state gives. *)
From Verif Require Import Base Cbc CbcProofs Ops OpsSpec OpsProofs OpsProofs3 Object Mech Info Store Sys SysProofs SysProofs2 SysProofs4 Api PropApi OpLift Answers AnswersProofs.
From Coq Require Import String.
Local Open Scope string_scope.
Local Open Scope Z_scope.
Local Open Scope list_scope.

(** ** Blocks are whole *)
Lemma wenc_whole ci a d : (List.length d mod 16 = 0)%nat -> exists r, wc_AesCbcEncrypt ci a d = Ok r.
Proof. intros L. unfold wc_AesCbcEncrypt. change BLK with 16%nat. rewrite L, Bool.andb_false_r. destruct (cbc_enc_blocks _ _ _ _ _). eauto. Qed.
Lemma wdec_whole ci a d : (List.length d mod 16 = 0)%nat -> exists r, wc_AesCbcDecrypt ci a d = Ok r.
Proof. intros L. unfold wc_AesCbcDecrypt. change BLK with 16%nat. rewrite L, Bool.andb_false_r. destruct (cbc_dec_blocks _ _ _ _ _). eauto. Qed.
Lemma whole_prefix (d : list N) : (List.length (firstn (List.length d / 16 * 16) d) mod 16 = 0)%nat.
Proof. rewrite firstn_length, Nat.min_l by apply div_mul_le. apply Nat.mod_mul. discriminate. Qed.
Lemma decupd_ok ci p d e : cbc_inv p -> WP11_AesCbc_DecryptUpdate ci p d <> Err e.
Proof.
  intros (I1 & I2 & I3). unfold WP11_AesCbc_DecryptUpdate, cbc_update. destruct (2^31 <=? zlen d); [discriminate|]. change BLK with 16%nat.
  destruct (Nat.ltb_spec 16 (cb_psz p)) as [L|_]; [lia|].
  assert (K : forall a part psz d1 o1, bind (let sz := (List.length d1 / 16 * 16)%nat in if (0 <? sz)%nat then '(o, a') <- wc_AesCbcDecrypt ci a (firstn sz d1) ;; Ok (o, a', skipn sz d1) else Ok ([], a, d1))
       (fun '(out2, a2, data2) => Ok (o1 ++ out2, if (0 <? List.length data2)%nat then mkCbc a2 (blit part 0 data2) (List.length data2) else mkCbc a2 part psz)) <> Err e).
  { intros a part psz d1 o1. cbv zeta. destruct (Nat.ltb 0 _); [|cbn [bind]; discriminate].
    destruct (wdec_whole ci a _ (whole_prefix d1)) as ([o2 a2] & ->). cbn [bind]. discriminate. }
  destruct (Nat.ltb_spec 0 (cb_psz p)) as [L|L]; [|cbn [bind]; apply K]. cbv zeta.
  destruct (Nat.eqb_spec (cb_psz p + Nat.min (16 - cb_psz p) (List.length d)) 16) as [Q|Q]; [|cbn [bind]; apply K].
  assert (W : (List.length (blit (cb_partial p) (cb_psz p) (firstn (Nat.min (16 - cb_psz p) (List.length d)) d)) mod 16 = 0)%nat).
  { rewrite blit_length; rewrite ?firstn_length; [rewrite I1; reflexivity|lia..]. }
  destruct (wdec_whole ci (cb_aes p) _ W) as ([o1 a1] & ->). cbn [bind]. apply K.
Qed.
Lemma padupd_ok ci p d e : cbc_inv p -> WP11_AesCbcPad_DecryptUpdate ci p d <> Err e.
Proof.
  intros (I1 & I2 & I3). destruct (Z.leb_spec (2^31) (zlen d)) as [L|L].
  - unfold WP11_AesCbcPad_DecryptUpdate. apply Z.leb_le in L. rewrite L. discriminate.
  - destruct (pad_dec_update_spec ci p d (conj I1 I2) L) as (p1 & U & _). rewrite U. discriminate.
Qed.
Lemma padfin_ok ci p e : cbc_inv p -> WP11_AesCbcPad_EncryptFinal ci p <> Err e.
Proof.
  intros (I1 & I2 & I3). unfold WP11_AesCbcPad_EncryptFinal. cbv zeta.
  destruct (wenc_whole ci (cb_aes p) (pad_block (cb_partial p) (cb_psz p))) as ([o a] & ->); [rewrite pad_block_length by assumption; reflexivity|]. discriminate.
Qed.
Section Op.
Variable ev : env.
Variable objs : nat -> option keyobj.
Definition fin_ : list Z := [0; 0x21; 0x70; 0x91; 0x150].
Ltac o2 := first [apply oin_ok; reflexivity | apply oin_undef | apply oin_err | apply oin_sized; [reflexivity|] | apply oin_bind; intros ?a
  | match goal with |- oin _ (if ?c then _ else _) => destruct c | |- oin _ (let '(_, _) := ?c in _) => destruct c | |- oin _ (match ?c with _ => _ end) => destruct c | |- oin _ (let x := _ in _) => cbv zeta end].
Lemma concl_ok l b st r : inb 0 l = true -> (forall e, r <> Err e) -> oin l (conclude b st r).
Proof. intros S H. unfold conclude. destruct r as [[[st' n] o]|e|]; [apply oin_ok; exact S|contradiction (H e eq_refl)|apply oin_undef]. Qed.
Lemma EncryptFinal_ok st b : inv34 st -> oin fin_ (C_EncryptFinal ev st b).
Proof.
  intros I. unfold C_EncryptFinal. apply oin_obj; [reflexivity|]. intros k. destruct (os_mech st); try (apply oin_ok; reflexivity).
  - apply oin_need; [reflexivity|]. apply oin_bind. intros p. cbv zeta. destruct (negb _); [apply oin_ok; reflexivity|]. destruct b; apply oin_ok; reflexivity.
  - apply oin_need; [reflexivity|]. apply oin_sized; [reflexivity|]. destruct (get_cbc st) as [p| |] eqn:G; cbn [bind]; [|apply oin_err|apply oin_undef].
    apply (get_cbc_inv st p I) in G as [G _]. apply concl_ok; [reflexivity|]. intros e. destruct (WP11_AesCbcPad_EncryptFinal _ _) as [[o p']|e'|] eqn:E; cbn [bind]; try discriminate. contradiction (padfin_ok _ _ e' G E).
  - apply oin_need; [reflexivity|]. repeat o2.
Qed.
Definition upd_ : list Z := [0; 0x70; 0x91; 0x150].
Lemma DecryptUpdate_ok st d b : inv34 st -> oin upd_ (C_DecryptUpdate ev st d b).
Proof.
  intros I. unfold C_DecryptUpdate. apply oin_obj; [reflexivity|]. intros k. destruct (os_mech st); try (apply oin_ok; reflexivity).
  - apply oin_need; [reflexivity|]. destruct (get_cbc st) as [p| |] eqn:G; cbn [bind]; [|apply oin_err|apply oin_undef].
    apply (get_cbc_inv st p I) in G as [G _]. apply oin_sized; [reflexivity|]. apply concl_ok; [reflexivity|]. intros e. destruct (WP11_AesCbc_DecryptUpdate _ _ _) as [[o p']|e'|] eqn:E; cbn [bind]; try discriminate. contradiction (decupd_ok _ _ _ e' G E).
  - apply oin_need; [reflexivity|]. destruct (get_cbc st) as [p| |] eqn:G; cbn [bind]; [|apply oin_err|apply oin_undef].
    apply (get_cbc_inv st p I) in G as [G _]. apply oin_sized; [reflexivity|]. apply concl_ok; [reflexivity|]. intros e. destruct (WP11_AesCbcPad_DecryptUpdate _ _ _) as [[o p']|e'|] eqn:E; cbn [bind]; try discriminate. contradiction (padupd_ok _ _ _ e' G E).
  - apply oin_need; [reflexivity|]. repeat o2.
Qed.
End Op.

(** ** The library *)
Section World.
Variable w : world.
Hypothesis SZ : env_sizes (w_ev w).
Lemma reach_part d s : reach w (sys0 d) s -> opall inv34 s.
Proof. apply lift_reach; [apply inv34_zero|]. intros objs st c st' o I H. eapply inv34_step; eauto. Qed.
Lemma crypt_fine l rnd s h c hk : opall inv34 s -> (exists b, l = fin_ /\ c = KEncryptFinal b) \/ (exists d b, l = upd_ /\ c = KDecryptUpdate d b) -> rin (S_ ++ l) (step w rnd s (OCrypto h c hk)).
Proof.
  intros I C. cbn [step]. unfold with_sess. apply rin_lib; [reflexivity|]. destruct (sess_get s h) as [x|] eqn:G; [|apply rin_rv; reflexivity].
  apply sess_get_in in G as (G & _). specialize (I x G).
  assert (K : rin (S_ ++ l) ('(x1, r) <- run_cont w s x c ;; Ok (put_sess s x1, OutC r))).
  { apply rin_bind. intros [x1 r] R. apply rin_ok. cbn [out_rv]. unfold run_cont in R. match type of R with bind ?k _ = _ => destruct k as [ko| |] end; cbn [bind] in R; try discriminate.
    destruct (Ops.step _ _ _ _) as [[p q]| |] eqn:E; cbn [bind] in R; try discriminate. injection R as _ <-.
    destruct C as [(b & -> & ->)|(d & b & -> & ->)]; cbn [Ops.step] in E; [apply EncryptFinal_ok in E|apply DecryptUpdate_ok in E]; try exact I; (eapply sub_ok; [|exact E]; reflexivity). }
  destruct C as [(b & -> & ->)|(d & b & -> & ->)]; cbn [with_key]; exact K.
Qed.
Lemma TokenReset_ok rnd s pin label c s' : TokenReset w rnd s pin label = Ok (c, s') -> c = 0.
Proof.
  unfold TokenReset. destruct (free_all _); cbn [bind]; try discriminate. destruct (_ <? 32); [discriminate|]. unfold SetSOPin, store, Token_Store. cbv zeta.
  destruct (tok_header _); cbn [bind]; try discriminate. cbn. intros H. injection H as <- _. reflexivity.
Qed.
Lemma SetSecret_code o v c o' : SetSecretKey o v = Ok (c, o') -> inb c [0; BAD_FUNC_ARG; BUFFER_E] = true.
Proof.
  unfold SetSecretKey. cbv zeta. intros H. repeat match type of H with (if ?b then _ else _) = _ => destruct b | match ?b with _ => _ end = _ => destruct b end; try discriminate H; injection H as <- _; reflexivity.
Qed.
Lemma NewSecret_rv oe rw u t rv o : NewObject oe rw u CKK_AES CKO_SECRET_KEY t = Ok (rv, o) -> inb rv [0; 6; 0x12; 0x13; 0xB5; 0x150] = true.
Proof.
  unfold NewObject. destruct (SetAttributeValue _ _ _ _) as [[rv1 o1]| |] eqn:E; cbn [bind]; intros H; try discriminate. injection H as <- _.
  destruct rw; [|apply SetAttributeValue_ro in E as ->; reflexivity]. unfold SetAttributeValue in E. cbn [negb] in E. cbv zeta in E.
  pose proof (check_attrs_rv true t) as C. destruct (check_attrs true t =? CKR_OK); cbn [negb] in E; [|injection E as <- _; eapply sub_ok; [|exact C]; reflexivity].
  change (params_of (set_class (obj_new u CKK_AES) CKO_SECRET_KEY)) with (Some secretParams) in E. cbv iota in E. destruct (param_vals _ _) as [v|]; [|injection E as <- _; reflexivity].
  change (SetKey oe (set_class (obj_new u CKK_AES) CKO_SECRET_KEY) v) with (SetSecretKey (set_class (obj_new u CKK_AES) CKO_SECRET_KEY) v) in E.
  destruct (SetSecretKey _ v) as [[c o2]| |] eqn:K; cbn [bind] in E; try discriminate. apply SetSecret_code in K.
  destruct (Z.eqb_spec c MEMORY_E) as [Q|_]; [rewrite Q in K; discriminate K|]. destruct (c =? 0); cbn [negb] in E; [|injection E as <- _; reflexivity].
  apply set_loop_rv in E. eapply sub_ok; [|exact E]. reflexivity.
Qed.
Lemma GenKey_fine rnd s x t k : rin [0; 6; 0x12; 0x13; 0xB5; 0x150] (GenKey w rnd s x t k).
Proof.
  unfold GenKey. apply rin_bind. intros [rv o] E. apply NewSecret_rv in E. cbv zeta. destruct o; [|apply rin_rv; exact E].
  apply rin_bind. intros [l b] _. destruct (zlen b <? l); [apply rin_undef|]. apply rin_bind. intros [[rv2 h] s2] A. apply AddObject_rv in A. apply rin_ok. eapply sub_ok; [|exact A]. reflexivity.
Qed.
Ltac a2 := first [apply ain_ok; reflexivity | apply ain_ans; reflexivity | apply ain_call | apply ain_slot; [reflexivity..|] | apply ain_sess; [reflexivity..|intros ?x]
  | apply ain_lib; [reflexivity|] | apply ain_need; [reflexivity|intros ?a] | apply ain_some; [reflexivity|intros ?a] | apply ain_rw; [reflexivity|] | apply ain_obj; [reflexivity|intros ?o]
  | match goal with |- ain _ (if ?c then _ else _) => destruct c | |- ain _ (let x := _ in _) => cbv zeta end].
Theorem answers_upper rnd s c : opall inv34 s -> ain (look answers (name c)) (exec w rnd s c).
Proof.
  intros I. assert (D : spare = [] \/ forallb (fun p => negb (String.eqb (fst p) (name c))) spare = true \/ forallb (fun p => negb (String.eqb (fst p) (name c))) spare = false) by (destruct (forallb _ spare); auto).
  destruct D as [D|[D|D]]; [discriminate D| |].
  - intros s' o H. apply answers_loose in H. unfold loose in H.
    replace (filter (fun p => String.eqb (fst p) (name c)) spare) with (@nil (string * Z)) in H; [rewrite app_nil_r in H; exact H|].
    clear -D. induction spare as [|p l IH]; [reflexivity|]. cbn [forallb] in D. apply andb_prop in D as [D1 D2]. cbn [filter]. apply Bool.negb_true_iff in D1. rewrite D1. exact (IH D2).
  - destruct c; try discriminate D; clear D; cbn [exec name]; match goal with |- ain ?l _ => let v := eval vm_compute in l in change l with v end; repeat a2.
    + cbn [step]. apply rin_slot; [reflexivity..|]. unfold InitToken. destruct (negb _); [apply rin_rv; reflexivity|]. destruct (andb _ _); [apply rin_rv; reflexivity|]. destruct (andb _ _); [apply rin_rv; reflexivity|].
      apply rin_bind. intros [c s1] T. apply TokenReset_ok in T. subst c. apply rin_rv. reflexivity.
    + eapply rin_sub; [|apply (crypt_fine fin_); eauto 6]. reflexivity.
    + eapply rin_sub; [|apply (crypt_fine upd_); eauto 6]. reflexivity.
    + cbn [step]. apply rin_sess; [reflexivity..|]. intros y. destruct (gm_aes _); [|apply rin_rv; reflexivity]. eapply rin_sub; [|apply GenKey_fine]. reflexivity.
Qed.
End World.
