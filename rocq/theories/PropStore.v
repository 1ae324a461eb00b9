(** Storage properties: C10, C49, C50. *)
From Verif Require Import Base Codec CodecProofs Ops ToyEnv Object PropObject Store StoreSpec StoreProofs Sys SysProofs SysProofs2 SysProofs3 SysProofs4
  LoginProofs WfProofs KeyProofs ToySys.

(** ** The concrete world obeys the laws *)
Lemma pad_len n l : length (pad n l) = n.
Proof. unfold pad, zeros. rewrite firstn_length, app_length, repeat_length. lia. Qed.
Lemma mask_mask k l : mask k (mask k l) = l.
Proof.
  unfold mask. rewrite map_map. rewrite <- (map_id l) at 2. apply map_ext. intros x.
  rewrite N.lxor_assoc, N.lxor_nilpotent, N.lxor_0_r. reflexivity.
Qed.
Lemma curve_rt c : l_curve (Z.to_N c) (Z.to_N (- c)) = Some c.
Proof. unfold l_curve. f_equal. lia. Qed.
Theorem toy_laws : laws tse.
Proof.
  constructor; cbn -[toy_enc toy_dec toy_hash ec_exp].
  - intros p s. unfold toy_hash. rewrite app_length, !pad_len. reflexivity.
  - intros k iv p. unfold toy_dec, toy_enc. assert (E : (length (mask k p ++ pad 16 k) - 16)%nat = length (mask k p)) by (rewrite app_length, pad_len; lia).
    rewrite E. rewrite skipn_app, skipn_all, Nat.sub_diag. cbn [skipn app]. destruct (list_eq_dec _ _ _) as [_|N]; [|contradiction N; reflexivity].
    rewrite firstn_app, firstn_all, Nat.sub_diag. cbn [firstn]. rewrite app_nil_r, mask_mask. reflexivity.
  - intros k iv p. unfold toy_enc, zlen. rewrite app_length, pad_len. unfold mask. rewrite map_length. lia.
  - intros [n d p q dp dq u e] _. reflexivity.
  - intros r r0 _. eexists. split; [reflexivity|auto].
  - intros e H. unfold ec_exp in *. destruct (ec_curve e) as [c|]; [|cbn in H; lia]. cbn. rewrite curve_rt. eexists. split; [reflexivity|auto].
  - intros e e0 H. unfold ec_exp in *. destruct (ec_curve e) as [c|]; [|cbn in H; lia]. cbn. rewrite curve_rt. eexists. split; [reflexivity|auto].
  - reflexivity.
Qed.

(** ** C49: token state survives a clean restart *)
Definition C49_claim (w : world) : Prop :=
  laws (w_se w) -> forall d s rnd1 s1 o1 rnd2 s2 o2, reach w (sys0 d) s -> s_count s = 1%Z -> t_init (s_tok s) = true ->
  step w rnd1 s OFinalize = Ok (s1, o1) -> step w rnd2 s1 OInitialize = Ok (s2, o2) ->
  tok_view (s_tok s2) = tok_view (s_tok s).

(** Proved under: attribute sizes and counters fit the C types, and every token
    object has its key data (a certificate its value) in memory. Missing: a
    certificate after a restart has none; then it is false. *)
Theorem C49_partial w d s rnd1 s1 o1 rnd2 s2 o2 : laws (w_se w) ->
  reach w (sys0 d) s -> s_count s = 1%Z -> t_init (s_tok s) = true -> fits (s_tok s) -> Forall (storable (w_se w)) (t_objs (s_tok s)) ->
  step w rnd1 s OFinalize = Ok (s1, o1) -> step w rnd2 s1 OInitialize = Ok (s2, o2) ->
  o1 = OutRv CKR_OK /\ o2 = OutRv CKR_OK /\ tok_view (s_tok s2) = tok_view (s_tok s).
Proof.
  intros L R C Ti F S H1 H2. pose proof (reach_ginv w (l_hash _ L) _ _ R) as G.
  pose proof (wf_of (s_tok s) (t_objs (s_tok s)) G F eq_refl) as W.
  assert (W' : wf_tok (s_tok s)) by exact W. clear W.
  cbn [step] in H1, H2. unfold Finalize in H1. rewrite C in H1. change (1 - 1 =? 0)%Z with true in H1. cbv iota in H1. unfold store in H1.
  destruct (store_load (w_se w) (dh_law' _ L) (fun i => rnd1 (2 + i)%nat) (s_tok s) (s_fs s) W' S) as (ws & E & Ld).
  rewrite E in H1. cbn [bind] in H1. destruct (final_all _); cbn [bind] in H1; try discriminate. destruct (free_all _); cbn [bind] in H1; try discriminate.
  injection H1 as <- <-. split; [reflexivity|]. unfold Initialize in H2. cbn [s_count s_fs s_uid do_ops set_tok] in H2. change (0 =? 0)%Z with true in H2. cbv iota in H2.
  rewrite Ld in H2. cbn [bind] in H2. injection H2 as <- <-. split; [reflexivity|]. cbn [s_tok]. unfold tok_view, reload. cbn [t_label t_init t_so t_user t_seed t_objs].
  rewrite Ti. assert (P : forall p, wf_pin p -> pin_view (norm_pin p) = pin_view p).
  { intros p (A1 & A2 & A3 & _). unfold pin_view, norm_pin. cbn [p_hash p_len p_seed p_fail p_last p_tmo]. f_equal. f_equal. f_equal. f_equal. f_equal.
    set (h := firstn _ (p_hash p)). assert (Q : Z.to_nat (p_len p) = length h) by (unfold h; rewrite firstn_length; lia). rewrite Q. apply overlay_firstn. }
  destruct W' as (_ & W1 & W2 & _). rewrite (P _ W1), (P _ W2). f_equal. clear. generalize (s_uid s). induction (t_objs (s_tok s)) as [|o l IH]; intros u; cbn [reload_objs map]; [reflexivity|].
  rewrite blank_view, IH. reflexivity.
Qed.
Print Assumptions C49_partial.

Definition tokenly (t : template) : template := mkA CKA_TOKEN TRUE :: t.
Definition cert_tmpl : template :=
  [mkA CKA_CLASS (ULONG CKO_CERTIFICATE); mkA CKA_CERTIFICATE_TYPE (ULONG 0); mkA CKA_VALUE (AV [48; 1; 2]%N)].
Definition userlogin (p : list N) : op := OLogin H2 CKU_USER p (Some 0%Z).
(** Two token keys, then a certificate; restart; login; destroy the first key. *)
Definition cert_hist : list op :=
  setup ++ [OOpenSession 1 RW; userlogin upin; OCreateObject H2 (tokenly aes_tmpl); OCreateObject H2 (tokenly aes_tmpl);
    OCreateObject H2 (tokenly cert_tmpl); OLogout H2; OFinalize; OInitialize; OOpenSession 1 RW; userlogin upin;
    ODestroyObject H2 (2^28 + 1)].
Example cert_hist_ok : rvs (cert_hist ++ [OLogout H2; OFinalize; OInitialize]) = repeat CKR_OK 21 /\
  length (t_objs (s_tok (after cert_hist))) = 2%nat /\
  length (t_objs (s_tok (after (cert_hist ++ [OLogout H2; OFinalize; OInitialize])))) = 0%nat.
Proof. vm_compute. repeat split. Qed.
(** The certificate has lost its value at the restart, so storing it fails; the
    token file is written but not the files of the objects; the next load fails
    and all objects are gone. *)
Theorem C49_refuted : ~ C49_claim tw.
Proof.
  intros Cl. specialize (Cl toy_laws nofiles (after cert_hist) (rnd 0)).
  destruct (step tw (rnd 0) (after cert_hist) OFinalize) as [[s1 o1]| |] eqn:E1; [|vm_compute in E1; discriminate..].
  destruct (step tw (rnd 0) s1 OInitialize) as [[s2 o2]| |] eqn:E2; [|vm_compute in E1; injection E1 as <- _; vm_compute in E2; discriminate..].
  assert (R : reach tw (sys0 nofiles) (after cert_hist)) by (apply after_reach; vm_compute; exact Logic.I).
  assert (C : s_count (after cert_hist) = 1%Z) by (vm_compute; reflexivity).
  assert (T : t_init (s_tok (after cert_hist)) = true) by (vm_compute; reflexivity).
  specialize (Cl _ _ (rnd 0) _ _ R C T eq_refl E2). apply (f_equal snd) in Cl. apply (f_equal (@length _)) in Cl. revert Cl.
  vm_compute in E1. injection E1 as <- _. vm_compute in E2. injection E2 as <- _. vm_compute. discriminate.
Qed.
Print Assumptions C49_refuted.

(** Non-vacuity: a token with an AES key and RSA, EC and DH key pairs. *)
Definition zoo : list op :=
  setup ++ [OOpenSession 1 RW; userlogin upin; OCreateObject H2 (tokenly aes_tmpl);
    OGenerateKeyPair H2 KP_RSA (tokenly []) (tokenly []) (Some (GRsa (mkRsa 33 7 3 11 1 7 2 3)));
    OGenerateKeyPair H2 KP_EC (tokenly [mkA CKA_EC_PARAMS (AV ([6; 8] ++ p256)%N)]) (tokenly []) (Some (GEc 5 [4; 1; 2]%N));
    OGenerateKeyPair H2 KP_DH (tokenly [mkA CKA_PRIME (AV [23%N]); mkA CKA_BASE (AV [5%N])]) (tokenly []) (Some (GDh [6%N] [8%N]))].
Lemma zoo_reach : reach tw (sys0 nofiles) (after zoo).
Proof. apply after_reach. vm_compute. exact Logic.I. Qed.
Lemma zoo_fits : fits (s_tok (after zoo)).
Proof.
  unfold fits. split; [|split].
  - split; [|split]; split; vm_compute; first [discriminate|reflexivity].
  - split; [|split]; split; vm_compute; first [discriminate|reflexivity].
  - assert (E : map (fun o => (o_keyId o, o_label o)) (t_objs (s_tok (after zoo))) = repeat (SNull 0, SNull 0) 7) by (vm_compute; reflexivity).
    apply Forall_forall. intros o Ho. apply (in_map (fun o => (o_keyId o, o_label o))) in Ho. rewrite E in Ho. apply repeat_spec in Ho. injection Ho as -> ->. split; reflexivity.
Qed.
Ltac by_type := match goal with |- context [if ?b then _ else _] => let v := eval vm_compute in b in change b with v; cbv iota end.
Lemma zoo_storable : Forall (storable tse) (t_objs (s_tok (after zoo))).
Proof.
  let l := eval vm_compute in (t_objs (s_tok (after zoo))) in replace (t_objs (s_tok (after zoo))) with l by (vm_compute; reflexivity).
  repeat apply Forall_cons; try apply Forall_nil; unfold storable; by_type; (split; [vm_compute; discriminate|]);
  (split; [eexists; split; [reflexivity|vm_compute; reflexivity]|]);
  try (intros T; vm_compute in T; discriminate T); intros _; do 4 eexists; (split; [reflexivity|split; vm_compute; [discriminate|reflexivity]]).
Qed.
Lemma zoo_live : Forall (live_key tse) (t_objs (s_tok (after zoo))).
Proof.
  let l := eval vm_compute in (t_objs (s_tok (after zoo))) in replace (t_objs (s_tok (after zoo))) with l by (vm_compute; reflexivity).
  repeat apply Forall_cons; try apply Forall_nil; (split; [vm_compute; discriminate|]); repeat by_type;
  first [ solve [eexists; split; [reflexivity|]; repeat by_type; try (split; [reflexivity|]); split; vm_compute; [discriminate|reflexivity]]
        | solve [do 4 eexists; split; [reflexivity|]; split; [split; vm_compute; discriminate|]; split; [reflexivity|]; split; vm_compute; [discriminate|reflexivity]]
        | (split; [left; reflexivity|]; do 2 eexists; split; [reflexivity|]; split; [split; vm_compute; discriminate|reflexivity]) ].
Qed.
Example C49_partial_ex : exists s1 s2,
  step tw (rnd 0) (after zoo) OFinalize = Ok (s1, OutRv CKR_OK) /\ step tw (rnd 0) s1 OInitialize = Ok (s2, OutRv CKR_OK) /\
  tok_view (s_tok s2) = tok_view (s_tok (after zoo)) /\ length (t_objs (s_tok (after zoo))) = 7%nat.
Proof.
  destruct (step tw (rnd 0) (after zoo) OFinalize) as [[s1 o1]| |] eqn:E1; [|vm_compute in E1; discriminate..].
  destruct (step tw (rnd 0) s1 OInitialize) as [[s2 o2]| |] eqn:E2; [|vm_compute in E1; injection E1 as <- _; vm_compute in E2; discriminate..].
  exists s1, s2. destruct (C49_partial tw nofiles (after zoo) (rnd 0) s1 o1 (rnd 0) s2 o2 toy_laws zoo_reach) as (-> & -> & V);
    [vm_compute; reflexivity|vm_compute; reflexivity|apply zoo_fits|apply zoo_storable|exact E1|exact E2|].
  split; [reflexivity|]. split; [assumption|]. split; [exact V|]. clear. vm_compute. reflexivity.
Qed.

(** ** C50, C10: keys survive a restart and a change of the PIN *)
(** Calls other than those that set PINs, log in or restart. *)
Definition calm (c : op) : Prop :=
  match c with
  | OInitialize | OFinalize | ORestart | OInitToken _ _ _ | OInitPIN _ _ | OSetPIN _ _ _ | OLogin _ _ _ _ => False
  | _ => True
  end.
(** The user has logged in and not logged out again; [p] is the PIN in force. *)
Inductive as_user (w : world) (d : fs) : list N -> sys -> Prop :=
  | au_login s h p n rnd s' : reach w (sys0 d) s -> step w rnd s (OLogin h CKU_USER p (Some n)) = Ok (s', OutRv CKR_OK) -> as_user w d p s'
  | au_calm p s c rnd s' o : as_user w d p s -> calm c -> step w rnd s c = Ok (s', o) -> t_login (s_tok s') = RW_USER -> as_user w d p s'
  | au_set p s h old new rnd s' : as_user w d p s -> step w rnd s (OSetPIN h old new) = Ok (s', OutRv CKR_OK) -> as_user w d new s'.

Lemma as_user_reach w d p s : as_user w d p s -> reach w (sys0 d) s.
Proof. induction 1; [eapply reach_step; eauto|eapply reach_step; eauto|eapply reach_step; eauto]. Qed.
Lemma step_login w rnd s h ut p n s' rv : step w rnd s (OLogin h ut p n) = Ok (s', OutRv CKR_OK) -> rv = CKR_OK -> Login w s ut p n = Ok (s', OutRv rv).
Proof.
  intros H ->. revert H. cbn [step]. unfold with_sess, need_lib. destruct (0 <? _)%Z; [|discriminate]. destruct (sess_get s h); [auto|discriminate].
Qed.
Lemma step_setpin w rnd s h old new s' : step w rnd s (OSetPIN h old new) = Ok (s', OutRv CKR_OK) -> t_login (s_tok s) = RW_USER ->
  exists s1, SetUserPin w rnd s new = Ok (0%Z, s1) /\ s' = s1 /\ pin_len_ok new = true /\ right w (s_tok s) User old.
Proof.
  intros H U. cbn [step] in H. unfold with_sess, need_lib in H. destruct (0 <? _)%Z; [|discriminate]. destruct (sess_get s h) as [x|]; [|discriminate].
  unfold SetPIN in H. cbv zeta in H. destruct (pin_len_ok old) eqn:P1; [|discriminate]. destruct (pin_len_ok new) eqn:P2; [|discriminate]. cbn [negb] in H.
  unfold GetState in H. rewrite U in H. change (RW_USER =? RW_SO)%Z with false in H. change (RW_USER =? RW_USER)%Z with true in H. cbv iota in H.
  destruct (ss_use x =? SESSION_RW)%Z; [|discriminate].
  change (negb (orb (RW_USER =? RW_SO) (orb (RW_USER =? RW_USER) (RW_USER =? RW_PUBLIC))))%Z with false in H. change (RW_USER =? RW_SO)%Z with false in H. cbv iota in H.
  destruct (CheckPin w (s_tok s) (t_user (s_tok s)) old =? PIN_NOT_SET_E)%Z; [discriminate|].
  destruct (CheckPin w (s_tok s) (t_user (s_tok s)) old =? 0)%Z eqn:C; [|discriminate]. cbn [negb] in H.
  destruct (SetUserPin w rnd s new) as [[c s1]| |]; cbn [bind] in H; try discriminate. unfold rv_ in H. injection H as <- E.
  destruct (c =? 0)%Z eqn:Cz; [|discriminate]. apply Z.eqb_eq in Cz. subst c. exists s1. split; [reflexivity|]. split; [reflexivity|]. split; [reflexivity|].
  apply right_check. cbn [pin_of]. lia.
Qed.
Lemma setuser_opened w d p old new rnd s s1 : laws (w_se w) -> reach w (sys0 d) s -> opened w p (s_tok s) -> right w (s_tok s) User old -> pin_len_ok new = true ->
  SetUserPin w rnd s new = Ok (0%Z, s1) -> opened w new (s_tok s1) /\ map core_obj (t_objs (s_tok s1)) = map core_obj (t_objs (s_tok s)) /\ s_count s1 = s_count s.
Proof.
  intros L R (O1 & O2 & O3 & O4 & O5) Rt P H. unfold SetUserPin in H. apply store_frame in H as (E1 & _ & _ & E2 & E3). cbn in E1, E3. split; [|auto].
  apply tok0_eq in E2 as (_ & T2 & _ & T4 & T5 & T6 & T7). cbn [set_key set_seed set_user set_tok s_tok t_label t_init t_so t_user t_seed t_key t_login] in *.
  destruct O2 as (I & _). unfold opened, right. cbn [pin_of]. rewrite T2, T4, T5, T6, T7. cbn [p_len p_seed p_hash p_fail].
  split; [assumption|]. split; [|auto]. split; [assumption|]. split; [discriminate|]. reflexivity.
Qed.
Theorem as_user_opened w d p s : laws (w_se w) -> as_user w d p s -> opened w p (s_tok s).
Proof.
  intros L A. induction A as [s h p n rnd s' R H|p s c rnd s' o A IH C H U|p s h old new rnd s' A IH H].
  - apply (step_login _ _ _ _ _ _ _ _ CKR_OK) in H; [|reflexivity]. unfold Login in H. destruct (pin_len_ok p) eqn:P; [|discriminate]. cbn [negb] in H.
    change (CKU_USER =? CKU_SO)%Z with false in H. change (CKU_USER =? CKU_USER)%Z with true in H. cbv iota in H.
    destruct (UserLogin w (s_tok s) p (Some n)) as [[c t]| |] eqn:E; cbn [bind] in H; try discriminate. unfold rv_ in H. injection H as <- Ec.
    assert (c = 0%Z) by (destruct (Z.eq_dec c 0) as [|N]; [assumption|apply (login_rv_nz false) in N; congruence]). subst c. clear Ec.
    unfold UserLogin in E. destruct (logged_in _); [discriminate|]. destruct (lock_check _ _) as [q|] eqn:K; [|discriminate]. cbv zeta in E.
    apply lock_same in K as (K1 & K2 & K3 & _).
    destruct (CheckPin _ _ _ _ =? PIN_INVALID_E)%Z eqn:C1. { injection E as E _. apply Z.eqb_eq in C1. rewrite C1 in E. discriminate. }
    destruct (CheckPin _ _ _ _ =? 0)%Z eqn:C2. 2:{ injection E as E _. rewrite E in C2. discriminate. }
    destruct (decode_all _ _ _) as [[c2 l]| |]; cbn [bind] in E; try discriminate.
    destruct (c2 =? 0)%Z eqn:C3; [injection E as E'|injection E as E E'; subst c2; discriminate]. subst t. cbn [set_tok s_tok].
    apply Z.eqb_eq in C2. apply check_0 in C2 as (D1 & D2 & D3). cbn in D1.
    split; [reflexivity|]. split; [|split; [reflexivity|split; [reflexivity|exact P]]]. split; [exact D1|]. split; [exact D2|]. exact D3.
  - destruct IH as (O1 & O2 & O3 & O4 & O5). pose proof (reach_inv _ _ _ (as_user_reach _ _ _ _ A)) as I.
    pose proof (step_pins _ _ _ _ _ _ I H) as SP.
    assert (Q : t_so (s_tok s') = t_so (s_tok s) /\ t_user (s_tok s') = t_user (s_tok s) /\ t_init (s_tok s') = t_init (s_tok s) /\
         t_label (s_tok s') = t_label (s_tok s) /\ t_seed (s_tok s') = t_seed (s_tok s) /\ t_key (s_tok s') = t_key (s_tok s)) by (destruct c; try contradiction C; exact SP).
    destruct Q as (_ & Q2 & Q3 & _ & Q5 & Q6). unfold opened, right in *. cbn [pin_of] in *. rewrite Q2, Q3, Q5, Q6. auto 10.
  - destruct (step_setpin _ _ _ _ _ _ _ H) as (s1 & E & -> & P & Rt); [apply IH|]. eapply setuser_opened; eauto using as_user_reach.
Qed.

(** What comes back after a restart and login. *)
Definition recovered (l l' : list obj) : Prop :=
  Forall2 (fun o o' => obj_view o' = obj_view o /\ same_key o o' /\ o_enc o' = false) l l'.
(** Logout, restart and opening of a session. *)
Definition cycle (w : world) (s s4 : sys) (h4 : Z) : Prop :=
  exists h rnd1 s1 rnd2 s2 o2 rnd3 s3 o3 rnd4 fl,
    step w rnd1 s (OLogout h) = Ok (s1, OutRv CKR_OK) /\ step w rnd2 s1 OFinalize = Ok (s2, o2) /\ step w rnd3 s2 OInitialize = Ok (s3, o3) /\
    step w rnd4 s3 (OOpenSession 1 fl) = Ok (s4, OutH CKR_OK h4).
(** [o] can be read after logging in with [p]. *)
Definition readable_by (w : world) (p : list N) (s4 : sys) (h4 : Z) (o : obj) : Prop :=
  forall rnd n, exists s5, step w rnd s4 (OLogin h4 CKU_USER p (Some n)) = Ok (s5, OutRv CKR_OK) /\
  exists o', In o' (t_objs (s_tok s5)) /\ obj_view o' = obj_view o /\ same_key o o' /\ o_enc o' = false.
Definition is_readable_key (s : sys) (o : obj) : Prop :=
  In o (t_objs (s_tok s)) /\ o_class o <> CKO_CERTIFICATE /\ o_enc o = false.
Definition C50_claim (w : world) : Prop :=
  laws (w_se w) -> forall d p s s4 h4 o, as_user w d p s -> s_count s = 1%Z -> cycle w s s4 h4 ->
  is_readable_key s o -> readable_by w p s4 h4 o.

Lemma opened_get s l x u : sess_ok l -> In x l -> u <> 0%Z -> exists x', sess_get (put_sess (set_sess s l) (set_use x u)) (ss_h x) = Some x'.
Proof.
  intros (Ch & Ln & _) I U. exists (set_use x u). unfold sess_get.
  pose proof (chain_range _ _ Ch I) as Rg. unfold sess_handle in Rg.
  assert (Q : (ss_h x / 2^16 = 1)%Z) by (symmetry; apply Z.div_unique with (r := (ss_h x - 2^16)%Z); lia). unfold slot_ok. rewrite Q. change (1 =? 1)%Z with true. cbv iota.
  cbn [put_sess set_sess s_sess].
  pose proof (find_sess_uniq (upd_sess l (set_use x u)) (set_use x u)) as Fs. change (ss_h (set_use x u)) with (ss_h x) in Fs. rewrite Fs.
  - unfold in_use. cbn [set_use ss_use]. destruct (u =? 0)%Z eqn:E; [lia|reflexivity].
  - unfold uniq. rewrite upd_sess_h. apply chain_uniq. exact Ch.
  - eapply upd_sess_self; [exact I|reflexivity].
Qed.
Lemma step_logout w rnd s h s1 : step w rnd s (OLogout h) = Ok (s1, OutRv CKR_OK) -> exists t, Logout w (s_tok s) = Ok t /\ s1 = set_tok s t /\ exists x, sess_get s h = Some x.
Proof.
  cbn [step]. unfold with_sess, need_lib. destruct (0 <? _)%Z; [|discriminate]. destruct (sess_get s h); [|discriminate].
  destruct (Logout w (s_tok s)) as [t| |]; cbn [bind]; try discriminate. unfold rv_. intros [= <-]. eauto.
Qed.

(** Proved when every token object is a key that can be encoded: then the login
    succeeds and every key is back. Missing: tokens with certificates. *)
Theorem C50_partial w d p s s4 h4 : laws (w_se w) -> as_user w d p s -> s_count s = 1%Z ->
  fits (s_tok s) -> Forall (live_key (w_se w)) (t_objs (s_tok s)) -> cycle w s s4 h4 ->
  forall rnd n, exists s5, step w rnd s4 (OLogin h4 CKU_USER p (Some n)) = Ok (s5, OutRv CKR_OK) /\ recovered (t_objs (s_tok s)) (t_objs (s_tok s5)).
Proof.
  intros L A C F K (h & rnd1 & s1 & rnd2 & s2 & o2 & rnd3 & s3 & o3 & rnd4 & fl & Ha & Hb & Hc & Hd) rnd5 n. pose proof (as_user_opened _ _ _ _ L A) as O. pose proof (as_user_reach _ _ _ _ A) as R.
  pose proof (reach_ginv w (l_hash _ L) _ _ R) as G.
  assert (R1 : reach w (sys0 d) s1) by (eapply reach_step; eauto). assert (R2 : reach w (sys0 d) s2) by (eapply reach_step; eauto).
  assert (R3 : reach w (sys0 d) s3) by (eapply reach_step; eauto). assert (R4 : reach w (sys0 d) s4) by (eapply reach_step; eauto).
  apply step_logout in Ha as (t & Lo & -> & x0 & Gx0). destruct (logout_kept w L p _ _ O K Lo) as (l' & -> & Kp). destruct (kept_storable w _ _ _ Kp) as [St Id].
  pose proof (wf_of _ _ G F Id) as W. set (t1 := set_login (set_objs (s_tok s) l') RW_PUBLIC) in *.
  cbn [step] in Hb, Hc. unfold Finalize in Hb. change (s_count (set_tok s t1)) with (s_count s) in Hb. rewrite C in Hb. change (1 - 1 =? 0)%Z with true in Hb. cbv iota in Hb. unfold store in Hb.
  change (s_tok (set_tok s t1)) with t1 in Hb.
  destruct (store_load (w_se w) (dh_law' _ L) (fun i => rnd2 (2 + i)%nat) t1 (s_fs s) W St) as (ws & E & Ld).
  rewrite E in Hb. cbn [bind] in Hb. destruct (final_all _); cbn [bind] in Hb; try discriminate. destruct (free_all _); cbn [bind] in Hb; try discriminate.
  injection Hb as <- _. unfold Initialize in Hc. cbn [s_count s_fs s_uid do_ops set_tok] in Hc. change (0 =? 0)%Z with true in Hc. cbv iota in Hc.
  rewrite Ld in Hc. cbn [bind] in Hc. injection Hc as <- _.
  pose proof (reach_inv _ _ _ R3) as I3. cbn [step] in Hd. unfold with_slot, need_lib in Hd. cbn [s_count] in Hd. change (0 <? 1)%Z with true in Hd. change (slot_ok 1) with true in Hd. cbv iota in Hd.
  apply OpenSession_ok in Hd as [(_ & rv & Q & _) | (l & x & Hd)]; [discriminate| |exact I3|reflexivity]. cbv zeta in Hd.
  destruct Hd as (Es4 & Eh & Sl & _ & _ & _ & _ & Ix & Ux & _). injection Eh as Eh. subst h4.
  assert (Tk : s_tok s4 = reload (s_uid s) t1) by (rewrite Es4; reflexivity).
  assert (Gt : exists x', sess_get s4 (ss_h x) = Some x').
  { rewrite Es4. apply (opened_get _ _ _ _ Sl Ix). destruct (negb _); discriminate. }
  destruct Gt as (x' & Gt). 
  assert (Cn : s_count s4 = 1%Z) by (rewrite Es4; reflexivity).
  cbn [step]. unfold with_sess, need_lib. rewrite Cn. change (0 <? 1)%Z with true. cbv iota. rewrite Gt.
  destruct O as (O1 & O2 & O3 & O4 & O5).
  destruct (decode_all_reloaded w _ _ _ Kp (s_uid s)) as (l2 & D2 & B2).
  unfold Login. rewrite O5. cbn [negb]. change (CKU_USER =? CKU_SO)%Z with false. change (CKU_USER =? CKU_USER)%Z with true. cbv iota. rewrite Tk.
  assert (Rt : right w (reload (s_uid s) t1) User p) by (apply norm_right; [exact W|exact O2]).
  destruct (login_back w p (reload (s_uid s) t1) n _ l2 eq_refl Rt O3 D2 B2) as (t' & U & Bk & _).
  rewrite U. cbn [bind]. exists (set_tok s4 t'). split; [reflexivity|]. exact Bk.
Qed.
Print Assumptions C50_partial.

(** The destroyed-key history: the other key, readable before, is gone. *)
Lemma cert_user : as_user tw nofiles upin (after cert_hist).
Proof.
  set (pre := removelast (removelast cert_hist)).
  assert (R : reach tw (sys0 nofiles) (after pre)) by (apply after_reach; vm_compute; exact Logic.I).
  destruct (step tw (rnd 161) (after pre) (userlogin upin)) as [[s1 o1]| |] eqn:E1; [|vm_compute in E1; discriminate..].
  eapply (au_calm _ _ _ s1 (ODestroyObject H2 (2^28 + 1)) (rnd 171)).
  - eapply au_login; [exact R|]. replace (OutRv CKR_OK) with o1; [exact E1|]. vm_compute in E1. injection E1 as _ <-. reflexivity.
  - exact Logic.I.
  - vm_compute in E1. injection E1 as <- _. vm_compute. reflexivity.
  - vm_compute. reflexivity.
Qed.
Theorem C50_refuted : ~ C50_claim tw.
Proof.
  intros Cl.
  destruct (step tw (rnd 0) (after cert_hist) (OLogout H2)) as [[s1 o1]| |] eqn:E1; [|vm_compute in E1; discriminate..].
  destruct (step tw (rnd 0) s1 OFinalize) as [[s2 o2]| |] eqn:E2; [|vm_compute in E1; injection E1 as <- _; vm_compute in E2; discriminate..].
  destruct (step tw (rnd 0) s2 OInitialize) as [[s3 o3]| |] eqn:E3; [|vm_compute in E1; injection E1 as <- _; vm_compute in E2; injection E2 as <- _; vm_compute in E3; discriminate..].
  destruct (step tw (rnd 0) s3 (OOpenSession 1 RW)) as [[s4 o4]| |] eqn:E4;
    [|vm_compute in E1; injection E1 as <- _; vm_compute in E2; injection E2 as <- _; vm_compute in E3; injection E3 as <- _; vm_compute in E4; discriminate..].
  assert (Cy : cycle tw (after cert_hist) s4 H2).
  { exists H2, (rnd 0), s1, (rnd 0), s2, o2, (rnd 0), s3, o3, (rnd 0), RW. split; [rewrite E1; f_equal; f_equal; vm_compute in E1; injection E1 as _ <-; reflexivity|].
    split; [exact E2|]. split; [exact E3|]. rewrite E4. f_equal. f_equal.
    vm_compute in E1; injection E1 as <- _; vm_compute in E2; injection E2 as <- _; vm_compute in E3; injection E3 as <- _; vm_compute in E4; injection E4 as _ <-. reflexivity. }
  assert (C : s_count (after cert_hist) = 1%Z) by (vm_compute; reflexivity).
  set (ok := nth 1 (t_objs (s_tok (after cert_hist))) (obj_new 0 0)).
  assert (K : is_readable_key (after cert_hist) ok).
  { split; [apply nth_In|split]; [vm_compute; lia|vm_compute; discriminate|vm_compute; reflexivity]. }
  destruct (Cl toy_laws nofiles upin _ s4 H2 ok cert_user C Cy K (rnd 0) 0%Z) as (s5 & Lg & _). clear - E1 E2 E3 E4 Lg.
  vm_compute in E1; injection E1 as <- _; vm_compute in E2; injection E2 as <- _; vm_compute in E3; injection E3 as <- _; vm_compute in E4; injection E4 as <- _.
  vm_compute in Lg. discriminate.
Qed.
Print Assumptions C50_refuted.
(** Non-vacuity: the seven keys of [zoo] come back. *)
Lemma zoo_user : as_user tw nofiles upin (after zoo).
Proof.
  set (pre := setup ++ [OOpenSession 1 RW]).
  assert (R : reach tw (sys0 nofiles) (after pre)) by (apply after_reach; vm_compute; exact Logic.I).
  assert (S0 : forall s o, step tw (rnd 81) (after pre) (userlogin upin) = Ok (s, o) -> as_user tw nofiles upin s).
  { intros s o E. assert (Q : o = OutRv CKR_OK) by (vm_compute in E; injection E as _ <-; reflexivity). subst o. eapply au_login; [exact R|exact E]. }
  assert (S1 : forall l s k, as_user tw nofiles upin s -> Forall calm l ->
    (fix go (s : sys) (k : N) (l : list op) : Prop := match l with [] => s = after zoo | c :: r =>
       match step tw (rnd k) s c with Ok (s', _) => t_login (s_tok s') = RW_USER /\ go s' (k + 10)%N r | _ => False end end) s k l -> as_user tw nofiles upin (after zoo)).
  { induction l as [|c l IH]; intros s k A F G; [rewrite <- G; exact A|]. inversion F as [|? ? Fc Fl]. subst. 
    destruct (step tw (rnd k) s c) as [[s' o]| |] eqn:E; try contradiction. destruct G as [G1 G2]. eapply IH; [eapply au_calm; eauto|exact Fl|exact G2]. }
  destruct (step tw (rnd 81) (after pre) (userlogin upin)) as [[s1 o1]| |] eqn:E1; [|vm_compute in E1; discriminate..].
  apply (S1 (skipn 9 zoo) s1 91%N); [eapply S0; reflexivity|repeat constructor|].
  vm_compute in E1. injection E1 as <- _. vm_compute. repeat split.
Qed.
Example C50_partial_ex : exists s4 s5, cycle tw (after zoo) s4 H2 /\
  step tw (rnd 0) s4 (userlogin upin) = Ok (s5, OutRv CKR_OK) /\ recovered (t_objs (s_tok (after zoo))) (t_objs (s_tok s5)).
Proof.
  destruct (step tw (rnd 0) (after zoo) (OLogout H2)) as [[s1 o1]| |] eqn:E1; [|vm_compute in E1; discriminate..].
  destruct (step tw (rnd 0) s1 OFinalize) as [[s2 o2]| |] eqn:E2; [|vm_compute in E1; injection E1 as <- _; vm_compute in E2; discriminate..].
  destruct (step tw (rnd 0) s2 OInitialize) as [[s3 o3]| |] eqn:E3; [|vm_compute in E1; injection E1 as <- _; vm_compute in E2; injection E2 as <- _; vm_compute in E3; discriminate..].
  destruct (step tw (rnd 0) s3 (OOpenSession 1 RW)) as [[s4 o4]| |] eqn:E4;
    [|vm_compute in E1; injection E1 as <- _; vm_compute in E2; injection E2 as <- _; vm_compute in E3; injection E3 as <- _; vm_compute in E4; discriminate..].
  assert (Cy : cycle tw (after zoo) s4 H2).
  { exists H2, (rnd 0), s1, (rnd 0), s2, o2, (rnd 0), s3, o3, (rnd 0), RW. split; [rewrite E1; f_equal; f_equal; vm_compute in E1; injection E1 as _ <-; reflexivity|].
    split; [exact E2|]. split; [exact E3|]. rewrite E4. f_equal. f_equal.
    vm_compute in E1; injection E1 as <- _; vm_compute in E2; injection E2 as <- _; vm_compute in E3; injection E3 as <- _; vm_compute in E4; injection E4 as _ <-. reflexivity. }
  destruct (C50_partial tw nofiles upin (after zoo) s4 H2 toy_laws zoo_user) with (rnd := rnd 0) (n := 0%Z) as (s5 & Lg & Rc);
    [vm_compute; reflexivity|apply zoo_fits|apply zoo_live|exact Cy|]. exists s4, s5. auto.
Qed.

(** ** C10 *)
(** PIN, login and restart calls. *)
Definition pinop (c : op) : Prop :=
  match c with
  | OInitialize | OFinalize | OInitPIN _ _ | OSetPIN _ _ _ | OOpenSession _ _ | OLogin _ _ _ _ | OLogout _ => True
  | _ => False
  end.
(** Whatever successful calls of this kind follow: when the user is logged in
    again the key is there. *)
Definition C10_claim (w : world) : Prop :=
  laws (w_se w) -> forall d p s o l s' outs, as_user w d p s -> is_readable_key s o ->
  Forall (fun c => pinop (fst c)) l -> run w s l = Ok (s', outs) -> Forall (fun x => out_rv x = CKR_OK) outs -> t_login (s_tok s') = RW_USER ->
  exists o', In o' (t_objs (s_tok s')) /\ obj_view o' = obj_view o /\ same_key o o' /\ o_enc o' = false.

Lemma core_data o o' : core_obj o' = core_obj o -> o_type o' = o_type o /\ o_class o' = o_class o /\ o_data o' = o_data o /\ obj_view o' = obj_view o /\ o_keyId o' = o_keyId o /\ o_label o' = o_label o.
Proof.
  intros E. split; [change (o_type (core_obj o') = o_type (core_obj o))|split; [change (o_class (core_obj o') = o_class (core_obj o))|split; [change (o_data (core_obj o') = o_data (core_obj o))|split; [change (obj_view (core_obj o') = obj_view (core_obj o))|split; [change (o_keyId (core_obj o') = o_keyId (core_obj o))|change (o_label (core_obj o') = o_label (core_obj o))]]]]]; rewrite E; reflexivity.
Qed.
Lemma core_live se o o' : core_obj o' = core_obj o -> live_key se o -> live_key se o'.
Proof.
  intros E. apply core_data in E as (T & C & D & _). unfold live_key, as_rsa, as_ec, as_dh, as_sym. rewrite T, C, D. auto.
Qed.
Lemma core_same_key o o' o2 : core_obj o' = core_obj o -> same_key o' o2 -> same_key o o2.
Proof.
  intros E. apply core_data in E as (T & C & D & _). unfold same_key, as_rsa, as_ec, as_dh, as_sym. rewrite T, C, D. auto.
Qed.
Lemma core_list (P : obj -> Prop) l l' : (forall o o', core_obj o' = core_obj o -> P o -> P o') -> map core_obj l' = map core_obj l -> Forall P l -> Forall P l'.
Proof.
  intros H E F. revert l' E. induction F as [|o l Po F IH]; intros [|o' l'] E; try discriminate; constructor;
    pose proof (f_equal (fun q => hd (core_obj o) q) E) as E1; pose proof (f_equal (@tl _) E) as E2; cbn [map hd tl] in E1, E2; eauto.
Qed.
Lemma core_recovered l l' l2 : map core_obj l' = map core_obj l -> recovered l' l2 -> recovered l l2.
Proof.
  intros E R. revert l E. induction R as [|o' o2 l' l2 (V & K & N) R IH]; intros [|o l] E; try discriminate; constructor;
    pose proof (f_equal (fun q => hd (core_obj o) q) E) as E1; pose proof (f_equal (@tl _) E) as E2; cbn [map hd tl] in E1, E2; [|apply IH; exact E2].
  split; [|split; [eapply core_same_key; eauto|exact N]]. apply core_data in E1 as (_ & _ & _ & V1 & _). congruence.
Qed.
(** Proved: the logged-in user changes the PIN. Then the keys are back after
    logout and login with the new PIN, with or without a restart between. *)
Theorem C10_partial w d p s h old new rnd s1 : laws (w_se w) -> as_user w d p s -> s_count s = 1%Z ->
  fits (s_tok s) -> Forall (live_key (w_se w)) (t_objs (s_tok s)) ->
  step w rnd s (OSetPIN h old new) = Ok (s1, OutRv CKR_OK) ->
  (forall h' rnd2 s2 rnd3 n s3 o3, step w rnd2 s1 (OLogout h') = Ok (s2, OutRv CKR_OK) ->
     step w rnd3 s2 (OLogin h' CKU_USER new (Some n)) = Ok (s3, o3) ->
     o3 = OutRv CKR_OK /\ recovered (t_objs (s_tok s)) (t_objs (s_tok s3))) /\
  (forall s4 h4, cycle w s1 s4 h4 -> forall rnd2 n, exists s5,
     step w rnd2 s4 (OLogin h4 CKU_USER new (Some n)) = Ok (s5, OutRv CKR_OK) /\ recovered (t_objs (s_tok s)) (t_objs (s_tok s5))).
Proof.
  intros L A C F K H. pose proof (as_user_opened _ _ _ _ L A) as O. pose proof (as_user_reach _ _ _ _ A) as R.
  pose proof (au_set _ _ _ _ _ _ _ _ _ A H) as A1.
  destruct (step_setpin _ _ _ _ _ _ _ H) as (s1' & E & -> & P & Rt); [apply O|].
  destruct (setuser_opened _ _ _ _ _ _ _ _ L R O Rt P E) as (O1 & Co & Cn).
  assert (K1 : Forall (live_key (w_se w)) (t_objs (s_tok s1'))) by (eapply core_list; [apply core_live|exact Co|exact K]).
  split.
  - intros h' rnd2 s2 rnd3 n s3 o3 Ha Hb. apply step_logout in Ha as (t & Lo & -> & x0 & Gx0).
    destruct (logout_kept w L new _ _ O1 K1 Lo) as (l' & -> & Kp). destruct (decode_all_kept w _ _ _ Kp) as (l2 & D2 & B2).
    destruct O1 as (Q1 & Q2 & Q3 & Q4 & Q5).
    destruct (login_back w new (set_login (set_objs (s_tok s1') l') RW_PUBLIC) n _ l2 eq_refl Q2 Q3 D2 B2) as (t' & U & Bk & _).
    cbn [step] in Hb. unfold with_sess, need_lib in Hb. cbn [set_tok s_count] in Hb. rewrite Cn, C in Hb. change (0 <? 1)%Z with true in Hb. cbv iota in Hb.
    change (sess_get (set_tok s1' (set_login (set_objs (s_tok s1') l') RW_PUBLIC)) h') with (sess_get s1' h') in Hb. rewrite Gx0 in Hb.
    unfold Login in Hb. rewrite Q5 in Hb. cbn [negb set_tok s_tok] in Hb. change (CKU_USER =? CKU_SO)%Z with false in Hb. change (CKU_USER =? CKU_USER)%Z with true in Hb. cbv iota in Hb.
      rewrite U in Hb. cbn [bind] in Hb. unfold rv_ in Hb. injection Hb as <- <-. split; [reflexivity|]. eapply core_recovered; [exact Co|exact Bk].
  - intros s4 h4 Cy rnd2 n. assert (F1 : fits (s_tok s1')).
    { unfold SetUserPin in E. apply store_frame in E as (_ & _ & _ & E2 & _). apply tok0_eq in E2 as (_ & _ & T3 & T4 & _).
      cbn [set_key set_seed set_user set_tok s_tok t_so t_user] in *. destruct F as (F1 & F2 & F3). unfold fits. rewrite T3, T4. split; [exact F1|]. split; [exact F2|].
      eapply core_list; [|exact Co|exact F3]. intros o o' Q. apply core_data in Q as (_ & _ & _ & _ & -> & ->). auto. }
    destruct (C50_partial w d new s1' s4 h4 L A1) with (rnd := rnd2) (n := n) as (s5 & Lg & Rc); auto; [congruence|].
    exists s5. split; [exact Lg|]. eapply core_recovered; eauto.
Qed.
Print Assumptions C10_partial.

(** After logout the PIN is changed in the public session: the storage key is
    replaced but the key data is not encrypted anew. *)
Theorem C10_refuted : ~ C10_claim tw.
Proof.
  intros Cl. set (l := numbered 500 [OLogout H2; OSetPIN H2 upin pin2; userlogin pin2]).
  destruct (run tw (after zoo) l) as [[s' outs]| |] eqn:E; [|vm_compute in E; discriminate..].
  set (ok := nth 0 (t_objs (s_tok (after zoo))) (obj_new 0 0)).
  assert (K : is_readable_key (after zoo) ok).
  { split; [apply nth_In|split]; [vm_compute; lia|vm_compute; discriminate|vm_compute; reflexivity]. }
  assert (P : Forall (fun c => pinop (fst c)) l) by (repeat constructor).
  assert (OK : Forall (fun x => out_rv x = CKR_OK) outs) by (vm_compute in E; injection E as _ <-; repeat constructor).
  assert (U : t_login (s_tok s') = RW_USER) by (vm_compute in E; injection E as <- _; reflexivity).
  destruct (Cl toy_laws nofiles upin _ ok l s' outs zoo_user K P E OK U) as (o' & I & V & _ & N).
  assert (A : forallb (fun o => orb (negb (o_handle o =? o_handle ok)%Z) (o_enc o)) (t_objs (s_tok s')) = true).
  { vm_compute in E. injection E as <- _. clear. vm_compute. reflexivity. }
  rewrite forallb_forall in A. apply (f_equal (fun v => snd (fst (fst (fst (fst (fst (fst (fst (fst (fst v)))))))))) ) in V. cbn [obj_view fst snd] in V.
  specialize (A _ I). cbv beta in A. rewrite V, N, Z.eqb_refl in A. discriminate.
Qed.
Print Assumptions C10_refuted.
Example C10_partial_ex : exists s1, step tw (rnd 0) (after zoo) (OSetPIN H2 upin pin2) = Ok (s1, OutRv CKR_OK) /\
  exists s2 s3, step tw (rnd 0) s1 (OLogout H2) = Ok (s2, OutRv CKR_OK) /\ step tw (rnd 0) s2 (userlogin pin2) = Ok (s3, OutRv CKR_OK) /\
  recovered (t_objs (s_tok (after zoo))) (t_objs (s_tok s3)).
Proof.
  destruct (step tw (rnd 0) (after zoo) (OSetPIN H2 upin pin2)) as [[s1 o1]| |] eqn:E1; [|vm_compute in E1; discriminate..].
  assert (Q1 : o1 = OutRv CKR_OK) by (vm_compute in E1; injection E1 as _ <-; reflexivity). subst o1.
  destruct (step tw (rnd 0) s1 (OLogout H2)) as [[s2 o2]| |] eqn:E2; [|vm_compute in E1; injection E1 as <-; vm_compute in E2; discriminate..].
  assert (Q2 : o2 = OutRv CKR_OK) by (vm_compute in E1; injection E1 as <-; vm_compute in E2; injection E2 as _ <-; reflexivity). subst o2.
  destruct (step tw (rnd 0) s2 (userlogin pin2)) as [[s3 o3]| |] eqn:E3; [|vm_compute in E1; injection E1 as <-; vm_compute in E2; injection E2 as <-; vm_compute in E3; discriminate..].
  exists s1. split; [reflexivity|]. exists s2, s3. split; [exact E2|].
  destruct (C10_partial tw nofiles upin (after zoo) H2 upin pin2 (rnd 0) s1 toy_laws zoo_user) as [A _];
    [vm_compute; reflexivity|apply zoo_fits|apply zoo_live|exact E1|].
  destruct (A H2 (rnd 0) s2 (rnd 0) 0%Z s3 o3 E2 E3) as [-> Rc]. split; [exact E3|exact Rc].
Qed.
