(** Key material at rest: C53, C54, C55. *)
From Verif Require Import Base Codec CodecProofs Ops ToyEnv Object ObjectProofs PropObject Store StoreSpec StoreProofs Sys SysProofs SysProofs2 SysProofs3 SysProofs4
  LoginProofs WfProofs KeyProofs CrashProofs DiskProofs ToySys PropStore PropStore2 SealProofs.
From Coq Require Import Permutation.

(** ** C53: private key bytes at rest are always encrypted *)
(** The states a process and its restarts go through, the last one first. *)
Inductive trace (w : world) : list sys -> Prop :=
  | tr_start : trace w [sys0 nofiles]
  | tr_step s l rnd c s' o : trace w (s :: l) -> step w rnd s c = Ok (s', o) -> trace w (s' :: s :: l).
(** Keys derived from the user's PIN and the token seed in one of the states. *)
Definition user_key (w : world) (l : list sys) (k : list N) : Prop :=
  exists s p, In s l /\ right w (s_tok s) User p /\ k = se_hash (w_se w) p (t_seed (s_tok s)).
(** A write to the file of a private or secret key writes a ciphertext under such
    a key, or the domain parameters of a DH key. *)
Definition C53_claim (w : world) : Prop :=
  laws (w_se w) -> small_der (w_se w) -> forall s l f b, trace w (s :: l) -> In (WWrite f b) (s_log s) -> 
  In (fst f) [F_SYMMKEY; F_RSA_PRIV; F_ECC_PRIV; F_DH_PRIV] ->
  (exists k iv p, user_key w (s :: l) k /\ b = arr (se_enc (w_se w) k iv p)) \/
  (fst f = F_DH_PRIV /\ exists p g, b = arr (snd (se_dh_der (w_se w) p g))).
(** The plain value of the only private key of a token is not written by any calls
    that create no object. *)
Definition C53_plain_claim (w : world) : Prop :=
  laws (w_se w) -> small_der (w_se w) -> forall s h s' os o p g n v f, reach w (sys0 nofiles) s -> t_objs (s_tok s) = [o] ->
  o_class o = CKO_PRIVATE_KEY -> o_data o = KDh p g n v -> (0 < n)%Z ->
  forallb (fun c => negb (creates (fst c))) h = true -> run w s h = Ok (s', os) ->
  ~ In (WWrite f (arr (firstn (Z.to_nat n) v))) (skipn (length (s_log s)) (s_log s')).

(** The same for histories in which objects are created only while the user is
    logged in and the class of an object is never changed. *)
Inductive ctrace (w : world) : list sys -> Prop :=
  | ct_start : ctrace w [sys0 nofiles]
  | ct_step s l rnd c s' o : ctrace w (s :: l) -> careful s c -> step w rnd s c = Ok (s', o) -> ctrace w (s' :: s :: l).
Lemma ctrace_trace w l : ctrace w l -> trace w l.
Proof. induction 1; [constructor|econstructor; eassumption]. Qed.
Lemma trace_reach w s l : trace w (s :: l) -> reach w (sys0 nofiles) s.
Proof.
  assert (G : forall l, trace w l -> match l with s :: _ => reach w (sys0 nofiles) s | [] => True end).
  { induction 1 as [|s0 l0 rnd c s' o T IH H]; [apply reach_0|]. eapply reach_step; eauto. }
  intros T. exact (G _ T).
Qed.
Lemma sealed_mono w (U V : list N -> Prop) x : (forall k, U k -> V k) -> sealed w U x -> sealed w V x.
Proof. intros M (k & iv & p & A & B). exists k, iv, p. auto. Qed.
Lemma sseal_mono w (U V : list N -> Prop) s : (forall k, U k -> V k) -> sseal w U s /\ linv U s -> sseal w V s /\ linv V s.
Proof.
  intros M (((A1 & A2) & B & C) & (D1 & D2)). pose proof (sealed_mono w U V) as Q. split; [|split; auto]. split; [split|split].
  - eapply Forall_impl; [|exact A1]. intros o X Y kd Z. eauto.
  - destruct A2; auto.
  - intros f b X Y. destruct (B f b X Y) as [->|(x & r & E & F)]; [auto|right; exists x, r; eauto].
  - eapply Forall_impl; [|exact C]. intros [f|f b]; cbn; [auto|]. intros X Y. destruct (X Y) as (d & E & [F|F]); exists d; eauto.
Qed.
Lemma ctrace_seal w s l : laws (w_se w) -> small_der (w_se w) -> ctrace w (s :: l) -> sseal w (user_key w (s :: l)) s /\ linv (user_key w (s :: l)) s.
Proof.
  intros L Sm. assert (G : forall l, ctrace w l -> match l with s :: _ => sseal w (user_key w l) s /\ linv (user_key w l) s | [] => True end); [|intros T; exact (G _ T)].
  induction 1 as [|s0 l0 rnd c s' o T IH Ca H].
  - split; [|split; [discriminate|intros Q; exfalso; apply Q; reflexivity]]. split; [split; [constructor|right; constructor]|]. split; [intros f b _ X; discriminate X|constructor].
  - assert (R := trace_reach _ _ _ (ctrace_trace _ _ T)).
    apply (sseal_mono w (user_key w (s0 :: l0)) (user_key w (s' :: s0 :: l0))) in IH; [|intros k (x & p & A & B); exists x, p; split; [right; exact A|exact B]].
    destruct IH as [I1 I2]. eapply step_seal; [apply L|exact Sm|eapply reach_inv; exact R|exact Ca|exact I2|exact I1| |exact H].
    intros (p & A & B). exists s', p. split; [left; reflexivity|auto].
Qed.
Theorem C53_partial w s l f b : laws (w_se w) -> small_der (w_se w) -> ctrace w (s :: l) -> In (WWrite f b) (s_log s) -> 
  In (fst f) [F_SYMMKEY; F_RSA_PRIV; F_ECC_PRIV; F_DH_PRIV] ->
  (exists k iv p, user_key w (s :: l) k /\ b = arr (se_enc (w_se w) k iv p)) \/
  (fst f = F_DH_PRIV /\ exists p g, b = arr (snd (se_dh_der (w_se w) p g))).
Proof.
  intros L Sm T I K. destruct (ctrace_seal _ _ _ L Sm T) as ((_ & _ & W) & _). rewrite Forall_forall in W. specialize (W _ I). cbn [wr_ok] in W.
  assert (Kb : secret_kind (fst f) = true) by (cbn in K; intuition (subst; match goal with H : _ = fst f |- _ => rewrite <- H end; reflexivity)).
  destruct (W Kb) as (d & -> & [(k & iv & p & A & B & _) | (A & p & g & B)]); subst d; [left; eauto 6|right; eauto].
Qed.
Print Assumptions C53_partial.
(** The same for what is found on disk. *)
Theorem C53_disk_partial w s l f b : laws (w_se w) -> small_der (w_se w) -> ctrace w (s :: l) -> s_fs s f = Some b ->
  In (fst f) [F_SYMMKEY; F_RSA_PRIV; F_ECC_PRIV; F_DH_PRIV] ->
  b = [] \/ exists k iv p r, user_key w (s :: l) k /\ b = arr (se_enc (w_se w) k iv p) ++ r.
Proof.
  intros L Sm T E K. destruct (ctrace_seal _ _ _ L Sm T) as ((_ & W & _) & _).
  assert (Kb : secret_kind (fst f) = true) by (cbn in K; intuition (subst; match goal with H : _ = fst f |- _ => rewrite <- H end; reflexivity)).
  destruct (W f b Kb E) as [->|(x & r & -> & k & iv & p & A & -> & _)]; [auto|]. right. exists k, iv, p, r. auto.
Qed.
Print Assumptions C53_disk_partial.
Lemma toy_small : small_der tse.
Proof.
  constructor; [intros r _; vm_compute; reflexivity| |intros p g _; vm_compute; reflexivity].
  intros e H. unfold tse, ec_exp in *. cbn [se_ec_priv] in *. destruct (ec_curve e); [reflexivity|exfalso; cbn in H; lia].
Qed.
(** The states visited by a list of calls, the last one first. *)
Fixpoint visited (w : world) (l : list sys) (s : sys) (h : list (op * (nat -> list N))) : list sys :=
  match h with
  | [] => s :: l
  | (c, r) :: t => match step w r s c with Ok (s1, _) => visited w (s :: l) s1 t | _ => s :: l end
  end.
Lemma visited_trace w h : forall l s s' os, trace w (s :: l) -> run w s h = Ok (s', os) -> exists l', visited w l s h = s' :: l' /\ trace w (s' :: l').
Proof.
  induction h as [|[c r] t IH]; intros l s s' os T H; cbn [run visited] in *; [injection H as <- _; eauto|].
  destruct (step w r s c) as [[s1 o]| |] eqn:E; cbn [bind] in H; try discriminate. destruct (run w s1 t) as [[s2 os2]| |] eqn:R; cbn [bind] in H; try discriminate.
  injection H as <- _. eapply IH; [|exact R]. econstructor; eassumption.
Qed.
Definition carefulb (s : sys) (c : op) : bool :=
  andb (orb (negb (creates c)) (t_login (s_tok s) =? RW_USER)%Z)
       (match c with OSetAttributeValue _ _ t => forallb (fun a => negb (a_type a =? CKA_CLASS)%Z) t | _ => true end).
Fixpoint carefuls (w : world) (s : sys) (h : list (op * (nat -> list N))) : bool :=
  match h with
  | [] => true
  | (c, r) :: t => andb (carefulb s c) (match step w r s c with Ok (s1, _) => carefuls w s1 t | _ => true end)
  end.
Lemma carefulb_ok s c : carefulb s c = true -> careful s c.
Proof.
  intros H. apply andb_true_iff in H as [A B]. split.
  - intros C. rewrite C in A. cbn in A. lia.
  - intros h ho t ->. apply Forall_forall. rewrite forallb_forall in B. intros a I E. specialize (B a I). lia.
Qed.
Lemma carefuls_trace w h : forall l s s' os, ctrace w (s :: l) -> run w s h = Ok (s', os) -> carefuls w s h = true -> exists l', ctrace w (s' :: l').
Proof.
  induction h as [|[c r] t IH]; intros l s s' os T H C; cbn [run carefuls] in *; [injection H as <- _; eauto|].
  destruct (step w r s c) as [[s1 o]| |] eqn:E; cbn [bind] in H; try discriminate. destruct (run w s1 t) as [[s2 os2]| |] eqn:R; cbn [bind] in H; try discriminate.
  injection H as <- _. apply andb_true_iff in C as [C1 C2]. eapply IH; [|exact R|exact C2]. econstructor; [exact T|apply carefulb_ok; exact C1|exact E].
Qed.
(** Non-vacuity: a history with keys of all kinds, an attribute change, logout, a
    restart and a PIN change; all kinds of files are written. *)
Definition sealing : list op :=
  zoo ++ [OSetAttributeValue H2 (2^28 + 2) [mkA CKA_LABEL (AV [1%N])]; OLogout H2; OFinalize; OInitialize; OOpenSession 1 RW; userlogin upin; OSetPIN H2 upin pin2].
Lemma hist_ctrace h s os : hist h = Ok (s, os) -> carefuls tw (sys0 nofiles) (numbered 1 h) = true -> exists l, ctrace tw (s :: l).
Proof. unfold hist. intros E C. eapply carefuls_trace; [apply ct_start|exact E|exact C]. Qed.
Lemma hist_after h s os : hist h = Ok (s, os) -> after h = s.
Proof. unfold after. intros ->. reflexivity. Qed.
Lemma hist_trace h s os : hist h = Ok (s, os) -> exists l, visited tw [] (sys0 nofiles) (numbered 1 h) = s :: l /\ trace tw (s :: l).
Proof. unfold hist. intros E. eapply visited_trace; [apply tr_start|exact E]. Qed.
Example C53_partial_ex : (exists l, ctrace tw (after sealing :: l)) /\ rvs sealing = repeat CKR_OK 20 /\
  forallb (fun k => existsb (fun x => match x with WWrite (k', _) _ => fkind_eqb k k' | _ => false end) (s_log (after sealing))) [F_SYMMKEY; F_RSA_PRIV; F_ECC_PRIV; F_DH_PRIV] = true.
Proof.
  split; [|split; vm_compute; reflexivity].
  destruct (hist sealing) as [[s os]| |] eqn:E; [|vm_compute in E; discriminate..].
  rewrite (hist_after _ _ _ E). eapply hist_ctrace; [exact E|]. vm_compute. reflexivity.
Qed.

(** A token key created while nobody is logged in is encrypted under the initial
    all-zero token key. *)
Definition early : list op := [OInitialize; OOpenSession 1 RW; OCreateObject H2 (aes_of keyA)].
Definition loggedout : list op := setup ++ [OFinalize] ++ early.
Example loggedout_ok : rvs loggedout = repeat CKR_OK 11.
Proof. vm_compute. reflexivity. Qed.
Definition only_upin (s : sys) : bool :=
  let p := t_user (s_tok s) in
  orb (p_len p =? 0)%Z (andb (p_len p =? 32)%Z (if list_eq_dec N.eq_dec (p_hash p) (toy_hash upin (p_seed p)) then true else false)).
Lemma pad_length n l : length (pad n l) = n.
Proof. unfold pad. rewrite firstn_length, app_length. unfold zeros. rewrite repeat_length. lia. Qed.
Lemma only_right s p : only_upin s = true -> right tw (s_tok s) User p -> pad 16 p = pad 16 upin.
Proof.
  unfold only_upin. intros H (_ & N & E). cbn [pin_of] in *. apply orb_true_iff in H as [H|H]; [exfalso; lia|]. apply andb_true_iff in H as [H1 H2].
  destruct (list_eq_dec _ _ _) as [Q|]; [|discriminate]. rewrite Q in E. apply Z.eqb_eq in H1. rewrite H1 in E. cbn [w_se tw tse se_hash] in E. unfold toy_hash in E.
  apply (f_equal (firstn 16)) in E. rewrite !firstn_firstn in E. change (min 16 (Z.to_nat 32)) with 16%nat in E.
  rewrite !firstn_app, !pad_length, Nat.sub_diag, !firstn_O, !app_nil_r in E. rewrite !firstn_all2 in E by (rewrite pad_length; lia). exact E.
Qed.
Lemma arr_inj a b : arr a = arr b -> a = b.
Proof. unfold arr. intros H. apply (f_equal (skipn 4)) in H. exact H. Qed.
Lemma app_tail_eq {A} (a b c d : list A) : a ++ b = c ++ d -> length b = length d -> b = d.
Proof.
  intros E L. apply (f_equal (@rev A)) in E. rewrite !rev_app_distr in E. apply (f_equal (firstn (length b))) in E.
  rewrite !firstn_app, !rev_length, L, Nat.sub_diag, !firstn_O, !app_nil_r, !firstn_all2 in E by (rewrite rev_length; lia).
  apply (f_equal (@rev A)) in E. rewrite !rev_involutive in E. exact E.
Qed.
Theorem C53_refuted : ~ C53_claim tw.
Proof.
  intros Cl. destruct (hist loggedout) as [[s os]| |] eqn:E; [|vm_compute in E; discriminate..].
  destruct (hist_trace _ _ _ E) as (l & V & T).
  assert (O : forallb only_upin (s :: l) = true) by (rewrite <- V; vm_compute; reflexivity).
  assert (W : In (WWrite (F_SYMMKEY, 0%nat) (arr (keyA ++ zeros 16))) (s_log s)).
  { rewrite <- (hist_after _ _ _ E).
    assert (N : nth 11 (s_log (after loggedout)) (WOpen (F_TOKEN, 0%nat)) = WWrite (F_SYMMKEY, 0%nat) (arr (keyA ++ zeros 16))) by (vm_compute; reflexivity).
    rewrite <- N. apply nth_In. vm_compute. lia. }
  destruct (Cl toy_laws toy_small s l _ _ T W) as [(k & iv & p & (s0 & q & I & R & Ek) & Eb) | (F & _)]; [left; reflexivity| |discriminate F].
  rewrite forallb_forall in O. specialize (O _ I). apply (only_right _ _ O) in R. apply arr_inj in Eb. cbn [w_se tw tse se_enc se_hash] in *.
  unfold toy_enc in Eb. apply app_tail_eq in Eb; [|rewrite pad_length; reflexivity]. rewrite Ek in Eb. unfold toy_hash in Eb. unfold pad at 1 in Eb.
  rewrite <- app_assoc, firstn_app, pad_length, Nat.sub_diag, firstn_O, app_nil_r, firstn_all2, R in Eb by (rewrite pad_length; lia). vm_compute in Eb. discriminate.
Qed.
Print Assumptions C53_refuted.
(** A DH private key whose class attribute is set to CKO_PUBLIC_KEY is stored
    unencrypted at the next logout. *)
Definition dhp : template :=
  tokenly [mkA CKA_CLASS (ULONG CKO_PRIVATE_KEY); mkA CKA_KEY_TYPE (ULONG CKK_DH); mkA CKA_PRIME (AV [23%N]); mkA CKA_BASE (AV [5%N]); mkA CKA_VALUE (AV [9;8;7;6]%N)].
Definition dhh : list op := setup ++ [OOpenSession 1 RW; userlogin upin; OCreateObject H2 dhp].
Definition dht : list op := [OSetAttributeValue H2 (2^28+1) [mkA CKA_CLASS (ULONG CKO_PUBLIC_KEY)]; OLogout H2; OFinalize].
Theorem C53_plain_refuted : ~ C53_plain_claim tw.
Proof.
  intros Cl. destruct (run tw (after dhh) (numbered 100 dht)) as [[s os]| |] eqn:E; [|vm_compute in E; discriminate..].
  destruct (t_objs (s_tok (after dhh))) as [|o [|]] eqn:O; [vm_compute in O; discriminate| |vm_compute in O; discriminate].
  destruct (o_data o) as [| |p g n v| | |] eqn:D; try (vm_compute in O; injection O as <-; vm_compute in D; discriminate D).
  refine (Cl toy_laws toy_small (after dhh) (numbered 100 dht) s os o p g n v (F_DH_PUB, 0%nat) _ O _ D _ _ E _).
  - apply after_reach. vm_compute. exact Logic.I.
  - vm_compute in O. injection O as <-. reflexivity.
  - vm_compute in O. injection O as <-. vm_compute in D. injection D as _ _ <- _. lia.
  - vm_compute. reflexivity.
  - assert (V : firstn (Z.to_nat n) v = [9;8;7;6]%N) by (vm_compute in O; injection O as <-; vm_compute in D; injection D as _ _ <- <-; reflexivity).
    rewrite V. vm_compute in E. injection E as <- _. vm_compute. tauto.
Qed.
Print Assumptions C53_plain_refuted.

(** ** C54: storage nonces are fresh *)
(** Two keys of a token that are kept encrypted under the same key have different
    nonces. *)
Definition C54_claim (w : world) : Prop :=
  laws (w_se w) -> forall s o1 o2 k p1 p2, reach w (sys0 nofiles) s -> In o1 (t_objs (s_tok s)) -> In o2 (t_objs (s_tok s)) ->
  secret o1 = true -> secret o2 = true -> o_uid o1 <> o_uid o2 -> p1 <> p2 ->
  o_keyData o1 = Some (se_enc (w_se w) k (o_iv o1) p1) -> o_keyData o2 = Some (se_enc (w_se w) k (o_iv o2) p2) -> o_iv o1 <> o_iv o2.

Section Iv.
Variable w : world.
Let se := w_se w.
Lemma made_iv o : made w o -> o_iv o = zeros 12.
Proof.
  assert (N : forall rw u ty cl t rv o, NewObject (w_oe w) rw u ty cl t = Ok (rv, Some o) -> o_iv o = zeros 12).
  { intros rw u ty cl t rv o0 H. unfold NewObject in H. destruct (SetAttributeValue _ _ _ _) as [[c o1]| |] eqn:E; cbn [bind] in H; try discriminate.
    injection H as -> H. destruct (rv =? CKR_OK)%Z eqn:E1; [|discriminate]. injection H as ->. apply SetAttributeValue_id in E as ((_ & _ & _ & _ & E & _) & _). rewrite E. reflexivity. }
  assert (C : forall rw u t rv o, CreateObject (w_oe w) rw u t = Ok (rv, Some o) -> o_iv o = zeros 12).
  { intros rw u t rv o0 H. unfold CreateObject in H. sinv; try (eapply N; exact H). all: destruct (_ =? CKO_CERTIFICATE)%Z in *; sinv; eapply N; exact H. }
  induction 1 as [rw u t rv o E|rw u ty cl t rv o E I|rw u src t rv t1 b o E|o l b k M IH E|m p q g p' q' M1 I1 M2 I2 E|m p q g p' q' M1 I1 M2 I2 E|o r M IH|o sec c o' M IH E].
  - eapply C; eauto.
  - eapply N; eauto.
  - unfold CopyObject in E. destruct (tmpl_token t); [|discriminate].
    destruct (GetAttributeValue _ _ _) as [[c1 t2]| |]; cbn [bind] in E; try discriminate. destruct (negb _); [discriminate|].
    destruct (SetAttributeValue _ _ _ _) as [[c o1]| |] eqn:E2; cbn [bind] in E; try discriminate.
    injection E as -> -> E. destruct (rv =? CKR_OK)%Z; [|discriminate]. injection E as -> ->. apply SetAttributeValue_id in E2 as ((_ & _ & _ & _ & E2 & _) & _). rewrite E2. reflexivity.
  - exact IH.
  - destruct m; cbn in E; unfold RsaGen, EcGen, DhGen in E; sinv; cbn; assumption.
  - destruct m; cbn in E; unfold RsaGen, EcGen, DhGen in E; sinv; cbn; assumption.
  - exact IH.
  - apply SetSecretKey_frame in E as (d & ->). exact IH.
Qed.
Lemma store_key_kd key id o c o' ws : o_keyData o <> None -> store_key se key id o = Ok (c, o', ws) -> o' = o.
Proof.
  intros N H. assert (K : forall f c o' ws, store_kd se key f o = Ok (c, o', ws) -> o' = o).
  { intros f c0 o0 ws0 E. unfold store_kd in E. destruct (o_keyData o); [|contradiction]. cbn [bind] in E. sinv; reflexivity. }
  unfold store_key in H. destruct (is_cert o); [sinv; reflexivity|]. destruct (key_kind o); [|sinv; reflexivity].
  destruct (_ =? _)%Z; [|eapply K; exact H].
  destruct (store_kd _ _ _ _) as [[[c1 o1] ws1]| |] eqn:E; cbn [bind] in H; try discriminate. apply K in E. sinv; reflexivity.
Qed.
Lemma store_objs_kd key r l : forall c l' ws, store_objs se key r l = Ok (c, l', ws) ->
  forall o', In o' l' -> exists o, In o l /\ o_uid o' = o_uid o /\ secret o' = secret o /\ (o_keyData o <> None -> o' = o).
Proof.
  induction l as [|o l IH]; cbn [store_objs]; intros c l' ws H o' I; [injection H as _ <- _; contradiction|].
  destruct (store_obj _ _ _ _ _) as [[[c1 o1] ws1]| |] eqn:S; cbn [bind] in H; try discriminate.
  assert (A : o_uid o1 = o_uid o /\ secret o1 = secret o /\ (o_keyData o <> None -> o1 = o)).
  { unfold store_obj in S. destruct (obj_header o); cbn [bind] in S; try discriminate. cbv zeta in S.
    destruct (store_key se key (length l) _) as [[[c2 o2] ws2]| |] eqn:K; cbn [bind] in S; try discriminate. injection S as _ <- _.
    split; [|split].
    - apply store_key_core in K. apply (f_equal o_uid) in K. destruct (o_keyData o); [exact K|]. destruct (orb _ _); exact K.
    - apply store_key_core in K. apply (f_equal secret) in K. destruct (o_keyData o); [exact K|]. destruct (orb _ _); exact K.
    - intros N. destruct (o_keyData o) eqn:D; [|contradiction]. eapply store_key_kd; [|exact K]. congruence. }
  destruct (negb _).
  - injection H as _ <- _. destruct I as [<-|I]; [exists o; cbn; tauto|exists o'; cbn; tauto].
  - destruct (store_objs _ _ _ _) as [[[c2 r1] ws2]| |] eqn:R; cbn [bind] in H; try discriminate. injection H as _ <- _.
    destruct I as [<-|I]; [exists o; cbn; tauto|]. destruct (IH _ _ _ eq_refl _ I) as (y & Iy & Q). exists y. cbn. tauto.
Qed.
(** The key data of the secret objects of a state that are not among the objects
    [us] are encrypted under [k] with the nonce 0. *)
Definition zero_iv (us : list nat) (k : list N) (s : sys) : Prop :=
  t_key (s_tok s) = k /\ forall o, In o (t_objs (s_tok s)) -> ~ In (o_uid o) us -> secret o = true ->
  o_iv o = zeros 12 /\ exists p, o_keyData o = Some (se_enc se k (zeros 12) p).
Lemma Encode_iv key o o' : Encode se key false o = Ok (0%Z, o') -> secret o' = true -> o_iv o' = o_iv o /\ exists p, o_keyData o' = Some (se_enc se key (o_iv o) p).
Proof.
  unfold Encode. intros H S. destruct (is_cert o) eqn:C; [injection H as <-; rewrite (cert_secret o C) in S; discriminate|].
  destruct (EncodeKey _ _ _) as [[c1 o1]| |] eqn:E; cbn [bind] in H; try discriminate. cbn [andb] in H. injection H as -> ->. unfold EncodeKey in E.
  assert (A : forall pr pu, o_type o = CKK_RSA \/ o_type o = CKK_EC \/ o_type o = CKK_DH -> enc_asym se key o pr pu = Ok (0%Z, o') -> o_iv o' = o_iv o /\ exists p, o_keyData o' = Some (se_enc se key (o_iv o) p)).
  { intros pr pu T F. pose proof (secret_asym o C T) as Q. unfold enc_asym in F. destruct (is_priv o); [destruct pr as [c1 der]|destruct pu as [c1 der]].
    - destruct (c1 <? 0)%Z eqn:Cz; [injection F as Fz _; exfalso; apply Z.ltb_lt in Cz; lia|]. injection F as <-. cbn. eauto.
    - destruct (c1 <? 0)%Z eqn:Cz; [injection F as Fz _; exfalso; apply Z.ltb_lt in Cz; lia|]. destruct (o_class o =? CKO_PUBLIC_KEY)%Z; [|discriminate F]. injection F as <-. rewrite secret_kd, Q in S. discriminate S. }
  destruct (Z.eqb_spec (o_type o) CKK_RSA) as [T1|T1]; [destruct (as_rsa o) as [r| |]; cbn [bind] in E; try discriminate; eapply A; eauto|].
  destruct (Z.eqb_spec (o_type o) CKK_EC) as [T2|T2]; [destruct (as_ec o) as [r| |]; cbn [bind] in E; try discriminate; eapply A; eauto|].
  destruct (Z.eqb_spec (o_type o) CKK_DH) as [T3|T3].
  { destruct (as_dh o) as [[[[p g] l] b]| |]; cbn [bind] in E; try discriminate. destruct (take_buf l b) as [d| |]; cbn [bind] in E; try discriminate. injection E as <-.
    rewrite secret_kd, (secret_asym o C (or_intror (or_intror T3))) in S. rewrite S. cbn. eauto. }
  destruct (is_sym o); [|discriminate E].
  destruct (as_sym o) as [[l b]| |]; cbn [bind] in E; try discriminate. destruct (take_buf l b) as [d| |]; cbn [bind] in E; try discriminate. injection E as <-. cbn. eauto.
Qed.
Lemma store_zero rnd us k s c s' : store w rnd s = Ok (c, s') -> zero_iv us k s -> zero_iv us k s'.
Proof.
  intros H [K Z]. unfold store, Token_Store in H. destruct (tok_header _); cbn [bind] in H; try discriminate.
  destruct (store_objs _ _ _ _) as [[[c2 r1] ws2]| |] eqn:R; cbn [bind] in H; try discriminate. injection H as _ <-. split; [exact K|].
  cbn [do_ops set_tok s_tok set_objs t_objs]. intros o' I N S. destruct (store_objs_kd _ _ _ _ _ _ R _ I) as (o & Io & E1 & E2 & E3). rewrite E1 in N. rewrite E2 in S.
  destruct (Z _ Io N S) as (A & p & B). rewrite E3 by congruence. eauto.
Qed.
Lemma prim_zero cl h us k s s' : creates cl = true -> prim w cl h s s' -> zero_iv us k s -> zero_iv us k s'.
Proof.
  intros Cr P [K Z]. destruct P as [s x x' X U E1 E2 E3 E4|s n|s x rnd c s' X Rw E1 E2 Cl|s x o X Rw E1 L Iu Nu Hd Ot M Cl|s x b o X Rw E1 L Iu Nu Nb Hd Ot M Cl|s x o X Rw E1 Io Cl|s x o X Rw E1 Io Ot Cl|s x o o' X Rw E1 Io Sid M].
  - split; assumption.
  - split; assumption.
  - eapply store_zero; [exact E2|split; assumption].
  - split; assumption.
  - split; [exact K|]. cbn [set_tok s_tok set_objs t_objs]. intros y [<-|I] N S; [|apply Z; assumption].
    destruct M as (o1 & o2 & M & E & ->). apply made_iv in M. apply Encode_iv in E; [|exact S]. destruct E as (A & p & B). cbn [set_handle o_iv o_keyData].
    rewrite A, B. cbn [set_onTok o_iv]. rewrite M, K. eauto.
  - destruct Cl as (ho & -> & _). discriminate Cr.
  - destruct Cl as (ho & -> & _). discriminate Cr.
  - destruct M as (ho & t & rv & -> & _). discriminate Cr.
Qed.
Lemma prims_zero cl h us k s s' : creates cl = true -> prims w cl h s s' -> zero_iv us k s -> zero_iv us k s'.
Proof. intros Cr P. induction P as [s|s s1 s2 P Ps IH]; [auto|]. intros Z. apply IH. eapply prim_zero; eauto. Qed.
End Iv.
(** On the contrary: every secret or private key that a call creates on the token
    is encrypted under the token key with the nonce 0. *)
Theorem C54_zero_iv_partial w d rnd s c s' out o : reach w (sys0 d) s -> creates c = true -> step w rnd s c = Ok (s', out) ->
  In o (t_objs (s_tok s')) -> ~ In (o_uid o) (map o_uid (t_objs (s_tok s))) -> secret o = true ->
  o_iv o = zeros 12 /\ exists p, o_keyData o = Some (se_enc (w_se w) (t_key (s_tok s)) (zeros 12) p).
Proof.
  intros R Cr H I N S. assert (O : exists h, objop c = Some h) by (destruct c; try discriminate Cr; cbn; eauto). destruct O as [h O].
  pose proof (objop_prims w _ _ _ _ _ _ (reach_inv _ _ _ R) O H) as P.
  apply (prims_zero w c h (map o_uid (t_objs (s_tok s))) (t_key (s_tok s)) _ _ Cr P); [|exact I|exact N|exact S].
  split; [reflexivity|]. intros y Iy Ny _. exfalso. apply Ny, in_map, Iy.
Qed.
Print Assumptions C54_zero_iv_partial.
(** Two AES keys on the token have the same nonce. *)
Definition twokeys : list op := setup ++ [OOpenSession 1 RW; userlogin upin; OCreateObject H2 (aes_of keyA); OCreateObject H2 (aes_of keyB)].
Example twokeys_ok : rvs twokeys = repeat CKR_OK 11.
Proof. vm_compute. reflexivity. Qed.
Theorem C54_refuted : ~ C54_claim tw.
Proof.
  intros Cl. set (o1 := nth 0 (t_objs (s_tok (after twokeys))) (obj_new 0 0)). set (o2 := nth 1 (t_objs (s_tok (after twokeys))) (obj_new 0 0)).
  refine (Cl toy_laws (after twokeys) o1 o2 (t_key (s_tok (after twokeys))) keyB keyA _ _ _ _ _ _ _ _ _ _).
  - apply after_reach. vm_compute. exact Logic.I.
  - apply nth_In. vm_compute. lia.
  - apply nth_In. vm_compute. lia.
  - vm_compute. reflexivity.
  - vm_compute. reflexivity.
  - vm_compute. discriminate.
  - discriminate.
  - vm_compute. reflexivity.
  - vm_compute. reflexivity.
  - vm_compute. reflexivity.
Qed.
Print Assumptions C54_refuted.
(** Non-vacuity of [C54_zero_iv_partial]: the second of these keys. *)
Example C54_zero_iv_ex : exists s' out o, step tw (rnd 0) (after (firstn 10 twokeys)) (OCreateObject H2 (aes_of keyB)) = Ok (s', out) /\
  In o (t_objs (s_tok s')) /\ ~ In (o_uid o) (map o_uid (t_objs (s_tok (after (firstn 10 twokeys))))) /\ secret o = true.
Proof.
  destruct (step tw (rnd 0) (after (firstn 10 twokeys)) (OCreateObject H2 (aes_of keyB))) as [[s' out]| |] eqn:E; [|vm_compute in E; discriminate..].
  exists s', out, (nth 0 (t_objs (s_tok s')) (obj_new 0 0)). split; [reflexivity|]. vm_compute in E. injection E as <- _. split; [vm_compute; tauto|].
  split; [|vm_compute; reflexivity]. vm_compute. intros X. repeat (destruct X as [X|X]; [discriminate X|]). exact X.
Qed.

(** ** C55: destroyed token objects leave no key material on disk *)
(** The token object a handle stands for. *)
Definition tok_obj (s : sys) (ho : Z) (o : obj) : Prop := on_token ho = true /\ find (fun y => o_handle y =? ho)%Z (t_objs (s_tok s)) = Some o.
Definition key_file (k : fkind) : Prop := k <> F_TOKEN /\ k <> F_OBJECT.
(** After C_DestroyObject no file holds the key data of the object, unless another
    object has the same. *)
Definition C55_claim (w : world) : Prop :=
  laws (w_se w) -> forall s rnd h ho s' o kd k i b, reach w (sys0 nofiles) s -> tok_obj s ho o -> o_keyData o = Some kd ->
  fits (s_tok s) -> Forall (storable (w_se w)) (t_objs (s_tok s)) ->
  step w rnd s (ODestroyObject h ho) = Ok (s', OutRv CKR_OK) -> s_fs s' (k, i) = Some b -> key_file k ->
  b <> arr kd \/ exists o', In o' (t_objs (s_tok s')) /\ o_keyData o' = Some kd.

(** Every key file that is not empty holds the key data of the object it belongs to. *)
Definition tidy (se : senv) (d : fs) (l : list obj) : Prop :=
  forall k i b, d (k, i) = Some b -> key_file k -> b = [] \/ exists o, In o l /\ behind (o_uid o) l = i /\ k = kkind o /\ b = kfile se o.

Section Gone.
Variable w : world.
Let se := w_se w.
Lemma store_objs_files key r l : Forall wf_obj l -> Forall (storable se) l -> forall c l' ws, store_objs se key r l = Ok (c, l', ws) ->
  forall d k i, key_file k -> apply d ws (k, i) = d (k, i) \/ exists o, In o l /\ k = kkind o /\ apply d ws (k, i) = Some (kfile se o).
Proof.
  intros W. induction W as [|o l Wo W IH]; intros S c l' ws H d k i K; cbn [store_objs] in H; [injection H as _ _ <-; left; reflexivity|].
  inversion S as [|? ? So S']. subst. destruct (store_obj_ok se key (r (length l)) (length l) o Wo So) as (h & w1 & Hh & E1 & N1 & H1).
  rewrite E1 in H. cbn [bind] in H. change (negb (0 =? 0)%Z) with false in H. cbv iota in H.
  destruct (store_objs se key r l) as [[[c2 r2] ws2]| |] eqn:E; cbn [bind] in H; try discriminate. injection H as _ _ <-. rewrite apply_app.
  destruct (IH S' _ _ _ eq_refl (apply d w1) k i K) as [Q|(y & Iy & Ky & Q)]; [|right; exists y; cbn; auto].
  rewrite Q. destruct (fname_eqb (kkind o, length l) (k, i)) eqn:F.
  - apply fname_eqb_eq in F. injection F as <- <-. right. exists o. split; [left; reflexivity|]. split; [reflexivity|]. apply H1.
  - left. apply apply_other. intros x I E2. destruct (N1 _ I) as [N|N]; rewrite E2 in N.
    + injection N as -> _. destruct K as [_ K]. apply K. reflexivity.
    + rewrite N in F. assert (X : fname_eqb (kkind o, length l) (kkind o, length l) = true) by (apply fname_eqb_eq; reflexivity). congruence.
Qed.
Lemma in_remove u y l : In y l -> o_uid y <> u -> In y (remove_uid u l).
Proof.
  induction l as [|x l IH]; [auto|]. cbn. intros [E|I] N; destruct (Nat.eqb_spec (o_uid x) u) as [Q|Q]; cbn; auto. subst. contradiction.
Qed.
Lemma uid_inj l x y : NoDup (uids l) -> In x l -> In y l -> o_uid x = o_uid y -> x = y.
Proof.
  unfold uids. induction l as [|a l IH]; [contradiction|]. cbn. intros N. inversion N as [|? ? Na Nl]. subst. intros [<-|I] [<-|J] E; auto.
  - exfalso. apply Na. rewrite E. apply in_map. exact J.
  - exfalso. apply Na. rewrite <- E. apply in_map. exact I.
Qed.
Lemma NoDup_app_l {A} (a b : list A) : NoDup (a ++ b) -> NoDup a.
Proof. induction a as [|x a IH]; cbn; intros N; [constructor|]. inversion N as [|? ? X Y]. subst. constructor; [intros Q; apply X, in_or_app; auto|auto]. Qed.
End Gone.

(** A restart after the call brings back the other objects only, and if the key
    files were those of the objects before the call, then afterwards each of them
    is empty or holds the key of one of the other objects. *)
Theorem C55_partial w d rnd s h ho s' o : laws (w_se w) -> reach w (sys0 d) s -> tok_obj s ho o ->
  fits (s_tok s) -> Forall (storable (w_se w)) (t_objs (s_tok s)) ->
  step w rnd s (ODestroyObject h ho) = Ok (s', OutRv CKR_OK) ->
  t_objs (s_tok s') = remove_uid (o_uid o) (t_objs (s_tok s)) /\
  (forall uid, exists t, Token_Load (w_se w) (s_fs s') uid = Ok t /\ map obj_view (t_objs t) = map obj_view (remove_uid (o_uid o) (t_objs (s_tok s)))) /\
  (tidy (w_se w) (s_fs s) (t_objs (s_tok s)) -> forall k i b, s_fs s' (k, i) = Some b -> key_file k ->
     b = [] \/ exists o', In o' (t_objs (s_tok s')) /\ o_uid o' <> o_uid o /\ k = kkind o' /\ b = kfile (w_se w) o').
Proof.
  intros L R (Ot & Fo) F S H. pose proof (reach_inv _ _ _ R) as I. pose proof (reach_ginv w (l_hash _ L) _ _ R) as G.
  set (l := t_objs (s_tok s)) in *. set (l' := remove_uid (o_uid o) l).
  assert (Io : In o l) by (apply find_some in Fo; apply Fo).
  assert (ND : NoDup (uids l)).
  { destruct I as (_ & _ & (ND & _) & _). unfold live in ND. rewrite uids_app in ND. apply NoDup_app_l in ND. exact ND. }
  cbn [step] in H. unfold with_sess, need_lib, rv_ in H. destruct (0 <? s_count s)%Z; [|discriminate H]. destruct (sess_get s h) as [x|]; [|discriminate H].
  unfold need_rw, rv_ in H. destruct (is_rw x); [|discriminate H]. unfold with_object, find_obj in H. rewrite Ot in H. fold l in H. rewrite Fo in H.
  unfold RemoveObject in H. rewrite Ot in H. destruct (obj_free o); cbn [bind] in H; try discriminate. destruct (o_onTok o); [|discriminate H]. destruct (no_kind o); [discriminate H|].
  cbv zeta in H. fold l l' in H. set (ul := Unstore (behind (o_uid o) l) o) in *.
  unfold store in H. cbn [do_ops set_tok s_tok s_fs] in H.
  assert (S' : Forall (storable (w_se w)) l') by (apply remove_Forall; exact S).
  assert (W : wf_tok (set_objs (s_tok s) l')).
  { destruct (wf_of (s_tok s) l G F eq_refl) as (W1 & W2 & W3 & W4 & W5 & W6). destruct (WfProofs.remove_Forall _ (o_uid o) _ W6) as [W7 W8]. cbn in *.
    unfold wf_tok. cbn. fold l' in W7, W8. unfold zlen in *. assert ((Z.of_nat (length l') < 2^31)%Z) by lia. auto 10. }
  destruct (store_load (w_se w) (dh_law' _ L) (fun i => rnd (2 + i)%nat) _ (apply (s_fs s) ul) W S') as (ws & E & Ld). rewrite E in H. cbn [bind] in H.
  injection H as <-. cbn [do_ops set_tok s_tok s_fs set_objs t_objs].
  split; [reflexivity|]. split.
  - intros uid. exists (reload uid (set_objs (s_tok s) l')). split; [apply Ld|]. cbn [reload t_objs set_objs]. revert uid. generalize l'. intros q. 
    induction q as [|y q IH]; intros uid; cbn [reload_objs map]; [reflexivity|]. rewrite blank_view, IH. reflexivity.
  - intros T k i b D K. unfold Token_Store in E. destruct (tok_header _) as [th| |]; cbn [bind] in E; try discriminate.
    destruct (store_objs _ _ _ _) as [[[c2 r2] ws2]| |] eqn:Es; cbn [bind] in E; try discriminate. injection E as _ _ <-.
    change (apply (apply (s_fs s) ul) ([WOpen (F_TOKEN, 0%nat); WWrite (F_TOKEN, 0%nat) th] ++ ws2) (k, i) = Some b) in D. rewrite apply_app in D.
    destruct (store_objs_files w _ _ _ (proj2 (proj2 (proj2 (proj2 (proj2 W))))) S' _ _ _ Es (apply (apply (s_fs s) ul) [WOpen (F_TOKEN, 0%nat); WWrite (F_TOKEN, 0%nat) th]) k i K) as [Q|(y & Iy & Ky & Q)].
    + rewrite Q in D. rewrite apply_other in D by (intros q [<-|[<-|[]]] E2; injection E2 as <- _; destruct K as [K _]; apply K; reflexivity).
      destruct (key_kind o) as [ko|] eqn:Ek; [|exfalso; rewrite Forall_forall in S; specialize (S _ Io); apply storable_kind in S; congruence].
      assert (Kk : kkind o = ko) by (unfold kkind; rewrite Ek; reflexivity).
      destruct (fname_eqb (ko, behind (o_uid o) l) (k, i)) eqn:Fn.
      * apply fname_eqb_eq in Fn. injection Fn as <- <-. left. unfold ul, Unstore in D. rewrite Ek in D. cbn [apply fold_left apply1] in D. rewrite fs_set_same in D. injection D as <-. reflexivity.
      * rewrite apply_other in D.
        -- destruct (T _ _ _ D K) as [->|(y & Iy & By & Ky & Eb)]; [left; reflexivity|right]. assert (N : o_uid y <> o_uid o).
           { intros N. rewrite N in By. assert (y = o) by (eapply uid_inj; eauto). subst y. rewrite <- By, Ky, Kk in Fn. assert (X : fname_eqb (ko, behind (o_uid o) l) (ko, behind (o_uid o) l) = true) by (apply fname_eqb_eq; reflexivity). congruence. }
           exists y. split; [apply in_remove; assumption|auto].
        -- unfold ul, Unstore. rewrite Ek. intros q [<-|[<-|[]]] E2; injection E2 as E2 E3; [subst k; destruct K as [_ K]; apply K; reflexivity|].
           rewrite E2, E3 in Fn. assert (X : fname_eqb (k, i) (k, i) = true) by (apply fname_eqb_eq; reflexivity). congruence.
    + rewrite Q in D. injection D as <-. right. exists y. split; [exact Iy|]. split; [|auto].
      intros N. pose proof (Permutation_map o_uid (remove_uid_perm _ _ Io ND)) as P. pose proof (Permutation_NoDup P ND) as ND2. cbn [map] in ND2. inversion ND2 as [|? ? X]. subst. apply X. rewrite <- N at 1. apply (in_map o_uid). exact Iy.
Qed.
Print Assumptions C55_partial.
(** Keys A and B; A is destroyed and B's files are written again under number 0;
    then B is destroyed: its file under number 1 is still there. *)
Definition destroyed : list op := twokeys ++ [ODestroyObject H2 (2^28 + 1)].
Lemma toy_fits_ h : (let t := s_tok (after h) in
   forallb (fun p => (andb (andb (- 2^31 <=? p_fail p) (p_fail p <? 2^31)) (andb (andb (- 2^63 <=? p_last p) (p_last p <? 2^63)) (andb (- 2^63 <=? p_tmo p) (p_tmo p <? 2^63))))%Z) [t_so t; t_user t] = true /\
   forallb (fun o => forallb (fun v => match v with SV b => (zlen b <? 2^31)%Z | SNull n => (n =? 0)%Z end) [o_keyId o; o_label o]) (t_objs t) = true) -> fits (s_tok (after h)).
Proof.
  generalize (s_tok (after h)). intros t [A B]. cbn [forallb] in A. 
  assert (V : forall v, (match v with SV b => (zlen b <? 2^31)%Z | SNull n => (n =? 0)%Z end) = true -> fits_val v) by (intros [b|n] X; cbn [fits_val]; lia).
  assert (P : forall p, (andb (andb (- 2^31 <=? p_fail p) (p_fail p <? 2^31)) (andb (andb (- 2^63 <=? p_last p) (p_last p <? 2^63)) (andb (- 2^63 <=? p_tmo p) (p_tmo p <? 2^63))))%Z = true -> fits_pin p) by (intros p X; unfold fits_pin; lia).
  apply andb_true_iff in A as [A1 A2]. apply andb_true_iff in A2 as [A2 _]. split; [auto|split; [auto|]].
  apply Forall_forall. intros o I. rewrite forallb_forall in B. specialize (B _ I). cbn [forallb] in B. apply andb_true_iff in B as [B1 B2]. apply andb_true_iff in B2 as [B2 _]. auto.
Qed.
Lemma sym_storable o n b kd : o_type o = CKK_AES -> o_class o = CKO_SECRET_KEY -> o_data o = KSym n b -> o_keyData o = Some kd -> (zlen kd < 2^31)%Z -> storable tse o.
Proof.
  intros T C D K Z. unfold storable, is_cert. rewrite C. change (CKO_SECRET_KEY =? CKO_CERTIFICATE)%Z with false. cbv iota. split; [|split].
  - unfold key_kind, is_cert, is_sym. rewrite C, T. discriminate.
  - exists kd. auto.
  - intros Q. rewrite Q in T. discriminate T.
Qed.
Definition symb (o : obj) : bool := andb (andb (o_type o =? CKK_AES) (o_class o =? CKO_SECRET_KEY))%Z
  (match o_data o, o_keyData o with KSym _ _, Some kd => (zlen kd <? 2^31)%Z | _, _ => false end).
Lemma symb_storable l : forallb symb l = true -> Forall (storable tse) l.
Proof.
  intros H. apply Forall_forall. intros o I. rewrite forallb_forall in H. specialize (H _ I). unfold symb in H. apply andb_true_iff in H as [H1 H2]. apply andb_true_iff in H1 as [H1 H3].
  destruct (o_data o) eqn:D; try discriminate H2. destruct (o_keyData o) eqn:K; [|discriminate H2]. eapply sym_storable; eauto; lia.
Qed.
Theorem C55_refuted : ~ C55_claim tw.
Proof.
  intros Cl. set (o := nth 0 (t_objs (s_tok (after destroyed))) (obj_new 0 0)).
  destruct (step tw (rnd 0) (after destroyed) (ODestroyObject H2 (2^28 + 2))) as [[s' out]| |] eqn:E; [|vm_compute in E; discriminate..].
  assert (O : out = OutRv CKR_OK) by (vm_compute in E; injection E as _ <-; reflexivity). rewrite O in E.
  destruct (o_keyData o) as [kd|] eqn:K; [|vm_compute in K; discriminate].
  assert (D : s_fs s' (F_SYMMKEY, 1%nat) = Some (arr kd)).
  { transitivity (s_fs (after (destroyed ++ [ODestroyObject H2 (2^28 + 2)])) (F_SYMMKEY, 1%nat)); [vm_compute in E; injection E as <-; vm_compute; reflexivity|].
    vm_compute in K. injection K as <-. vm_compute. reflexivity. }
  destruct (Cl toy_laws (after destroyed) (rnd 0) H2 (2^28 + 2)%Z s' o kd F_SYMMKEY 1%nat (arr kd)) as [N|(o' & I & _)].
  - apply after_reach. vm_compute. exact Logic.I.
  - split; [vm_compute; reflexivity|]. vm_compute. reflexivity.
  - exact K.
  - apply toy_fits_. vm_compute. split; reflexivity.
  - apply symb_storable. vm_compute. reflexivity.
  - exact E.
  - exact D.
  - split; discriminate.
  - apply N. reflexivity.
  - vm_compute in E. injection E as <-. exact I.
Qed.
Print Assumptions C55_refuted.
(** Non-vacuity of [C55_partial]: the first of the two keys is destroyed; the files
    were tidy. *)
Lemma reach_log w d s : laws (w_se w) -> reach w (sys0 d) s -> s_fs s = apply d (s_log s).
Proof.
  intros L. induction 1 as [|s rnd c s' o R IH H]; [reflexivity|].
  destruct (step_wrote w (l_hash _ L) _ _ _ _ _ (reach_inv _ _ _ R) (reach_ginv w (l_hash _ L) _ _ R) H) as (ws & E1 & E2 & _). rewrite E1, E2, apply_app, IH. reflexivity.
Qed.
Lemma apply_named ws : forall d f b, apply d ws f = Some b -> d f = Some b \/ In f (map wname ws).
Proof.
  intros d f b H. destruct (in_dec (fun x y : fname => match fname_eqb x y as e return fname_eqb x y = e -> {x = y} + {x <> y} with
     | true => fun E => left (proj1 (fname_eqb_eq _ _) E) | false => fun E => Specif.right (fun Q => eq_true_false_abs _ (proj2 (fname_eqb_eq _ _) Q) E) end eq_refl) f (map wname ws)) as [I|I]; [auto|].
  left. rewrite <- H. symmetry. apply apply_other. intros x Ix E. apply I. rewrite <- E. apply in_map. exact Ix.
Qed.
Definition tidyb (h : list op) : bool :=
  let s := after h in
  forallb (fun f => match s_fs s f with
    | Some b => orb (orb (fkind_eqb (fst f) F_TOKEN) (fkind_eqb (fst f) F_OBJECT)) (orb (match b with [] => true | _ => false end)
        (existsb (fun o => andb (andb (behind (o_uid o) (t_objs (s_tok s)) =? snd f)%nat (fkind_eqb (kkind o) (fst f)))
           (if list_eq_dec N.eq_dec (kfile tse o) b then true else false)) (t_objs (s_tok s))))
    | None => true end) (map wname (s_log s)).
Lemma tidyb_tidy h : reach tw (sys0 nofiles) (after h) -> tidyb h = true -> tidy tse (s_fs (after h)) (t_objs (s_tok (after h))).
Proof.
  unfold tidyb. intros R. pose proof (reach_log tw _ _ toy_laws R) as E. revert E. generalize (after h). intros s E T k i b D [K1 K2]. rewrite forallb_forall in T.
  assert (I : In (k, i) (map wname (s_log s))) by (rewrite E in D; apply apply_named in D as [D|D]; [discriminate D|exact D]).
  specialize (T _ I). rewrite D in T. cbn [fst snd] in T. apply orb_true_iff in T as [T|T]; [exfalso; destruct k; try discriminate T; [apply K1|apply K2]; reflexivity|].
  apply orb_true_iff in T as [T|T]; [left; destruct b; [reflexivity|discriminate T]|right]. apply existsb_exists in T as (o & Io & T). exists o. 
  apply andb_true_iff in T as [T1 T2]. apply andb_true_iff in T1 as [T1 T3]. destruct (list_eq_dec _ _ _) as [Q|]; [|discriminate T2].
  split; [exact Io|]. split; [apply Nat.eqb_eq; exact T1|]. split; [|auto]. destruct k, (kkind o); try discriminate T3; reflexivity.
Qed.
Example C55_partial_ex : exists s' o, reach tw (sys0 nofiles) (after twokeys) /\ tok_obj (after twokeys) (2^28 + 1) o /\ fits (s_tok (after twokeys)) /\
  Forall (storable tse) (t_objs (s_tok (after twokeys))) /\ step tw (rnd 0) (after twokeys) (ODestroyObject H2 (2^28 + 1)) = Ok (s', OutRv CKR_OK) /\
  tidy tse (s_fs (after twokeys)) (t_objs (s_tok (after twokeys))) /\ length (t_objs (s_tok (after twokeys))) = 2%nat.
Proof.
  destruct (step tw (rnd 0) (after twokeys) (ODestroyObject H2 (2^28 + 1))) as [[s' out]| |] eqn:E; [|vm_compute in E; discriminate..].
  assert (O : out = OutRv CKR_OK) by (vm_compute in E; injection E as _ <-; reflexivity). rewrite O.
  assert (R : reach tw (sys0 nofiles) (after twokeys)) by (apply after_reach; vm_compute; exact Logic.I).
  exists s', (nth 1 (t_objs (s_tok (after twokeys))) (obj_new 0 0)). split; [exact R|]. split; [split; vm_compute; reflexivity|].
  split; [apply toy_fits_; vm_compute; split; reflexivity|]. split; [apply symb_storable; vm_compute; reflexivity|]. split; [reflexivity|].
  split; [apply tidyb_tidy; [exact R|vm_compute; reflexivity]|vm_compute; reflexivity].
Qed.
