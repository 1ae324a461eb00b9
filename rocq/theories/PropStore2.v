(** Crashes and damaged files: C51, C52. *)
From Verif Require Import Base Codec CodecProofs Ops ToyEnv Object PropObject Store StoreSpec StoreProofs Sys SysProofs SysProofs2 SysProofs3 SysProofs4
  LoginProofs WfProofs KeyProofs CrashProofs DiskProofs ToySys PropStore.

(** ** C51: a crash while storing never damages previously stored state *)
(** [ws]: the storage operations of the call; [d']: the files after a crash. *)
Definition C51_claim (w : world) : Prop :=
  laws (w_se w) -> forall d s rnd c s' o ws d' told tnew tcr, reach w (sys0 d) s -> step w rnd s c = Ok (s', o) ->
  s_log s' = s_log s ++ ws -> crash (s_fs s) ws d' ->
  Token_Load (w_se w) (s_fs s) 0 = Ok told -> Token_Load (w_se w) (s_fs s') 0 = Ok tnew -> Token_Load (w_se w) d' 0 = Ok tcr ->
  tok_view tcr = tok_view told \/ tok_view tcr = tok_view tnew.
(** Also the weaker claim that a key never gets the attributes of another is
    false: when the attributes are the new ones, so are the stored keys. *)
Definition C51_keys_claim (w : world) : Prop :=
  laws (w_se w) -> forall d s rnd c s' o ws d' tnew tcr, reach w (sys0 d) s -> step w rnd s c = Ok (s', o) ->
  s_log s' = s_log s ++ ws -> crash (s_fs s) ws d' ->
  Token_Load (w_se w) (s_fs s') 0 = Ok tnew -> Token_Load (w_se w) d' 0 = Ok tcr ->
  tok_view tcr = tok_view tnew -> map o_keyData (t_objs tcr) = map o_keyData (t_objs tnew).

(** Proved: whatever the call and the crash point, the label, PINs and seed found
    at the next start are those of the old token file, those in memory before or
    after the call, or those of a blank token. Missing: the objects, and that the
    blank token is excluded; both are false. *)
Theorem C51_partial w d s rnd c s' o ws d' uid tcr : laws (w_se w) -> reach w (sys0 d) s -> step w rnd s c = Ok (s', o) ->
  fits_pin (t_so (s_tok s)) -> fits_pin (t_user (s_tok s)) -> fits_pin (t_so (s_tok s')) -> fits_pin (t_user (s_tok s')) ->
  s_log s' = s_log s ++ ws -> crash (s_fs s) ws d' -> Token_Load (w_se w) d' uid = Ok tcr ->
  (s_fs s (F_TOKEN, 0%nat) = None /\ tcr = tok_fresh) \/ file_head (s_fs s) = Some (head tcr) \/
  head tcr = head (s_tok s) \/ head tcr = head (s_tok s') \/ tcr = tok_init (zeros 32).
Proof.
  intros L R H F1 F2 F3 F4 Lg Cr Lc. eapply step_crash; eauto; [apply l_hash; exact L|eapply reach_inv; exact R|eapply (reach_ginv w (l_hash _ L)); exact R].
Qed.
Print Assumptions C51_partial.

(** The user changes the PIN; the process stops after the token file has been
    truncated. *)
Definition pinchange : op := OSetPIN H2 upin pin2.
Definition trunc_tok (d : fs) : fs := fs_set d (F_TOKEN, 0%nat) [].
Theorem C51_refuted : ~ C51_claim tw.
Proof.
  intros Cl. specialize (Cl toy_laws nofiles (after zoo) (rnd 0) pinchange).
  destruct (step tw (rnd 0) (after zoo) pinchange) as [[s1 o1]| |] eqn:E1; [|vm_compute in E1; discriminate..].
  destruct (step_wrote tw (l_hash _ toy_laws) _ _ _ _ _ (reach_inv _ _ _ zoo_reach) (reach_ginv tw (l_hash _ toy_laws) _ _ zoo_reach) E1) as (ws & Lg & Fs & _).
  assert (W : exists ws1, ws = WOpen (F_TOKEN, 0%nat) :: ws1).
  { assert (X : firstn 1 (skipn (length (s_log (after zoo))) (s_log s1)) = [WOpen (F_TOKEN, 0%nat)]) by (vm_compute in E1; injection E1 as <- _; vm_compute; reflexivity).
    rewrite Lg, skipn_app, skipn_all, Nat.sub_diag in X. cbn [skipn app] in X. destruct ws as [|a ws]; [discriminate|]. cbn in X. injection X as ->. eauto. }
  destruct W as (ws1 & ->).
  destruct (Token_Load tse (s_fs (after zoo)) 0) as [told| |] eqn:Lo; [|vm_compute in Lo; discriminate..].
  destruct (Token_Load tse (s_fs s1) 0) as [tnew| |] eqn:Ln; [|vm_compute in E1; injection E1 as <- _; vm_compute in Ln; discriminate..].
  specialize (Cl s1 o1 _ (trunc_tok (s_fs (after zoo))) told tnew (tok_init (zeros 32)) zoo_reach eq_refl Lg).
  assert (Cr : crash (s_fs (after zoo)) (WOpen (F_TOKEN, 0%nat) :: ws1) (trunc_tok (s_fs (after zoo)))) by (apply crash_step; apply crash_now).
  specialize (Cl Cr Lo Ln eq_refl).
  assert (A : snd (tok_view told) <> []) by (vm_compute in Lo; injection Lo as <-; vm_compute; discriminate).
  assert (B : snd (tok_view tnew) <> []) by (vm_compute in E1; injection E1 as <- _; vm_compute in Ln; injection Ln as <-; vm_compute; discriminate).
  destruct Cl as [Cl|Cl]; rewrite <- Cl in *; [apply A|apply B]; reflexivity.
Qed.
Print Assumptions C51_refuted.

Lemma crash_firstn n : forall d ws, crash d ws (apply d (firstn n ws)).
Proof. induction n as [|n IH]; intros d ws; [apply crash_now|]. destruct ws as [|a ws]; [apply crash_now|]. cbn [firstn]. apply crash_step. apply IH. Qed.
Definition aes_of (v : list N) : template :=
  tokenly [mkA CKA_CLASS (ULONG CKO_SECRET_KEY); mkA CKA_KEY_TYPE (ULONG CKK_AES); mkA CKA_VALUE (AV v); mkA CKA_VALUE_LEN (ULONG 16)].
Definition keyA : list N := repeat 65%N 16.
Definition keyB : list N := repeat 66%N 16.
Definition keyC : list N := repeat 67%N 16.
Definition labelled (t : template) : template := t ++ [mkA CKA_LABEL (AV [67%N])].
(** Keys A and B; A is destroyed, B moves to its files and leaves its own behind;
    a third key C is created and the process stops before its key is written:
    C's attributes are found with B's key. *)
Definition mixed : list op :=
  setup ++ [OOpenSession 1 RW; userlogin upin; OCreateObject H2 (aes_of keyA); OCreateObject H2 (aes_of keyB); ODestroyObject H2 (2^28 + 1)].
Definition addC : op := OCreateObject H2 (labelled (aes_of keyC)).
Example mixed_ok : rvs (mixed ++ [addC]) = repeat CKR_OK 13.
Proof. vm_compute. reflexivity. Qed.
Theorem C51_keys_refuted : ~ C51_keys_claim tw.
Proof.
  intros Cl. specialize (Cl toy_laws nofiles (after mixed) (rnd 0) addC).
  assert (R : reach tw (sys0 nofiles) (after mixed)) by (apply after_reach; vm_compute; exact Logic.I).
  destruct (step tw (rnd 0) (after mixed) addC) as [[s1 o1]| |] eqn:E1; [|vm_compute in E1; discriminate..].
  destruct (step_wrote tw (l_hash _ toy_laws) _ _ _ _ _ (reach_inv _ _ _ R) (reach_ginv tw (l_hash _ toy_laws) _ _ R) E1) as (ws & Lg & Fs & _).
  assert (W : ws = skipn (length (s_log (after mixed))) (s_log s1)) by (rewrite Lg, skipn_app, skipn_all, Nat.sub_diag; reflexivity).
  specialize (Cl s1 o1 ws (apply (s_fs (after mixed)) (firstn 4 ws))).
  destruct (Token_Load tse (s_fs s1) 0) as [tnew| |] eqn:Ln; [|vm_compute in E1; injection E1 as <- _; vm_compute in Ln; discriminate..].
  destruct (Token_Load tse (apply (s_fs (after mixed)) (firstn 4 ws)) 0) as [tcr| |] eqn:Lc; [|vm_compute in E1; injection E1 as <- _; vm_compute in W; subst ws; vm_compute in Lc; discriminate..].
  specialize (Cl tnew tcr R eq_refl Lg (crash_firstn _ _ _) Ln Lc).
  assert (V : tok_view tcr = tok_view tnew).
  { vm_compute in E1. injection E1 as <- _. vm_compute in W. subst ws. vm_compute in Ln. injection Ln as <-. vm_compute in Lc. injection Lc as <-. reflexivity. }
  specialize (Cl V). revert Cl. clear V. vm_compute in E1. injection E1 as <- _. vm_compute in W. subst ws. vm_compute in Ln. injection Ln as <-. vm_compute in Lc. injection Lc as <-. vm_compute. discriminate.
Qed.
Print Assumptions C51_keys_refuted.

(** Non-vacuity of C51_partial: the PIN change above, at the end of all writes and
    before all writes; the two results differ. *)
Example C51_partial_ex : exists s1 o1 ws t1 t2, step tw (rnd 0) (after zoo) pinchange = Ok (s1, o1) /\ s_log s1 = s_log (after zoo) ++ ws /\
  Token_Load tse (apply (s_fs (after zoo)) (firstn 0 ws)) 0 = Ok t1 /\ Token_Load tse (apply (s_fs (after zoo)) (firstn 2 ws)) 0 = Ok t2 /\
  head t1 = head (s_tok (after zoo)) /\ head t2 = head (s_tok s1) /\ head t1 <> head t2.
Proof.
  destruct (step tw (rnd 0) (after zoo) pinchange) as [[s1 o1]| |] eqn:E1; [|vm_compute in E1; discriminate..].
  destruct (step_wrote tw (l_hash _ toy_laws) _ _ _ _ _ (reach_inv _ _ _ zoo_reach) (reach_ginv tw (l_hash _ toy_laws) _ _ zoo_reach) E1) as (ws & Lg & Fs & _).
  assert (W : ws = skipn (length (s_log (after zoo))) (s_log s1)) by (rewrite Lg, skipn_app, skipn_all, Nat.sub_diag; reflexivity).
  exists s1, o1, ws.
  destruct (Token_Load tse (apply (s_fs (after zoo)) (firstn 0 ws)) 0) as [t1| |] eqn:L1; [|vm_compute in L1; discriminate..].
  destruct (Token_Load tse (apply (s_fs (after zoo)) (firstn 2 ws)) 0) as [t2| |] eqn:L2; [|vm_compute in E1; injection E1 as <- _; vm_compute in W; subst ws; vm_compute in L2; discriminate..].
  exists t1, t2. split; [reflexivity|]. split; [exact Lg|]. split; [reflexivity|]. split; [reflexivity|].
  vm_compute in E1; injection E1 as <- _; vm_compute in W; subst ws; vm_compute in L1; injection L1 as <-. vm_compute in L2. injection L2 as <-.
  split; [vm_compute; reflexivity|]. split; [vm_compute; reflexivity|vm_compute; discriminate].
Qed.

(** ** C52: damaged files are detected, never misread *)
(** One file of the stored token is cut short; the next C_Initialize fails or the
    token is the old one nonetheless. *)
Definition C52_claim (w : world) : Prop :=
  laws (w_se w) -> forall d s rnd1 s1 o1 g b k rnd2 s2 o2, reach w (sys0 d) s -> s_count s = 1%Z ->
  step w rnd1 s OFinalize = Ok (s1, o1) -> file_of (s_tok s) g -> s_fs s1 g = Some b -> (k < length b)%nat ->
  step w rnd2 (sys0 (fs_set (s_fs s1) g (firstn k b))) OInitialize = Ok (s2, o2) ->
  out_rv o2 <> CKR_OK \/ tok_view (s_tok s2) = tok_view (s_tok s).
(** Proved: a file cut short is never misread; the result of loading is always the
    same blank token, with no object and no PIN. Missing: C_Initialize reports
    success, and the blank token counts as initialised. *)
Theorem C52_partial w d s rnd1 s1 o1 g b k rnd2 : laws (w_se w) -> reach w (sys0 d) s -> s_count s = 1%Z ->
  fits (s_tok s) -> Forall (storable (w_se w)) (t_objs (s_tok s)) ->
  step w rnd1 s OFinalize = Ok (s1, o1) -> file_of (s_tok s) g -> s_fs s1 g = Some b -> (k < length b)%nat ->
  exists s2, step w rnd2 (sys0 (fs_set (s_fs s1) g (firstn k b))) OInitialize = Ok (s2, OutRv CKR_OK) /\
    s_tok s2 = tok_init (zeros 32).
Proof.
  intros L R C F S H Fg Hb K. pose proof (reach_ginv w (l_hash _ L) _ _ R) as G.
  assert (W : wf_tok (s_tok s)) by exact (wf_of (s_tok s) (t_objs (s_tok s)) G F eq_refl).
  cbn [step] in *. unfold Finalize in H. rewrite C in H. change (1 - 1 =? 0)%Z with true in H. cbv iota in H. unfold store in H.
  destruct (trunc_load (w_se w) (dh_law' _ L) (fun i => rnd1 (2 + i)%nat) (s_tok s) (s_fs s) W S) as (ws & E & T).
  rewrite E in H. cbn [bind] in H. destruct (final_all _); cbn [bind] in H; try discriminate. destruct (free_all _); cbn [bind] in H; try discriminate.
  injection H as <- <-. cbn [s_fs do_ops set_tok] in *. specialize (T g b k 0%nat Fg Hb K).
  unfold Initialize. cbn [sys0 s_count s_fs s_uid]. change (0 =? 0)%Z with true. cbv iota. rewrite T. cbn [bind].
  eexists. split; [reflexivity|]. reflexivity.
Qed.
Print Assumptions C52_partial.
Lemma split_last (A : Type) n (l : list A) d : length l = S n -> l = firstn n l ++ [nth n l d].
Proof.
  revert n. induction l as [|a l IH]; intros n H; [discriminate|]. cbn in H. injection H as H. destruct n as [|n].
  - destruct l; [reflexivity|discriminate].
  - cbn. f_equal. apply IH. exact H.
Qed.
Theorem C52_refuted : ~ C52_claim tw.
Proof.
  intros Cl. specialize (Cl toy_laws nofiles (after zoo) (rnd 0)).
  destruct (step tw (rnd 0) (after zoo) OFinalize) as [[s1 o1]| |] eqn:E1; [|vm_compute in E1; discriminate..].
  assert (C : s_count (after zoo) = 1%Z) by (vm_compute; reflexivity).
  destruct (s_fs s1 (F_SYMMKEY, 0%nat)) as [b|] eqn:B; [|vm_compute in E1; injection E1 as <- _; vm_compute in B; discriminate].
  assert (F : file_of (s_tok (after zoo)) (F_SYMMKEY, 0%nat)).
  { right. set (l := t_objs (s_tok (after zoo))).
    assert (Len : length l = 7%nat) by (vm_compute; reflexivity).
    exists (firstn 6 l), (nth 6 l (obj_new 0 0)), [].
    assert (Sp : l = firstn 6 l ++ [nth 6 l (obj_new 0 0)]).
    { apply split_last. exact Len. }
    split; [exact Sp|]. right. exists F_SYMMKEY. split; [|reflexivity].
    assert (X : nth 6 (map key_kind l) None = Some F_SYMMKEY) by (vm_compute; reflexivity).
    rewrite <- X. symmetry. etransitivity; [|apply (map_nth key_kind)]. apply nth_indep. rewrite map_length, Len. lia. }
  destruct (C52_partial tw nofiles (after zoo) (rnd 0) s1 o1 (F_SYMMKEY, 0%nat) b 5 (rnd 0) toy_laws zoo_reach C zoo_fits zoo_storable E1 F B) as (s2 & E2 & T2).
  { vm_compute in E1; injection E1 as <- _; vm_compute in B; injection B as <-. vm_compute. lia. }
  specialize (Cl s1 o1 (F_SYMMKEY, 0%nat) b 5%nat (rnd 0) s2 (OutRv CKR_OK) zoo_reach C eq_refl F B).
  destruct Cl as [Cl|Cl].
  - vm_compute in E1; injection E1 as <- _; vm_compute in B; injection B as <-. vm_compute. lia.
  - exact E2.
  - apply Cl. reflexivity.
  - rewrite T2 in Cl. apply (f_equal snd) in Cl. apply (f_equal (@length _)) in Cl. revert Cl. clear. vm_compute. discriminate.
Qed.
Print Assumptions C52_refuted.
