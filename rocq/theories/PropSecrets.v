(** Property C28 for whole histories of the library: what the caller gets does not
    depend on the values of protected secret keys. *)
From Verif Require Import Base Ops Object ObjectSpec PropObject PropObject2 Store Sys SysProofs SysProofs2 SysProofs3 SysProofs4 Isolate IsolateProofs2 ToyEnv ToySys Secrets SecretsStep SecretsProofs.

(** From a reached state, two histories that differ in the values of protected keys,
    and compute with none of these keys, give the caller the same answers. [P]: the
    calls that are made. *)
Definition C28_system_claim (P : sys -> op -> Prop) : Prop :=
  forall w d s l1 l2 s1 os, sealing (w_se w) -> reach w (sys0 d) s -> two_histories w P s [] l1 l2 ->
    run w s l1 = Ok (s1, os) -> exists s2, run w s l2 = Ok (s2, os).

Lemma apart_reach w d s : reach w (sys0 d) s -> apart s.
Proof. induction 1 as [|s rnd c s' o R IH H]; [apply apart0|]. eapply step_apart; [eapply reach_inv; eassumption|exact IH|exact H]. Qed.
Theorem C28_system_partial : C28_system_claim careful.
Proof.
  intros w d s l1 l2 s1 os Sl R Th E. pose proof (histories_R w Sl [] s l1 l2 Th s (reach_inv _ _ _ R) (apart_reach _ _ _ R) (sysR_refl w s)) as Q.
  rewrite E in Q. destruct (run w s l2) as [[s2 os2]| |]; cbn in Q; try contradiction. exists s2. congruence.
Qed.
Print Assumptions C28_system_partial.

(** Histories written down as lists. *)
Definition unused (c : op) : Prop := forall s u, ~ computes_with s c u.
Lemma th_list w (P : sys -> op -> Prop) l1 l2 :
  Forall2 (fun a b => (a = b /\ unused (fst a) /\ forall s, P s (fst a)) \/ (snd a = snd b /\ two_secrets (fst a) (fst b))) l1 l2 ->
  forall s T s1 os, run w s l1 = Ok (s1, os) -> two_histories w P s T l1 l2.
Proof.
  induction 1 as [|[c1 r1] [c2 r2] l1 l2 E F IH]; intros s T s1 os R; [constructor|]. cbn [run] in R. destruct (step w r1 s c1) as [[s' o]| |] eqn:Q; cbn [bind] in R; try discriminate R.
  destruct (run w s' l1) as [[s2 os2]| |] eqn:Q2; cbn [bind] in R; try discriminate R. cbn [fst snd] in E. destruct E as [(E & U & Pc)|(<- & S)].
  - injection E as <- <-. eapply th_same; [apply Pc|intros u C; destruct (U _ _ C)|exact Q|eapply IH; exact Q2].
  - eapply th_secret; [exact S|exact Q|eapply IH; exact Q2].
Qed.
Ltac unused := intros ? ? (? & ? & ? & ? & _ & _ & _ & [(? & E & _)|[(? & ? & ? & ? & E)|(? & ? & ? & ? & E)]]); discriminate E.

(** The toy sealing shows no more than lengths, to who holds no other key. *)
Lemma pad_len n l : length (pad n l) = n.
Proof. unfold pad, zeros. rewrite firstn_length, app_length, repeat_length. lia. Qed.
Lemma mask_len k l : length (mask k l) = length l.
Proof. apply map_length. Qed.
Lemma toy_sealing : sealing (w_se tw).
Proof.
  assert (L : forall k iv p q, length p = length q -> length (toy_enc k iv p) = length (toy_enc k iv q)) by (intros; unfold toy_enc; rewrite !app_length, !mask_len; congruence).
  assert (N : forall k iv p, (length (toy_enc k iv p) - 16)%nat = length (mask k p)) by (intros; unfold toy_enc; rewrite app_length, pad_len; lia).
  assert (S : forall k iv p, skipn (length (toy_enc k iv p) - 16) (toy_enc k iv p) = pad 16 k) by (intros k iv p; rewrite N; unfold toy_enc; rewrite skipn_app, skipn_all, Nat.sub_diag; reflexivity).
  assert (F : forall k iv p, firstn (length (toy_enc k iv p) - 16) (toy_enc k iv p) = mask k p) by (intros k iv p; rewrite N; unfold toy_enc; rewrite firstn_app, firstn_all, Nat.sub_diag; cbn; apply app_nil_r).
  split; [exact L| |]; intros k iv p q k' iv' E; cbn [w_se tw tse se_dec se_enc]; unfold toy_dec; cbv zeta; rewrite !S; destruct (list_eq_dec _ _ _); cbn [fst snd]; try reflexivity.
  rewrite !F, !mask_len. exact E.
Qed.

(** A protected token key ... *)
Definition secret_tmpl (k : list N) : template :=
  [mkA CKA_CLASS (ULONG CKO_SECRET_KEY); mkA CKA_KEY_TYPE (ULONG CKK_AES); mkA CKA_VALUE (AV k); mkA CKA_SENSITIVE TRUE;
   mkA CKA_EXTRACTABLE FALSE; mkA CKA_TOKEN TRUE; mkA CKA_PRIVATE TRUE].
Ltac say v := intros a I E; cbn [In secret_tmpl] in I; repeat (destruct I as [I|I]; [subst a; first [discriminate E|exists v; split; [left; reflexivity|reflexivity]]|]); destruct I.
Lemma secret_pair h k1 k2 : length k1 = length k2 -> two_secrets (OCreateObject h (secret_tmpl k1)) (OCreateObject h (secret_tmpl k2)).
Proof.
  intros L. apply ts_create.
  - split; [|split].
    + say CKO_SECRET_KEY.
    + say CKK_AES.
    + left. exists (firstn 3 (secret_tmpl k1)), (skipn 4 (secret_tmpl k1)). split; [reflexivity|]. repeat (constructor; [discriminate|]). constructor.
  - exists (mkA CKA_CLASS (ULONG CKO_SECRET_KEY)). split; [left; reflexivity|reflexivity].
  - constructor; [left; reflexivity|]. constructor; [left; reflexivity|]. constructor; [right; repeat split; exists k1, k2; repeat split; exact L|]. repeat (constructor; [left; reflexivity|]). constructor.
Qed.
Definition TokKey : Z := 268435457.
Definition read_it : op := OGetAttributeValue H2 TokKey [mkA CKA_VALUE (AV (zeros 16))].
(** ... is made readable while the user is logged out, and read after the next login:
    C_SetAttributeValue clears the key in memory but not its sealed form, which
    C_Login opens again. *)
Definition leak (k : list N) : list (op * (nat -> list N)) := numbered 20
  [OOpenSession 1 RW; OLogin H2 CKU_USER upin (Some 0%Z); OCreateObject H2 (secret_tmpl k); read_it; OLogout H2;
   OSetAttributeValue H2 TokKey [mkA CKA_SENSITIVE FALSE; mkA CKA_EXTRACTABLE TRUE]; OLogin H2 CKU_USER upin (Some 0%Z); read_it].
Definition outs_of (l : list (op * (nat -> list N))) : res (list out) :=
  '(_, os) <- run tw (after setup) l ;; Ok os.
Definition keyA : list N := repeat 7%N 16.
Definition keyB : list N := repeat 9%N 16.
Example leak_reads : exists os, outs_of (leak keyA) = Ok (os ++ [OutT 0 [mkA CKA_VALUE (AV keyA)]]) /\
  nth_error os 3 = Some (OutT 0 [mkA CKA_VALUE (AUnav (zeros 16))]).
Proof.
  exists (match outs_of (leak keyA) with Ok os => removelast os | _ => [] end). split; vm_compute; reflexivity.
Qed.
(** Only the change of the attributes is needed: the library stays loaded. *)
Definition stays_loaded (s : sys) (c : op) : Prop := c = OInitialize -> s_count s <> 0%Z.
Theorem C28_system_refuted : ~ C28_system_claim stays_loaded.
Proof.
  intros C. assert (R : exists s1 os, run tw (after setup) (leak keyA) = Ok (s1, os)) by (eexists _, _; vm_compute; reflexivity).
  destruct R as (s1 & os & R).
  destruct (C tw nofiles (after setup) (leak keyA) (leak keyB) s1 os) as [s2 R2]; [exact toy_sealing|apply after_reach; vm_compute; exact I| |exact R|].
  - eapply th_list; [|exact R]. unfold leak. cbn [numbered]. repeat (constructor; [first [right; split; [reflexivity|apply secret_pair; reflexivity]|left; split; [reflexivity|split; [unused|intros s E; discriminate E]]]|]). constructor.
  - assert (E : outs_of (leak keyA) = outs_of (leak keyB)) by (unfold outs_of; rewrite R, R2; reflexivity). vm_compute in E. discriminate E.
Qed.
Print Assumptions C28_system_refuted.
Theorem C28_full_system_refuted : ~ C28_system_claim (fun _ _ => True).
Proof.
  intros C. apply C28_system_refuted. intros w d s l1 l2 s1 os Sl R Th E. eapply C; [exact Sl|exact R| |exact E].
  clear E. clear R. induction Th as [s T|s T c rnd s' o l1 l2 Pc N H Th IH|s T c1 c2 rnd s' o l1 l2 S H Th IH]; [constructor|eapply th_same; [exact I|exact N|exact H|exact IH]|eapply th_secret; [exact S|exact H|exact IH]].
Qed.
Print Assumptions C28_full_system_refuted.

(** A history that meets the hypotheses of the positive result: keys with two values
    are made and generated, asked for, searched, copied, renamed, sealed by a logout and
    opened by a login. *)
Definition gen_tmpl : template := [mkA CKA_CLASS (ULONG CKO_SECRET_KEY); mkA CKA_VALUE_LEN (ULONG 16); mkA CKA_SENSITIVE TRUE].
Lemma gen_pair h k1 k2 : two_secrets (OGenerateKey h true gen_tmpl k1) (OGenerateKey h true gen_tmpl k2).
Proof.
  apply ts_generate. split; [|split].
  - say CKO_SECRET_KEY.
  - say CKK_AES.
  - left. exists (firstn 2 gen_tmpl), []. split; [reflexivity|constructor].
Qed.
Definition keeps (k g : list N) : list (op * (nat -> list N)) := numbered 20
  [OOpenSession 1 RW; OLogin H2 CKU_USER upin (Some 0%Z); OCreateObject H2 (secret_tmpl k); read_it; OGenerateKey H2 true gen_tmpl g;
   OGetAttributeValue H2 1 [mkA CKA_VALUE (AV (zeros 16))]; OSetAttributeValue H2 1 [mkA CKA_SENSITIVE FALSE];
   OSetAttributeValue H2 TokKey [mkA CKA_LABEL (AV [75%N])]; OCopyObject H2 TokKey [mkA CKA_LABEL (AV [0%N])];
   OFindObjectsInit H2 [mkA CKA_VALUE (AV keyA)]; OFindObjects H2 9; OFindObjectsFinal H2;
   OLogout H2; OLogin H2 CKU_USER upin (Some 0%Z); read_it; OCloseSession H2].
Example C28_system_case : exists s1 os, run tw (after setup) (keeps keyA keyA) = Ok (s1, os) /\ reach tw (sys0 nofiles) (after setup) /\ sealing (w_se tw) /\
  two_histories tw careful (after setup) [] (keeps keyA keyA) (keeps keyB keyB) /\ map out_rv os = repeat 0%Z 16.
Proof.
  assert (R : exists s1 os, run tw (after setup) (keeps keyA keyA) = Ok (s1, os)) by (eexists _, _; vm_compute; reflexivity). destruct R as (s1 & os & R). exists s1, os.
  split; [exact R|]. split; [apply after_reach; vm_compute; exact I|]. split; [exact toy_sealing|]. split.
  - eapply th_list; [|exact R]. unfold keeps. cbn [numbered].
    repeat (constructor; [first [right; split; [reflexivity|first [apply secret_pair; reflexivity|apply gen_pair]]
      |left; split; [reflexivity|split; [unused|intros s; first [exact I|left; unfold small; lia|right; split; [|split]; say CKO_SECRET_KEY]]]]|]). constructor.
  - assert (E : outs_of (keeps keyA keyA) = Ok os) by (unfold outs_of; rewrite R; reflexivity). vm_compute in E. injection E as <-. reflexivity.
Qed.
