(** Destroying a key that is in use: C19. *)
From Verif Require Import Base Codec Ops OpsSpec ToyEnv Object ObjectSpec ObjectProofs PropObject Store StoreSpec Sys SysProofs SysProofs2 SysProofs3 SysProofs4
  WfProofs ToySys PropStore PropStore2 ObjFrame ObjProofs HandleProofs UseProofs PropObj PropKeys.

(** Continuing (or starting) an operation never touches freed memory, whatever
    was destroyed before. *)
Definition C19_claim (w : world) : Prop :=
  forall d s h c hk rnd, reach w (sys0 d) s -> step w rnd s (OCrypto h c hk) <> Undef UB_use_after_free.

(** An HMAC key does not dangle (its value was copied), an AES-GCM key does: the
    key is destroyed between C_EncryptInit and C_Encrypt. *)
Definition gcm_iv : mparam := MPgcm (repeat 0%N 12) None 128.
Definition start_gcm : list op := idle_keys ++ [OCrypto H2 (KEncryptInit M_AES_GCM gcm_iv 0) 1].
Definition pull_key : list op := start_gcm ++ [ODestroyObject H2 1].
Definition go_on : op := OCrypto H2 (KEncrypt [] [1; 2; 3]%N (Buf 64)) 0.
Theorem C19_refuted : ~ C19_claim tw.
Proof.
  intros C. apply (C nofiles (after pull_key) H2 (KEncrypt [] [1; 2; 3]%N (Buf 64)) 0%Z (rnd 0)); [apply after_reach; vm_compute; exact Logic.I|]. vm_compute. reflexivity.
Qed.
Print Assumptions C19_refuted.
(** The same through another session: the key is a token object and is destroyed
    through a second session while the first one encrypts with it. *)
Definition tok_aes : template := mkA CKA_TOKEN (AV [1%N]) :: aes_tmpl.
Definition pull_other : list op := setup ++ [OOpenSession 1 RW; OOpenSession 1 RW; OCreateObject H2 tok_aes;
  OCrypto H2 (KEncryptInit M_AES_GCM gcm_iv 0) (2^28 + 1); ODestroyObject H1 (2^28 + 1)].
Theorem C19_other_session_refuted : reach tw (sys0 nofiles) (after pull_other) /\ step tw (rnd 0) (after pull_other) go_on = Undef UB_use_after_free /\ rvs pull_other = map (fun _ => CKR_OK) pull_other.
Proof. split; [apply after_reach; vm_compute; exact Logic.I|split; vm_compute; reflexivity]. Qed.
Print Assumptions C19_other_session_refuted.

(** Histories in which no key is destroyed while an operation uses it, and an
    uninitialised token is not initialised while operations are active. *)
Inductive sparing (w : world) (s0 : sys) : sys -> Prop :=
  | sp_0 : sparing w s0 s0
  | sp_1 s rnd c s' o : sparing w s0 s -> spares s c -> step w rnd s c = Ok (s', o) -> sparing w s0 s'.
Lemma sparing_reach w s0 s : sparing w s0 s -> reach w s0 s.
Proof. induction 1; [apply reach_0|eapply reach_step; eauto]. Qed.
Lemma sparing_held w d s : sparing w (sys0 d) s -> held s.
Proof.
  induction 1 as [|s rnd c s' o R IH Sp H]; [intros x u []|]. eapply step_held; [|exact IH|exact Sp|exact H]. eapply reach_inv. apply sparing_reach. exact R.
Qed.
Lemma held_found s x u : inv s -> held s -> In x (s_sess s) -> in_op x = Some u -> exists o, find_uid s u = Some o /\ o_uid o = u /\ In o (t_objs (s_tok s) ++ ss_objs x).
Proof.
  intros I Hd X E. destruct (Hd x u X E) as (_ & J). unfold uids in J. apply in_map_iff in J as (o & <- & J). exists o. split; [|auto].
  assert (L : In o (live s)). { unfold live. apply in_app_or in J as [J|J]; apply in_or_app; [left; exact J|right; eapply all_objs_in; eauto]. }
  unfold find_uid. destruct (find _ (live s)) as [o'|] eqn:Fd.
  - apply find_some in Fd as [L' Q]. apply Nat.eqb_eq in Q. f_equal. destruct I as (_ & _ & (ND & _) & _). apply (NoDup_map_inj _ _ o_uid (live s)); auto.
  - eapply find_none in Fd; [|exact L]. rewrite Nat.eqb_refl in Fd. discriminate Fd.
Qed.
Lemma view_calm w o : calm (view w o).
Proof. unfold view, as_rsa, as_ec, as_sym, take_buf. calm. Qed.
Theorem C19_partial w d s h c hk rnd : quiet (w_ev w) -> sparing w (sys0 d) s -> step w rnd s (OCrypto h c hk) <> Undef UB_use_after_free.
Proof.
  intros Q R. pose proof (reach_inv w _ _ (sparing_reach _ _ _ R)) as I. pose proof (sparing_held _ _ _ R) as Hd. change (calm (step w rnd s (OCrypto h c hk))).
  cbn [step]. unfold with_sess, need_lib. destruct (0 <? _)%Z; [|discriminate]. destruct (sess_get s h) as [x|] eqn:G; [|discriminate]. apply sess_get_in in G as (X & _).
  assert (Co : calm (run_cont w s x c)).
  { unfold run_cont. destruct (os_curr (ss_op x)) as [u|] eqn:Cu.
    - destruct (in_op x) as [u'|] eqn:E.
      + assert (u' = u) by (unfold in_op, op_key in E; destruct (_ =? _)%Z; congruence). subst u'. destruct (held_found _ _ _ I Hd X E) as (o & Fo & _). rewrite Fo. pose proof (view_calm w o) as V.
        destruct (view w o) as [k|e|b]; cbn [bind]; [|discriminate|intros J; apply V; injection J as ->; reflexivity].
        apply calm_bind; [|intros [p r]; discriminate]. apply op_calm; [exact Q|discriminate].
      + apply calm_bind; [destruct (find_uid s u); [apply calm_bind; [apply view_calm|discriminate]|discriminate]|]. intros k. apply calm_bind; [|intros [p r]; discriminate].
        apply op_calm; [exact Q|]. intros v V. unfold in_op in E. congruence.
    - cbn [bind]. apply calm_bind; [|intros [p r]; discriminate]. apply op_calm; [exact Q|]. intros v V. unfold op_key in V. rewrite Cu in V. destruct (_ =? _)%Z; discriminate V. }
  destruct (with_key c 0) as [c1|] eqn:W.
  - unfold with_object. destruct (find_obj s x hk) as [o|]; [|discriminate]. destruct (with_key c (o_uid o)) as [c2|] eqn:W2; [|discriminate]. apply calm_bind; [|intros [p r]; discriminate].
    unfold run_init. apply calm_bind; [apply view_calm|]. intros ko. apply calm_bind; [|intros [p r]; discriminate]. destruct c; try discriminate W; injection W2 as <-; eapply init_calm; reflexivity.
  - destruct c; try discriminate W; try discriminate; (apply calm_bind; [exact Co|intros [p r]; discriminate]).
Qed.
Print Assumptions C19_partial.
(** The toy world's primitives are quiet, and a history that meets the
    conditions: two keys, the one not in use is destroyed, encryption goes on; when
    it is over the other is destroyed as well. *)
Lemma toy_quiet : quiet (w_ev tw).
Proof. repeat split; intros * E; cbn in E; unfold toy_genc, toy_gdec, toy_pk in E; try discriminate E; (match type of E with (if ?b then _ else _) = _ => destruct b end); discriminate E. Qed.
Definition sparesb (s : sys) (c : op) : bool :=
  match c with
  | ODestroyObject h ho => match sess_get s h with
      | Some x => match find_obj s x ho with
                  | Some o => forallb (fun y => match in_op y with Some u => negb (u =? o_uid o)%nat | None => true end) (s_sess s)
                  | None => true end
      | None => true end
  | OInitToken _ _ _ => orb (t_init (s_tok s)) (forallb (fun y => match in_op y with Some _ => false | None => true end) (s_sess s))
  | _ => true
  end.
Lemma sparesb_ok s c : sparesb s c = true -> spares s c.
Proof.
  destruct c; cbn; auto.
  - intros H. apply orb_prop in H as [H|H]; [left; exact H|right]. rewrite forallb_forall in H. intros y Y. specialize (H y Y). destruct (in_op y); [discriminate|reflexivity].
  - intros H x o y X Fo Y. rewrite X, Fo in H. rewrite forallb_forall in H. specialize (H y Y). destruct (in_op y) as [u|]; [|discriminate]. intros E. injection E as ->. rewrite Nat.eqb_refl in H. discriminate H.
Qed.
Fixpoint all_spare (s : sys) (l : list (op * (nat -> list N))) : bool :=
  match l with
  | [] => true
  | (c, rnd) :: r => andb (sparesb s c) (match step tw rnd s c with Ok (s', _) => all_spare s' r | _ => true end)
  end.
Lemma all_spare_ok s l s' os : all_spare s l = true -> run tw s l = Ok (s', os) -> forall s0, sparing tw s0 s -> sparing tw s0 s'.
Proof.
  revert s os. induction l as [|[c r] l IH]; intros s os A H s0 R; cbn [run] in H; [injection H as <- _; exact R|].
  cbn [all_spare] in A. apply andb_prop in A as [A B]. destruct (step tw r s c) as [[s1 o]| |] eqn:E; cbn [bind] in H; try discriminate.
  destruct (run tw s1 l) as [[s2 os2]| |] eqn:E2; cbn [bind] in H; try discriminate. injection H as <- _. eapply IH; [exact B|exact E2|]. eapply sp_1; [exact R|apply sparesb_ok; exact A|exact E].
Qed.
Lemma after_spare l : (match hist l with Ok _ => True | _ => False end) -> all_spare (sys0 nofiles) (numbered 1 l) = true -> sparing tw (sys0 nofiles) (after l).
Proof. unfold after, hist. intros A B. destruct (run tw (sys0 nofiles) (numbered 1 l)) as [[s os]| |] eqn:E; try contradiction. eapply all_spare_ok; [exact B|exact E|apply sp_0]. Qed.
Definition two_keys : list op := idle_keys ++ [OCreateObject H2 aes_tmpl; OCrypto H2 (KEncryptInit M_AES_GCM gcm_iv 0) 1; ODestroyObject H2 7].
Example C19_case : sparing tw (sys0 nofiles) (after two_keys) /\ rvs two_keys = map (fun _ => CKR_OK) two_keys /\
  match sess_get (after two_keys) H2, step tw (rnd 0) (after two_keys) go_on with
  | Some x, Ok (_, OutC r) => match in_op x with Some _ => andb (o_rv r =? CKR_OK)%Z (o_len r =? 19)%Z | None => false end
  | _, _ => false
  end = true.
Proof.
  split; [|split; vm_compute; reflexivity]. apply after_spare; vm_compute; [exact Logic.I|reflexivity].
Qed.
