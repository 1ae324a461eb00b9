(** Properties of operation histories (proofs). *)
From Verif Require Import Base Cbc CbcProofs CbcSpec Ops OpsSpec OpsCbcProofs.

Local Ltac Zify.zify_post_hook ::= Z.div_mod_to_equations.

(** Case analysis on a step equation [... = Ok (st', o)]. *)
Ltac inv_step :=
  repeat match goal with
  | H : bind ?r _ = Ok _ |- _ => let E := fresh "E" in destruct r eqn:E; cbn [bind] in H; try discriminate H
  | H : Ok _ = Ok _ |- _ => injection H; clear H; intros; subst
  | H : Undef _ = Ok _ |- _ => discriminate H
  | H : Err _ = Ok _ |- _ => discriminate H
  | H : (match ?x with _ => _ end) = Ok _ |- _ => let E := fresh "E" in destruct x eqn:E; try discriminate H
  | H : (let '(_, _) := ?x in _) = Ok _ |- _ => let E := fresh "E" in destruct x eqn:E; try discriminate H
  end.

Ltac inv_pair :=
  repeat match goal with
  | H : (_, _) = (_, _) |- _ => injection H; clear H; intros; subst
  | H : (match ?x with _ => _ end) = (_, _) |- _ =>
      let E := fresh "E" in destruct x eqn:E; try discriminate H
  end.

Section P.
Variable ev : env.
Variable objs : nat -> option keyobj.
Notation step := (step ev objs).
Notation run := (run ev objs).

(** ** Frame of the data calls *)
Definition frame (st st' : opst) : Prop :=
  os_curr st' = os_curr st /\ os_mech st' = os_mech st /\
  (os_init st' = os_init st \/ os_init st' = 0%Z).

Lemma frame_refl st : frame st st.
Proof. repeat split; auto. Qed.

Lemma conclude_frame st b e r st' o :
  frame st e -> (forall s l x, r = Ok (s, l, x) -> frame st s) ->
  conclude b e r = Ok (st', o) -> frame st st'.
Proof.
  intros He Hr H. unfold conclude in H. destruct r as [[[s l] x]|c|u]; inv_step.
  - eapply Hr; reflexivity.
  - exact He.
Qed.

Lemma sized_frame st n b k st' o :
  (k = Ok (st', o) -> frame st st') -> sized st n b k = Ok (st', o) -> frame st st'.
Proof.
  intros Hk H. unfold sized in H. destruct b; inv_step; auto using frame_refl.
Qed.

Lemma pk_after_frame m st : frame st (pk_after m st).
Proof.
  unfold pk_after. destruct m; try apply frame_refl.
  destruct (os_params st); repeat split; auto.
Qed.

Ltac fr :=
  repeat match goal with
  | H : sized _ _ _ _ = Ok _ |- frame _ _ => eapply sized_frame; [|exact H]; clear H; intros H
  | H : conclude _ _ _ = Ok _ |- frame _ _ =>
      eapply conclude_frame; [| |exact H]; [clear H|clear H; intros ? ? ? H]
  | H : (_ <- _ ;; _) = Ok _ |- _ => progress inv_step
  | |- frame ?s ?s => apply frame_refl
  | |- frame _ (pk_after _ _) => apply pk_after_frame
  | |- frame ?s (match os_params ?s with _ => _ end) => apply (pk_after_frame M_RSA_OAEP s)
  | H : Ok _ = Ok _ |- _ => progress inv_step
  | |- frame _ _ => solve [repeat split; auto]
  | H : (if _ then _ else _) = Ok _ |- _ => progress inv_step
  | H : (match _ with _ => _ end) = Ok _ |- _ => progress inv_step
  end.

Lemma step_data_frame st c st' o kd :
  data_kind c = Some kd -> step st c = Ok (st', o) -> frame st st'.
Proof.
  intros Hk H. destruct c; try discriminate Hk; cbn [Ops.step] in H; clear Hk.
  - unfold C_Encrypt, with_obj in H. destruct (os_curr st) eqn:Hc; unfold not_init in H; [|inv_step; fr].
    destruct (os_mech st) eqn:Hm; unfold need_init, not_init, pk_crypt, need_init, not_init in H;
      try destruct (os_init st =? _)%Z eqn:Hi; fr.
  - unfold C_EncryptUpdate, with_obj in H. destruct (os_curr st) eqn:Hc; unfold not_init in H; [|inv_step; fr].
    destruct (os_mech st) eqn:Hm; unfold need_init, not_init in H;
      try destruct (os_init st =? _)%Z eqn:Hi; fr.
  - unfold C_EncryptFinal, with_obj in H. destruct (os_curr st) eqn:Hc; unfold not_init in H; [|inv_step; fr].
    destruct (os_mech st) eqn:Hm; unfold need_init, not_init in H;
      try destruct (os_init st =? _)%Z eqn:Hi; fr.
  - unfold C_Decrypt, with_obj in H. destruct (os_curr st) eqn:Hc; unfold not_init in H; [|inv_step; fr].
    destruct (os_mech st) eqn:Hm; unfold need_init, not_init, pk_crypt, need_init, not_init in H;
      try destruct (os_init st =? _)%Z eqn:Hi; fr.
  - unfold C_DecryptUpdate, with_obj in H. destruct (os_curr st) eqn:Hc; unfold not_init in H; [|inv_step; fr].
    destruct (os_mech st) eqn:Hm; unfold need_init, not_init in H;
      try destruct (os_init st =? _)%Z eqn:Hi; fr.
  - unfold C_DecryptFinal, with_obj in H. destruct (os_curr st) eqn:Hc; unfold not_init in H; [|inv_step; fr].
    destruct (os_mech st) eqn:Hm; unfold need_init, not_init in H;
      try destruct (os_init st =? _)%Z eqn:Hi; fr.
  - unfold C_Sign, with_obj in H. destruct (os_curr st) eqn:Hc; unfold not_init in H; [|inv_step; fr].
    destruct (os_mech st) eqn:Hm; unfold need_init, not_init, pk_sign, need_init, not_init in H;
      try destruct (os_init st =? _)%Z eqn:Hi; fr.
  - unfold C_SignUpdate, with_obj in H. destruct (os_curr st) eqn:Hc; unfold not_init in H; [|inv_step; fr].
    destruct (os_mech st) eqn:Hm; unfold need_init, not_init, hmac_update in H;
      try destruct (os_init st =? _)%Z eqn:Hi; fr.
  - unfold C_SignFinal, with_obj in H. destruct (os_curr st) eqn:Hc; unfold not_init in H; [|inv_step; fr].
    destruct (os_mech st) eqn:Hm; unfold need_init, not_init in H;
      try destruct (os_init st =? _)%Z eqn:Hi; fr.
  - unfold C_Verify, with_obj in H. destruct (os_curr st) eqn:Hc; unfold not_init in H; [|inv_step; fr].
    destruct (os_mech st) eqn:Hm; unfold need_init, not_init, pk_verify, need_init, not_init in H;
      try destruct (os_init st =? _)%Z eqn:Hi; fr.
  - unfold C_VerifyUpdate, with_obj in H. destruct (os_curr st) eqn:Hc; unfold not_init in H; [|inv_step; fr].
    destruct (os_mech st) eqn:Hm; unfold need_init, not_init, hmac_update in H;
      try destruct (os_init st =? _)%Z eqn:Hi; fr.
  - unfold C_VerifyFinal, with_obj in H. destruct (os_curr st) eqn:Hc; unfold not_init in H; [|inv_step; fr].
    destruct (os_mech st) eqn:Hm; unfold need_init, not_init in H;
      try destruct (os_init st =? _)%Z eqn:Hi; fr.
Qed.

(** ** Init calls *)
Definition code_kind (i : Z) : option kind :=
  if existsb (Z.eqb i) [1; 3; 5; 32; 34; 36]%Z then Some KdEnc
  else if existsb (Z.eqb i) [2; 4; 6; 33; 35; 37]%Z then Some KdDec
  else if existsb (Z.eqb i) [16; 48; 50; 52; 64]%Z then Some KdSign
  else if existsb (Z.eqb i) [17; 49; 51; 53; 65]%Z then Some KdVerify
  else None.

Definition same_op (st st' : opst) : Prop :=
  os_curr st' = os_curr st /\ os_mech st' = os_mech st /\ os_init st' = os_init st.

Lemma step_init_spec st c st' o kd :
  init_kind c = Some kd -> step st c = Ok (st', o) ->
  o_out o = [] /\
  ((o_rv o = CKR_OK /\ code_kind (os_init st') = Some kd) \/
   (o_rv o <> CKR_OK /\ same_op st st')).
Proof.
  intros Hk H.
  destruct c; try discriminate Hk; cbn [init_kind] in Hk; injection Hk as <-;
    cbn [Ops.step] in H; unfold init_call in H;
    (destruct (objs k) as [ko|] eqn:Ho; [|inv_step; split; [reflexivity|right; split; [discriminate|repeat split]]]);
    unfold C_EncryptInit, C_DecryptInit, C_SignInit, C_VerifyInit in H; destruct m;
    unfold rsa_noparam, oaep_init, pss_init, cbc_init, gcm_init, hmac_init, ecdsa_init,
      SetGcmParams in H;
    inv_step; inv_pair;
    (split; [reflexivity|]);
    first [ left; split; [reflexivity|reflexivity]
          | right; split; [discriminate|repeat split] ].
Qed.

(** *** C60, operations *)
Lemma failed_init_keeps_op st c st' o kd :
  init_kind c = Some kd -> step st c = Ok (st', o) -> o_rv o <> CKR_OK -> same_op st st'.
Proof.
  intros Hk H Hrv. destruct (step_init_spec _ _ _ _ _ Hk H) as [_ [[X _]|[_ X]]]; [contradiction|exact X].
Qed.

(** ** C40 *)
Definition inv40 (st : opst) (l : option kind) : Prop :=
  os_curr st = None \/
  (exists kd, l = Some kd /\ (os_init st = 0%Z \/ code_kind (os_init st) = Some kd)).

Lemma session_final_curr st st' : op_session_final st = Ok st' -> os_curr st' = None.
Proof.
  unfold op_session_final. intros H. destruct (os_mech st); inv_step; try reflexivity;
    destruct (os_init st =? 0)%Z; reflexivity.
Qed.

Lemma call_cases c : (exists k, init_kind c = Some k) \/ (exists k, data_kind c = Some k) \/ c = KReopen.
Proof. destruct c; cbn; eauto. Qed.

Lemma inv40_step st l c st' o :
  inv40 st l -> step st c = Ok (st', o) -> inv40 st' (last_init l [(c, o)]).
Proof.
  intros I H. cbn [last_init].
  destruct (call_cases c) as [[kd Hk]|[[kd Hk]| ->]].
  - rewrite Hk. destruct (step_init_spec _ _ _ _ _ Hk H) as [_ [[X Y]|[X (S1 & S2 & S3)]]].
    + rewrite X. cbn. right. exists kd. auto.
    + replace (o_rv o =? CKR_OK)%Z with false by (symmetry; apply Z.eqb_neq; exact X).
      unfold inv40. rewrite S1, S3. exact I.
  - destruct (step_data_frame _ _ _ _ _ Hk H) as (F1 & F2 & F3).
    replace (init_kind c) with (@None kind) by (destruct c; try discriminate Hk; reflexivity).
    replace (match c with KReopen => None | _ => l end) with l
      by (destruct c; try discriminate Hk; reflexivity).
    destruct I as [I|(k2 & E & I)]; [left; congruence|].
    right. exists k2. split; [exact E|]. destruct F3 as [F3|F3]; rewrite F3; auto.
  - cbn. left. cbn [Ops.step] in H. inv_step. eapply session_final_curr; eassumption.
Qed.

Lemma inv40_run st l cs st' os :
  inv40 st l -> run st cs = Ok (st', os) -> inv40 st' (last_init l (combine cs os)).
Proof.
  revert st l os. induction cs as [|c cs IH]; intros st l os I H; cbn [Ops.run] in H.
  - inv_step. exact I.
  - destruct (step st c) as [[st1 o]|e|u] eqn:E; cbn [bind] in H; try discriminate.
    destruct (run st1 cs) as [[st2 os2]|e|u] eqn:E2; cbn [bind] in H; try discriminate.
    injection H as <- <-. cbn [combine].
    apply (inv40_step _ _ _ _ _ I) in E.
    change (last_init l ((c, o) :: combine cs os2)) with
      (last_init (last_init l [(c, o)]) (combine cs os2)).
    eapply IH; eassumption.
Qed.

Definition refused (o : outc) : Prop :=
  o_out o = [] /\ (o_rv o = CKR_OPERATION_NOT_INITIALIZED \/ o_rv o = CKR_MECHANISM_INVALID).

(** A data call whose kind does not match the operation code is refused. *)
Lemma wrong_kind_refused st c kd :
  data_kind c = Some kd -> os_curr st = None \/ code_kind (os_init st) <> Some kd ->
  exists o, step st c = Ok (st, o) /\ refused o.
Proof.
  intros Hk H.
  destruct (os_curr st) as [k|] eqn:Hc.
  2:{ destruct c; try discriminate Hk; cbn [Ops.step];
      unfold C_Encrypt, C_EncryptUpdate, C_EncryptFinal, C_Decrypt, C_DecryptUpdate,
        C_DecryptFinal, C_Sign, C_SignUpdate, C_SignFinal, C_Verify, C_VerifyUpdate,
        C_VerifyFinal, with_obj, not_init; rewrite Hc;
      eexists; (split; [reflexivity|]); split; auto. }
  destruct H as [H|H]; [discriminate|].
  assert (G : forall i b (f : res (opst * outc)), code_kind i = Some kd ->
    need_init st i b f = Ok (st, fail b CKR_OPERATION_NOT_INITIALIZED)).
  { intros i b f Hi. unfold need_init, not_init.
    destruct (Z.eqb_spec (os_init st) i) as [E|E]; [congruence|reflexivity]. }
  destruct c; try discriminate Hk; cbn in Hk; injection Hk as <-; cbn [Ops.step];
    unfold C_Encrypt, C_EncryptUpdate, C_EncryptFinal, C_Decrypt, C_DecryptUpdate,
      C_DecryptFinal, C_Sign, C_SignUpdate, C_SignFinal, C_Verify, C_VerifyUpdate,
      C_VerifyFinal, pk_crypt, pk_sign, pk_verify, with_obj; rewrite Hc;
    destruct (os_mech st);
    try (rewrite G by reflexivity);
    eexists; (split; [reflexivity|]); split; auto.
Qed.

Lemma C40_lemma cs st os c kd :
  run op_zero cs = Ok (st, os) -> data_kind c = Some kd ->
  last_init None (combine cs os) <> Some kd ->
  exists o, step st c = Ok (st, o) /\ refused o.
Proof.
  intros R Hk Hl.
  assert (I : inv40 st (last_init None (combine cs os))).
  { eapply inv40_run; [|exact R]. left. reflexivity. }
  apply (wrong_kind_refused _ _ kd Hk).
  destruct I as [I|(k2 & E & I)]; [left; exact I|right].
  destruct I as [I|I]; [rewrite I; discriminate|]. congruence.
Qed.

(** ** C38: queries and too small buffers leave the operation unchanged *)
Lemma sized_unchanged st n b k st' o :
  sized st n b k = Ok (st', o) ->
  (b = Query \/ o_rv o = CKR_BUFFER_TOO_SMALL) ->
  (forall st2 o2, k = Ok (st2, o2) -> o_rv o2 <> CKR_BUFFER_TOO_SMALL) ->
  st' = st.
Proof.
  intros H Hb Hk. unfold sized in H. destruct b; inv_step; try reflexivity.
  destruct Hb as [Hb|Hb]; [discriminate|]. exfalso. eapply Hk; [exact H|exact Hb].
Qed.

Lemma conclude_not_small b e r st' o :
  conclude b e r = Ok (st', o) -> o_rv o <> CKR_BUFFER_TOO_SMALL.
Proof. unfold conclude. intros H. inv_step; discriminate. Qed.

Lemma conclude_b b e r st' o :
  conclude b e r = Ok (st', o) -> o_rv o = CKR_OK \/ o_rv o = CKR_FUNCTION_FAILED.
Proof. unfold conclude. intros H. inv_step; auto. Qed.

Ltac unch :=
  repeat match goal with
  | H : sized _ _ _ _ = Ok _ |- _ = _ =>
      eapply sized_unchanged; [exact H|eassumption|]; clear H; intros ? ? H
  | H : conclude _ _ _ = Ok _ |- o_rv _ <> CKR_BUFFER_TOO_SMALL => eapply conclude_not_small; exact H
  | |- ?x = ?x => reflexivity
  | H : conclude _ _ _ = Ok _ |- _ = _ => exfalso; eapply conclude_not_small; eassumption
  | H : conclude _ _ _ = Ok _ |- _ => unfold conclude in H
  | H : (_ <- _ ;; _) = Ok _ |- _ => progress inv_step
  | H : (if _ then _ else _) = Ok _ |- _ => progress inv_step
  | H : (match _ with _ => _ end) = Ok _ |- _ => progress inv_step
  | H : Ok _ = Ok _ |- _ => progress inv_step
  | |- o_rv _ <> CKR_BUFFER_TOO_SMALL => cbn; discriminate
  | H : _ \/ _ |- ?a = ?b => destruct H; try discriminate
  end.

Lemma query_unchanged st c b st' o :
  out_arg c = Some b -> step st c = Ok (st', o) ->
  (b = Query /\ o_rv o = CKR_OK) \/ o_rv o = CKR_BUFFER_TOO_SMALL -> st' = st.
Proof.
  intros Ho H Hq.
  assert (Hq' : b = Query \/ o_rv o = CKR_BUFFER_TOO_SMALL) by tauto.
  destruct c; try discriminate Ho; cbn in Ho; injection Ho as ->; cbn [Ops.step] in H.
  - unfold C_Encrypt, with_obj, not_init in H. destruct (os_curr st); [|unch].
    destruct (os_mech st); unfold need_init, not_init, pk_crypt, need_init, not_init in H;
      try destruct (os_init st =? _)%Z; unch.
  - unfold C_EncryptUpdate, with_obj, not_init in H. destruct (os_curr st); [|unch].
    destruct (os_mech st); unfold need_init, not_init in H;
      try destruct (os_init st =? _)%Z; unch.
  - unfold C_EncryptFinal, with_obj, not_init in H. destruct (os_curr st); [|unch].
    destruct (os_mech st); unfold need_init, not_init in H;
      try destruct (os_init st =? _)%Z; try solve [unch].
    inv_step; cbn in Hq; destruct Hq as [[? ?]|?]; try discriminate; reflexivity.
  - unfold C_Decrypt, with_obj, not_init in H. destruct (os_curr st); [|unch].
    destruct (os_mech st); unfold need_init, not_init, pk_crypt, need_init, not_init in H;
      try destruct (os_init st =? _)%Z; unch.
  - unfold C_DecryptUpdate, with_obj, not_init in H. destruct (os_curr st); [|unch].
    destruct (os_mech st); unfold need_init, not_init in H;
      try destruct (os_init st =? _)%Z; unch.
  - unfold C_DecryptFinal, with_obj, not_init in H. destruct (os_curr st); [|unch].
    destruct (os_mech st); unfold need_init, not_init in H;
      try destruct (os_init st =? _)%Z; try solve [unch].
    + inv_step; cbn in Hq; destruct Hq as [[? ?]|?]; try discriminate; reflexivity.
    + inv_step; cbn in Hq; try (destruct Hq as [[? ?]|?]; try discriminate; reflexivity).
      exfalso. destruct (conclude_b _ _ _ _ _ H) as [X|X]; rewrite X in Hq;
        destruct Hq as [[? ?]|?]; discriminate.
  - unfold C_Sign, with_obj, not_init in H. destruct (os_curr st); [|unch].
    destruct (os_mech st); unfold need_init, not_init, pk_sign, need_init, not_init in H;
      try destruct (os_init st =? _)%Z; unch.
  - unfold C_SignFinal, with_obj, not_init in H. destruct (os_curr st); [|unch].
    destruct (os_mech st); unfold need_init, not_init in H;
      try destruct (os_init st =? _)%Z; unch.
Qed.

End P.
