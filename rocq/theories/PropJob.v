(** C122: encryption, decryption, signing and verification follow the reference machine of Job.v in every history. *)
From Verif Require Import Base Cbc Ops OpsSpec OpsProofs Object ObjectProofs Store Sys SysProofs SysProofs2 SysProofs3 SysProofs4 WfProofs LoginProofs ToySys PropSys1 PropSys2
  ObjFrame ObjProofs HandleProofs PropObject PropStore SearchProofs FindState UseProofs OpLift PropFind PropKeys Device DeviceProofs PropDevice Table Seek PropSeek Job.
From Coq Require Import Bool.
Local Open Scope list_scope.

(** ** One operation state *)
Definition code (m : mech) (d : dir) : Z :=
  match m, d with
  | M_RSA_X_509, JEnc => INIT_RSA_X_509_ENC | M_RSA_X_509, JDec => INIT_RSA_X_509_DEC | M_RSA_X_509, JSign => INIT_RSA_X_509_SIGN | M_RSA_X_509, JVerify => INIT_RSA_X_509_VERIFY
  | M_RSA_PKCS, JEnc => INIT_RSA_PKCS_ENC | M_RSA_PKCS, JDec => INIT_RSA_PKCS_DEC | M_RSA_PKCS, JSign => INIT_RSA_PKCS_SIGN | M_RSA_PKCS, JVerify => INIT_RSA_PKCS_VERIFY
  | M_RSA_OAEP, JEnc => INIT_RSA_OAEP_ENC | M_RSA_OAEP, JDec => INIT_RSA_OAEP_DEC
  | M_RSA_PSS, JSign => INIT_RSA_PSS_SIGN | M_RSA_PSS, JVerify => INIT_RSA_PSS_VERIFY
  | M_ECDSA, JSign => INIT_ECDSA_SIGN | M_ECDSA, JVerify => INIT_ECDSA_VERIFY
  | M_HMAC _, JSign => INIT_HMAC_SIGN | M_HMAC _, JVerify => INIT_HMAC_VERIFY
  | M_AES_CBC, JEnc => INIT_AES_CBC_ENC | M_AES_CBC, JDec => INIT_AES_CBC_DEC
  | M_AES_CBC_PAD, JEnc => INIT_AES_CBC_PAD_ENC | M_AES_CBC_PAD, JDec => INIT_AES_CBC_PAD_DEC
  | M_AES_GCM, JEnc => INIT_AES_GCM_ENC | M_AES_GCM, JDec => INIT_AES_GCM_DEC
  | _, _ => 0
  end.
Definition dir_at (i : Z) : option dir :=
  if existsb (Z.eqb i) [1; 3; 5; 32; 34; 36]%Z then Some JEnc else if existsb (Z.eqb i) [2; 4; 6; 33; 35; 37]%Z then Some JDec
  else if existsb (Z.eqb i) [16; 48; 50; 52; 64]%Z then Some JSign else if existsb (Z.eqb i) [17; 49; 51; 53; 65]%Z then Some JVerify else None.
Definition job_of (st : opst) : job := match os_curr st with None => None | Some _ => Some (os_mech st, dir_at (os_init st)) end.
Definition okop (st : opst) : Prop := os_init st = 0%Z \/ exists d, does (os_mech st) d One = true /\ os_init st = code (os_mech st) d.

Ltac jj H := repeat (cbv beta zeta in H; match type of H with
    | Ok _ = Ok _ => injection H as <- <-
    | Err _ = _ => discriminate H | Undef _ = _ => discriminate H
    | bind ?m _ = _ => let E := fresh "E" in destruct m as [?v| |] eqn:E; cbn [bind] in H; try discriminate H
    | (let '(_, _) := ?v in _) = _ => destruct v; cbn [bind] in H
    | (if ?b then _ else _) = _ => destruct b
    | match ?v with _ => _ end = _ => let E := fresh "D" in destruct v eqn:E end).
Ltac eqs H := match type of H with context [if (?a =? ?b)%Z then _ else _] => let v := eval vm_compute in (a =? b)%Z in change (a =? b)%Z with v in H; cbv iota in H end.
Definition same_op (st st' : opst) : Prop := os_curr st' = os_curr st /\ os_mech st' = os_mech st.
Lemma verdict_rv b : o_rv (verdict b) = CKR_OK \/ o_rv (verdict b) = CKR_SIGNATURE_INVALID.
Proof. destruct b; auto. Qed.
Section One.
Variables (ev : env) (objs : nat -> option keyobj).
Definition fine (st : opst) (c : call) (r : res (opst * outc)) : Prop :=
  forall st' o, r = Ok (st', o) -> job_says (job_of st) c (o_rv o) /\ job_of st' = job_next (job_of st) c (o_rv o).
Ltac inner := repeat match goal with
  | H : bind ?m _ = Ok _ |- _ => let E := fresh "E" in destruct m as [?v| |] eqn:E; cbn [bind] in H; try discriminate H
  | H : (let '(_, _) := ?v in _) = Ok _ |- _ => destruct v; cbn [bind] in H
  | H : Ok _ = Ok _ |- _ => injection H as ?; subst
  end.
Ltac go f := let K := fresh in let H := fresh "H" in
  match goal with st : opst |- _ => destruct st as [? ? ? ? ?] end; intros K ? ? H; unfold okop in K; cbn [os_mech os_init] in K; unfold f, with_obj in H; cbn [os_curr os_mech] in H;
  match type of H with match ?cu with _ => _ end = _ => destruct cu as [u|]; [|injection H as <- <-; split; reflexivity] end;
  match type of H with match ?m with _ => _ end = _ => destruct m end; (destruct K as [->|(d0 & D0 & ->)]; [|destruct d0; try discriminate D0]);
  unfold pk_crypt, pk_sign, pk_verify, need_init, not_init in H; cbn [os_init code] in H; try eqs H;
  unfold sized, conclude, hmac_update in H; jj H; inner; unfold job_of, fail in *;
  unfold pk_after, hmac_done, put_cbc, set_part, set_init, set_params, verdict in *; cbn [os_curr os_mech os_init o_rv os_params];
  try match goal with p : params |- _ => destruct p end; cbn [os_curr os_mech os_init o_rv os_params];
  repeat match goal with |- context [if ?b then CKR_OK else CKR_SIGNATURE_INVALID] => destruct b end;
  (split; [cbn; tauto|reflexivity]).
Lemma enc_fine st r d b : okop st -> fine st (KEncrypt r d b) (C_Encrypt ev objs st r d b).
Proof. go C_Encrypt. Qed.
Lemma encu_fine st d b : okop st -> fine st (KEncryptUpdate d b) (C_EncryptUpdate ev objs st d b).
Proof. go C_EncryptUpdate. Qed.
Lemma encf_fine st b : okop st -> fine st (KEncryptFinal b) (C_EncryptFinal ev st b).
Proof. go C_EncryptFinal. Qed.
Lemma dec_fine st r d b : okop st -> fine st (KDecrypt r d b) (C_Decrypt ev objs st r d b).
Proof. go C_Decrypt. Qed.
Lemma decu_fine st d b : okop st -> fine st (KDecryptUpdate d b) (C_DecryptUpdate ev st d b).
Proof. go C_DecryptUpdate. Qed.
Lemma decf_fine st b : okop st -> fine st (KDecryptFinal b) (C_DecryptFinal ev objs st b).
Proof. go C_DecryptFinal. Qed.
Lemma sign_fine st r d b : okop st -> fine st (KSign r d b) (C_Sign ev objs st r d b).
Proof. go C_Sign. Qed.
Lemma signu_fine st d : okop st -> fine st (KSignUpdate d) (C_SignUpdate ev st d).
Proof. go C_SignUpdate. Qed.
Lemma signf_fine st b : okop st -> fine st (KSignFinal b) (C_SignFinal ev st b).
Proof. go C_SignFinal. Qed.
Lemma ver_fine st d sg : okop st -> fine st (KVerify d sg) (C_Verify ev objs st d sg).
Proof. go C_Verify. Qed.
Lemma veru_fine st d : okop st -> fine st (KVerifyUpdate d) (C_VerifyUpdate ev st d).
Proof. go C_VerifyUpdate. Qed.
Lemma verf_fine st sg : okop st -> fine st (KVerifyFinal sg) (C_VerifyFinal ev st sg).
Proof. go C_VerifyFinal. Qed.

Lemma data_job st c d f st' o : okop st -> data_call c = Some (d, f) -> Ops.step ev objs st c = Ok (st', o) ->
  job_says (job_of st) c (o_rv o) /\ job_of st' = job_next (job_of st) c (o_rv o).
Proof.
  intros K D H. destruct c; try discriminate D; cbn [Ops.step] in H;
  first [eapply enc_fine|eapply encu_fine|eapply encf_fine|eapply dec_fine|eapply decu_fine|eapply decf_fine|eapply sign_fine|eapply signu_fine|eapply signf_fine|eapply ver_fine|eapply veru_fine|eapply verf_fine]; eassumption.
Qed.
Lemma data_okop st c d f st' o : okop st -> data_call c = Some (d, f) -> Ops.step ev objs st c = Ok (st', o) -> okop st'.
Proof.
  intros K D H. assert (A : exists k, data_kind c = Some k) by (destruct c; try discriminate D; eexists; reflexivity). destruct A as [k A].
  destruct (step_data_frame _ _ _ _ _ _ _ A H) as (_ & M & [I|I]); unfold okop; rewrite M, I; [exact K|left; reflexivity].
Qed.
Lemma begin_job st c d m st' o : begin_call c = Some (d, m) -> Ops.step ev objs st c = Ok (st', o) ->
  In (o_rv o) (begin_answers m d) /\ (o_rv o = CKR_OK -> job_of st' = Some (m, Some d)) /\ (o_rv o <> CKR_OK -> job_of st' = job_of st) /\ (okop st -> okop st').
Proof.
  intros D H. destruct c; try discriminate D; injection D as <- ->; cbn [Ops.step] in H; unfold init_call in H;
  (destruct (objs k) as [ko|]; [|injection H as <- <-; unfold begin_answers; repeat split; [destruct (does _ _ _); cbn; auto|discriminate|auto]]);
  match type of H with bind (?f _ _ _ _ _) _ = _ => unfold f in H | bind (?f _ _ _ _ _ _) _ = _ => unfold f in H end;
  destruct m; unfold rsa_noparam, oaep_init, pss_init, Ops.cbc_init, gcm_init, hmac_init, ecdsa_init, SetGcmParams in H; cbv zeta in H;
  repeat match type of H with context [match ?v with _ => _ end] => lazymatch v with context [match _ with _ => _ end] => fail | _ => destruct v; cbn [bind] in H end end; try discriminate H;
  injection H as <- <-; (split; [cbn; tauto|split; [first [discriminate|reflexivity]|split; [first [reflexivity|intros N; destruct (N eq_refl)]|first [exact (fun x => x)|intros _; right; first [exists JEnc; split; reflexivity|exists JDec; split; reflexivity|exists JSign; split; reflexivity|exists JVerify; split; reflexivity]]]]]).
Qed.
End One.
Lemma okop_step ev objs st c st' o : okop st -> Ops.step ev objs st c = Ok (st', o) -> okop st'.
Proof.
  intros K H. destruct (begin_call c) as [[d m]|] eqn:B; [apply (begin_job _ _ _ _ _ _ _ _ B H); exact K|].
  destruct (data_call c) as [[d f]|] eqn:D; [eapply data_okop; eauto|].
  destruct c; try discriminate B; try discriminate D. cbn [Ops.step] in H. destruct (op_session_final st) as [st1| |] eqn:F; cbn [bind] in H; try discriminate. injection H as <- _.
  unfold op_session_final in F. unfold okop in *. destruct (os_mech st) eqn:M; try (injection F as <-; cbn [os_init os_mech]; exact K).
  - destruct (os_params st); try discriminate. injection F as <-. cbn [set_params os_init os_mech]. exact K.
  - injection F as <-. destruct (os_init st =? 0)%Z; [cbn [os_init os_mech]; exact K|left; reflexivity].
  - injection F as <-. destruct (os_init st =? 0)%Z; [cbn [os_init os_mech]; exact K|left; reflexivity].
  - destruct (os_params st); try discriminate. injection F as <-. cbn [set_params os_init os_mech]. exact K.
Qed.
Lemma final_job st st' : op_session_final st = Ok st' -> os_curr st' = None.
Proof. unfold op_session_final. intros F. destruct (os_mech st); try (injection F as <-; reflexivity); try (injection F as <-; destruct (_ =? 0)%Z; reflexivity); destruct (os_params st); try discriminate; injection F as <-; reflexivity. Qed.
Lemma no_job st : os_curr st = None -> job_of st = None.
Proof. intros E. unfold job_of. rewrite E. reflexivity. Qed.

(** ** All sessions *)
Definition jl (l : list session) (h : Z) : job := match find_sess l h with Some x => job_of (ss_op x) | None => None end.
Definition idle (l : list session) : Prop := forall x, In x l -> in_use x = false -> os_curr (ss_op x) = None.
Definition jsim (s : sys) (j : jobs) : Prop := sim s (j_dev j) /\ (forall h, jl (s_sess s) h = j_at j h) /\ opall okop s /\ idle (s_sess s).
Lemma jl_ukeys l : forall l', map ukey l' = map ukey l -> forall h, jl l' h = jl l h.
Proof.
  induction l as [|x l IH]; intros [|y l'] E h; try discriminate E; [reflexivity|]. cbn [map] in E. unfold ukey in E at 1 3. injection E as E1 E2 E3 E.
  unfold jl, find_sess in *. cbn [find]. rewrite E1. destruct (ss_h x =? h)%Z; [rewrite E3; reflexivity|]. apply IH. exact E.
Qed.
Lemma idle_ukeys s s' : idle (s_sess s) -> ukeys s' = ukeys s -> idle (s_sess s').
Proof. intros A K x X U. destruct (in_ukeys _ _ _ K X) as (y & Y & E). unfold ukey in E. injection E as _ E1 E2. rewrite <- E2. apply A; [exact Y|]. unfold in_use in *. rewrite E1. exact U. Qed.
Lemma jl_in l x : uniq l -> In x l -> jl l (ss_h x) = job_of (ss_op x).
Proof. intros U X. unfold jl. rewrite (find_sess_uniq _ x U X). reflexivity. Qed.
Lemma jl_upd l x y h : uniq l -> In x l -> ss_h y = ss_h x -> jl (upd_sess l y) h = if (h =? ss_h x)%Z then job_of (ss_op y) else jl l h.
Proof.
  intros U X E. unfold jl. rewrite find_upd, E, (Z.eqb_sym (ss_h x) h). destruct (Z.eqb_spec h (ss_h x)) as [->|N]; [|reflexivity]. rewrite (find_sess_uniq _ x U X). reflexivity.
Qed.
Lemma sess_final_job x x' : sess_final x = Ok x' -> ss_h x' = ss_h x /\ os_curr (ss_op x') = None.
Proof.
  unfold sess_final. intros H. destruct (free_all _); cbn [bind] in H; try discriminate. destruct (op_session_final _) as [p| |] eqn:E; cbn [bind] in H; try discriminate. injection H as <-. split; [reflexivity|]. eapply final_job; exact E.
Qed.
Lemma idle_suffix p l : idle (p ++ l) -> idle l. Proof. intros A x X. apply A, in_or_app. auto. Qed.
Lemma jl_app p l h : uniq (p ++ l) -> (forall x, In x p -> ss_h x = h -> job_of (ss_op x) = None) -> jl (p ++ l) h = jl l h.
Proof.
  induction p as [|y p IH]; [reflexivity|]. cbn [app]. intros U A. unfold jl at 1. unfold find_sess. cbn [find]. destruct (Z.eqb_spec (ss_h y) h) as [E|N].
  - rewrite (A y (or_introl eq_refl) E). unfold jl. destruct (find_sess l h) as [z|] eqn:G; [|reflexivity]. exfalso. apply find_sess_in in G as [Z Ez].
    unfold uniq in U. cbn in U. inversion U as [|? ? U1 _]. subst. apply U1. rewrite <- Ez. apply in_map. apply in_or_app. auto.
  - apply IH; [unfold uniq in *; cbn in U; inversion U; assumption|]. intros x X. apply A. right. exact X.
Qed.
Lemma close_jl l x l' h : sess_ok l -> idle l -> In x l -> close_sess l x = Ok l' -> jl l' h = (if (h =? ss_h x)%Z then None else jl l h) /\ idle l'.
Proof.
  intros (C & L & F) Id X E. pose proof (chain_uniq _ C) as U. unfold close_sess in E. destruct (sess_final x) as [x'| |] eqn:Fx; cbn [bind] in E; try discriminate.
  destruct l as [|y r]; [destruct X|]. apply sess_final_job in Fx as (E1 & E2). destruct (andb _ _) eqn:A.
  - apply andb_prop in A as [A _]. apply Z.eqb_eq in A. assert (y = x) by (apply (NoDup_map_inj _ _ ss_h (y :: r)); auto; left; auto). subst y.
    apply drop_unused_split in E as (p & -> & Fp). rewrite Forall_forall in Fp. change (x :: p ++ l') with ((x :: p) ++ l') in *. split; [|eapply idle_suffix; exact Id].
    destruct (Z.eqb_spec h (ss_h x)) as [->|N].
    + unfold jl. destruct (find_sess l' (ss_h x)) as [z|] eqn:G; [|reflexivity]. exfalso. apply find_sess_in in G as [Z Ez]. unfold uniq in U. cbn in U. inversion U as [|? ? U1 _]. subst. apply U1. rewrite <- Ez. apply in_map, in_or_app. auto.
    + rewrite (jl_app (x :: p) l' h U); [reflexivity|]. intros z [<-|Z] Ez; [congruence|]. apply no_job, Id; [right; apply in_or_app; auto|]. apply Fp. exact Z.
  - injection E as <-. split.
    + rewrite (jl_upd _ x x' h U X E1). destruct (h =? ss_h x)%Z; [apply no_job; exact E2|reflexivity].
    + intros z Z Uz. apply upd_in in Z as [->|[Z _]]; auto.
Qed.
Lemma final_head_job n : forall x r l', final_head (S n) (x :: r) = Ok l' -> exists x', l' = x' :: r /\ ss_h x' = ss_h x /\ os_curr (ss_op x') = None.
Proof.
  induction n as [|n IH]; intros x r l' E; cbn [final_head] in E; destruct (sess_final x) as [x1| |] eqn:F; cbn [bind] in E; try discriminate; apply sess_final_job in F as (A1 & A2).
  - injection E as <-. exists x1. auto.
  - specialize (IH x1 r l'). cbn [final_head] in IH. apply IH in E as (x' & -> & B1 & B2). exists x'. rewrite B1, A1. auto.
Qed.
Lemma close_all_jl l l' h : sess_ok l -> idle l -> close_all l = Ok l' -> jl l' h = (if negb (h =? H 1)%Z then None else jl l h) /\ idle l'.
Proof.
  intros Ok0 Id E. pose proof (close_all_ok _ _ Ok0 E) as (p & b & a & b' & -> & -> & Ea & Eb & Eb2 & _).
  destruct Ok0 as (C & _ & _). pose proof (chain_uniq _ C) as U. unfold close_all in E. destruct (drop_dyn _) as [l1| |] eqn:D; cbn [bind] in E; try discriminate.
  assert (F : os_curr (ss_op b') = None).
  { destruct l1 as [|z l1]; [discriminate E|]. apply (final_head_job (length l1)) in E as (z' & Ez & A1 & A2). injection Ez as <- _. exact A2. }
  change (sess_handle 1) with (H 1) in Ea. change (sess_handle 2) with (H 2) in Eb2. rewrite Eb2 in Eb. split.
  - assert (Ha : jl (p ++ [b; a]) (H 1) = job_of (ss_op a)) by (rewrite <- Ea; apply jl_in; [exact U|apply in_or_app; cbn; auto]).
    unfold jl at 1. unfold find_sess. cbn [find]. rewrite Ea, Eb, !(Z.eqb_sym _ h).
    destruct (Z.eqb_spec h (H 1)) as [->|N1]; [change (H 1 =? H 2)%Z with false; cbn [negb]; symmetry; exact Ha|]. cbn [negb].
    destruct (Z.eqb_spec h (H 2)) as [->|N2]; [apply no_job; exact F|reflexivity].
  - intros z [<-|[<-|[]]] Uz; [exact F|]. apply Id; [apply in_or_app; cbn; auto|exact Uz].
Qed.
Lemma use_jl l x u h : uniq l -> In x l -> jl (upd_sess l (set_use x u)) h = jl l h.
Proof. intros U X. rewrite (jl_upd _ x (set_use x u) h U X eq_refl). destruct (Z.eqb_spec h (ss_h x)) as [->|N]; [|reflexivity]. symmetry. exact (jl_in l x U X). Qed.
Lemma use_idle l x u : idle l -> in_use x = false -> In x l -> idle (upd_sess l (set_use x u)).
Proof. intros A B X z Z Uz. apply upd_in in Z as [->|[Z _]]; [exact (A x X B)|auto]. Qed.
Lemma open_jl s fl s' o h : inv s -> (0 < s_count s)%Z -> idle (s_sess s) -> OpenSession s fl = Ok (s', o) -> jl (s_sess s') h = jl (s_sess s) h /\ idle (s_sess s').
Proof.
  intros I Cn Id E. unfold OpenSession in E. destruct (okl s I Cn) as (C & L & _). pose proof (chain_uniq _ C) as U.
  destruct (_ =? 0)%Z; [unfold rv_ in E; injection E as <- _; auto|]. match type of E with (if ?b then _ else _) = _ => destruct b end; [unfold rv_ in E; injection E as <- _; auto|].
  destruct (first_unused (s_sess s)) as [x|] eqn:Fu.
  - injection E as <- _. cbn [put_sess set_sess s_sess]. apply find_some in Fu as [X Ux]. split; [apply use_jl; assumption|apply use_idle; auto]. destruct (in_use x); [discriminate Ux|reflexivity].
  - match type of E with (if ?b then _ else _) = _ => destruct b end; [unfold rv_ in E; injection E as <- _; auto|]. injection E as <- _. cbn [put_sess set_sess s_sess].
    assert (N : forall x, In x (s_sess s) -> ss_h x <> ss_h (new_sess (s_sess s))).
    { intros x X K. pose proof (chain_range _ _ C X) as R. destruct (s_sess s) as [|y r] eqn:El; [destruct X|]. pose proof (chain_head _ _ C) as Hd. unfold new_sess in K. cbn [ss_h] in K. rewrite HH in Hd. unfold sess_handle in *. lia. }
    assert (U1 : uniq (new_sess (s_sess s) :: s_sess s)). { unfold uniq. cbn [map]. constructor; [|exact U]. intros J. apply in_map_iff in J as (x & K & X). apply (N x X K). }
    assert (Id1 : idle (new_sess (s_sess s) :: s_sess s)) by (intros z [<-|Z] Uz; [reflexivity|auto]).
    split; [|apply use_idle; [exact Id1|reflexivity|left; reflexivity]].
    rewrite use_jl; [|exact U1|left; reflexivity]. apply (jl_app [new_sess (s_sess s)] (s_sess s) h U1). intros x [<-|[]] _. reflexivity.
Qed.
Lemma put_idle s x : idle (s_sess s) -> In x (s_sess s) -> in_use x = true -> forall p, idle (s_sess (put_sess s (set_op x p))).
Proof. intros A X U p z Z Uz. cbn [put_sess set_sess s_sess] in Z. apply upd_in in Z as [->|[Z _]]; [|auto]. unfold in_use in *. cbn [set_op ss_use] in Uz. congruence. Qed.
Lemma init_job w s x c u o c1 d m x1 r : begin_call c = Some (d, m) -> with_key c u = Some c1 -> run_init w s x c1 o = Ok (x1, r) ->
  exists p, x1 = set_op x p /\ In (o_rv r) (begin_answers m d) /\ (o_rv r = CKR_OK -> job_of p = Some (m, Some d)) /\ (o_rv r <> CKR_OK -> job_of p = job_of (ss_op x)) /\ (okop (ss_op x) -> okop p).
Proof.
  intros B W R. unfold run_init in R. destruct (view _ _) as [ko| |]; cbn [bind] in R; try discriminate. destruct (Ops.step _ _ _ _) as [[p q]| |] eqn:E; cbn [bind] in R; try discriminate. injection R as <- <-.
  exists p. split; [reflexivity|]. eapply begin_job; [|exact E]. destruct c; try discriminate B; injection W as <-; exact B.
Qed.
Lemma cont_job w s x c d f x1 r : okop (ss_op x) -> data_call c = Some (d, f) -> run_cont w s x c = Ok (x1, r) ->
  exists p, x1 = set_op x p /\ job_says (job_of (ss_op x)) c (o_rv r) /\ job_of p = job_next (job_of (ss_op x)) c (o_rv r).
Proof.
  intros K D R. unfold run_cont in R. match type of R with bind ?m _ = _ => destruct m as [ko| |] end; cbn [bind] in R; try discriminate.
  destruct (Ops.step _ _ _ _) as [[p q]| |] eqn:E; cbn [bind] in R; try discriminate. injection R as <- <-. exists p. split; [reflexivity|]. eapply data_job; eauto.
Qed.
Lemma put_jl s x p h : inv s -> In x (s_sess s) -> jl (s_sess (put_sess s (set_op x p))) h = if (h =? ss_h x)%Z then job_of p else jl (s_sess s) h.
Proof. intros I X. cbn [put_sess set_sess s_sess]. apply (jl_upd _ x (set_op x p) h (inv_uniq s I) X eq_refl). Qed.

(** What an encryption, decryption with padding leaves in C_WrapKey and C_UnwrapKey. *)
Lemma wrap_job w s x m mp wk k b s' o : inv s -> In x (s_sess s) -> in_use x = true -> idle (s_sess s) -> okop (ss_op x) -> Wrap w s x m mp wk k b = Ok (s', o) ->
  idle (s_sess s') /\ wrapped (jl (s_sess s) (ss_h x)) b (out_rv o) (jl (s_sess s') (ss_h x)) /\ forall h', h' <> ss_h x -> jl (s_sess s') h' = jl (s_sess s) h'.
Proof.
  intros I X Ux Id K E. assert (Rv : forall rv, rv <> CKR_OK -> s' = s -> o = OutRv rv -> idle (s_sess s') /\ wrapped (jl (s_sess s) (ss_h x)) b (out_rv o) (jl (s_sess s') (ss_h x)) /\ forall h', h' <> ss_h x -> jl (s_sess s') h' = jl (s_sess s) h').
  { intros rv N -> ->. split; [exact Id|]. split; [|reflexivity]. unfold wrapped. cbn [out_rv]. apply Z.eqb_neq in N. rewrite N. auto. }
  unfold Wrap, rv_ in E. destruct (negb _); [injection E as <- <-; eapply Rv; [|reflexivity|reflexivity]; discriminate|]. destruct (as_rsa _); cbn [bind] in E; try discriminate. destruct (w_p8 _ _) as [c0 der].
  destruct (negb _); [injection E as <- <-; eapply Rv; [|reflexivity|reflexivity]; discriminate|].
  destruct (is_cbc_pad m) eqn:Pd; cbn [negb] in E; [|injection E as <- <-; eapply Rv; [|reflexivity|reflexivity]; discriminate]. destruct m; try discriminate Pd.
  destruct (negb _); [injection E as <- <-; eapply Rv; [|reflexivity|reflexivity]; discriminate|].
  destruct (run_init _ _ _ _ _) as [[x1 o1]| |] eqn:R1; cbn [bind] in E; try discriminate.
  apply (init_job w s x (KEncryptInit M_AES_CBC_PAD mp 0) (o_uid wk) wk _ JEnc M_AES_CBC_PAD) in R1 as (p & -> & _ & J1 & J2 & Kp); [|reflexivity|reflexivity].
  destruct (Z.eqb_spec (o_rv o1) CKR_OK) as [Eo|Eo]; cbn [negb] in E.
  - destruct (run_cont _ _ _ _) as [[x2 o2]| |] eqn:R2; cbn [bind] in E; try discriminate.
    apply (cont_job _ _ _ _ JEnc One) in R2 as (p2 & -> & Sy & J); [|exact (Kp K)|reflexivity]. injection E as <- <-. change (set_op (set_op x p) p2) with (set_op x p2) in *.
    split; [apply put_idle; assumption|]. split; [|intros h' N; rewrite (put_jl s x p2 h' I X); apply Z.eqb_neq in N; rewrite N; reflexivity].
    rewrite (put_jl s x p2 _ I X), Z.eqb_refl, J. cbn [set_op ss_op] in *. rewrite (J1 Eo) in *. unfold wrapped. cbn [out_rv].
    cbn in Sy. cbn [job_next begin_call data_call]. cbn [dir_eqb does andb ends]. destruct Sy as [<-|[<-|[<-|[]]]]; destruct b; cbn; auto.
  - injection E as <- <-. split; [apply put_idle; assumption|]. split; [|intros h' N; rewrite (put_jl s x p h' I X); apply Z.eqb_neq in N; rewrite N; reflexivity].
    unfold wrapped. cbn [out_rv]. rewrite (put_jl s x p _ I X), Z.eqb_refl, (J2 Eo). apply Z.eqb_neq in Eo. rewrite Eo. left. symmetry. apply jl_in; [apply inv_uniq; exact I|exact X].
Qed.
Lemma jl_at s x : inv s -> In x (s_sess s) -> jl (s_sess s) (ss_h x) = job_of (ss_op x).
Proof. intros I X. apply jl_in; [apply inv_uniq; exact I|exact X]. Qed.
Lemma unwrap_job w rnd s x m mp uk wr t s' o : inv s -> In x (s_sess s) -> in_use x = true -> idle (s_sess s) -> okop (ss_op x) -> Unwrap w rnd s x m mp uk wr t = Ok (s', o) ->
  idle (s_sess s') /\ unwrapped (jl (s_sess s) (ss_h x)) (out_rv o) (jl (s_sess s') (ss_h x)) /\ forall h', h' <> ss_h x -> jl (s_sess s') h' = jl (s_sess s) h'.
Proof.
  intros I X Ux Id K E. assert (Rv : forall rv, rv <> CKR_OK -> s' = s -> o = OutRv rv -> idle (s_sess s') /\ unwrapped (jl (s_sess s) (ss_h x)) (out_rv o) (jl (s_sess s') (ss_h x)) /\ forall h', h' <> ss_h x -> jl (s_sess s') h' = jl (s_sess s) h').
  { intros rv N -> ->. split; [exact Id|]. split; [|reflexivity]. unfold unwrapped. cbn [out_rv]. apply Z.eqb_neq in N. rewrite N. auto. }
  unfold Unwrap, rv_ in E. cbv zeta in E. destruct (is_cbc_pad m) eqn:Pd; cbn [negb] in E; [|injection E as <- <-; eapply Rv; [|reflexivity|reflexivity]; discriminate]. destruct m; try discriminate Pd.
  repeat (match type of E with
    | match find_last ?a ?b with _ => _ end = _ => destruct (find_last a b)
    | match tmpl_ulong ?a with _ => _ end = _ => destruct (tmpl_ulong a)
    | (if negb ?b then _ else _) = _ => destruct b; cbn [negb] in E end; [|injection E as <- <-; eapply Rv; [|reflexivity|reflexivity]; discriminate]).
  destruct (run_init _ _ _ _ _) as [[x1 o1]| |] eqn:R1; cbn [bind] in E; try discriminate.
  apply (init_job w s x (KDecryptInit M_AES_CBC_PAD mp 0) (o_uid uk) uk _ JDec M_AES_CBC_PAD) in R1 as (p & -> & _ & J1 & J2 & Kp); [|reflexivity|reflexivity].
  destruct (Z.eqb_spec (o_rv o1) CKR_OK) as [Eo|Eo]; cbn [negb] in E.
  2:{ injection E as <- <-. split; [apply put_idle; assumption|]. split; [|intros h' N; rewrite (put_jl s x p h' I X); apply Z.eqb_neq in N; rewrite N; reflexivity].
    unfold unwrapped. cbn [out_rv]. rewrite (put_jl s x p _ I X), Z.eqb_refl, (J2 Eo). apply Z.eqb_neq in Eo. rewrite Eo. left. symmetry. apply jl_at; assumption. }
  destruct (run_cont _ _ _ _) as [[x2 o2]| |] eqn:R2; cbn [bind] in E; try discriminate.
  apply (cont_job _ _ _ _ JDec One) in R2 as (p2 & -> & Sy & J); [|exact (Kp K)|reflexivity]. change (set_op (set_op x p) p2) with (set_op x p2) in *. cbv zeta in E. cbn [set_op ss_op] in Sy, J. rewrite (J1 Eo) in Sy, J.
  assert (J3 : job_of p2 = Some (M_AES_CBC_PAD, None)). { rewrite J. cbn in Sy. destruct Sy as [<-|[<-|[]]]; reflexivity. } clear J Sy.
  assert (Fin : ukeys s' = ukeys (put_sess s (set_op x p2)) -> idle (s_sess s') /\ unwrapped (jl (s_sess s) (ss_h x)) (out_rv o) (jl (s_sess s') (ss_h x)) /\ forall h', h' <> ss_h x -> jl (s_sess s') h' = jl (s_sess s) h').
  { intros Q. split; [eapply idle_ukeys; [|exact Q]; apply put_idle; assumption|]. split.
    - rewrite (jl_ukeys _ _ Q), (put_jl s x p2 _ I X), Z.eqb_refl, J3. unfold unwrapped. destruct (out_rv o =? CKR_OK)%Z; auto.
    - intros h' N. rewrite (jl_ukeys _ _ Q), (put_jl s x p2 _ I X). apply Z.eqb_neq in N. rewrite N. reflexivity. }
  destruct (negb _); [injection E as <- <-; apply Fin; reflexivity|]. destruct (NewObject _ _ _ _ _ _) as [[rv [ob|]]| |]; cbn [bind] in E; [|injection E as <- <-; apply Fin; reflexivity|discriminate..].
  destruct (w_p8_dec _ _) as [cc r]. destruct (negb _); [injection E as <- <-; apply Fin; reflexivity|]. destruct (AddObject _ _ _ _ _ _) as [[[rv2 ho] s4]| |] eqn:Ad; cbn [bind] in E; try discriminate.
  injection E as <- <-. apply AddObject_ukeys in Ad; [apply Fin; exact Ad|cbn; unfold uniq; rewrite upd_sess_h; exact (inv_uniq s I)|].
  apply in_map. cbn. unfold upd_sess. apply in_map_iff. exists x. cbn [set_op ss_h]. rewrite Z.eqb_refl. auto.
Qed.
Lemma shut_mode s d h o : inv s -> sim s d -> on_session d h o (fun _ => False) -> is_open d h = false.
Proof.
  intros (_ & I2 & _) (Sc & Sm & _) F. unfold is_open, on_session in *. destruct (Z.leb_spec (d_count d) 0) as [L|L].
  - rewrite <- Sm. unfold mode, sess_get. rewrite I2 by lia. destruct (slot_ok _); reflexivity.
  - destruct (d_mode d h); [contradiction|reflexivity].
Qed.

Theorem C122_step w rnd s j c s' o : inv s -> jsim s j -> step w rnd s c = Ok (s', o) ->
  jobs_say j c o /\ exists j', jobs_move j c o j' /\ jsim s' j'.
Proof.
  intros I (S & J & A & Id) E. destruct (C118_step w rnd s (j_dev j) c s' o I S E) as [Sy S']. pose proof (lift_step w okop (or_introl eq_refl) (okop_step (w_ev w)) _ _ _ _ _ I A E) as A'.
  assert (FIN : jobs_say j c o -> idle (s_sess s') -> jobs_move j c o (Jobs (next (j_dev j) c o) (jl (s_sess s'))) -> jobs_say j c o /\ exists j', jobs_move j c o j' /\ jsim s' j').
  { intros B1 B2 B3. split; [exact B1|]. eexists. split; [exact B3|]. split; [exact S'|]. split; [reflexivity|]. split; assumption. }
  destruct (objop c) as [h0|] eqn:O.
  { destruct (cryptop c) eqn:Fo.
    2:{ pose proof (step_ukeys w _ _ _ _ _ _ I O Fo E) as Q. apply FIN; [split; [exact Sy|destruct c; try discriminate Fo; exact Logic.I]|eapply idle_ukeys; eauto|].
        split; [reflexivity|]. assert (T : forall h', jl (s_sess s') h' = j_at j h') by (intros h'; rewrite <- J; apply jl_ukeys; exact Q). destruct c; try discriminate O; try discriminate Fo; exact T. }
    destruct c; try discriminate Fo; clear O Fo; cbn [step] in E.
    - (* C_WrapKey *)
      apply (on_sess _ (j_dev j)) in E as [(-> & _ & N & _ & F)|(x & Cn & X & Eh & U & M & E & F)]; [| |exact S].
      { apply FIN; [split; [exact Sy|exact Logic.I]|exact Id|]. split; [reflexivity|]. cbn [j_at]. split; [|intros; apply J]. unfold wrapped. apply Z.eqb_neq in N. rewrite N, J. auto. }
      assert (Rv : forall rv, rv <> CKR_OK -> s' = s -> o = OutRv rv -> idle (s_sess s') /\ wrapped (jl (s_sess s) (ss_h x)) b (out_rv o) (jl (s_sess s') (ss_h x)) /\ forall h', h' <> ss_h x -> jl (s_sess s') h' = jl (s_sess s) h').
      { intros rv N -> ->. split; [exact Id|]. split; [|reflexivity]. unfold wrapped. cbn [out_rv]. apply Z.eqb_neq in N. rewrite N. auto. }
      assert (Q : idle (s_sess s') /\ wrapped (jl (s_sess s) (ss_h x)) b (out_rv o) (jl (s_sess s') (ss_h x)) /\ forall h', h' <> ss_h x -> jl (s_sess s') h' = jl (s_sess s) h').
      { unfold need_rw, with_object, rv_ in E. destruct (is_rw x); [|injection E as <- <-; eapply Rv; [|reflexivity|reflexivity]; discriminate].
        destruct (find_obj s x hk) as [k|]; [|injection E as <- <-; eapply Rv; [|reflexivity|reflexivity]; discriminate]. destruct (find_obj s x hw) as [wk|]; [|injection E as <- <-; eapply Rv; [|reflexivity|reflexivity]; discriminate].
        eapply wrap_job; eauto. }
      destruct Q as (Q1 & Q2 & Q3). apply FIN; [split; [exact Sy|exact Logic.I]|exact Q1|]. split; [reflexivity|]. cbn [j_at]. subst h. rewrite <- J. split; [exact Q2|]. intros h' N. rewrite <- J. apply Q3. exact N.
    - (* C_UnwrapKey *)
      apply (on_sess _ (j_dev j)) in E as [(-> & _ & N & _ & F)|(x & Cn & X & Eh & U & M & E & F)]; [| |exact S].
      { apply FIN; [split; [exact Sy|exact Logic.I]|exact Id|]. split; [reflexivity|]. cbn [j_at]. split; [|intros; apply J]. unfold unwrapped. apply Z.eqb_neq in N. rewrite N, J. auto. }
      assert (Rv : forall rv, rv <> CKR_OK -> s' = s -> o = OutRv rv -> idle (s_sess s') /\ unwrapped (jl (s_sess s) (ss_h x)) (out_rv o) (jl (s_sess s') (ss_h x)) /\ forall h', h' <> ss_h x -> jl (s_sess s') h' = jl (s_sess s) h').
      { intros rv N -> ->. split; [exact Id|]. split; [|reflexivity]. unfold unwrapped. cbn [out_rv]. apply Z.eqb_neq in N. rewrite N. auto. }
      assert (Q : idle (s_sess s') /\ unwrapped (jl (s_sess s) (ss_h x)) (out_rv o) (jl (s_sess s') (ss_h x)) /\ forall h', h' <> ss_h x -> jl (s_sess s') h' = jl (s_sess s) h').
      { unfold need_rw, with_object, rv_ in E. destruct (is_rw x); [|injection E as <- <-; eapply Rv; [|reflexivity|reflexivity]; discriminate].
        match type of E with (if ?b then _ else _) = _ => destruct b end; [injection E as <- <-; eapply Rv; [|reflexivity|reflexivity]; discriminate|].
        destruct (find_obj s x hu) as [uk|]; [|injection E as <- <-; eapply Rv; [|reflexivity|reflexivity]; discriminate]. eapply unwrap_job; eauto. }
      destruct Q as (Q1 & Q2 & Q3). apply FIN; [split; [exact Sy|exact Logic.I]|exact Q1|]. split; [reflexivity|]. cbn [j_at]. subst h. rewrite <- J. split; [exact Q2|]. intros h' N. rewrite <- J. apply Q3. exact N.
    - (* operations *)
      apply (on_sess _ (j_dev j)) in E as [(-> & _ & N & _ & F)|(x & Cn & X & Eh & U & M & E & F)]; [| |exact S].
      { apply FIN; [split; [exact Sy|apply F]|exact Id|]. split; [reflexivity|]. intros h'. cbn [j_at]. rewrite (shut_mode s _ h o I S (F _)), andb_false_r. apply J. }
      assert (Op : is_open (j_dev j) h = true) by (unfold is_open; rewrite M; reflexivity).
      assert (Jx : j_at j h = job_of (ss_op x)) by (rewrite <- J, <- Eh; apply jl_at; assumption).
      assert (PUT : forall p, s' = put_sess s (set_op x p) -> job_says (job_of (ss_op x)) c (out_rv o) -> job_of p = job_next (job_of (ss_op x)) c (out_rv o) ->
        jobs_say j (OCrypto h c hk) o /\ exists j', jobs_move j (OCrypto h c hk) o j' /\ jsim s' j').
      { intros p -> B1 B2. apply FIN; [split; [exact Sy|apply F; rewrite Jx; exact B1]|apply put_idle; assumption|]. split; [reflexivity|]. intros h'. cbn [j_at]. rewrite (put_jl s x p h' I X), Op, andb_true_r, Eh, Jx, B2, J. reflexivity. }
      assert (STAY : s' = s -> job_says (job_of (ss_op x)) c (out_rv o) -> job_of (ss_op x) = job_next (job_of (ss_op x)) c (out_rv o) ->
        jobs_say j (OCrypto h c hk) o /\ exists j', jobs_move j (OCrypto h c hk) o j' /\ jsim s' j').
      { intros -> B1 B2. apply FIN; [split; [exact Sy|apply F; rewrite Jx; exact B1]|exact Id|]. split; [reflexivity|]. intros h'. cbn [j_at]. rewrite Op, andb_true_r, J. destruct (Z.eqb_spec h' h) as [->|N]; [rewrite Jx; exact B2|reflexivity]. }
      unfold rv_ in E. destruct (begin_call c) as [[d m]|] eqn:B.
      + assert (W0 : exists c1, with_key c 0 = Some c1) by (destruct c; try discriminate B; eexists; reflexivity). destruct W0 as [c0 W0]. rewrite W0 in E. unfold with_object, rv_ in E.
        destruct (find_obj s x hk) as [ob|].
        2:{ injection E as <- <-. apply STAY; [reflexivity|unfold job_says, begin_answers; rewrite B; cbn [out_rv]; destruct (does _ _ _); cbn; auto|unfold job_next; rewrite B; reflexivity]. }
        destruct (with_key c (o_uid ob)) as [c1|] eqn:W; [|destruct c; discriminate]. destruct (run_init _ _ _ _ _) as [[x1 r]| |] eqn:R; cbn [bind] in E; try discriminate. injection E as <- <-.
        apply (init_job w s x c (o_uid ob) ob c1 d m) in R as (p & -> & B1 & B2 & B3 & _); [|exact B|exact W].
        apply (PUT p); [reflexivity|unfold job_says; rewrite B; exact B1|]. unfold job_next. rewrite B. cbn [out_rv]. destruct (Z.eqb_spec (o_rv r) CKR_OK) as [Q|Q]; auto.
      + assert (W0 : with_key c 0 = None) by (destruct c; try discriminate B; reflexivity). rewrite W0 in E. destruct (data_call c) as [[d f]|] eqn:D.
        * assert (E0 : bind (run_cont w s x c) (fun '(x1, r) => Ok (put_sess s x1, OutC r)) = Ok (s', o)) by (destruct c; try discriminate D; exact E). clear E.
          destruct (run_cont _ _ _ _) as [[x1 r]| |] eqn:R; cbn [bind] in E0; try discriminate. injection E0 as <- <-. apply (cont_job _ _ _ _ d f) in R as (p & -> & B1 & B2); [|apply A; exact X|exact D]. apply (PUT p); auto.
        * destruct c; try discriminate B; try discriminate D. injection E as <- <-. apply STAY; reflexivity. }
  assert (SAME : s_sess s' = s_sess s -> forall h', jl (s_sess s') h' = j_at j h') by (intros Q h'; rewrite Q; apply J).
  assert (QUIET : quiet c = true -> jobs_say j c o /\ exists j', jobs_move j c o j' /\ jsim s' j').
  { intros Q. pose proof (quiet_sess _ _ _ _ _ _ Q E) as Q0. apply FIN; [split; [exact Sy|destruct c; try discriminate Q; exact Logic.I]|rewrite Q0; exact Id|]. split; [reflexivity|].
    specialize (SAME Q0). destruct c; try discriminate Q; exact SAME. }
  pose proof S as (Sc & _).
  destruct c; try discriminate O; try (apply QUIET; reflexivity); clear QUIET O; (apply FIN; [split; [exact Sy|exact Logic.I]| |split; [reflexivity|]]); cbn [j_at]; cbn [step] in E.
  - (* C_Initialize *)
    unfold Initialize in E. destruct (s_count s =? 0)%Z eqn:C0; [|injection E as <- _; exact Id]. destruct (Token_Load _ _ _) as [t| |]; cbn [bind] in E; try discriminate. injection E as <- _.
    intros z [<-|[<-|[]]] _; reflexivity.
  - unfold Initialize in E. destruct (s_count s =? 0)%Z eqn:C0; [|injection E as <- _; exact J]. destruct (Token_Load _ _ _) as [t| |]; cbn [bind] in E; try discriminate. injection E as <- _.
    intros h. rewrite <- J. destruct I as (_ & I2 & _). rewrite I2 by lia. unfold jl, find_sess. cbn [s_sess add_sess find]. destruct (_ =? h)%Z; [reflexivity|]. destruct (_ =? h)%Z; reflexivity.
  - (* C_Finalize *)
    unfold Finalize in E. destruct (s_count s - 1 =? 0)%Z eqn:C0; [|injection E as <- _; exact Id]. destruct (store _ _ _) as [[c1 s1]| |]; cbn [bind] in E; try discriminate. destruct (final_all _); cbn [bind] in E; try discriminate.
    destruct (free_all _); cbn [bind] in E; try discriminate. injection E as <- <-. intros z [].
  - intros h. rewrite <- Sc. unfold Finalize in E. destruct (s_count s - 1 =? 0)%Z eqn:C0; [|destruct (Z.eqb_spec (s_count s) 1); [lia|injection E as <- _; apply J]]. destruct (Z.eqb_spec (s_count s) 1); [|lia].
    destruct (store _ _ _) as [[c1 s1]| |]; cbn [bind] in E; try discriminate. destruct (final_all _); cbn [bind] in E; try discriminate. destruct (free_all _); cbn [bind] in E; try discriminate. injection E as <- <-. reflexivity.
  - (* the process ends *) injection E as <- _. intros z [].
  - injection E as <- _. reflexivity.
  - (* C_OpenSession *) apply (on_slot_ _ (j_dev j)) in E as [(-> & _)|(Cn & E & F)]; [exact Id| |exact S]. eapply (open_jl _ _ _ _ 0); eauto.
  - intros h. rewrite <- J. apply (on_slot_ _ (j_dev j)) in E as [(-> & _)|(Cn & E & F)]; [reflexivity| |exact S]. eapply (open_jl _ _ _ _ h); eauto.
  - (* C_CloseSession *)
    apply (on_sess _ (j_dev j)) in E as [(-> & _ & N & B & F)|(x & Cn & X & Eh & U & M & E & F)]; [exact Id| |exact S].
    unfold CloseSession in E. destruct (close_sess _ _) as [l| |] eqn:CL; cbn [bind] in E; try discriminate.
    assert (Q : s_sess s' = l). { cbv zeta in E. destruct (existsb in_use l); [unfold rv_ in E; injection E as <- <-; auto|]. destruct (Logout _ _); cbn [bind] in E; try discriminate. unfold rv_ in E. injection E as <- <-. auto. }
    rewrite Q. eapply (close_jl _ _ _ 0 (okl s I Cn)); eauto.
  - intros h'. apply (on_sess _ (j_dev j)) in E as [(-> & _ & N & B & F)|(x & Cn & X & Eh & U & M & E & F)]; [apply Z.eqb_neq in N; rewrite N, andb_false_r; apply J| |exact S].
    unfold CloseSession in E. destruct (close_sess _ _) as [l| |] eqn:CL; cbn [bind] in E; try discriminate.
    assert (Q : s_sess s' = l /\ o = OutRv CKR_OK). { cbv zeta in E. destruct (existsb in_use l); [unfold rv_ in E; injection E as <- <-; auto|]. destruct (Logout _ _); cbn [bind] in E; try discriminate. unfold rv_ in E. injection E as <- <-. auto. }
    destruct Q as [-> ->]. destruct (close_jl _ _ _ h' (okl s I Cn) Id X CL) as [-> _]. cbn [out_rv]. rewrite Z.eqb_refl, andb_true_r, J, Eh. reflexivity.
  - (* C_CloseAllSessions *)
    apply (on_slot_ _ (j_dev j)) in E as [(-> & N & _)|(Cn & E & F)]; [exact Id| |exact S].
    destruct (close_all _) as [l| |] eqn:CL; cbn [bind] in E; try discriminate. unfold rv_ in E. injection E as <- <-. apply (close_all_jl _ _ 0 (okl s I Cn) Id CL).
  - intros h'. apply (on_slot_ _ (j_dev j)) in E as [(-> & N & _)|(Cn & E & F)]; [apply Z.eqb_neq in N; rewrite N, andb_false_r; apply J| |exact S].
    destruct (close_all _) as [l| |] eqn:CL; cbn [bind] in E; try discriminate. unfold rv_ in E. injection E as <- <-. cbn [set_sess s_sess out_rv]. destruct (close_all_jl _ _ h' (okl s I Cn) Id CL) as [-> _]. rewrite Z.eqb_refl, andb_true_r, J. reflexivity.
Qed.
Print Assumptions C122_step.

(** ** Every history *)
Lemma run_works w l : forall s j s' os, inv s -> jsim s j -> run w s l = Ok (s', os) -> exists j', works j (map fst l) os j' /\ inv s' /\ jsim s' j'.
Proof.
  induction l as [|[c r] l IH]; cbn [run map fst]; intros s j s' os I S E.
  - injection E as <- <-. exists j. split; [constructor|]. auto.
  - destruct (step w r s c) as [[s1 o1]| |] eqn:E1; cbn [bind] in E; try discriminate. destruct (run w s1 l) as [[s2 os2]| |] eqn:E2; cbn [bind] in E; try discriminate. injection E as <- <-.
    destruct (C122_step w r s j c s1 o1 I S E1) as (A & j1 & M & B). destruct (IH _ _ _ _ (step_inv _ _ _ _ _ _ I E1) B E2) as (j' & A2 & B2). exists j'. split; [econstructor; eassumption|exact B2].
Qed.
Lemma jsim0 fs : jsim (sys0 fs) jobs0.
Proof. split; [apply sim0|]. split; [reflexivity|]. split; intros x []. Qed.
(** In every history of calls, with whatever outside world and stored files: the answers are ones the machine allows, and
    so is the answer to whatever call comes next. *)
Theorem C122_machine : forall w fs l s os, run w (sys0 fs) l = Ok (s, os) ->
  exists j, works jobs0 (map fst l) os j /\ forall rnd c s' o, step w rnd s c = Ok (s', o) -> jobs_say j c o.
Proof.
  intros w fs l s os R. destruct (run_works w l _ _ _ _ (inv0 fs) (jsim0 fs) R) as (j & A & I & B). exists j. split; [exact A|]. intros rnd c s' o E. apply (C122_step w rnd s j c s' o I B E).
Qed.
Print Assumptions C122_machine.

(** *** A call finds an operation only if the last one begun in that session was of its kind. *)
Definition tied (h : Z) (j : jobs) (b : option (dir * mech)) : Prop := forall m a, j_at j h = Some (m, a) -> exists d, b = Some (d, m) /\ (a = None \/ a = Some d).
Lemma next_job h j c m a : (forall m a, j = Some (m, a) -> exists d, h = Some (d, m) /\ (a = None \/ a = Some d)) -> forall rv, job_next j c rv = Some (m, a) ->
  exists d, match begin_call c with Some q => if (rv =? CKR_OK)%Z then Some q else h | None => h end = Some (d, m) /\ (a = None \/ a = Some d).
Proof.
  intros T rv E. unfold job_next in E. destruct (begin_call c) as [[d m0]|].
  - destruct (rv =? CKR_OK)%Z; [injection E as <- <-; exists d; auto|apply T; exact E].
  - destruct (data_call c) as [[d f]|]; [|apply T; exact E]. destruct j as [[m1 [d1|]]|]; [|apply T; exact E|discriminate E]. destruct (andb _ _); [|apply T; exact E].
    injection E as <- <-. destruct (T m1 (Some d1) eq_refl) as (d2 & -> & _). exists d2. auto.
Qed.
Lemma move_tied h j c o j' b : no_wrap h c -> jobs_move j c o j' -> jobs_say j c o -> tied h j b -> tied h j' (last_begun1 h b c o).
Proof.
  intros N [_ M] [_ Sy] T. unfold tied in *. destruct c; cbn [last_begun1]; try (intros m' a'; rewrite M; apply T; fail).
  - (* C_Finalize *) intros m a. rewrite M. destruct (_ =? _)%Z; [discriminate|apply T].
  - intros m a. rewrite M. discriminate.
  - intros m a. rewrite M, (Z.eqb_sym h h0). destruct (andb _ _); [discriminate|apply T].
  - intros m a. rewrite M. destruct (andb _ _); [discriminate|apply T].
  - destruct M as [_ M]. cbn in N. intros m' a. rewrite M by congruence. apply T.
  - destruct M as [_ M]. cbn in N. intros m' a. rewrite M by congruence. apply T.
  - intros m a. rewrite M. destruct (Z.eqb_spec h h0) as [->|Nh]; cbn [andb].
    + rewrite Z.eqb_refl. destruct (is_open _ _) eqn:Op.
      * intros E. apply (next_job b) in E; [|exact T]. destruct (begin_call c); [cbn [andb]|]; exact E.
      * intros E. apply T in E as E'. unfold on_session in Sy. unfold is_open in Op. destruct (d_mode _ _); [discriminate|].
        assert (Rv : (out_rv o =? CKR_OK)%Z = false) by (destruct (_ <=? _)%Z; subst o; reflexivity). cbn [andb]. rewrite Rv. destruct (begin_call c); exact E'.
    + assert (Nb : (h0 =? h)%Z = false) by (apply Z.eqb_neq; congruence). rewrite Nb. cbn [andb]. destruct (begin_call c); apply T.
Qed.
Lemma works_tied h j cs os j' : works j cs os j' -> forall b, Forall (no_wrap h) cs -> tied h j b -> tied h j' (last_begun h b cs os).
Proof.
  induction 1 as [j|j c o j1 cs os j' Sy Mv _ IH]; intros b F T; [exact T|]. cbn [last_begun]. inversion F as [|? ? F1 F2]. subst. apply IH; [exact F2|]. eapply move_tied; eauto.
Qed.
Theorem C122_begun : forall w fs l s os rnd h c hk s' o d f, run w (sys0 fs) l = Ok (s, os) -> Forall (no_wrap h) (map fst l) ->
  step w rnd s (OCrypto h c hk) = Ok (s', o) -> data_call c = Some (d, f) ->
  ~ In (out_rv o) [CKR_CRYPTOKI_NOT_INITIALIZED; CKR_SESSION_HANDLE_INVALID; CKR_OPERATION_NOT_INITIALIZED; CKR_MECHANISM_INVALID] ->
  exists m, last_begun h None (map fst l) os = Some (d, m) /\ does m d f = true /\ In (out_rv o) (answers m d f).
Proof.
  intros w fs l s os rnd h c hk s' o d f R F E D N. destruct (C122_machine _ _ _ _ _ R) as (j & A & B). specialize (B _ _ _ _ E) as [_ B]. cbn [jobs_say] in B.
  apply (works_tied h) with (b := None) in A; [|exact F|intros m a; discriminate]. unfold on_session in B.
  destruct (_ <=? _)%Z; [subst o; cbn in N; tauto|]. destruct (d_mode _ _); [|subst o; cbn in N; tauto]. unfold job_says in B. assert (Bg : begin_call c = None) by (destruct c; try discriminate D; reflexivity). rewrite Bg, D in B.
  destruct (j_at j h) as [[m a]|] eqn:Ja; [|exfalso; apply N; rewrite B; cbn; auto]. destruct (does m d f) eqn:Dm; cbn [negb] in B; [|exfalso; apply N; rewrite B; cbn; auto].
  destruct a as [d'|]; [|exfalso; apply N; rewrite B; cbn; auto]. destruct (dir_eqb d' d) eqn:Q; [|exfalso; apply N; rewrite B; cbn; auto].
  assert (d' = d) by (destruct d', d; try discriminate Q; reflexivity). subst d'. destruct (A _ _ Ja) as (d2 & Lb & [Y|Y]); [discriminate|]. injection Y as <-. exists m. auto.
Qed.
Print Assumptions C122_begun.

(** *** What was begun is found again, whatever is called in between that does not end it. *)
Definition harmless (h : Z) (c : op) (o : out) : Prop :=
  match c with
  | OCrypto h' c0 _ => h' <> h \/ (exists d, data_call c0 = Some (d, Part)) \/ (asks c0 = true /\ out_rv o <> CKR_DATA_LEN_RANGE)
  | OWrapKey h' _ _ _ _ _ | OUnwrapKey h' _ _ _ _ _ | OCloseSession h' => h' <> h
  | OCloseAllSessions _ | OFinalize | ORestart => False
  | _ => True
  end.
Definition going (h : Z) (m : mech) (d : dir) (j : jobs) : Prop := (0 < d_count (j_dev j))%Z /\ is_open (j_dev j) h = true /\ j_at j h = Some (m, Some d).
Lemma dev_going h d c o : harmless h c o -> (0 < d_count d)%Z -> is_open d h = true -> (0 < d_count (next d c o))%Z /\ is_open (next d c o) h = true.
Proof.
  intros L B1 B2. destruct c; cbn [next]; try exact (False_ind _ L); try (match goal with |- context [negb ?q] => destruct (negb q) end; auto; fail).
  - destruct (Z.eqb_spec (d_count d) 0); [lia|]. cbn [d_count]. split; [lia|exact B2].
  - destruct (negb _); [destruct (_ =? _)%Z; auto|auto].
  - destruct (negb _); [auto|]. destruct o; auto. cbn [d_count]. split; [exact B1|]. unfold is_open in *. cbn [d_mode]. unfold with_mode. destruct (h =? h0)%Z; [reflexivity|exact B2].
  - cbn in L. destruct (negb _); [auto|]. assert (O : forall w, is_open (Dev (d_count d) (with_mode d h0 None) w) h = true).
    { intros w. unfold is_open in *. cbn [d_mode]. unfold with_mode. destruct (Z.eqb_spec h h0); [congruence|exact B2]. }
    destruct (any_open _); cbn [d_count]; auto.
Qed.
Lemma move_going h m d j c o j' : harmless h c o -> jobs_move j c o j' -> going h m d j -> going h m d j'.
Proof.
  intros L [Md M] (B1 & B2 & B3). pose proof (dev_going h _ c o L B1 B2) as [C1 C2]. unfold going. rewrite Md. split; [exact C1|]. split; [exact C2|]. clear Md C1 C2.
  destruct c; cbn in L; try exact (False_ind _ L); try (rewrite M; exact B3).
  - rewrite M. destruct (Z.eqb_spec h h0); [congruence|exact B3].
  - destruct M as [_ M]. rewrite M by congruence. exact B3.
  - destruct M as [_ M]. rewrite M by congruence. exact B3.
  - rewrite M. destruct (Z.eqb_spec h h0) as [->|Nh]; [|exact B3]. cbn [andb]. rewrite B2, B3. destruct L as [L|[(d0 & L)|[L1 L2]]]; [congruence| |].
    + unfold job_next. rewrite L. assert (Bg : begin_call c = None) by (destruct c; try discriminate L; reflexivity). rewrite Bg. assert (En : forall a rv, ends m d0 Part a rv = false) by (intros; destruct m; reflexivity). rewrite En, !andb_false_r. reflexivity.
    + unfold job_next. assert (Bg : begin_call c = None) by (destruct c; try discriminate L1; reflexivity). rewrite Bg. destruct (data_call c) as [[d0 f]|]; [|reflexivity].
      assert (En : ends m d0 f (asks c) (out_rv o) = false). { rewrite L1. apply Z.eqb_neq in L2. unfold ends. rewrite L2. cbn [orb]. destruct m, f; reflexivity. } rewrite En, !andb_false_r. reflexivity.
Qed.
Lemma works_going h m d j cs os j' : works j cs os j' -> Forall2 (harmless h) cs os -> going h m d j -> going h m d j'.
Proof. induction 1 as [j|j c o j1 cs os j' Sy Mv _ IH]; intros F T; [exact T|]. inversion F. subst. apply IH; [assumption|]. eapply move_going; eauto. Qed.
Lemma works_app a : forall j b os j', works j (a ++ b) os j' -> exists j1 o1 o2, os = o1 ++ o2 /\ length o1 = length a /\ works j a o1 j1 /\ works j1 b o2 j'.
Proof.
  induction a as [|c a IH]; intros j b os j' W; [exists j, [], os; repeat split; auto; constructor|]. cbn [app] in W. inversion W as [|? ? o j0 ? os0 ? Sy Mv W1]. subst.
  apply IH in W1 as (j1 & o1 & o2 & -> & L & W1 & W2). exists j1, (o :: o1), o2. split; [reflexivity|]. split; [cbn; congruence|]. split; [econstructor; eassumption|exact W2].
Qed.
Theorem C122_found : forall w fs l0 l1 s os0 os1 o0 rnd0 rnd h c0 hk0 c hk s' o d m f,
  run w (sys0 fs) (l0 ++ (OCrypto h c0 hk0, rnd0) :: l1) = Ok (s, os0 ++ o0 :: os1) -> length os0 = length l0 ->
  begin_call c0 = Some (d, m) -> out_rv o0 = CKR_OK -> Forall2 (harmless h) (map fst l1) os1 ->
  step w rnd s (OCrypto h c hk) = Ok (s', o) -> data_call c = Some (d, f) -> does m d f = true -> In (out_rv o) (answers m d f).
Proof.
  intros w fs l0 l1 s os0 os1 o0 rnd0 rnd h c0 hk0 c hk s' o d m f R L Bc O0 F E Dc Dm. destruct (C122_machine _ _ _ _ _ R) as (j & A & B). specialize (B _ _ _ _ E) as [_ B]. cbn [jobs_say] in B.
  rewrite map_app in A. apply works_app in A as (j1 & p1 & p2 & Ep & Lp & _ & W). cbn [map fst] in W.
  assert (Q : os0 = p1 /\ o0 :: os1 = p2). { rewrite map_length in Lp. clear - Ep L Lp. assert (Lq : length os0 = length p1) by congruence. clear L Lp. revert p1 Ep Lq. induction os0 as [|a os0 IH]; intros [|b p1] Ep Lq; try discriminate Lq; [split; [reflexivity|exact Ep]|]. cbn [app] in Ep. injection Ep as -> Ep. cbn in Lq. destruct (IH p1 Ep) as [-> ->]; [congruence|auto]. }
  destruct Q as [<- <-]. inversion W as [|? ? ? j2 ? ? ? Sy Mv W1]. subst. clear W. assert (G : going h m d j2).
  { destruct Sy as [_ Sy]. destruct Mv as [Md Mv]. unfold on_session in Sy. destruct (Z.leb_spec (d_count (j_dev j1)) 0) as [Lc|Lc]; [subst o0; discriminate O0|]. destruct (d_mode (j_dev j1) h) as [rw|] eqn:Dh; [|subst o0; discriminate O0].
    assert (Op : is_open (j_dev j1) h = true) by (unfold is_open; rewrite Dh; reflexivity). unfold going. rewrite Md, (next_other _ (OCrypto h c0 hk0)) by reflexivity. split; [exact Lc|]. split; [exact Op|].
    rewrite Mv, Z.eqb_refl, Op. cbn [andb]. unfold job_next. rewrite Bc, O0. reflexivity. }
  apply (works_going h m d) in W1; [|exact F|exact G]. destruct W1 as (B1 & B2 & B3). unfold on_session in B. destruct (Z.leb_spec (d_count (j_dev j)) 0) as [Lc|Lc]; [lia|]. unfold is_open in B2. destruct (d_mode _ _); [|discriminate].
  unfold job_says in B. assert (Bg : begin_call c = None) by (destruct c; try discriminate Dc; reflexivity). rewrite Bg, Dc, B3, Dm in B. cbn [negb] in B. destruct d; exact B.
Qed.
Print Assumptions C122_found.

(** ** A case: an encryption goes on through questions for lengths, calls of other kinds, a refused Init and a logout;
    data of the wrong length ends it though no buffer is given; a new session of the same number starts from nothing. *)
Definition begin_it : call := KEncryptInit M_AES_CBC (MPraw (repeat 0%N 16)) 0.
Definition a_job : list op := idle_keys ++ [OCrypto H2 begin_it 1].
Definition its_day : list op :=
  [OCrypto H2 (KEncryptUpdate [1; 2; 3]%N (Buf 64)) 0; OLogout H2; OCrypto H2 (KEncrypt [] [1]%N Query) 0].
Definition its_end : list op :=
  [OCrypto H2 (KDecryptUpdate [1]%N (Buf 64)) 0; OCrypto H2 (KSign [] [1]%N (Buf 64)) 0; OCrypto H2 (KEncryptInit M_RSA_PSS MPnull 0) 1; OCrypto H2 (KEncryptUpdate [4]%N (Buf 64)) 0;
   OCrypto H2 (KEncryptFinal Query) 0; OCrypto H2 (KEncryptUpdate [5]%N (Buf 64)) 0; OCrypto H2 (KSign [] [1]%N (Buf 64)) 0; OCrypto H2 begin_it 1; OCloseSession H2; OOpenSession 1 RW;
   OCrypto H2 (KEncryptUpdate [5]%N (Buf 64)) 0; OCrypto H2 (KSign [] [1]%N (Buf 64)) 0].
Example C122_case : skipn (List.length idle_keys) (rvs (a_job ++ its_day ++ its_end)) =
  [CKR_OK; CKR_OK; CKR_OK; CKR_OK; CKR_OPERATION_NOT_INITIALIZED; CKR_MECHANISM_INVALID; CKR_MECHANISM_INVALID; CKR_OK; CKR_DATA_LEN_RANGE; CKR_OPERATION_NOT_INITIALIZED; CKR_MECHANISM_INVALID;
   CKR_OK; CKR_OK; CKR_OK; CKR_OPERATION_NOT_INITIALIZED; CKR_OPERATION_NOT_INITIALIZED].
Proof. vm_compute. reflexivity. Qed.
(** It meets the hypotheses of [C122_begun] and [C122_found]. *)
Example C122_meets : last_begun H2 None (a_job ++ its_day) (outs (a_job ++ its_day)) = Some (JEnc, M_AES_CBC) /\ Forall (no_wrap H2) (a_job ++ its_day) /\
  Forall2 (harmless H2) its_day (skipn (List.length a_job) (outs (a_job ++ its_day))).
Proof.
  split; [vm_compute; reflexivity|]. split; [repeat constructor|]. assert (E : skipn (List.length a_job) (rvs (a_job ++ its_day)) = [CKR_OK; CKR_OK; CKR_OK]) by (vm_compute; reflexivity).
  unfold rvs in E. rewrite skipn_map in E. destruct (skipn _ _) as [|o1 [|o2 [|o3 [|]]]]; try discriminate E. injection E as E1 E2 E3. unfold its_day.
  constructor; [right; left; exists JEnc; reflexivity|]. constructor; [exact Logic.I|]. constructor; [right; right; split; [reflexivity|rewrite E3; discriminate]|constructor].
Qed.
