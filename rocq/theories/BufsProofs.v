(** Proofs about Bufs.v. *)
From Verif Require Import Base Cbc CbcProofs Ops OpsSpec OpsProofs OpsProofs2 Bufs.

(** ** Pointers are to live buffers *)
Record hok (h : hp) : Prop := {
  ho_nd : NoDup (h_live h);
  ho_lt : forall i, In i (h_live h) -> i < h_next h;
  ho_b : forall i, h_buf h = Some i -> In i (h_live h);
  ho_e : forall i, h_enc h = Some i -> In i (h_live h);
  ho_ne : forall i j, h_buf h = Some i -> h_enc h = Some j -> i <> j
}.

Lemma hok0 : hok hp0.
Proof. split; cbn; try (intros; contradiction); try discriminate. constructor. Qed.

Lemma hfree_ok p l : (forall i, p = Some i -> In i l) ->
  exists l', hfree p l = Ok l' /\ (forall i, In i l' <-> In i l /\ p <> Some i) /\ (NoDup l -> NoDup l').
Proof.
  intros H. destruct p as [i|]; cbn [hfree].
  - destruct (existsb (Nat.eqb i) l) eqn:E.
    + eexists. split; [reflexivity|]. split; [|apply NoDup_filter].
      intros j. rewrite filter_In. split; intros [A B]; split; auto.
      * intros Q. injection Q as ->. rewrite Nat.eqb_refl in B. discriminate.
      * destruct (Nat.eqb_spec j i); [congruence|reflexivity].
    + exfalso. assert (X : existsb (Nat.eqb i) l = true); [|congruence].
      apply existsb_exists. exists i. split; [auto|apply Nat.eqb_refl].
  - exists l. split; [reflexivity|]. split; [|auto]. intros j. split; [|tauto]. intros J. split; [exact J|discriminate].
Qed.

Definition hd_spec (e : hev) (h h' : hp) : Prop :=
  match e with
  | HLose => h_buf h' = None /\ h_enc h' = None /\ h_live h' = h_live h
  | HTakeBuf => h_buf h' <> None /\ h_enc h' = h_enc h /\ length (h_live h') = S (length (h_live h))
  | HTakeEnc => h_buf h' = h_buf h /\ h_enc h' <> None /\
      length (h_live h') = (match h_enc h with None => 1 | Some _ => 0 end) + length (h_live h)
  | HFreeBuf => h_buf h' = None /\ h_enc h' = h_enc h /\
      length (h_live h) = (match h_buf h with None => 0 | Some _ => 1 end) + length (h_live h')
  | HFreeEnc => h_buf h' = h_buf h /\ h_enc h' = None /\
      length (h_live h) = (match h_enc h with None => 0 | Some _ => 1 end) + length (h_live h')
  end.

Lemma hfree_len p l l' : NoDup l -> (forall i, p = Some i -> In i l) -> hfree p l = Ok l' ->
  length l = (match p with None => 0 | Some _ => 1 end) + length l'.
Proof.
  intros N H E. destruct p as [i|]; cbn [hfree] in E; [|injection E as <-; reflexivity].
  destruct (existsb _ _); [|discriminate]. injection E as <-. specialize (H i eq_refl).
  induction l as [|x l IH]; [destruct H|]. inversion_clear N as [|? ? N1 N2]. cbn [filter length].
  destruct (Nat.eqb_spec x i) as [Q|Q]; cbn [negb].
  - subst x. cbn. f_equal. assert (F : filter (fun j => negb (j =? i)) l = l); [|rewrite F; reflexivity].
    clear IH H N2. induction l as [|y l IH]; [reflexivity|]. cbn [filter].
    destruct (Nat.eqb_spec y i) as [Q|Q]; [subst y; exfalso; apply N1; left; reflexivity|].
    cbn [negb]. f_equal. apply IH. intros J. apply N1. right. exact J.
  - destruct H as [H|H]; [congruence|]. cbn [length]. rewrite (IH N2 H). reflexivity.
Qed.

Lemma hdo_ok h e : hok h -> exists h', hdo h e = Ok h' /\ hok h' /\ hd_spec e h h'.
Proof.
  intros [A B C D E]. destruct e; cbn [hdo].
  - eexists. split; [reflexivity|]. split; [|repeat split]. split; cbn; auto; discriminate.
  - eexists. split; [reflexivity|]. split; [|repeat split; cbn; discriminate]. split; cbn.
    + constructor; [|exact A]. intros J. specialize (B _ J). lia.
    + intros i [<-|J]; [lia|]. specialize (B _ J). lia.
    + intros i Q. injection Q as <-. left. reflexivity.
    + intros i Q. right. auto.
    + intros i j Q1 Q2. injection Q1 as <-. specialize (D _ Q2). specialize (B _ D). lia.
  - destruct (h_enc h) eqn:N.
    + exists h. split; [reflexivity|]. split; [split; auto; rewrite N; auto|]. cbn. rewrite N. repeat split. discriminate.
    + eexists. split; [reflexivity|]. split; [|cbn; rewrite N; repeat split; discriminate]. split; cbn.
      * constructor; [|exact A]. intros J. specialize (B _ J). lia.
      * intros i [<-|J]; [lia|]. specialize (B _ J). lia.
      * intros i Q. right. auto.
      * intros i Q. injection Q as <-. left. reflexivity.
      * intros i j Q1 Q2. injection Q2 as <-. specialize (C _ Q1). specialize (B _ C). lia.
  - destruct (hfree_ok (h_buf h) (h_live h) C) as (l' & F & I & N). rewrite F. cbn [bind].
    eexists. split; [reflexivity|]. split; [|split; [reflexivity|split; [reflexivity|exact (hfree_len _ _ _ A C F)]]].
    split; cbn; try discriminate; auto.
    + intros i J. apply I in J. apply B, J.
    + intros i Q. apply I. split; [auto|]. intros Q1. exact (E _ _ Q1 Q eq_refl).
  - destruct (hfree_ok (h_enc h) (h_live h) D) as (l' & F & I & N). rewrite F. cbn [bind].
    eexists. split; [reflexivity|]. split; [|split; [reflexivity|split; [reflexivity|exact (hfree_len _ _ _ A D F)]]].
    split; cbn; try discriminate; auto.
    + intros i J. apply I in J. apply B, J.
    + intros i Q. apply I. split; [auto|]. intros Q1. exact (E _ _ Q Q1 eq_refl).
Qed.

(** ** Flags: which of the two pointers are set *)
Definition isSome {A} (x : option A) : bool := match x with Some _ => true | None => false end.
Definition flags (h : hp) : bool * bool := (isSome (h_buf h), isSome (h_enc h)).
Definition fdo (f : bool * bool) (e : hev) : bool * bool :=
  match e with
  | HLose => (false, false)
  | HTakeBuf => (true, snd f)
  | HTakeEnc => (fst f, true)
  | HFreeBuf => (false, snd f)
  | HFreeEnc => (fst f, false)
  end.
Fixpoint fdos (f : bool * bool) (l : list hev) : bool * bool := match l with [] => f | e :: r => fdos (fdo f e) r end.

Lemma hdo_flags e h h' : hd_spec e h h' -> flags h' = fdo (flags h) e.
Proof.
  unfold flags. destruct e; cbn [hd_spec fdo fst snd]; intros (A & B & _); rewrite ?A, ?B; cbn [isSome]; try reflexivity.
  - destruct (h_buf h'); [reflexivity|congruence].
  - destruct (h_enc h'); [reflexivity|congruence].
Qed.
Lemma hdos_ok l : forall h, hok h -> exists h', hdos h l = Ok h' /\ hok h' /\ flags h' = fdos (flags h) l.
Proof.
  induction l as [|e l IH]; intros h K; cbn [hdos fdos]; [exists h; auto|].
  destruct (hdo_ok h e K) as (h1 & E & K1 & S1). rewrite E. cbn [bind].
  destruct (IH h1 K1) as (h2 & E2 & K2 & S2). exists h2. split; [exact E2|]. split; [exact K2|].
  rewrite S2, (hdo_flags _ _ _ S1). reflexivity.
Qed.

(** The union holds the pointers the flags tell of. *)
Definition agree (p : params) (f : bool * bool) : Prop :=
  match p with
  | POaep o => isSome (oa_label o) = fst f /\ snd f = false
  | PGcm g => isSome (g_aad g) = fst f /\ (snd f = false -> g_enc g = [])
  | _ => f = (false, false)
  end.

Section P.
Variable ev : env.
Variable objs : nat -> option keyobj.
Notation step := (step ev objs).
Notation run := (run ev objs).
Notation evs := (evs objs).
Notation brun := (brun ev objs).

Lemma agree_init st c st' o f : is_init c = true -> agree (os_params st) f -> step st c = Ok (st', o) ->
  agree (os_params st') (fdos f (evs st c o)).
Proof.
  intros I A H. destruct c; try discriminate I; cbn [Ops.step Bufs.evs] in *; unfold init_call in H;
    (destruct (objs k) as [ko|]; [|inv_step; exact A]);
    unfold C_EncryptInit, C_DecryptInit, C_SignInit, C_VerifyInit in H;
    destruct m; unfold rsa_noparam, oaep_init, pss_init, cbc_init, gcm_init, hmac_init, ecdsa_init,
      SetGcmParams, SetOaepParams, SetPssParams, SetCbcParams, Hmac_Init in H;
    destruct mp; cbn [no_param negb] in H; cbn [crypt_init_evs sign_init_evs];
    repeat match goal with
    | |- context [(ko_type ko =? ?t)%Z] => destruct (ko_type ko =? t)%Z; cbn [negb andb] in *
    | |- context [if ?b then _ else _] => destruct b eqn:?; cbn [negb andb] in *
    end; inv_step; inv_pair; cbn [os_params set_params set_part init_done fdos fdo agree fst snd isSome oa_label g_aad g_enc given]; try exact A; try discriminate; auto;
    try (destruct label; cbn; auto); try (destruct aad; cbn; auto).
Qed.

Lemma mech_data st c st' o : is_init c = false -> step st c = Ok (st', o) -> os_mech st' = os_mech st.
Proof.
  intros I H. destruct c; try discriminate I; cbn [Ops.step] in H;
    try (unfold C_Encrypt, C_EncryptUpdate, C_EncryptFinal, C_Decrypt, C_DecryptUpdate,
      C_DecryptFinal, C_Sign, C_SignUpdate, C_SignFinal, C_Verify, C_VerifyUpdate,
      C_VerifyFinal, with_obj in H;
    destruct (os_curr st) eqn:Hc; unfold not_init in H; [|inv_step; reflexivity];
    destruct (os_mech st) eqn:Hmm;
    unfold need_init, not_init, pk_crypt, pk_sign, pk_verify, need_init, not_init, sized, conclude,
      hmac_update, hmac_done in H;
    inv_step; try exact Hmm; unfold pk_after; rewrite ?Hmm;
    repeat match goal with |- context [match ?x with _ => _ end] => destruct x end; exact Hmm).
  unfold op_session_final in H. destruct (os_mech st) eqn:Hmm; inv_step;
    repeat match goal with |- context [match ?x with _ => _ end] => destruct x end; first [exact Hmm|reflexivity].
Qed.

Lemma agree_data st c st' o f : is_init c = false -> agree (os_params st) f -> step st c = Ok (st', o) ->
  agree (os_params st') (fdos f (evs st c o)).
Proof.
  intros I A H. destruct c; try discriminate I; cbn [Ops.step Bufs.evs] in *.
  13:{ unfold op_session_final in H. destruct (os_mech st) eqn:Hmm; inv_step; cbn [fdos fdo];
       repeat match goal with E : os_params ?s = _ |- _ => rewrite E in * end;
       cbn [os_params set_params set_part set_init agree fdo fst snd isSome oa_label g_aad g_enc] in *; try exact A; try tauto;
       destruct (os_init st =? 0)%Z; exact A. }
  all: unfold C_Encrypt, C_EncryptUpdate, C_EncryptFinal, C_Decrypt, C_DecryptUpdate,
      C_DecryptFinal, C_Sign, C_SignUpdate, C_SignFinal, C_Verify, C_VerifyUpdate,
      C_VerifyFinal, with_obj in H.
  all: destruct (os_curr st) eqn:Hc; unfold not_init in H.
  all: try (inv_step; cbn [o_rv fail ran]; destruct (os_mech st); try exact A; destruct b; exact A).
  all: destruct (os_mech st) eqn:Hmm;
    unfold need_init, not_init, pk_crypt, pk_sign, pk_verify, need_init, not_init, sized, conclude,
      hmac_update, hmac_done, get_cbc, get_gcm, get_hmac, get_pk, put_cbc, pk_after in H.
  all: try destruct b; inv_step.
  all: cbn [ran o_rv fail orb andb Z.eqb Pos.eqb fdos fdo CKR_OK CKR_FUNCTION_FAILED CKR_BUFFER_TOO_SMALL CKR_OPERATION_NOT_INITIALIZED CKR_MECHANISM_INVALID CKR_DATA_LEN_RANGE] in *.
  all: try exact A.
  all: repeat match goal with E : os_params ?s = _ |- _ => rewrite E in * end.
  all: cbn [os_params set_params set_part set_init agree fdo fst snd isSome oa_label g_aad g_enc drop_aad] in *.
  all: try first [exact A|tauto].
  all: try (split; [apply A|discriminate]).
  all: match goal with E : os_params _ = _ |- _ => rewrite E; exact A end.
Qed.

(** The heap never goes wrong: a history that runs, runs with the heap. *)
Lemma bstep_ok st h c st' o : hok h -> agree (os_params st) (flags h) -> step st c = Ok (st', o) ->
  exists h', bstep ev objs st h c = Ok (st', h', o) /\ hok h' /\ agree (os_params st') (flags h') /\
    hdos h (evs st c o) = Ok h'.
Proof.
  intros K A H. unfold bstep. rewrite H. cbn [bind].
  destruct (hdos_ok (evs st c o) h K) as (h' & E & K' & F). rewrite E. cbn [bind]. exists h'.
  split; [reflexivity|]. split; [exact K'|]. split; [|reflexivity]. rewrite F.
  destruct (is_init c) eqn:I; [eapply agree_init|eapply agree_data]; eauto.
Qed.
Lemma brun_ok cs : forall st h st' os, hok h -> agree (os_params st) (flags h) -> run st cs = Ok (st', os) ->
  exists h', brun st h cs = Ok (st', h', os) /\ hok h' /\ agree (os_params st') (flags h').
Proof.
  induction cs as [|c cs IH]; intros st h st' os K A R; cbn [Ops.run Bufs.brun] in *.
  - injection R as <- <-. exists h. auto.
  - destruct (step st c) as [[st1 o]| |] eqn:E; cbn [bind] in R; try discriminate.
    destruct (run st1 cs) as [[st2 os2]| |] eqn:E2; cbn [bind] in R; try discriminate. injection R as <- <-.
    destruct (bstep_ok st h c st1 o K A E) as (h1 & B & K1 & A1 & _). rewrite B. cbn [bind].
    destruct (IH st1 h1 st2 os2 K1 A1 E2) as (h2 & B2 & K2 & A2). rewrite B2. cbn [bind]. exists h2. auto.
Qed.

(** ** Nothing is lost when each Init finds nothing owed *)
Definition is_held (f : bool * bool) : nat := (if fst f then 1 else 0) + (if snd f then 1 else 0).

(** Number of live buffers: what an event adds, provided nothing is written over. *)
Lemma hdo_count e h h' : hok h -> hdo h e = Ok h' ->
  (e = HLose \/ e = HTakeBuf -> is_held (flags h) = 0) ->
  length (h_live h) = is_held (flags h) -> length (h_live h') = is_held (flags h').
Proof.
  intros K E L C. destruct (hdo_ok h e K) as (h1 & E1 & _ & S). rewrite E1 in E. injection E as ->.
  unfold is_held, flags in *. cbn [fst snd] in *.
  destruct e; cbn [hd_spec] in S; destruct S as (S1 & S2 & S3).
  - rewrite S1, S2, S3. cbn [isSome]. rewrite L in C by auto. lia.
  - rewrite S2, S3. destruct (h_buf h'); [|congruence]. cbn [isSome]. specialize (L (or_intror eq_refl)). rewrite C.
    destruct (h_buf h), (h_enc h); cbn [isSome] in *; lia.
  - rewrite S1, S3. destruct (h_enc h'); [|congruence]. rewrite C. destruct (h_buf h), (h_enc h); cbn [isSome]; lia.
  - rewrite S1, S2. cbn [isSome]. destruct (h_buf h), (h_enc h); cbn [isSome] in *; lia.
  - rewrite S1, S2. cbn [isSome]. destruct (h_buf h), (h_enc h); cbn [isSome] in *; lia.
Qed.

(** What an Init that succeeds or fails leaves. *)
Lemma init_result st c st' o : is_init c = true -> step st c = Ok (st', o) ->
  (o_rv o = CKR_OK -> os_mech st' = mech_of c (os_mech st) /\ fdos (false, false) (evs st c o) = (hands c, false)) /\
  (o_rv o <> CKR_OK -> os_mech st' = os_mech st /\ fdos (false, false) (evs st c o) = (false, false)).
Proof.
  intros I H. destruct c; try discriminate I; cbn [Ops.step Bufs.evs mech_of] in *; unfold init_call in H;
    (destruct (objs k) as [ko|]; [|inv_step; split; [discriminate|auto]]);
    unfold C_EncryptInit, C_DecryptInit, C_SignInit, C_VerifyInit in H;
    destruct m; unfold rsa_noparam, oaep_init, pss_init, cbc_init, gcm_init, hmac_init, ecdsa_init,
      SetGcmParams, SetOaepParams, SetPssParams, SetCbcParams, Hmac_Init in H;
    destruct mp; cbn [no_param negb] in H; cbn [crypt_init_evs sign_init_evs];
    repeat match goal with
    | |- context [(ko_type ko =? ?t)%Z] => destruct (ko_type ko =? t)%Z; cbn [negb andb] in *
    | |- context [if ?b then _ else _] => destruct b eqn:?; cbn [negb andb] in *
    end; inv_step; inv_pair; cbn [o_rv fail os_mech set_params set_part init_done fdos fdo fst snd given hands];
    (split; intros Q; try (exfalso; first [discriminate Q|apply Q; reflexivity]); split; try reflexivity);
    try (destruct label; reflexivity); try (destruct aad; reflexivity).
  all: cbn [negb] in *; congruence.
Qed.

(** Flags against what is owed, outside the Init calls. *)
Lemma data_flags st c o f : is_init c = false -> 
  (fst f = true -> os_mech st = M_RSA_OAEP \/ os_mech st = M_AES_GCM) -> (snd f = true -> os_mech st = M_AES_GCM) ->
  owed (os_mech st) f c o = (os_mech st, fdos f (evs st c o)).
Proof.
  intros I G E. destruct f as [g e]. unfold owed. rewrite I. cbn [fst snd] in *.
  destruct c; try discriminate I; cbn [Bufs.evs];
    try (destruct (os_mech st); try reflexivity;
      change (passed b o) with (ran b o); destruct (ran b o), g, e; cbn [andb negb orb fdos fdo fst snd];
      try reflexivity; destruct (o_rv o =? CKR_OK)%Z; reflexivity).
  destruct (os_mech st) eqn:M; cbn [fdos fdo fst snd]; try reflexivity;
    destruct g, e; cbn [fdo fst snd]; try reflexivity; exfalso;
    try (specialize (E eq_refl); discriminate E); specialize (G eq_refl); destruct G; discriminate.
Qed.

(** The events outside the Init calls write nothing over. *)
Lemma data_evs st c o e : is_init c = false -> In e (evs st c o) -> e <> HLose /\ e <> HTakeBuf.
Proof.
  intros I J. destruct c; try discriminate I; cbn [Bufs.evs] in J; try contradiction;
    destruct (os_mech st); try contradiction; try destruct (ran b o); try destruct (andb _ _); cbn in J;
    repeat (destruct J as [<-|J]; [split; discriminate|]); contradiction.
Qed.

Lemma hdos_count l : forall h h', hok h -> hdos h l = Ok h' ->
  (forall e, In e l -> e <> HLose /\ e <> HTakeBuf) ->
  length (h_live h) = is_held (flags h) -> length (h_live h') = is_held (flags h').
Proof.
  induction l as [|e l IH]; intros h h' K E L C; cbn [hdos] in E; [injection E as <-; exact C|].
  destruct (hdo_ok h e K) as (h1 & E1 & K1 & _). rewrite E1 in E. cbn [bind] in E.
  apply (IH h1 h' K1 E); [intros x J; apply L; right; exact J|].
  apply (hdo_count e h h1 K E1); [|exact C]. destruct (L e (or_introl eq_refl)). intros [Q|Q]; contradiction.
Qed.
Lemma init_evs_form c st o : is_init c = true ->
  evs st c o = [] \/ evs st c o = [HLose] \/ evs st c o = [HLose; HTakeBuf].
Proof.
  intros I. destruct c; try discriminate I; cbn [Bufs.evs]; (destruct (objs k) as [ko|]; [|auto]);
    destruct m; cbn [crypt_init_evs sign_init_evs]; auto; destruct mp; auto;
    repeat match goal with |- context [if ?b then _ else _] => destruct b end; auto;
    try (destruct label; cbn; auto); destruct aad; cbn; auto.
Qed.

Lemma count_init st h c o h' : hok h -> is_init c = true -> flags h = (false, false) -> h_live h = [] ->
  hdos h (evs st c o) = Ok h' -> length (h_live h') = is_held (flags h').
Proof.
  intros K I F L E. destruct (init_evs_form c st o I) as [Q|[Q|Q]]; rewrite Q in E; cbn [hdos hdo bind] in E; injection E as <-.
  - rewrite F, L. reflexivity.
  - cbn [h_live]. rewrite L. reflexivity.
  - cbn [h_live length]. rewrite L. reflexivity.
Qed.

(** History-level invariant. *)
Lemma consumes_run cs : forall st h st' h' os,
  hok h -> agree (os_params st) (flags h) -> length (h_live h) = is_held (flags h) ->
  (fst (flags h) = true -> os_mech st = M_RSA_OAEP \/ os_mech st = M_AES_GCM) ->
  (snd (flags h) = true -> os_mech st = M_AES_GCM) ->
  brun st h cs = Ok (st', h', os) -> consumes (os_mech st) (flags h) (combine cs os) ->
  length (h_live h') = is_held (flags h') /\ flags h' = owing (os_mech st) (flags h) (combine cs os).
Proof.
  induction cs as [|c cs IH]; intros st h st' h' os K A C G E R D; cbn [Bufs.brun] in R.
  - injection R as <- <- <-. split; [exact C|reflexivity].
  - destruct (bstep ev objs st h c) as [[[st1 h1] o]| |] eqn:B; cbn [bind] in R; try discriminate.
    destruct (brun st1 h1 cs) as [[[st2 h2] os2]| |] eqn:B2; cbn [bind] in R; try discriminate. injection R as <- <- <-.
    unfold bstep in B. destruct (step st c) as [[st1' o']| |] eqn:S; cbn [bind] in B; try discriminate.
    destruct (hdos h (evs st c o')) as [h1'| |] eqn:Hd; cbn [bind] in B; try discriminate. injection B as -> -> ->.
    cbn [combine consumes owing] in *. destruct D as [D1 D2].
    destruct (hdos_ok (evs st c o) h K) as (h1' & X1 & K1 & F1). rewrite X1 in Hd. injection Hd as ->.
    assert (A1 : agree (os_params st1) (flags h1)) by (rewrite F1; destruct (is_init c) eqn:I; [eapply agree_init|eapply agree_data]; eauto).
    destruct (is_init c) eqn:I.
    + specialize (D1 eq_refl). assert (L : h_live h = []) by (rewrite D1 in C; destruct (h_live h); [reflexivity|discriminate C]).
      pose proof (count_init st h c o h1 K I D1 L X1) as C1.
      destruct (init_result st c st1 o I S) as [R1 R2]. rewrite D1 in *. unfold owed in D2 |- *. rewrite I in *.
      destruct (Z.eqb_spec (o_rv o) CKR_OK) as [Q|Q]; cbn [fst snd] in *.
      * destruct (R1 Q) as [M1 F2]. rewrite F2 in F1. rewrite <- M1, <- F1 in *. eapply IH; eauto.
        -- rewrite F1. cbn [fst]. intros Hh. rewrite M1. destruct c; try discriminate I; cbn in Hh |- *; destruct m; try discriminate Hh; auto.
        -- rewrite F1. discriminate.
      * destruct (R2 Q) as [M1 F2]. rewrite F2 in F1. rewrite <- M1, <- F1 in *. eapply IH; eauto; rewrite F1; discriminate.
    + pose proof (hdos_count _ h h1 K X1 (fun e => data_evs st c o e I) C) as C1.
      rewrite (data_flags st c o (flags h) I G E) in *. cbn [fst snd] in *. rewrite <- F1 in *.
      pose proof (mech_data st c st1 o I S) as M1. rewrite <- M1 in *.
      eapply IH; eauto.
      * intros Q. rewrite M1. clear - Q F1 G E I M1. rewrite M1 in G, E. rewrite F1 in Q.
        destruct c; try discriminate I; cbn [Bufs.evs] in Q; try (apply G; exact Q);
          destruct (os_mech st); try destruct (ran b o); try destruct (andb _ _); cbn [fdos fdo fst snd] in Q; auto; try (apply G; exact Q); discriminate Q.
      * intros Q. rewrite M1. clear - Q F1 G E I M1. rewrite M1 in G, E. rewrite F1 in Q.
        destruct c; try discriminate I; cbn [Bufs.evs] in Q; try (apply E; exact Q);
          destruct (os_mech st); try destruct (ran b o); try destruct (andb _ _); cbn [fdos fdo fst snd] in Q; auto; try (apply E; exact Q); discriminate Q.
Qed.
End P.
