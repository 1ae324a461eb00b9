(** C109: what an operation takes from the heap it gives back. *)
From Verif Require Import Base Cbc CbcProofs Ops OpsSpec OpsProofs ToyEnv Bufs BufsProofs.

(** An application that follows PKCS #11, that is, starts no operation before the last one has ended,
    finds nothing left on the heap after C_CloseSession. *)
Definition C109_claim : Prop := forall ev objs cs st h os,
  brun ev objs op_zero hp0 (cs ++ [KReopen]) = Ok (st, h, os) ->
  well_behaved false (combine (cs ++ [KReopen]) os) -> h_live h = [].

Definition labelled : mparam := MPoaep true 592 2 (Some [76; 97]%N).
Definition with_aad : mparam := MPgcm (firstn 12 toy_iv) (Some [1; 2]%N) 128.
(** A ciphertext that does not decrypt, then one that does. *)
Definition refused : list call :=
  [KDecryptInit M_RSA_OAEP labelled 2; KDecrypt [] [1; 2; 3; 4; 5]%N (Buf 4);
   KDecryptInit M_RSA_OAEP labelled 2; KDecrypt [] [1; 2; 3]%N (Buf 4)].
Theorem C109_refuted : ~ C109_claim.
Proof.
  intros C. specialize (C toy toy_objs refused).
  destruct (brun toy toy_objs op_zero hp0 (refused ++ [KReopen])) as [[[st h] os]| |] eqn:E; vm_compute in E; try discriminate E.
  injection E as <- <- <-. specialize (C _ _ _ eq_refl). clear -C. vm_compute in C.
  assert (X : [0] = @nil nat); [|discriminate X]. apply C. repeat split; discriminate.
Qed.
Print Assumptions C109_refuted.

(** The same with an empty message under AES-GCM: C_EncryptInit, C_EncryptFinal. *)
Definition empty_msg : list call :=
  [KEncryptInit M_AES_GCM with_aad 0; KEncryptFinal (Buf 16); KEncryptInit M_AES_GCM with_aad 0; KEncryptFinal (Buf 16); KReopen].
Example empty_msg_leaks :
  match brun toy toy_objs op_zero hp0 empty_msg with
  | Ok (_, h, os) => h_live h = [0] /\ map o_rv os = repeat CKR_OK 5 /\ well_behaved false (combine empty_msg os)
  | _ => False
  end.
Proof. vm_compute. repeat split; discriminate. Qed.

(** Each refused ciphertext costs a buffer: n of them, whatever the key, the label and the reason, leave
    n - 1 buffers behind that nothing will ever free. *)
Fixpoint times (n : nat) (l : list call) : list call := match n with 0 => [] | S n => l ++ times n l end.
Theorem C109_unbounded ev objs k ko h g lab ct b n e :
  objs k = Some ko -> ko_type ko = CKK_RSA -> hash_known h = true -> mgf_known g = true ->
  (ko_len ko <= u32 b)%Z ->
  e_pk_dec ev M_RSA_OAEP ko (PKoaep (mkOaep h g (Some lab) (i32 (zlen lab)))) [] (trunc32 ct) = Err e ->
  let one := [KDecryptInit M_RSA_OAEP (MPoaep true h g (Some lab)) k; KDecrypt [] ct (Buf b)] in
  exists st hp os, brun ev objs op_zero hp0 (times (S n) one ++ [KReopen]) = Ok (st, hp, os) /\
    length (h_live hp) = n /\ h_buf hp = None /\ h_enc hp = None /\
    well_behaved false (combine (times (S n) one ++ [KReopen]) os).
Proof.
  intros Hk Ht Hh Hg Hb He one.
  set (p := POaep (mkOaep h g (Some lab) (i32 (zlen lab)))).
  set (s1 := mkOp INIT_RSA_OAEP_DEC M_RSA_OAEP (Some k) p (os_part op_zero)).
  assert (One : forall st hp rest, os_part st = os_part op_zero ->
    brun ev objs st hp (one ++ rest) =
      ('(s, q, os) <- brun ev objs s1 (mkHp (Some (h_next hp)) None (h_next hp :: h_live hp) (S (h_next hp))) rest ;;
       Ok (s, q, mkOut CKR_OK 0 [] :: mkOut CKR_FUNCTION_FAILED b [] :: os))).
  { intros st hp rest P. unfold one. cbn [app Bufs.brun]. unfold bstep at 1. cbn [step]. unfold init_call. rewrite Hk.
    cbn [C_DecryptInit]. unfold oaep_init, SetOaepParams. rewrite Ht, Hh, Hg. cbn [Z.eqb CKK_RSA negb andb bind].
    cbn [Bufs.evs]. rewrite Hk. cbn [crypt_init_evs]. rewrite Ht, Hh, Hg. cbn [Z.eqb CKK_RSA negb andb bind given hdos hdo h_buf h_enc h_live h_next].
    unfold init_done. rewrite P. fold p. fold s1.
    unfold bstep at 1. cbn [step]. unfold C_Decrypt, with_obj. cbn [s1 os_curr os_mech].
    unfold pk_crypt, need_init. cbn [os_init s1]. rewrite Z.eqb_refl. unfold deref. rewrite Hk. cbn [bind].
    unfold sized. destruct (Z.ltb_spec (u32 b) (ko_len ko)); [lia|]. cbn [get_pk s1 os_params p bind]. fold p s1.
    rewrite He. cbn [bind conclude]. cbn [Bufs.evs s1 os_mech ran fail o_rv CKR_FUNCTION_FAILED CKR_OK Z.eqb Pos.eqb orb andb hdos bind].
    fold s1. match goal with |- context [brun ?a ?b ?c ?d rest] => destruct (brun a b c d rest) as [[[x y] z]| |] end; reflexivity. }
  assert (Many : forall m st hp, os_part st = os_part op_zero -> hok hp ->
    exists hp' os, brun ev objs st hp (times (S m) one ++ [KReopen]) = Ok (mkOp INIT_RSA_OAEP_DEC M_RSA_OAEP None
        (POaep (mkOaep h g None (i32 (zlen lab)))) (os_part op_zero), hp', os) /\
      length (h_live hp') = m + length (h_live hp) /\ h_buf hp' = None /\ h_enc hp' = None /\
      well_behaved false (combine (times (S m) one ++ [KReopen]) os)).
  { induction m as [|m IH]; intros st hp P K.
    all: set (hp1 := mkHp (Some (h_next hp)) None (h_next hp :: h_live hp) (S (h_next hp))).
    all: assert (K1 : hok hp1) by (destruct (hdos_ok [HLose; HTakeBuf] hp K) as (q & Q1 & Q2 & _); cbn in Q1; injection Q1 as <-; exact Q2).
    - change (times 1 one ++ [KReopen]) with (one ++ [KReopen]). rewrite One by exact P. fold hp1.
      cbn [Bufs.brun]. unfold bstep. cbn [step op_session_final s1 os_mech os_params p bind set_params]. fold p s1.
      cbn [Bufs.evs s1 os_mech]. fold s1.
      destruct (hdos_ok [HFreeBuf] hp1 K1) as (h2 & E2 & K2 & F2). rewrite E2. cbn [bind].
      destruct (hdo_ok hp1 HFreeBuf K1) as (h3 & E3 & _ & S3). cbn [hdos] in E2. rewrite E3 in E2. injection E2 as ->.
      destruct S3 as (S1 & S2 & S3). cbn [hp1 h_buf h_live length] in S3.
      eexists h2, _. split; [reflexivity|]. split; [cbn; lia|]. split; [exact S1|]. split; [exact S2|].
      cbn. repeat split; discriminate.
    - change (times (S (S m)) one ++ [KReopen]) with (one ++ (times (S m) one ++ [KReopen])). rewrite One by exact P. fold hp1.
      destruct (IH s1 hp1 eq_refl K1) as (h2 & os & E & L & B1 & B2 & W). rewrite E. cbn [bind].
      eexists h2, _. split; [reflexivity|]. split; [rewrite L; cbn [hp1 h_live length]; lia|]. split; [exact B1|]. split; [exact B2|].
      cbn [combine app well_behaved one is_init]. split; [reflexivity|]. split; [discriminate|]. exact W. }
  destruct (Many n op_zero hp0 eq_refl hok0) as (h2 & os & E & L & B1 & B2 & W).
  eexists _, h2, os. split; [exact E|]. split; [rewrite L; cbn; lia|]. split; [exact B1|]. split; [exact B2|exact W].
Qed.
Print Assumptions C109_unbounded.
Example unbounded_case : hash_known 592 = true /\ mgf_known 2 = true /\ (ko_len rsa_key1 <= u32 4)%Z /\
  e_pk_dec toy M_RSA_OAEP rsa_key1 (PKoaep (mkOaep 592 2 (Some [76; 97]%N) 2)) [] (trunc32 [1; 2; 3; 4; 5]%N) = Err BAD_FUNC_ARG.
Proof. repeat split; vm_compute; congruence. Qed.

(** In every history the heap keeps in step with the session: nothing is freed twice or after it was
    freed ([hfree] would be undefined), and each of the pointers the session holds is to a buffer of its own. *)
Theorem C109_pointers_partial ev objs cs st os : run ev objs op_zero cs = Ok (st, os) ->
  exists h, brun ev objs op_zero hp0 cs = Ok (st, h, os) /\
    (forall i, h_buf h = Some i \/ h_enc h = Some i -> In i (h_live h)) /\
    (forall i, h_buf h = Some i -> h_enc h <> Some i) /\
    (forall o, os_params st = POaep o -> (oa_label o <> None <-> h_buf h <> None)) /\
    (forall g, os_params st = PGcm g -> (g_aad g <> None <-> h_buf h <> None) /\ (g_enc g <> [] -> h_enc h <> None)).
Proof.
  intros R. destruct (brun_ok ev objs cs op_zero hp0 st os hok0 eq_refl R) as (h & B & K & A).
  exists h. split; [exact B|]. destruct K as [_ _ K3 K4 K5]. split; [intros i [Q|Q]; auto|].
  split; [intros i Q1 Q2; exact (K5 i i Q1 Q2 eq_refl)|]. split.
  - intros o E. rewrite E in A. destruct A as [A _]. cbn in A. destruct (oa_label o), (h_buf h); cbn in A; split; congruence.
  - intros g E. rewrite E in A. destruct A as [A1 A2]. cbn in A1, A2. split.
    + destruct (g_aad g), (h_buf h); cbn in A1; split; congruence.
    + intros N Q. rewrite Q in A2. apply N, A2. reflexivity.
Qed.
Print Assumptions C109_pointers_partial.

(** An application that starts no operation while the session still has a label, additional data or
    ciphertext of the last one ([consumes]) loses nothing: at any time the live buffers are those (two at
    most), and after C_CloseSession there are none. *)
Theorem C109_partial ev objs cs st os : run ev objs op_zero cs = Ok (st, os) ->
  consumes (M_OTHER 0) (false, false) (combine cs os) ->
  exists h, brun ev objs op_zero hp0 cs = Ok (st, h, os) /\
    length (h_live h) <= 2 /\
    (owing (M_OTHER 0) (false, false) (combine cs os) = (false, false) -> h_live h = []).
Proof.
  intros R D. destruct (brun_ok ev objs cs op_zero hp0 st os hok0 eq_refl R) as (h & B & K & A).
  exists h. split; [exact B|].
  destruct (consumes_run ev objs cs op_zero hp0 st h os hok0 eq_refl eq_refl) as [C F]; try discriminate; try assumption.
  split.
  - rewrite C. unfold is_held. destruct (fst (flags h)), (snd (flags h)); lia.
  - intros O. change (flags hp0) with (false, false) in F. change (os_mech op_zero) with (M_OTHER 0) in F. rewrite O in F.
    rewrite F in C. destruct (h_live h); [reflexivity|discriminate C].
Qed.
Print Assumptions C109_partial.

Theorem C109_closed_partial ev objs cs st os : run ev objs op_zero (cs ++ [KReopen]) = Ok (st, os) ->
  consumes (M_OTHER 0) (false, false) (combine (cs ++ [KReopen]) os) ->
  exists h, brun ev objs op_zero hp0 (cs ++ [KReopen]) = Ok (st, h, os) /\ h_live h = [].
Proof.
  intros R D. destruct (C109_partial ev objs (cs ++ [KReopen]) st os R D) as (h & B & _ & L).
  exists h. split; [exact B|]. apply L. clear - R.
  assert (G : forall cs os m f st0 st, run ev objs st0 (cs ++ [KReopen]) = Ok (st, os) ->
    owing m f (combine (cs ++ [KReopen]) os) = (false, false)); [|exact (G cs os _ _ _ _ R)].
  clear. induction cs as [|c cs IH]; intros os m f st0 st R; cbn [app run] in R.
  - destruct (step ev objs st0 KReopen) as [[s1 o]| |]; cbn [bind] in R; try discriminate. injection R as <- <-.
    cbn [app combine owing]. unfold owed. destruct f as [g e]. cbn [is_init]. destruct m; reflexivity.
  - destruct (step ev objs st0 c) as [[s1 o]| |]; cbn [bind] in R; try discriminate.
    destruct (run ev objs s1 (cs ++ [KReopen])) as [[s2 os2]| |] eqn:E; cbn [bind] in R; try discriminate. injection R as <- <-.
    cbn [app combine owing]. eapply IH. exact E.
Qed.
Print Assumptions C109_closed_partial.

(** Two operations that use what they are given, and a session closed in the middle of a third. *)
Definition tidy : list call :=
  [KEncryptInit M_AES_GCM with_aad 0; KEncryptUpdate [5; 6]%N (Buf 2); KEncryptFinal (Buf 16);
   KDecryptInit M_RSA_OAEP labelled 2; KDecrypt [] [1; 2; 3]%N (Buf 4);
   KDecryptInit M_AES_GCM with_aad 0; KDecryptUpdate [5; 6]%N (Buf 16); KDecryptUpdate [7]%N (Buf 16)].
Example tidy_ok :
  match brun toy toy_objs op_zero hp0 tidy, brun toy toy_objs op_zero hp0 (tidy ++ [KReopen]) with
  | Ok (_, h, os), Ok (_, h', os') =>
      consumes (M_OTHER 0) (false, false) (combine tidy os) /\ h_live h = [3; 2] /\ map o_rv os = repeat CKR_OK 8 /\
      consumes (M_OTHER 0) (false, false) (combine (tidy ++ [KReopen]) os') /\ h_live h' = []
  | _, _ => False
  end.
Proof. vm_compute. repeat split; discriminate. Qed.
