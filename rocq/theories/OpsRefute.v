(** Counterexamples, all in the environment of ToyEnv.v. *)
From Verif Require Import Base Cbc CbcProofs CbcSpec Ops OpsSpec OpsCbcProofs OpsProofs ToyEnv OpsClaims.

Lemma pkcs7_last m p : pkcs7 m p -> exists k, 1 <= k <= 16 /\ last p 0%N = N.of_nat k.
Proof.
  intros (k & Hk & -> & _). exists k. split; [exact Hk|].
  destruct k as [|k]; [lia|].
  change (repeat (N.of_nat (S k)) (S k)) with (N.of_nat (S k) :: repeat (N.of_nat (S k)) k).
  rewrite repeat_cons.  rewrite app_assoc, last_last. reflexivity.
Qed.

Lemma one_block bs x : are_blocks bs -> length x = 16 -> x = concat bs -> bs = [x].
Proof.
  intros H L ->. destruct H as [|b bs Hb H]; [discriminate|].
  cbn [concat] in *. rewrite app_length, Hb in L.
  destruct H as [|c bs Hc _]; [cbn; rewrite app_nil_r; reflexivity|].
  cbn [concat] in L. rewrite app_length, Hc in L. lia.
Qed.

Definition zeros16 : list N := repeat 0%N 16.
Definition bad_ct : list N := toy_E (repeat 33%N 16) (xor16 zeros16 toy_iv).

(** One block that decrypts to 16 zero bytes is accepted. *)
Lemma C33_refute : ~ C33_claim.
Proof.
  intros C.
  destruct (C toy toy_objs op_zero 0 aes_key1 toy_iv bad_ct 16%Z
    (match run toy toy_objs op_zero [KDecryptInit M_AES_CBC_PAD (MPraw toy_iv) 0; KDecrypt [] bad_ct (Buf 16)]
     with Ok (s, _) => s | _ => op_zero end) (mkOut CKR_OK 16 zeros16))
    as (bs & m & B1 & B2 & B3);
    try reflexivity; try exact toy_cipher_ok; try (split; reflexivity).
  apply one_block in B2; [|exact B1|reflexivity]. subst bs.
  apply pkcs7_last in B3. destruct B3 as (k & Hk & E). vm_compute in E. destruct k; [lia|discriminate].
Qed.

(** C_Encrypt with CBC-PAD of 16 bytes into 16 bytes writes 32. *)
Lemma C34_refute : ~ C34_claim.
Proof.
  intros C.
  epose proof (C toy toy_objs [KEncryptInit M_AES_CBC_PAD (MPraw toy_iv) 0] _ _
    (KEncrypt [] zeros16 (Buf 16)) 16%Z _ _ toy_sizes eq_refl eq_refl ltac:(lia)) as H.
  specialize (H ltac:(vm_compute; reflexivity) eq_refl). vm_compute in H. apply H. reflexivity.
Qed.
Lemma toy_objs_ok : objs_ok toy_objs.
Proof.
  intros i k E. destruct i as [|[|[|[|i]]]]; cbn in E; try discriminate; injection E as <-; cbn; lia.
Qed.
Lemma C34_query_refute : ~ C34_query_claim.
Proof.
  intros C.
  epose proof (C toy toy_objs [KEncryptInit M_AES_CBC_PAD (MPraw toy_iv) 0] _ _
    (KEncrypt [] zeros16 Query) _ _ _ _ _ toy_sizes toy_objs_ok eq_refl eq_refl
    ltac:(vm_compute; reflexivity) eq_refl eq_refl eq_refl) as H.
  destruct H as [_ H]. vm_compute in H. apply H. reflexivity.
Qed.

Lemma C36_refute : ~ C36_claim.
Proof.
  intros C.
  assert (F : Forall (fun cb : list N * Z => (zlen (fst cb) <= snd cb < 2^31)%Z) [([1%N], 20%Z); ([2%N], 20%Z)])
    by (repeat apply Forall_cons; try apply Forall_nil; split; vm_compute; [discriminate|reflexivity|discriminate|reflexivity]).
  destruct (C toy toy_objs op_zero 0 (repeat 3%N 12) None 128%Z _ 16%Z 32%Z _ _ toy_sizes F
    ltac:(lia) eq_refl eq_refl) as (s2 & outs & R & E).
  vm_compute in R. injection R as <- <-. vm_compute in E. discriminate.
Qed.

Lemma C37_refute : ~ C37_claim.
Proof.
  intros C.
  epose proof (C toy toy_objs op_zero 0 (repeat 3%N 12) None 128%Z
    [KEncrypt [] [1%N] (Buf 32); KEncrypt [] [2%N] (Buf 32)] _ _ eq_refl) as H.
  specialize (H ltac:(repeat constructor; discriminate)). vm_compute in H. lia.
Qed.

Lemma C38_refute : ~ C38_claim.
Proof.
  intros C.
  destruct (C toy toy_objs [KEncryptInit M_RSA_PKCS MPnull 2] _ _ (KEncrypt [] [1%N] (Buf 4)) _ _
    (KEncrypt [] [2%N] (Buf 4)) eq_refl eq_refl eq_refl eq_refl eq_refl) as (o2 & S & R & _).
  vm_compute in S. injection S as <-. discriminate R.
Qed.

(** An unfinished CBC operation leaves its partial block to the next one. *)
Lemma C39_refute : ~ C39_claim.
Proof.
  intros C.
  assert (F : Forall (fun c => data_kind c <> None) [KEncryptUpdate zeros16 (Buf 32)])
    by (repeat constructor; discriminate).
  destruct (C toy toy_objs [] [KEncryptInit M_AES_CBC (MPraw toy_iv) 0; KEncryptUpdate [7; 7; 7]%N (Buf 16)]
    _ _ _ _ (KEncryptInit M_AES_CBC (MPraw toy_iv) 0) M_AES_CBC [KEncryptUpdate zeros16 (Buf 32)]
    _ _ _ eq_refl eq_refl eq_refl F eq_refl eq_refl) as (t' & R).
  vm_compute in R. discriminate.
Qed.

(** A refused OAEP Init turns the next CBC Update into a use of garbage. *)
Lemma C64_refute : ~ C64_claim.
Proof.
  intros C.
  destruct (C toy toy_objs [KEncryptInit M_AES_CBC (MPraw toy_iv) 0] _ _
    (KEncryptInit M_RSA_OAEP (MPoaep true 0 0 None) 2) KdEnc _ _ (KEncryptUpdate zeros16 (Buf 32)) KdEnc _
    eq_refl eq_refl eq_refl ltac:(discriminate) eq_refl eq_refl) as (y & R).
  vm_compute in R. discriminate.
Qed.

(** C_EncryptFinal with CBC-PAD leaves the caller's length, here 20 for 16 bytes. *)
Lemma C65_refute : ~ C65_claim.
Proof.
  intros C.
  epose proof (C toy toy_objs [KEncryptInit M_AES_CBC_PAD (MPraw toy_iv) 0] _ _
    (KEncryptFinal (Buf 20)) 20%Z _ _ toy_sizes eq_refl eq_refl ltac:(vm_compute; reflexivity) eq_refl eq_refl) as H.
  vm_compute in H. discriminate.
Qed.
