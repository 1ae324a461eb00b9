(** Properties C31-C41, C60 (Init calls), C64, C65 of the cryptographic
    operations of a session. Model: Ops.v, Cbc.v. *)
From Verif Require Import Base Cbc CbcProofs CbcSpec Ops OpsSpec OpsCbcProofs OpsProofs
  OpsProofs2 OpsProofs3 OpsProofs4 OpsFinal ToyEnv OpsClaims OpsRefute OpsPadExact.

(** ** C31 *)
Theorem C31_encrypt ev objs st k ko iv blks cbs nf n :
  cipher_ok (e_ci ev) ->
  objs k = Some ko -> ko_type ko = CKK_AES -> e_aes_ok ev (ko_data ko) = true ->
  length iv = 16 -> fresh st ->
  are_blocks blks -> concat (map fst cbs) = concat blks -> fits cbs ->
  (zlen (concat blks) <= n < 2^32)%Z ->
  let ct := concat (spec_cbc_enc (ci_E (e_ci ev) (ko_data ko)) iv blks) in
  (exists st' outs,
    run ev objs st (KEncryptInit M_AES_CBC (MPraw iv) k :: enc_upds cbs ++ [KEncryptFinal (Buf nf)])
      = Ok (st', outs) /\ Forall good outs /\ concat (map o_out outs) = ct) /\
  (exists st',
    run ev objs st [KEncryptInit M_AES_CBC (MPraw iv) k; KEncrypt [] (concat blks) (Buf n)] =
    Ok (st', [ok0; mkOut CKR_OK (zlen ct) ct])).
Proof. exact (C31_enc_lemma ev objs st k ko iv blks cbs nf n). Qed.
Print Assumptions C31_encrypt.

Theorem C31_decrypt ev objs st k ko iv blks cbs nf n :
  (forall b, length b = 16 -> length (ci_D (e_ci ev) (ko_data ko) b) = 16) ->
  objs k = Some ko -> ko_type ko = CKK_AES -> e_aes_ok ev (ko_data ko) = true ->
  length iv = 16 -> fresh st ->
  are_blocks blks -> concat (map fst cbs) = concat blks -> fits cbs ->
  (zlen (concat blks) <= n < 2^32)%Z ->
  let pt := concat (spec_cbc_dec (ci_D (e_ci ev) (ko_data ko)) iv blks) in
  (exists st' outs,
    run ev objs st (KDecryptInit M_AES_CBC (MPraw iv) k :: dec_upds cbs ++ [KDecryptFinal (Buf nf)])
      = Ok (st', outs) /\ Forall good outs /\ concat (map o_out outs) = pt) /\
  (exists st',
    run ev objs st [KDecryptInit M_AES_CBC (MPraw iv) k; KDecrypt [] (concat blks) (Buf n)] =
    Ok (st', [ok0; mkOut CKR_OK (zlen pt) pt])).
Proof. exact (C31_dec_lemma ev objs st k ko iv blks cbs nf n). Qed.
Print Assumptions C31_decrypt.

(** Sessions meeting [fresh]: any history without a successful CBC Init ... *)
Theorem C31_fresh_history ev objs cs st os :
  (forall h q, e_hmac_tail ev h q = q) ->
  run ev objs op_zero cs = Ok (st, os) ->
  Forall (fun co => forall m, init_mech (fst co) = Some m -> cbc_mech m = true ->
                    o_rv (snd co) <> CKR_OK) (combine cs os) ->
  fresh st.
Proof. exact (fun Ht R F => proj1 (fresh_run ev objs cs st os op_zero Ht (conj eq_refl eq_refl) eq_refl R F)). Qed.
Print Assumptions C31_fresh_history.

(** ... and any state just after a successful C_EncryptFinal/C_DecryptFinal of CBC. *)
Theorem C31_fresh_final ev objs cs st os c n st' o :
  env_sizes ev ->
  run ev objs op_zero cs = Ok (st, os) -> cbc_mech (last_mech (M_OTHER 0) (combine cs os)) = true ->
  c = KEncryptFinal (Buf n) \/ c = KDecryptFinal (Buf n) ->
  step ev objs st c = Ok (st', o) -> o_rv o = CKR_OK -> fresh st'.
Proof. exact (fresh_final ev objs cs st os c n st' o). Qed.
Print Assumptions C31_fresh_final.

(** Example: 32 bytes in pieces of 5, 20, 7. *)
Definition msg32 : list N := map N.of_nat (seq 100 32).
Example C31_case :
  let cbs := [(firstn 5 msg32, 40%Z); (firstn 20 (skipn 5 msg32), 40%Z); (skipn 25 msg32, 40%Z)] in
  fresh op_zero /\ are_blocks [firstn 16 msg32; skipn 16 msg32] /\
  concat (map fst cbs) = concat [firstn 16 msg32; skipn 16 msg32] /\ fits cbs /\
  option_map (fun x => map o_out (snd x))
    (match run toy toy_objs op_zero (KEncryptInit M_AES_CBC (MPraw toy_iv) 0 :: enc_upds cbs ++ [KEncryptFinal (Buf 0)])
     with Ok x => Some x | _ => None end) =
  Some [[]; []; firstn 16 (toy_E (repeat 33%N 16) (xor16 (firstn 16 msg32) toy_iv));
        toy_E (repeat 33%N 16) (xor16 (skipn 16 msg32) (toy_E (repeat 33%N 16) (xor16 (firstn 16 msg32) toy_iv))); []].
Proof.
  cbv zeta. split; [split; reflexivity|]. split; [repeat constructor|]. split; [reflexivity|].
  split; [|vm_compute; reflexivity].
  repeat apply Forall_cons; try apply Forall_nil; unfold zlen; vm_compute; intuition discriminate.
Qed.

(** ** C32 *)
Theorem C32_encrypt ev objs st k ko iv cbs nf ct n rnd :
  objs k = Some ko -> ko_type ko = CKK_AES -> e_aes_ok ev (ko_data ko) = true ->
  length iv = 16 -> fresh st -> fits cbs -> (16 <= nf < 2^32)%Z ->
  let msg := concat (map fst cbs) in
  (zlen msg < 2^31)%Z -> (zlen msg <= n < 2^32)%Z ->
  cbcpad_spec (ci_E (e_ci ev) (ko_data ko)) iv msg ct ->
  (exists st' outs,
    run ev objs st (KEncryptInit M_AES_CBC_PAD (MPraw iv) k :: enc_upds cbs ++ [KEncryptFinal (Buf nf)])
      = Ok (st', outs) /\ Forall okrv outs /\ concat (map o_out outs) = ct) /\
  (exists st',
    run ev objs st [KEncryptInit M_AES_CBC_PAD (MPraw iv) k; KEncrypt rnd msg (Buf n)] =
    Ok (st', [ok0; mkOut CKR_OK (zlen ct) ct])).
Proof. exact (C32_enc_lemma ev objs st k ko iv cbs nf ct n rnd). Qed.
Print Assumptions C32_encrypt.

Theorem C32_decrypt ev objs st k ko iv cbs nf msg n rnd :
  cipher_ok (e_ci ev) ->
  objs k = Some ko -> ko_type ko = CKK_AES -> e_aes_ok ev (ko_data ko) = true ->
  length iv = 16 -> fresh st -> fits cbs ->
  let ct := concat (map fst cbs) in
  (zlen ct < 2^31)%Z ->
  cbcpad_spec (ci_E (e_ci ev) (ko_data ko)) iv msg ct ->
  (exists st' outs,
    run ev objs st (KDecryptInit M_AES_CBC_PAD (MPraw iv) k :: dec_upds cbs ++ [KDecryptFinal (Buf nf)])
      = Ok (st', outs) /\ Forall good outs /\ concat (map o_out outs) = msg) /\
  (exists st',
    run ev objs st [KDecryptInit M_AES_CBC_PAD (MPraw iv) k; KDecrypt rnd ct (Buf n)] =
    Ok (st', [ok0; mkOut CKR_OK (zlen msg) msg])).
Proof. exact (C32_dec_lemma ev objs st k ko iv cbs nf msg n rnd). Qed.
Print Assumptions C32_decrypt.

(** Every message has a reference ciphertext, so the two theorems compose to
    the round trip. *)
Theorem C32_spec_total ev key iv msg : exists ct, cbcpad_spec (ci_E (e_ci ev) key) iv msg ct.
Proof. exact (cbcpad_spec_total ev (fun _ => None) key iv msg). Qed.
Print Assumptions C32_spec_total.

Definition outs_of (r : res (opst * list outc)) : list outc := match r with Ok (_, l) => l | _ => [] end.
Example C32_case :
  let ct := o_out (nth 1 (outs_of (run toy toy_objs op_zero
      [KEncryptInit M_AES_CBC_PAD (MPraw toy_iv) 0; KEncrypt [] (firstn 21 msg32) (Buf 32)])) ok0) in
  length ct = 32 /\
  concat (map o_out (outs_of (run toy toy_objs op_zero
    (KDecryptInit M_AES_CBC_PAD (MPraw toy_iv) 0 ::
     dec_upds [(firstn 3 ct, 18%Z); (skipn 3 ct, 44%Z)] ++ [KDecryptFinal (Buf 16)])))) = firstn 21 msg32.
Proof. vm_compute. split; reflexivity. Qed.

(** ** C33: false (padding is not checked) *)
Theorem C33_refuted : ~ C33_claim.
Proof. exact C33_refute. Qed.
Print Assumptions C33_refuted.

(** Only the length is checked, and only by the multi-part calls. *)
Theorem C33_partial ev objs st k ko iv cbs nf :
  objs k = Some ko -> ko_type ko = CKK_AES -> e_aes_ok ev (ko_data ko) = true ->
  length iv = 16 -> fresh st -> fits cbs ->
  (length (concat (map fst cbs)) = 0 \/ length (concat (map fst cbs)) mod 16 <> 0) ->
  exists st' outs,
    run ev objs st (KDecryptInit M_AES_CBC_PAD (MPraw iv) k :: dec_upds cbs ++ [KDecryptFinal (Buf nf)])
      = Ok (st', outs ++ [mkOut CKR_DATA_LEN_RANGE nf []]) /\
    Forall good outs.
Proof. exact (C33_lemma ev objs st k ko iv cbs nf). Qed.
Print Assumptions C33_partial.

(** Every other ciphertext is accepted, whatever it decrypts to, by the
    multi-part calls under any chunking and by C_Decrypt; what is delivered is
    the CBC plain text without its last k bytes, where k is the last byte if
    this is at most 16 and else 0 ([stripped]).  On valid padding this is the
    message ([C33_valid_partial]). *)
Theorem C33_exact_partial ev objs st k ko iv bs b cbs nf n rnd :
  (forall x, length x = 16 -> length (ci_D (e_ci ev) (ko_data ko) x) = 16) ->
  objs k = Some ko -> ko_type ko = CKK_AES -> e_aes_ok ev (ko_data ko) = true ->
  length iv = 16 -> fresh st -> fits cbs ->
  are_blocks (bs ++ [b]) -> concat (map fst cbs) = concat (bs ++ [b]) ->
  (zlen (concat (bs ++ [b])) < 2^31)%Z ->
  let pt := concat (spec_cbc_dec (ci_D (e_ci ev) (ko_data ko)) iv (bs ++ [b])) in
  exists out, stripped pt out /\
  (exists st' outs,
    run ev objs st (KDecryptInit M_AES_CBC_PAD (MPraw iv) k :: dec_upds cbs ++ [KDecryptFinal (Buf nf)])
      = Ok (st', outs) /\ Forall good outs /\ concat (map o_out outs) = out) /\
  (exists st',
    run ev objs st [KDecryptInit M_AES_CBC_PAD (MPraw iv) k; KDecrypt rnd (concat (bs ++ [b])) (Buf n)] =
    Ok (st', [ok0; mkOut CKR_OK (zlen out) out])).
Proof.
  intros HD Hk Ht Ha Hl Hf Hfit Hb Hc Hz pt.
  destruct (pad_stream_any ev objs st k ko iv bs b cbs nf HD Hk Ht Ha Hl Hf Hfit Hb Hc)
    as (st1 & outs & R & G & S1).
  destruct (pad_oneshot_any ev objs st k ko iv bs b n rnd HD Hk Ht Ha Hl Hf Hb Hz) as (st2 & out & R2 & S2).
  exists out. split; [exact S2|]. split; [|exists st2; exact R2].
  exists st1, outs. split; [exact R|]. split; [exact G|]. exact (stripped_unique _ _ _ S1 S2).
Qed.
Print Assumptions C33_exact_partial.

Theorem C33_valid_partial m p out : pkcs7 m p -> stripped p out -> out = m.
Proof. intros P S. exact (stripped_unique _ _ _ S (stripped_pkcs7 m p P)). Qed.
Print Assumptions C33_valid_partial.

(** Three plain texts: good padding, a count with wrong bytes before it, no count. *)
Example C33_exact_case :
  stripped (repeat 7 14 ++ [2; 2])%N (repeat 7 14)%N /\
  stripped (repeat 7 15 ++ [5])%N (repeat 7 11)%N /\
  stripped (repeat 7 15 ++ [17])%N (repeat 7 15 ++ [17])%N.
Proof.
  split; [|split].
  - exists 2%N, [2; 2]%N. split; [reflexivity|]. split; [reflexivity|]. left. split; [lia|reflexivity].
  - exists 5%N, [7; 7; 7; 7; 5]%N. split; [reflexivity|]. split; [reflexivity|]. left. split; [lia|reflexivity].
  - exists 17%N, []. split; [reflexivity|]. split; [reflexivity|]. right. split; [lia|reflexivity].
Qed.

Example C33_case :
  fits [(firstn 5 msg32, 40%Z); (firstn 20 msg32, 40%Z)] /\
  length (concat (map fst [(firstn 5 msg32, 40%Z); (firstn 20 msg32, 40%Z)])) mod 16 = 9.
Proof.
  split; [|reflexivity].
  repeat apply Forall_cons; try apply Forall_nil; unfold zlen; vm_compute; intuition discriminate.
Qed.

(** ** C34: false for CBC-PAD *)
Theorem C34_refuted : ~ C34_claim.
Proof. exact C34_refute. Qed.
Print Assumptions C34_refuted.

Theorem C34_query_refuted : ~ C34_query_claim.
Proof. exact C34_query_refute. Qed.
Print Assumptions C34_query_refuted.

(** It holds for every other call. (Undefined behaviour of the multi-part GCM
    decryption cache at 2^31 bytes is reported separately.) *)
Theorem C34_partial ev objs cs st os c n :
  env_sizes ev ->
  run ev objs op_zero cs = Ok (st, os) -> out_arg c = Some (Buf n) -> (0 <= n)%Z ->
  (zlen (in_data c) < 2^31)%Z ->
  let m := last_mech (M_OTHER 0) (combine cs os) in
  pad_overrun m c = false ->
  match step ev objs st c with
  | Ok (_, o) => (zlen (o_out o) <= n)%Z
  | Undef UB_write_overflow => m = M_AES_GCM /\ exists d b, c = KDecryptUpdate d b
  | _ => True
  end.
Proof. exact (fun He => C34_lemma ev objs He cs st os c n). Qed.
Print Assumptions C34_partial.

Theorem C34_query_partial ev objs cs st os c b0 st1 q st2 o :
  env_sizes ev -> objs_ok objs -> run ev objs op_zero cs = Ok (st, os) -> out_arg c = Some b0 ->
  (zlen (in_data c) < 2^31)%Z ->
  pad_overrun (last_mech (M_OTHER 0) (combine cs os)) c = false ->
  step ev objs st (with_out c Query) = Ok (st1, q) -> o_rv q = CKR_OK ->
  step ev objs st (with_out c (Buf (o_len q))) = Ok (st2, o) ->
  o_rv o <> CKR_BUFFER_TOO_SMALL /\ (zlen (o_out o) <= o_len q)%Z.
Proof. exact (fun He => C34_query_lemma ev objs He cs st os c b0 st1 q st2 o). Qed.
Print Assumptions C34_query_partial.

Example C34_case :
  exists st os, run toy toy_objs op_zero [KEncryptInit M_AES_GCM (MPgcm (repeat 3%N 12) None 96) 0] = Ok (st, os) /\
  last_mech (M_OTHER 0) (combine [KEncryptInit M_AES_GCM (MPgcm (repeat 3%N 12) None 96) 0] os) = M_AES_GCM /\
  step toy toy_objs st (KEncrypt [] msg32 Query) = Ok (st, mkOut CKR_OK 44 []) /\
  exists st2 o, step toy toy_objs st (KEncrypt [] msg32 (Buf 44)) = Ok (st2, o) /\ zlen (o_out o) = 44%Z.
Proof. do 2 eexists. split; [reflexivity|]. split; [reflexivity|]. split; [reflexivity|]. do 2 eexists. split; reflexivity. Qed.

(** ** C35 *)
Theorem C35_multipart ev objs st k ko iv aad tb cbs n :
  objs k = Some ko -> ko_type ko = CKK_AES -> e_gcm_ok ev (ko_data ko) = true ->
  (forall key iv aad asz c t u, e_gcm_dec ev key iv aad asz c t <> Undef u) ->
  (zlen iv <= 16)%Z -> (0 <= tb <= 128)%Z ->
  (match aad with Some a => (zlen a < 2^31)%Z | None => True end) ->
  let data := concat (map fst cbs) in
  (zlen data < 2^31)%Z -> (tb / 8 <= zlen data)%Z -> (zlen data - tb / 8 <= n < 2^32)%Z ->
  exists st' outs,
    run ev objs st (KDecryptInit M_AES_GCM (MPgcm iv aad tb) k :: dec_upds cbs ++ [KDecryptFinal (Buf n)]) =
    Ok (st', outs ++ [gcm_expect (gcm_open ev (ko_data ko) iv aad tb data) n]) /\
    Forall (fun o => o = mkOut CKR_OK 0 []) outs.
Proof. exact (gcm_stream_decrypt ev objs st k ko iv aad tb cbs n). Qed.
Print Assumptions C35_multipart.

Theorem C35_oneshot ev objs st k ko iv aad tb data n rnd :
  objs k = Some ko -> ko_type ko = CKK_AES -> e_gcm_ok ev (ko_data ko) = true ->
  (forall key iv aad asz c t u, e_gcm_dec ev key iv aad asz c t <> Undef u) ->
  (zlen iv <= 16)%Z -> (0 <= tb <= 128)%Z ->
  (match aad with Some a => (zlen a < 2^31)%Z | None => True end) ->
  (zlen data < 2^31)%Z -> (tb / 8 <= zlen data)%Z -> (zlen data - tb / 8 <= n < 2^32)%Z ->
  exists st',
    run ev objs st [KDecryptInit M_AES_GCM (MPgcm iv aad tb) k; KDecrypt rnd data (Buf n)] =
    Ok (st', [mkOut CKR_OK 0 []; gcm_expect (gcm_open ev (ko_data ko) iv aad tb data) n]).
Proof. exact (gcm_oneshot_decrypt ev objs st k ko iv aad tb data n rnd). Qed.
Print Assumptions C35_oneshot.

(** In any state whatsoever a GCM decryption call outputs only what a
    successful authenticated decryption returned. *)
Theorem C35_output ev objs st c st' o :
  os_mech st = M_AES_GCM -> data_kind c = Some KdDec ->
  step ev objs st c = Ok (st', o) -> o_out o <> [] ->
  exists key iv aad asz ct tag, e_gcm_dec ev key iv aad asz ct tag = Ok (o_out o).
Proof. exact (gcm_dec_output ev objs st c st' o). Qed.
Print Assumptions C35_output.

Example C35_case :
  let iv := repeat 3%N 12 in
  let ct := o_out (nth 1 (outs_of (run toy toy_objs op_zero
      [KEncryptInit M_AES_GCM (MPgcm iv (Some [9%N]) 128) 0; KEncrypt [] (firstn 21 msg32) (Buf 64)])) ok0) in
  length ct = 37 /\
  map o_out (outs_of (run toy toy_objs op_zero (KDecryptInit M_AES_GCM (MPgcm iv (Some [9%N]) 128) 0 ::
     dec_upds [(firstn 3 ct, 18%Z); (skipn 3 ct, 44%Z)] ++ [KDecryptFinal (Buf 21)]))) = [[]; []; []; firstn 21 msg32] /\
  map o_rv (outs_of (run toy toy_objs op_zero (KDecryptInit M_AES_GCM (MPgcm iv (Some [8%N]) 128) 0 ::
     dec_upds [(firstn 3 ct, 18%Z); (skipn 3 ct, 44%Z)] ++ [KDecryptFinal (Buf 21)]))) = [0; 0; 0; CKR_FUNCTION_FAILED]%Z.
Proof. vm_compute. repeat split; reflexivity. Qed.

(** ** C36: false for two or more Updates *)
Theorem C36_refuted : ~ C36_claim.
Proof. exact C36_refute. Qed.
Print Assumptions C36_refuted.

Theorem C36_partial ev objs st k ko iv aad tb data n nf rnd no :
  env_sizes ev ->
  objs k = Some ko -> ko_type ko = CKK_AES ->
  (zlen iv <= 16)%Z -> (0 <= tb <= 128)%Z ->
  (match aad with Some a => (zlen a < 2^31)%Z | None => True end) ->
  (zlen data < 2^31)%Z -> (zlen data <= n < 2^32)%Z -> (tb / 8 <= nf < 2^32)%Z ->
  (zlen data + tb / 8 <= no < 2^32)%Z ->
  forall st1 o1,
  run ev objs st [KEncryptInit M_AES_GCM (MPgcm iv aad tb) k; KEncrypt rnd data (Buf no)] =
    Ok (st1, [mkOut CKR_OK 0 []; o1]) -> o_rv o1 = CKR_OK ->
  exists st2 o2 o3,
    run ev objs st [KEncryptInit M_AES_GCM (MPgcm iv aad tb) k; KEncryptUpdate data (Buf n);
            KEncryptFinal (Buf nf)] = Ok (st2, [mkOut CKR_OK 0 []; o2; o3]) /\
    o_rv o2 = CKR_OK /\ o_rv o3 = CKR_OK /\ o_out o2 ++ o_out o3 = o_out o1.
Proof. exact (gcm_single_update ev objs st k ko iv aad tb data n nf rnd no). Qed.
Print Assumptions C36_partial.

(** What happens instead, in every environment: each Update is a complete
    encryption of its own under the same IV, the second one without the AAD. *)
Theorem C36_each_update_restarts ev objs st k ko iv aad tb d1 d2 n1 n2 c1 t1 c2 t2 :
  let asz := match aad with Some a => zlen a | None => 0%Z end in
  objs k = Some ko -> ko_type ko = CKK_AES -> e_gcm_ok ev (ko_data ko) = true ->
  (zlen iv <= 16)%Z -> (0 <= tb <= 128)%Z ->
  (match aad with Some a => (zlen a < 2^31)%Z | None => True end) ->
  (zlen d1 <= n1 < 2^32)%Z -> (zlen d2 <= n2 < 2^32)%Z ->
  e_gcm_enc ev (ko_data ko) iv aad asz d1 (tb / 8) = Ok (c1, t1) ->
  e_gcm_enc ev (ko_data ko) iv None asz d2 (tb / 8) = Ok (c2, t2) ->
  exists st',
    run ev objs st [KEncryptInit M_AES_GCM (MPgcm iv aad tb) k; KEncryptUpdate d1 (Buf n1);
            KEncryptUpdate d2 (Buf n2)] =
    Ok (st', [mkOut CKR_OK 0 []; mkOut CKR_OK (zlen c1) c1; mkOut CKR_OK (zlen c2) c2]).
Proof. exact (gcm_update_restarts ev objs st k ko iv aad tb d1 d2 n1 n2 c1 t1 c2 t2). Qed.
Print Assumptions C36_each_update_restarts.

Example C36_case :
  exists s o1, run toy toy_objs op_zero [KEncryptInit M_AES_GCM (MPgcm (repeat 3%N 12) None 128) 0;
                  KEncrypt [] msg32 (Buf 48)] = Ok (s, [mkOut CKR_OK 0 []; o1]) /\ o_rv o1 = CKR_OK /\
  length (o_out o1) = 48.
Proof. do 2 eexists. split; [reflexivity|]. split; reflexivity. Qed.

(** ** C37: false (nothing ends a GCM operation) *)
Theorem C37_refuted : ~ C37_claim.
Proof. exact C37_refute. Qed.
Print Assumptions C37_refuted.

(** ** C38: false for RSA, ECDSA and GCM *)
Theorem C38_refuted : ~ C38_claim.
Proof. exact C38_refute. Qed.
Print Assumptions C38_refuted.

(** Proved for CBC, CBC-PAD and HMAC. *)
Theorem C38_partial ev objs cs st os fin st1 o1 nxt :
  run ev objs op_zero cs = Ok (st, os) ->
  ending (last_mech (M_OTHER 0) (combine cs os)) = true ->
  finishing fin = true -> step ev objs st fin = Ok (st1, o1) -> o_rv o1 = CKR_OK ->
  data_kind nxt = data_kind fin ->
  exists o2, step ev objs st1 nxt = Ok (st1, o2) /\
             o_rv o2 = CKR_OPERATION_NOT_INITIALIZED /\ o_out o2 = [].
Proof. exact (C38_lemma ev objs cs st os fin st1 o1 nxt). Qed.
Print Assumptions C38_partial.

(** The second half holds for all mechanisms: a size query or a too small
    buffer leaves the operation as it was. *)
Theorem C38_query_unchanged ev objs st c b st' o :
  out_arg c = Some b -> step ev objs st c = Ok (st', o) ->
  (b = Query /\ o_rv o = CKR_OK) \/ o_rv o = CKR_BUFFER_TOO_SMALL -> st' = st.
Proof. exact (query_unchanged ev objs st c b st' o). Qed.
Print Assumptions C38_query_unchanged.

Example C38_case :
  exists st os st1 o1,
  run toy toy_objs op_zero [KSignInit (M_HMAC H_SHA256) MPnull 1; KSignUpdate msg32] = Ok (st, os) /\
  ending (last_mech (M_OTHER 0) (combine [KSignInit (M_HMAC H_SHA256) MPnull 1; KSignUpdate msg32] os)) = true /\
  step toy toy_objs st (KSignFinal (Buf 32)) = Ok (st1, o1) /\ o_rv o1 = CKR_OK /\
  step toy toy_objs st (KSignFinal (Buf 31)) = Ok (st, mkOut CKR_BUFFER_TOO_SMALL 31 []).
Proof. do 4 eexists. repeat (split; [reflexivity|]). reflexivity. Qed.

(** ** C39: false for CBC *)
Theorem C39_refuted : ~ C39_claim.
Proof. exact C39_refute. Qed.
Print Assumptions C39_refuted.

Theorem C39_partial ev objs s t ci m cs s' o os :
  init_mech ci = Some m -> noncbc m = true ->
  Forall (fun c => data_kind c <> None) cs ->
  run ev objs s (ci :: cs) = Ok (s', o :: os) -> o_rv o = CKR_OK ->
  exists t', run ev objs t (ci :: cs) = Ok (t', o :: os).
Proof. exact (C39_lemma ev objs s t ci m cs s' o os). Qed.
Print Assumptions C39_partial.

Example C39_case :
  exists s, run toy toy_objs (mkOp 36 M_AES_GCM (Some 3) PClobber (repeat 7%N 16, 11))
    [KSignInit (M_HMAC H_SHA1) MPnull 1; KSignUpdate [1%N]; KSignFinal (Buf 20)] =
  Ok (s, [ok0; ok0; mkOut CKR_OK 20 (repeat 14%N 20)]).
Proof. eexists. vm_compute. reflexivity. Qed.

(** ** C40 *)
Theorem C40_own_init ev objs cs st os c kd :
  run ev objs op_zero cs = Ok (st, os) -> data_kind c = Some kd ->
  last_init None (combine cs os) <> Some kd ->
  exists o, step ev objs st c = Ok (st, o) /\ o_out o = [] /\
    (o_rv o = CKR_OPERATION_NOT_INITIALIZED \/ o_rv o = CKR_MECHANISM_INVALID).
Proof. exact (C40_lemma ev objs cs st os c kd). Qed.
Print Assumptions C40_own_init.

Example C40_case :
  exists st os, run toy toy_objs op_zero
    [KSignInit M_RSA_PKCS MPnull 2; KReopen; KEncryptInit M_RSA_PKCS MPnull 2] = Ok (st, os) /\
  last_init None (combine [KSignInit M_RSA_PKCS MPnull 2; KReopen; KEncryptInit M_RSA_PKCS MPnull 2] os) = Some KdEnc /\
  step toy toy_objs st (KSign [] [1%N] (Buf 4)) = Ok (st, mkOut CKR_OPERATION_NOT_INITIALIZED 4 []).
Proof. do 2 eexists. repeat (split; [reflexivity|]). reflexivity. Qed.

(** ** C41 *)
Theorem C41_sign_multipart ev objs st h k ko chunks n :
  objs k = Some ko -> ko_type ko = CKK_GENERIC_SECRET -> e_hmac_ok ev h (ko_data ko) = true ->
  Forall (fun c => (zlen c < 2^32)%Z) chunks -> (hmac_sz h <= n < 2^32)%Z ->
  exists st' outs,
    run ev objs st (KSignInit (M_HMAC h) MPnull k :: map KSignUpdate chunks ++ [KSignFinal (Buf n)]) =
    Ok (st', outs ++ [mkOut CKR_OK (hmac_sz h) (e_hmac ev h (ko_data ko) (concat chunks))]) /\
    Forall (fun o => o = mkOut CKR_OK 0 []) outs.
Proof. exact (hmac_stream_sign ev objs st h k ko chunks n). Qed.
Print Assumptions C41_sign_multipart.

Theorem C41_sign_oneshot ev objs st h k ko data n rnd :
  objs k = Some ko -> ko_type ko = CKK_GENERIC_SECRET -> e_hmac_ok ev h (ko_data ko) = true ->
  (zlen data < 2^32)%Z -> (hmac_sz h <= n < 2^32)%Z ->
  exists st',
    run ev objs st [KSignInit (M_HMAC h) MPnull k; KSign rnd data (Buf n)] =
    Ok (st', [mkOut CKR_OK 0 []; mkOut CKR_OK (hmac_sz h) (e_hmac ev h (ko_data ko) data)]).
Proof. exact (hmac_oneshot_sign ev objs st h k ko data n rnd). Qed.
Print Assumptions C41_sign_oneshot.

Theorem C41_verify_multipart ev objs st h k ko chunks sig :
  (forall d, zlen (e_hmac ev h (ko_data ko) d) = hmac_sz h) ->
  objs k = Some ko -> ko_type ko = CKK_GENERIC_SECRET -> e_hmac_ok ev h (ko_data ko) = true ->
  Forall (fun c => (zlen c < 2^32)%Z) chunks -> (zlen sig < 2^32)%Z ->
  exists st' outs rv,
    run ev objs st (KVerifyInit (M_HMAC h) MPnull k :: map KVerifyUpdate chunks ++ [KVerifyFinal sig]) =
    Ok (st', outs ++ [mkOut rv 0 []]) /\
    Forall (fun o => o = mkOut CKR_OK 0 []) outs /\
    (rv = CKR_OK \/ rv = CKR_SIGNATURE_INVALID) /\
    (rv = CKR_OK <-> sig = e_hmac ev h (ko_data ko) (concat chunks)).
Proof. exact (hmac_stream_verify ev objs st h k ko chunks sig). Qed.
Print Assumptions C41_verify_multipart.

Theorem C41_verify_oneshot ev objs st h k ko data sig :
  (forall d, zlen (e_hmac ev h (ko_data ko) d) = hmac_sz h) ->
  objs k = Some ko -> ko_type ko = CKK_GENERIC_SECRET -> e_hmac_ok ev h (ko_data ko) = true ->
  (zlen data < 2^32)%Z -> (zlen sig < 2^32)%Z ->
  exists st' rv,
    run ev objs st [KVerifyInit (M_HMAC h) MPnull k; KVerify data sig] =
    Ok (st', [mkOut CKR_OK 0 []; mkOut rv 0 []]) /\
    (rv = CKR_OK \/ rv = CKR_SIGNATURE_INVALID) /\
    (rv = CKR_OK <-> sig = e_hmac ev h (ko_data ko) data).
Proof. exact (hmac_oneshot_verify ev objs st h k ko data sig). Qed.
Print Assumptions C41_verify_oneshot.

Example C41_case :
  let r := outs_of (run toy toy_objs op_zero [KSignInit (M_HMAC H_SHA1) MPnull 1; KSign [] msg32 (Buf 20)]) in
  let sig := o_out (nth 1 r ok0) in
  length sig = 20 /\
  map o_rv (outs_of (run toy toy_objs op_zero
    (KVerifyInit (M_HMAC H_SHA1) MPnull 1 :: map KVerifyUpdate [firstn 9 msg32; skipn 9 msg32] ++ [KVerifyFinal sig]))) = [0; 0; 0; 0]%Z /\
  map o_rv (outs_of (run toy toy_objs op_zero
    [KVerifyInit (M_HMAC H_SHA1) MPnull 1; KVerify msg32 (firstn 19 sig)])) = [0; CKR_SIGNATURE_INVALID]%Z.
Proof. vm_compute. repeat split; reflexivity. Qed.

(** ** C60, for the Init calls of the cryptographic operations *)
Theorem C60_crypto ev objs st c st' o kd d kd' o1 :
  init_kind c = Some kd -> step ev objs st c = Ok (st', o) -> o_rv o <> CKR_OK ->
  data_kind d = Some kd' -> step ev objs st d = Ok (st, o1) -> refused o1 ->
  exists o2, step ev objs st' d = Ok (st', o2) /\ refused o2.
Proof. exact (C60_crypto_lemma ev objs st c st' o kd d kd' o1). Qed.
Print Assumptions C60_crypto.

Example C60_crypto_case :
  exists st' o, step toy toy_objs op_zero (KEncryptInit M_RSA_OAEP (MPoaep true 0 0 None) 2) = Ok (st', o) /\
  o_rv o <> CKR_OK /\ st' <> op_zero /\
  step toy toy_objs op_zero (KEncrypt [] [1%N] (Buf 4)) = Ok (op_zero, mkOut CKR_OPERATION_NOT_INITIALIZED 4 []).
Proof. do 2 eexists. split; [reflexivity|]. split; [discriminate|]. split; [discriminate|reflexivity]. Qed.

(** ** C64: false; true for the failures detected before parameters are set *)
Theorem C64_refuted : ~ C64_claim.
Proof. exact C64_refute. Qed.
Print Assumptions C64_refuted.

Theorem C64_partial ev objs st c st' o kd :
  init_kind c = Some kd -> step ev objs st c = Ok (st', o) ->
  o_rv o = CKR_OBJECT_HANDLE_INVALID \/ o_rv o = CKR_KEY_TYPE_INCONSISTENT \/
  o_rv o = CKR_MECHANISM_INVALID -> st' = st.
Proof. exact (early_failure_unchanged ev objs st c st' o kd). Qed.
Print Assumptions C64_partial.

Example C64_case :
  let st := mkOp 1 M_AES_CBC (Some 0) (PCbc (mkAes [] [])) (zero_block, 3) in
  step toy toy_objs st (KEncryptInit M_RSA_PKCS MPnull 0) = Ok (st, fail Query CKR_KEY_TYPE_INCONSISTENT).
Proof. reflexivity. Qed.

(** ** C65: false for C_EncryptFinal with CBC-PAD *)
Theorem C65_refuted : ~ C65_claim.
Proof. exact C65_refute. Qed.
Print Assumptions C65_refuted.

Theorem C65_partial ev objs cs st os c n st' o :
  env_sizes ev ->
  run ev objs op_zero cs = Ok (st, os) -> out_arg c = Some (Buf n) -> (zlen (in_data c) < 2^31)%Z ->
  len_exempt (last_mech (M_OTHER 0) (combine cs os)) c = false ->
  step ev objs st c = Ok (st', o) -> o_rv o = CKR_OK -> o_len o = zlen (o_out o).
Proof. exact (C65_lemma ev objs cs st os c n st' o). Qed.
Print Assumptions C65_partial.

Example C65_case :
  exists st os st' o, run toy toy_objs op_zero [KEncryptInit M_AES_CBC_PAD (MPraw toy_iv) 0] = Ok (st, os) /\
  len_exempt M_AES_CBC_PAD (KEncryptUpdate msg32 (Buf 40)) = false /\
  step toy toy_objs st (KEncryptUpdate msg32 (Buf 40)) = Ok (st', o) /\ o_len o = 32%Z.
Proof. do 4 eexists. repeat (split; [reflexivity|]). reflexivity. Qed.
