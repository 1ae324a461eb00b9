(** Full statements of the operation properties that the code does not meet.
    Each is refuted in PropOps.v; the parts that do hold are the [_partial]
    theorems beside them. *)
From Verif Require Import Base Cbc CbcProofs CbcSpec Ops OpsSpec OpsCbcProofs OpsProofs.

(** C33: an accepted CBC-PAD decryption had valid PKCS#7 padding. *)
Definition C33_claim : Prop :=
  forall ev objs st k ko iv ct n st' o,
  cipher_ok (e_ci ev) ->
  objs k = Some ko -> ko_type ko = CKK_AES -> e_aes_ok ev (ko_data ko) = true ->
  length iv = 16 -> fresh st ->
  run ev objs st [KDecryptInit M_AES_CBC_PAD (MPraw iv) k; KDecrypt [] ct (Buf n)] =
    Ok (st', [ok0; o]) ->
  o_rv o = CKR_OK ->
  exists bs m, are_blocks bs /\ ct = concat bs /\
    pkcs7 m (concat (spec_cbc_dec (ci_D (e_ci ev) (ko_data ko)) iv bs)).

(** C34: nothing is written past the caller's buffer; a query tells enough. *)
Definition C34_claim : Prop :=
  forall ev objs cs st os c n st' o,
  env_sizes ev -> run ev objs op_zero cs = Ok (st, os) -> out_arg c = Some (Buf n) ->
  (0 <= n)%Z -> (zlen (in_data c) < 2^31)%Z ->
  step ev objs st c = Ok (st', o) -> (zlen (o_out o) <= n)%Z.
Definition C34_query_claim : Prop :=
  forall ev objs cs st os c b0 st1 q st2 o,
  env_sizes ev -> objs_ok objs -> run ev objs op_zero cs = Ok (st, os) -> out_arg c = Some b0 ->
  (zlen (in_data c) < 2^31)%Z ->
  step ev objs st (with_out c Query) = Ok (st1, q) -> o_rv q = CKR_OK ->
  step ev objs st (with_out c (Buf (o_len q))) = Ok (st2, o) ->
  o_rv o <> CKR_BUFFER_TOO_SMALL /\ (zlen (o_out o) <= o_len q)%Z.

(** C36: any chunking of a multi-part GCM encryption gives the one-shot result. *)
Definition C36_claim : Prop :=
  forall ev objs st k iv aad tb cbs nf no st1 o1,
  env_sizes ev ->
  Forall (fun cb => (zlen (fst cb) <= snd cb < 2^31)%Z) cbs -> (16 <= nf < 2^32)%Z ->
  run ev objs st [KEncryptInit M_AES_GCM (MPgcm iv aad tb) k;
                  KEncrypt [] (concat (map fst cbs)) (Buf no)] = Ok (st1, [ok0; o1]) ->
  o_rv o1 = CKR_OK ->
  exists st2 outs,
    run ev objs st (KEncryptInit M_AES_GCM (MPgcm iv aad tb) k :: enc_upds cbs ++ [KEncryptFinal (Buf nf)])
      = Ok (st2, outs) /\ concat (map o_out outs) = o_out o1.

(** C37: at most one C_Encrypt per C_EncryptInit encrypts a message. *)
Definition encrypted (co : call * outc) : bool :=
  match fst co with
  | KEncrypt _ (_ :: _) (Buf _) => (o_rv (snd co) =? CKR_OK)%Z
  | _ => false
  end.
Definition C37_claim : Prop :=
  forall ev objs st k iv aad tb cs st' os,
  run ev objs st (KEncryptInit M_AES_GCM (MPgcm iv aad tb) k :: cs) = Ok (st', ok0 :: os) ->
  Forall (fun c => data_kind c <> None) cs ->
  length (filter encrypted (combine cs os)) <= 1.

(** C38: a finished operation needs a new Init, for every mechanism. *)
Definition C38_claim : Prop :=
  forall ev objs cs st os fin st1 o1 nxt,
  run ev objs op_zero cs = Ok (st, os) ->
  finishing fin = true -> step ev objs st fin = Ok (st1, o1) -> o_rv o1 = CKR_OK ->
  data_kind nxt = data_kind fin ->
  exists o2, step ev objs st1 nxt = Ok (st1, o2) /\
             o_rv o2 = CKR_OPERATION_NOT_INITIALIZED /\ o_out o2 = [].

(** C39: outcomes after a successful Init do not depend on the session's past. *)
Definition C39_claim : Prop :=
  forall ev objs h1 h2 s t os1 os2 ci m cs s' o os,
  run ev objs op_zero h1 = Ok (s, os1) -> run ev objs op_zero h2 = Ok (t, os2) ->
  init_mech ci = Some m -> Forall (fun c => data_kind c <> None) cs ->
  run ev objs s (ci :: cs) = Ok (s', o :: os) -> o_rv o = CKR_OK ->
  exists t', run ev objs t (ci :: cs) = Ok (t', o :: os).

(** C64: a refused Init does not disturb a running operation. *)
Definition C64_claim : Prop :=
  forall ev objs cs st os c kd st' o d kd' x,
  run ev objs op_zero cs = Ok (st, os) ->
  init_kind c = Some kd -> step ev objs st c = Ok (st', o) -> o_rv o <> CKR_OK ->
  data_kind d = Some kd' -> step ev objs st d = Ok x ->
  exists y, step ev objs st' d = Ok (y, snd x).

(** C65: the length reported by a successful call is the number of bytes written. *)
Definition C65_claim : Prop :=
  forall ev objs cs st os c n st' o,
  env_sizes ev ->
  run ev objs op_zero cs = Ok (st, os) -> out_arg c = Some (Buf n) -> (zlen (in_data c) < 2^31)%Z ->
  step ev objs st c = Ok (st', o) -> o_rv o = CKR_OK -> o_len o = zlen (o_out o).
