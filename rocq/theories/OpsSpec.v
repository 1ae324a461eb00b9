(** Vocabulary for stating properties of operation histories. Nothing here
    looks into the session state. *)
From Verif Require Import Base Cbc Ops.

Inductive kind := KdEnc | KdDec | KdSign | KdVerify.

Definition init_kind (c : call) : option kind :=
  match c with
  | KEncryptInit _ _ _ => Some KdEnc
  | KDecryptInit _ _ _ => Some KdDec
  | KSignInit _ _ _ => Some KdSign
  | KVerifyInit _ _ _ => Some KdVerify
  | _ => None
  end.

Definition data_kind (c : call) : option kind :=
  match c with
  | KEncrypt _ _ _ | KEncryptUpdate _ _ | KEncryptFinal _ => Some KdEnc
  | KDecrypt _ _ _ | KDecryptUpdate _ _ | KDecryptFinal _ => Some KdDec
  | KSign _ _ _ | KSignUpdate _ | KSignFinal _ => Some KdSign
  | KVerify _ _ | KVerifyUpdate _ | KVerifyFinal _ => Some KdVerify
  | _ => None
  end.

(** Which kind the most recent successful Init since the session was opened
    had, reading the history (calls with their outcomes) oldest first. *)
Fixpoint last_init (acc : option kind) (h : list (call * outc)) : option kind :=
  match h with
  | [] => acc
  | (c, o) :: h' =>
      last_init
        (match init_kind c with
         | Some k => if (o_rv o =? CKR_OK)%Z then Some k else acc
         | None => match c with KReopen => None | _ => acc end
         end) h'
  end.

(** Output buffer of a call that has one. *)
Definition out_arg (c : call) : option outbuf :=
  match c with
  | KEncrypt _ _ b | KEncryptUpdate _ b | KEncryptFinal b
  | KDecrypt _ _ b | KDecryptUpdate _ b | KDecryptFinal b
  | KSign _ _ b | KSignFinal b => Some b
  | _ => None
  end.

(** The same call with another output buffer. *)
Definition with_out (c : call) (b : outbuf) : call :=
  match c with
  | KEncrypt r d _ => KEncrypt r d b
  | KEncryptUpdate d _ => KEncryptUpdate d b
  | KEncryptFinal _ => KEncryptFinal b
  | KDecrypt r d _ => KDecrypt r d b
  | KDecryptUpdate d _ => KDecryptUpdate d b
  | KDecryptFinal _ => KDecryptFinal b
  | KSign r d _ => KSign r d b
  | KSignFinal _ => KSignFinal b
  | c => c
  end.

(** Input data of a call. *)
Definition in_data (c : call) : list N :=
  match c with
  | KEncrypt _ d _ | KEncryptUpdate d _ | KDecrypt _ d _ | KDecryptUpdate d _
  | KSign _ d _ | KSignUpdate d | KVerify d _ | KVerifyUpdate d => d
  | _ => []
  end.

(** Calls that finish an operation when they succeed with a real buffer. *)
Definition finishing (c : call) : bool :=
  match c with
  | KEncrypt _ _ (Buf _) | KEncryptFinal (Buf _) | KDecrypt _ _ (Buf _)
  | KDecryptFinal (Buf _) | KSign _ _ (Buf _) | KSignFinal (Buf _)
  | KVerify _ _ | KVerifyFinal _ => true
  | _ => false
  end.

(** What wolfCrypt guarantees about output sizes. *)
Record env_sizes (ev : env) : Prop := {
  es_E : forall k b, length b = 16 -> length (ci_E (e_ci ev) k b) = 16;
  es_D : forall k b, length b = 16 -> length (ci_D (e_ci ev) k b) = 16;
  es_genc : forall key iv aad asz p t c tag,
    e_gcm_enc ev key iv aad asz p t = Ok (c, tag) ->
    length c = length p /\ zlen tag = t /\ (t <= 16)%Z;
  es_gdec : forall key iv aad asz c t p,
    e_gcm_dec ev key iv aad asz c t = Ok p -> length p = length c;
  es_hmac : forall h k d, zlen (e_hmac ev h k d) = hmac_sz h;
  es_penc : forall m k p r d o, e_pk_enc ev m k p r d = Ok o -> (zlen o <= ko_len k)%Z;
  es_pdec : forall m k p r d o, e_pk_dec ev m k p r d = Ok o -> (zlen o <= ko_len k)%Z;
  es_psign : forall m k p r d o, e_pk_sign ev m k p r d = Ok o -> (zlen o <= ko_len k)%Z;
  (* the primitives themselves do not overrun buffers *)
  es_noub : (forall key iv aad asz p t u, e_gcm_enc ev key iv aad asz p t <> Undef u) /\
            (forall key iv aad asz c t u, e_gcm_dec ev key iv aad asz c t <> Undef u) /\
            (forall m k p r d u, e_pk_enc ev m k p r d <> Undef u) /\
            (forall m k p r d u, e_pk_dec ev m k p r d <> Undef u) /\
            (forall m k p r d u, e_pk_sign ev m k p r d <> Undef u);
  (* HMAC code does not reach the CBC partial block in the params union *)
  es_tail : forall h q, e_hmac_tail ev h q = q
}.

(** Mechanism of an Init call, and of the last successful Init in a history
    (a zeroed session has mechanism 0). *)
Definition init_mech (c : call) : option mech :=
  match c with
  | KEncryptInit m _ _ | KDecryptInit m _ _ | KSignInit m _ _ | KVerifyInit m _ _ => Some m
  | _ => None
  end.

Fixpoint last_mech (acc : mech) (h : list (call * outc)) : mech :=
  match h with
  | [] => acc
  | (c, o) :: h' =>
      last_mech
        (match init_mech c with
         | Some m => if (o_rv o =? CKR_OK)%Z then m else acc
         | None => acc
         end) h'
  end.

(** Mechanisms whose one-shot and final calls end the operation. *)
Definition ending (m : mech) : bool :=
  match m with M_AES_CBC | M_AES_CBC_PAD | M_HMAC _ => true | _ => false end.

(** The calls of CBC-PAD that can write past the caller's buffer. *)
Definition pad_overrun (m : mech) (c : call) : bool :=
  match m, c with
  | M_AES_CBC_PAD, KEncrypt _ _ _ => true
  | M_AES_CBC_PAD, KDecrypt _ _ _ => true
  | M_AES_CBC_PAD, KDecryptFinal _ => true
  | _, _ => false
  end.

Definition objs_ok (objs : nat -> option keyobj) : Prop :=
  forall i k, objs i = Some k -> (0 <= ko_len k < 2^32)%Z.
