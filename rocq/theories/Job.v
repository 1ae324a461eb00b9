(** Reference machine for encryption, decryption, signing and verification (C122). It sees calls and answers only: for
    every session handle which operation was begun last and whether it goes on. It knows nothing of keys, data,
    parameters or of the contents of the library. It says what this library does; where that is not what PKCS#11 asks
    for, see C34, C38 and C39. *)
From Verif Require Import Base Ops Object Store Sys LoginProofs PropSys1 PropSys2 Device Table Seek.

(** ** The calls: what they do and whether with all data, with a part of it, or with the end. *)
Inductive dir := JEnc | JDec | JSign | JVerify.
Inductive form := One | Part | Last.
Definition dir_eqb (a b : dir) : bool := match a, b with JEnc, JEnc | JDec, JDec | JSign, JSign | JVerify, JVerify => true | _, _ => false end.
Definition begin_call (c : call) : option (dir * mech) :=
  match c with
  | KEncryptInit m _ _ => Some (JEnc, m) | KDecryptInit m _ _ => Some (JDec, m)
  | KSignInit m _ _ => Some (JSign, m) | KVerifyInit m _ _ => Some (JVerify, m)
  | _ => None
  end.
Definition data_call (c : call) : option (dir * form) :=
  match c with
  | KEncrypt _ _ _ => Some (JEnc, One) | KEncryptUpdate _ _ => Some (JEnc, Part) | KEncryptFinal _ => Some (JEnc, Last)
  | KDecrypt _ _ _ => Some (JDec, One) | KDecryptUpdate _ _ => Some (JDec, Part) | KDecryptFinal _ => Some (JDec, Last)
  | KSign _ _ _ => Some (JSign, One) | KSignUpdate _ => Some (JSign, Part) | KSignFinal _ => Some (JSign, Last)
  | KVerify _ _ => Some (JVerify, One) | KVerifyUpdate _ => Some (JVerify, Part) | KVerifyFinal _ => Some (JVerify, Last)
  | _ => None
  end.
(** The call only asks how long the result will be: it gives no buffer. *)
Definition asks (c : call) : bool :=
  match c with
  | KEncrypt _ _ Query | KEncryptUpdate _ Query | KEncryptFinal Query | KDecrypt _ _ Query | KDecryptUpdate _ Query | KDecryptFinal Query
  | KSign _ _ Query | KSignFinal Query => true
  | _ => false
  end.
(** ** The mechanisms *)
Definition does (m : mech) (d : dir) (f : form) : bool :=
  match m, d, f with
  | (M_RSA_X_509 | M_RSA_PKCS), _, One => true
  | M_RSA_OAEP, (JEnc | JDec), One => true
  | (M_RSA_PSS | M_ECDSA), (JSign | JVerify), One => true
  | M_HMAC _, (JSign | JVerify), _ => true
  | (M_AES_CBC | M_AES_CBC_PAD | M_AES_GCM), (JEnc | JDec), _ => true
  | _, _, _ => false
  end.
(** What can be answered by a call that finds its operation. C_Decrypt and C_DecryptFinal with padding do not look at
    the length of the buffer (C34). *)
Definition answers (m : mech) (d : dir) (f : form) : list Z :=
  match m, d, f with
  | M_HMAC _, JSign, Part | M_HMAC _, JVerify, Part | M_AES_GCM, JDec, Part => [CKR_OK]
  | M_HMAC _, JSign, _ | M_AES_GCM, JEnc, Last => [CKR_OK; CKR_BUFFER_TOO_SMALL]
  | M_HMAC _, JVerify, _ => [CKR_OK; CKR_SIGNATURE_INVALID]
  | _, JVerify, _ => [CKR_OK; CKR_SIGNATURE_INVALID; CKR_FUNCTION_FAILED]
  | M_AES_CBC, _, Last => [CKR_OK; CKR_DATA_LEN_RANGE]
  | M_AES_CBC_PAD, JDec, One => [CKR_OK; CKR_FUNCTION_FAILED]
  | M_AES_CBC_PAD, JDec, Last => [CKR_OK; CKR_FUNCTION_FAILED; CKR_DATA_LEN_RANGE]
  | _, _, _ => [CKR_OK; CKR_BUFFER_TOO_SMALL; CKR_FUNCTION_FAILED]
  end.
Definition begin_answers (m : mech) (d : dir) : list Z :=
  if does m d One then [CKR_OK; CKR_OBJECT_HANDLE_INVALID; CKR_KEY_TYPE_INCONSISTENT; CKR_MECHANISM_PARAM_INVALID; CKR_FUNCTION_FAILED]
  else [CKR_MECHANISM_INVALID; CKR_OBJECT_HANDLE_INVALID].

(** ** One session: nothing was begun, or the mechanism begun last and what for, if that has not ended. *)
Definition job : Type := option (mech * option dir).
Definition job_says (j : job) (c : call) (rv : Z) : Prop :=
  match begin_call c, data_call c with
  | Some (d, m), _ => In rv (begin_answers m d)
  | None, Some (d, f) =>
      match j with
      | None => rv = CKR_OPERATION_NOT_INITIALIZED
      | Some (m, a) =>
          if negb (does m d f) then rv = CKR_MECHANISM_INVALID       (* also when nothing goes on any more *)
          else match a with
               | Some d' => if dir_eqb d' d then In rv (answers m d f) else rv = CKR_OPERATION_NOT_INITIALIZED
               | None => rv = CKR_OPERATION_NOT_INITIALIZED
               end
      end
  | None, None => rv = CKR_ARGUMENTS_BAD                             (* no call of the interface *)
  end.
(** Which answers end an operation: none for RSA, ECDSA and GCM (C38). Otherwise the end of the data, or all of it at
    once, unless the buffer was missing or too small; but data of the wrong length ends it even without a buffer, and
    a failing C_Encrypt with padding leaves it. *)
Definition ends (m : mech) (d : dir) (f : form) (ask : bool) (rv : Z) : bool :=
  match m, f with
  | (M_AES_CBC | M_AES_CBC_PAD | M_HMAC _), (One | Last) =>
      if (rv =? CKR_DATA_LEN_RANGE)%Z then true
      else if orb ask (rv =? CKR_BUFFER_TOO_SMALL)%Z then false
      else match m, d, f with M_AES_CBC_PAD, JEnc, One => negb (rv =? CKR_FUNCTION_FAILED)%Z | _, _, _ => true end
  | _, _ => false
  end.
Definition job_next (j : job) (c : call) (rv : Z) : job :=
  match begin_call c, data_call c with
  | Some (d, m), _ => if (rv =? CKR_OK)%Z then Some (m, Some d) else j   (* also when another operation goes on *)
  | None, Some (d, f) =>
      match j with
      | Some (m, Some d') => if andb (dir_eqb d' d) (andb (does m d f) (ends m d f (asks c) rv)) then Some (m, None) else j
      | _ => j
      end
  | None, None => j
  end.

(** ** All sessions *)
Record jobs := Jobs { j_dev : dev; j_at : Z -> job }.
Definition jobs0 : jobs := Jobs dev0 (fun _ => None).
Definition jobs_say (j : jobs) (c : op) (o : out) : Prop :=
  says (j_dev j) c o /\
  match c with
  | OCrypto h c0 _ => on_session (j_dev j) h o (fun _ => job_says (j_at j h) c0 (out_rv o))
  | _ => True
  end.
(** C_WrapKey and C_UnwrapKey are an encryption and a decryption with AES-CBC and padding of their session: they
    leave what went on before, if they fail early, or what such an operation leaves. *)
Definition wrapped (j : job) (b : outbuf) (rv : Z) (j' : job) : Prop :=
  if (rv =? CKR_OK)%Z then j' = Some (M_AES_CBC_PAD, match b with Query => Some JEnc | Buf _ => None end)
  else j' = j \/ j' = Some (M_AES_CBC_PAD, Some JEnc).
Definition unwrapped (j : job) (rv : Z) (j' : job) : Prop :=
  if (rv =? CKR_OK)%Z then j' = Some (M_AES_CBC_PAD, None) else j' = j \/ j' = Some (M_AES_CBC_PAD, None).
(** What a call does. Sessions are independent; no other call than those listed touches an operation. *)
Definition jobs_move (j : jobs) (c : op) (o : out) (j' : jobs) : Prop :=
  j_dev j' = next (j_dev j) c o /\
  match c with
  | OCrypto h c0 _ => forall h', j_at j' h' = if andb (h' =? h)%Z (is_open (j_dev j) h) then job_next (j_at j h) c0 (out_rv o) else j_at j h'
  | OWrapKey h _ _ _ _ b => wrapped (j_at j h) b (out_rv o) (j_at j' h) /\ forall h', h' <> h -> j_at j' h' = j_at j h'
  | OUnwrapKey h _ _ _ _ _ => unwrapped (j_at j h) (out_rv o) (j_at j' h) /\ forall h', h' <> h -> j_at j' h' = j_at j h'
  | OCloseSession h => forall h', j_at j' h' = if andb (h' =? h)%Z (out_rv o =? CKR_OK)%Z then None else j_at j h'
  | OCloseAllSessions _ => forall h', j_at j' h' = if andb (negb (h' =? H 1)%Z) (out_rv o =? CKR_OK)%Z then None else j_at j h'   (* see C03 *)
  | OFinalize => forall h', j_at j' h' = if (d_count (j_dev j) =? 1)%Z then None else j_at j h'
  | ORestart => forall h', j_at j' h' = None
  | _ => forall h', j_at j' h' = j_at j h'
  end.
Inductive works : jobs -> list op -> list out -> jobs -> Prop :=
  | wk_nil j : works j [] [] j
  | wk_cons j c o j1 cs os j' : jobs_say j c o -> jobs_move j c o j1 -> works j1 cs os j' -> works j (c :: cs) (o :: os) j'.

(** ** Read off the history alone: what was begun last in session [h]. *)
Definition last_begun1 (h : Z) (b : option (dir * mech)) (c : op) (o : out) : option (dir * mech) :=
  match c with
  | OCrypto h' c0 _ => match begin_call c0 with Some q => if andb (h' =? h)%Z (out_rv o =? CKR_OK)%Z then Some q else b | None => b end
  | OCloseSession h' => if andb (h' =? h)%Z (out_rv o =? CKR_OK)%Z then None else b
  | OCloseAllSessions _ => if andb (negb (h =? H 1)%Z) (out_rv o =? CKR_OK)%Z then None else b
  | ORestart => None
  | _ => b
  end.
Fixpoint last_begun (h : Z) (b : option (dir * mech)) (cs : list op) (os : list out) : option (dir * mech) :=
  match cs, os with c :: cs, o :: os => last_begun h (last_begun1 h b c o) cs os | _, _ => b end.
Definition no_wrap (h : Z) (c : op) : Prop := match c with OWrapKey h' _ _ _ _ _ | OUnwrapKey h' _ _ _ _ _ => h' <> h | _ => True end.
