(** The buffers that operations take from the heap: the label of RSA-OAEP, the
    additional data of AES-GCM and the ciphertext AES-GCM collects. One session;
    the calls themselves are those of Ops.v, this file adds the allocations.
    An allocation is never refused (Mem.v has refusals, not of these). *)
From Verif Require Import Base Cbc Ops.

(** What a call does to the heap. *)
Inductive hev :=
  | HLose       (* the params union is written over, with the pointers in it *)
  | HTakeBuf    (* XMALLOC of a label or of additional data *)
  | HTakeEnc    (* XREALLOC of the collected ciphertext *)
  | HFreeBuf
  | HFreeEnc.

Section WithEnv.
Variable ev : env.
Variable objs : nat -> option keyobj.

Definition given (x : option (list N)) : list hev := match x with Some _ => [HTakeBuf] | None => [] end.

(** The *Init calls write the union: WP11_Session_SetOaepParams internal.c 4490-4515 (cleared at
    4497, label at 4505), SetPssParams 4530-4548, SetCbcParams 4562-4583 (wc_AesInit over the member),
    SetGcmParams 4599-4629 (cleared at 4609 after its checks, data at 4615), WP11_Hmac_Init 8370-8393;
    the checks before them: crypto.c 1185-1291, 1760-1866 (encrypt, decrypt), 2484-2573, 3014-3103
    (sign, verify). *)
Definition crypt_init_evs (m : mech) (mp : mparam) (ko : keyobj) : list hev :=
  match m, mp with
  | M_RSA_OAEP, MPoaep src h g l =>
      if andb (ko_type ko =? CKK_RSA)%Z src
      then HLose :: (if andb (hash_known h) (mgf_known g) then given l else [])
      else []
  | M_AES_CBC, MPraw iv | M_AES_CBC_PAD, MPraw iv =>
      if andb (ko_type ko =? CKK_AES)%Z (zlen iv =? 16)%Z then [HLose] else []
  | M_AES_GCM, MPgcm iv aad tb =>
      if andb (ko_type ko =? CKK_AES)%Z (negb (orb (128 <? i32 tb)%Z (16 <? i32 (zlen iv))%Z))
      then HLose :: given aad
      else []
  | _, _ => []
  end.
Definition sign_init_evs (m : mech) (mp : mparam) (ko : keyobj) : list hev :=
  match m, mp with
  | M_RSA_PSS, MPpss _ _ _ => if (ko_type ko =? CKK_RSA)%Z then [HLose] else []
  | M_HMAC _, MPnull => if (ko_type ko =? CKK_GENERIC_SECRET)%Z then [HLose] else []
  | _, _ => []
  end.

(** The call got as far as the internal function: its output buffer is not NULL and it answers CKR_OK
    or, for a failure inside, CKR_FUNCTION_FAILED. *)
Definition ran (b : outbuf) (o : outc) : bool :=
  match b with
  | Query => false
  | Buf _ => orb (o_rv o =? CKR_OK)%Z (o_rv o =? CKR_FUNCTION_FAILED)%Z
  end.

(** WP11_RsaOaep_PublicEncrypt, PrivateDecrypt free the label when they succeed (internal.c 6771-6779,
    6830-6838); WP11_AesGcm_Encrypt, EncryptUpdate and Decrypt free the additional data always (8081-8084,
    8133-8136, 8219-8222); DecryptUpdate enlarges the collected ciphertext (8249-8258), DecryptFinal
    decrypts and frees it (8295-8299). wp11_Session_Final: 596-620. *)
Definition evs (st : opst) (c : call) (o : outc) : list hev :=
  match c with
  | KEncryptInit m mp k | KDecryptInit m mp k =>
      match objs k with Some ko => crypt_init_evs m mp ko | None => [] end
  | KSignInit m mp k | KVerifyInit m mp k =>
      match objs k with Some ko => sign_init_evs m mp ko | None => [] end
  | KEncrypt _ _ b | KDecrypt _ _ b =>
      match os_mech st with
      | M_RSA_OAEP => if andb (ran b o) (o_rv o =? CKR_OK)%Z then [HFreeBuf] else []
      | M_AES_GCM => if ran b o then [HFreeBuf] else []
      | _ => []
      end
  | KEncryptUpdate _ b =>
      match os_mech st with M_AES_GCM => if ran b o then [HFreeBuf] else [] | _ => [] end
  | KDecryptUpdate _ b =>
      match os_mech st with M_AES_GCM => if ran b o then [HTakeEnc] else [] | _ => [] end
  | KDecryptFinal b =>
      match os_mech st with M_AES_GCM => if ran b o then [HFreeBuf; HFreeEnc] else [] | _ => [] end
  | KReopen =>
      match os_mech st with
      | M_RSA_OAEP => [HFreeBuf]
      | M_AES_GCM => [HFreeBuf; HFreeEnc]
      | _ => []
      end
  | _ => []
  end.

(** The heap: numbers of the buffers allocated and not freed; the two pointers in the union (label and
    additional data are never there together); the number of the next buffer. *)
Record hp := mkHp { h_buf : option nat; h_enc : option nat; h_live : list nat; h_next : nat }.
Definition hp0 : hp := mkHp None None [] 0.

(** XFREE of a pointer that is not NULL and not allocated is undefined. *)
Definition hfree (p : option nat) (l : list nat) : res (list nat) :=
  match p with
  | None => Ok l
  | Some i => if existsb (Nat.eqb i) l then Ok (filter (fun j => negb (j =? i)) l)
              else Undef UB_use_after_free
  end.
Definition hdo (h : hp) (e : hev) : res hp :=
  match e with
  | HLose => Ok (mkHp None None (h_live h) (h_next h))
  | HTakeBuf => Ok (mkHp (Some (h_next h)) (h_enc h) (h_next h :: h_live h) (S (h_next h)))
  | HTakeEnc =>
      match h_enc h with
      | Some _ => Ok h
      | None => Ok (mkHp (h_buf h) (Some (h_next h)) (h_next h :: h_live h) (S (h_next h)))
      end
  | HFreeBuf => l <- hfree (h_buf h) (h_live h) ;; Ok (mkHp None (h_enc h) l (h_next h))
  | HFreeEnc => l <- hfree (h_enc h) (h_live h) ;; Ok (mkHp (h_buf h) None l (h_next h))
  end.
Fixpoint hdos (h : hp) (l : list hev) : res hp :=
  match l with [] => Ok h | e :: r => h1 <- hdo h e ;; hdos h1 r end.

(** One call, and sequences of calls, with the heap. *)
Definition bstep (st : opst) (h : hp) (c : call) : res (opst * hp * outc) :=
  '(st1, o) <- step ev objs st c ;;
  h1 <- hdos h (evs st c o) ;;
  Ok (st1, h1, o).
Fixpoint brun (st : opst) (h : hp) (cs : list call) : res (opst * hp * list outc) :=
  match cs with
  | [] => Ok (st, h, [])
  | c :: cs' =>
      '(st1, h1, o) <- bstep st h c ;;
      '(st2, h2, os) <- brun st1 h1 cs' ;;
      Ok (st2, h2, o :: os)
  end.

End WithEnv.

(** ** Specification: histories *)
Definition is_init (c : call) : bool :=
  match c with KEncryptInit _ _ _ | KDecryptInit _ _ _ | KSignInit _ _ _ | KVerifyInit _ _ _ => true | _ => false end.

(** PKCS #11: an operation begins with an Init that succeeds; it ends with the one-part call or the
    Final that succeeds, or with any of its calls that fails otherwise than for want of space. *)
Definition goes_on (b : outbuf) (o : outc) : bool :=
  orb (match b with Query => (o_rv o =? CKR_OK)%Z | _ => false end) (o_rv o =? CKR_BUFFER_TOO_SMALL)%Z.
Definition still_active (a : bool) (c : call) (o : outc) : bool :=
  match c with
  | KEncryptInit _ _ _ | KDecryptInit _ _ _ | KSignInit _ _ _ | KVerifyInit _ _ _ => orb a (o_rv o =? CKR_OK)%Z
  | KEncrypt _ _ b | KDecrypt _ _ b | KSign _ _ b | KEncryptFinal b | KDecryptFinal b | KSignFinal b => andb a (goes_on b o)
  | KEncryptUpdate _ b | KDecryptUpdate _ b => andb a (orb (o_rv o =? CKR_OK)%Z (goes_on b o))
  | KSignUpdate _ | KVerifyUpdate _ => andb a (o_rv o =? CKR_OK)%Z
  | KVerify _ _ | KVerifyFinal _ | KReopen => false
  end.
(** No Init while an operation is active. *)
Fixpoint well_behaved (a : bool) (h : list (call * outc)) : Prop :=
  match h with
  | [] => True
  | (c, o) :: r => (is_init c = true -> a = false) /\ well_behaved (still_active a c o) r
  end.

(** The narrower rule that avoids losses: [g]: a label or additional data were handed over and no call
    has consumed them; [e]: so was ciphertext to a multi-part GCM decryption. [m]: the mechanism of the
    last Init that succeeded. *)
Definition hands (c : call) : bool :=
  match c with
  | KEncryptInit M_RSA_OAEP (MPoaep _ _ _ (Some _)) _ | KDecryptInit M_RSA_OAEP (MPoaep _ _ _ (Some _)) _
  | KEncryptInit M_AES_GCM (MPgcm _ (Some _) _) _ | KDecryptInit M_AES_GCM (MPgcm _ (Some _) _) _ => true
  | _ => false
  end.
Definition mech_of (c : call) (m : mech) : mech :=
  match c with KEncryptInit x _ _ | KDecryptInit x _ _ | KSignInit x _ _ | KVerifyInit x _ _ => x | _ => m end.
Definition passed (b : outbuf) (o : outc) : bool :=
  match b with Query => false | Buf _ => orb (o_rv o =? CKR_OK)%Z (o_rv o =? CKR_FUNCTION_FAILED)%Z end.
Definition owed (m : mech) (ge : bool * bool) (c : call) (o : outc) : mech * (bool * bool) :=
  let (g, e) := ge in
  let ok := (o_rv o =? CKR_OK)%Z in
  if is_init c then if ok then (mech_of c m, (hands c, false)) else (m, ge)
  else match m, c with
  | _, KReopen => (m, (false, false))
  | M_AES_GCM, KEncrypt _ _ b | M_AES_GCM, KDecrypt _ _ b | M_AES_GCM, KEncryptUpdate _ b =>
      (m, (andb g (negb (passed b o)), e))
  | M_AES_GCM, KDecryptUpdate _ b => (m, (g, orb e (passed b o)))
  | M_AES_GCM, KDecryptFinal b => (m, (andb g (negb (passed b o)), andb e (negb (passed b o))))
  | M_RSA_OAEP, KEncrypt _ _ b | M_RSA_OAEP, KDecrypt _ _ b => (m, (andb g (negb (andb (passed b o) ok)), e))
  | _, _ => (m, ge)
  end.
(** No Init while anything is owed. *)
Fixpoint consumes (m : mech) (ge : bool * bool) (h : list (call * outc)) : Prop :=
  match h with
  | [] => True
  | (c, o) :: r =>
      (is_init c = true -> ge = (false, false)) /\
      consumes (fst (owed m ge c o)) (snd (owed m ge c o)) r
  end.
Fixpoint owing (m : mech) (ge : bool * bool) (h : list (call * outc)) : bool * bool :=
  match h with [] => ge | (c, o) :: r => owing (fst (owed m ge c o)) (snd (owed m ge c o)) r end.
