(** The whole interface: all 68 functions of wolfpkcs11FunctionList (wolfpkcs11.c
    29-101) with their pointer arguments, any of which may be NULL, and the checks
    each function makes before it does anything, in their order. What follows the
    checks is [Sys.step], Info.v and Mech.v. A pointer to data stands for the data
    and their length together; a pointer that is not NULL is valid. The random
    generator's answer is an argument of the calls that use it directly. *)
From Verif Require Import Base Ops Object Store Sys Mech Info.
From Coq Require Import List.
Import ListNotations.
Open Scope nat_scope.
Open Scope list_scope.

Inductive ptr (A : Type) := Null | At (a : A).
Arguments Null {A}.
Arguments At {A} a.
Definition isnull {A} (p : ptr A) : bool := match p with Null => true | At _ => false end.

Definition CKR_FUNCTION_NOT_PARALLEL : Z := 0x51.       (* pkcs11.h 262-319 *)
Definition CKR_FUNCTION_NOT_SUPPORTED : Z := 0x54.
Definition CKR_SAVED_STATE_INVALID : Z := 0x160.
Definition CKR_STATE_UNSAVEABLE : Z := 0x180.

Definition bytes := list N.
(** Parameters of C_DeriveKey's mechanism: none, plain bytes, or a
    CK_ECDH1_DERIVE_PARAMS (kdf, public data). *)
Inductive dparam := DPnull | DPraw (b : bytes) | DPecdh (kdf : Z) (pub : ptr bytes).
(** Key generation mechanisms; [par]: a parameter or a parameter length is given. *)
Record gmech := mkGM { gm_aes : bool; gm_par : bool }.
Record pmech := mkPM { pm_kind : kpmech; pm_par : bool }.
Record dermech := mkDM { dm_kind : dmech; dm_par : dparam }.

Inductive api :=
  | A_Initialize (args : ptr unit)
  | A_Finalize (reserved : ptr unit)
  | A_GetInfo (info : ptr unit)
  | A_GetFunctionList (list : ptr unit)
  | A_GetSlotList (present : N) (list : ptr unit) (count : ptr Z)
  | A_GetSlotInfo (slot : Z) (info : ptr unit)
  | A_GetTokenInfo (slot : Z) (info : ptr unit) (now : Z) (g : option tm)
  | A_GetMechanismList (slot : Z) (list : ptr unit) (count : ptr Z)
  | A_GetMechanismInfo (slot type : Z) (info : ptr unit)
  | A_InitToken (slot : Z) (pin label : ptr bytes)
  | A_InitPIN (h : Z) (pin : ptr bytes)
  | A_SetPIN (h : Z) (old new : ptr bytes)
  | A_OpenSession (slot flags : Z) (session : ptr unit)
  | A_CloseSession (h : Z)
  | A_CloseAllSessions (slot : Z)
  | A_GetSessionInfo (h : Z) (info : ptr sess_info)
  | A_GetOperationState (h : Z) (state : ptr unit) (len : ptr unit)
  | A_SetOperationState (h : Z) (state : ptr unit) (henc hauth : Z)
  | A_Login (h ut : Z) (pin : ptr bytes) (now : option Z)
  | A_Logout (h : Z)
  | A_CreateObject (h : Z) (t : ptr template) (object : ptr unit)
  | A_CopyObject (h ho : Z) (t : ptr template) (object : ptr unit)
  | A_DestroyObject (h ho : Z)
  | A_GetObjectSize (h ho : Z) (size : ptr unit)
  | A_GetAttributeValue (h ho : Z) (t : ptr template)
  | A_SetAttributeValue (h ho : Z) (t : ptr template)
  | A_FindObjectsInit (h : Z) (t : ptr template)
  | A_FindObjects (h : Z) (objects : ptr unit) (max : Z) (count : ptr unit)
  | A_FindObjectsFinal (h : Z)
  | A_EncryptInit (h : Z) (m : ptr (mech * mparam)) (hk : Z)
  | A_Encrypt (h : Z) (data : ptr bytes) (out : ptr unit) (len : ptr Z) (rnd : bytes)
  | A_EncryptUpdate (h : Z) (part : ptr bytes) (out : ptr unit) (len : ptr Z)
  | A_EncryptFinal (h : Z) (out : ptr unit) (len : ptr Z)
  | A_DecryptInit (h : Z) (m : ptr (mech * mparam)) (hk : Z)
  | A_Decrypt (h : Z) (data : ptr bytes) (out : ptr unit) (len : ptr Z) (rnd : bytes)
  | A_DecryptUpdate (h : Z) (part : ptr bytes) (out : ptr unit) (len : ptr Z)
  | A_DecryptFinal (h : Z) (out : ptr unit) (len : ptr Z)
  | A_DigestInit (h : Z) (m : ptr unit)
  | A_Digest (h : Z) (data : ptr bytes) (out : ptr unit) (len : ptr Z)
  | A_DigestUpdate (h : Z) (part : ptr bytes)
  | A_DigestKey (h hk : Z)
  | A_DigestFinal (h : Z) (out : ptr unit) (len : ptr Z)
  | A_SignInit (h : Z) (m : ptr (mech * mparam)) (hk : Z)
  | A_Sign (h : Z) (data : ptr bytes) (out : ptr unit) (len : ptr Z) (rnd : bytes)
  | A_SignUpdate (h : Z) (part : ptr bytes)
  | A_SignFinal (h : Z) (out : ptr unit) (len : ptr Z)
  | A_SignRecoverInit (h : Z) (m : ptr unit) (hk : Z)
  | A_SignRecover (h : Z) (data : ptr bytes) (out : ptr unit) (len : ptr Z)
  | A_VerifyInit (h : Z) (m : ptr (mech * mparam)) (hk : Z)
  | A_Verify (h : Z) (data signature : ptr bytes)
  | A_VerifyUpdate (h : Z) (part : ptr bytes)
  | A_VerifyFinal (h : Z) (signature : ptr bytes)
  | A_VerifyRecoverInit (h : Z) (m : ptr unit) (hk : Z)
  | A_VerifyRecover (h : Z) (signature : ptr bytes) (out : ptr unit) (len : ptr Z)
  | A_DigestEncryptUpdate (h : Z) (part : ptr bytes) (out : ptr unit) (len : ptr Z)
  | A_DecryptDigestUpdate (h : Z) (part : ptr bytes) (out : ptr unit) (len : ptr Z)
  | A_SignEncryptUpdate (h : Z) (part : ptr bytes) (out : ptr unit) (len : ptr Z)
  | A_DecryptVerifyUpdate (h : Z) (part : ptr bytes) (out : ptr unit) (len : ptr Z)
  | A_GenerateKey (h : Z) (m : ptr gmech) (t : ptr template) (key : ptr unit) (rnd : bytes)
  | A_GenerateKeyPair (h : Z) (m : ptr pmech) (tpub tpriv : ptr template) (pub priv : ptr unit) (g : option gen)
  | A_WrapKey (h : Z) (m : ptr (mech * mparam)) (hw hk : Z) (out : ptr unit) (len : ptr Z)
  | A_UnwrapKey (h : Z) (m : ptr (mech * mparam)) (hu : Z) (wrapped : ptr bytes) (t : ptr template) (key : ptr unit)
  | A_DeriveKey (h : Z) (m : ptr dermech) (hb : Z) (t : ptr template) (key : ptr unit) (secret : option bytes)
  | A_SeedRandom (h : Z) (seed : ptr bytes) (ret : Z)
  | A_GenerateRandom (h : Z) (out : ptr Z) (ret : Z) (random : Z -> bytes)
  | A_GetFunctionStatus (h : Z)
  | A_CancelFunction (h : Z)
  | A_WaitForSlotEvent (flags : Z) (slot reserved : ptr unit).

Inductive aout :=
  | ARv (rv : Z)
  | ACall (o : out)                        (* result of the call proper *)
  | AFns                                   (* the function list *)
  | AInfo (i : ck_info)
  | AList (l : listout)
  | ASlot (i : slot_info)
  | ATok (i : token_info)
  | AMech (rv : Z) (i : option (Z * Z * flags))
  | ASess (i : sess_info)
  | ASize (n : Z)
  | ARandom (b : bytes).
Definition a_rv (o : aout) : Z :=
  match o with
  | ARv r => r | ACall o => out_rv o | AList l => lo_rv l | AMech r _ => r
  | AFns | AInfo _ | ASlot _ | ATok _ | ASess _ | ASize _ | ARandom _ => CKR_OK
  end.

Section WithWorld.
Variable w : world.

Definition ans (s : sys) (rv : Z) : res (sys * aout) := Ok (s, ARv rv).
(** [if (!WP11_Library_IsInitialized()) return CKR_CRYPTOKI_NOT_INITIALIZED], e.g.
    slot.c 805-806. *)
Definition lib (s : sys) (k : res (sys * aout)) : res (sys * aout) :=
  if (0 <? s_count s)%Z then k else ans s CKR_CRYPTOKI_NOT_INITIALIZED.
(** WP11_SlotIdValid and WP11_Slot_Get, e.g. slot.c 90-91, 139-140. *)
Definition slotc (s : sys) (slot : Z) (k : res (sys * aout)) : res (sys * aout) :=
  lib s (if slot_ok slot then k else ans s CKR_SLOT_ID_INVALID).
(** WP11_Session_Get, e.g. slot.c 807-808. *)
Definition sessc (s : sys) (h : Z) (k : session -> res (sys * aout)) : res (sys * aout) :=
  lib s (match sess_get s h with Some x => k x | None => ans s CKR_SESSION_HANDLE_INVALID end).
(** [if (p == NULL) return CKR_ARGUMENTS_BAD]; several pointers are tested one after
    the other. *)
Definition need {A} (s : sys) (p : ptr A) (k : A -> res (sys * aout)) : res (sys * aout) :=
  match p with Null => ans s CKR_ARGUMENTS_BAD | At a => k a end.
(** The same for a pointer with a length that must not be zero. *)
Definition need_some (s : sys) (p : ptr bytes) (k : bytes -> res (sys * aout)) : res (sys * aout) :=
  need s p (fun b => if (zlen b =? 0)%Z then ans s CKR_ARGUMENTS_BAD else k b).
Definition rwc (s : sys) (x : session) (k : res (sys * aout)) : res (sys * aout) :=
  if is_rw x then k else ans s CKR_SESSION_READ_ONLY.
Definition objc (s : sys) (x : session) (h rv : Z) (k : obj -> res (sys * aout)) : res (sys * aout) :=
  match find_obj s x h with Some o => k o | None => ans s rv end.
(** The call proper. *)
Definition call (rnd : nat -> list N) (s : sys) (c : op) : res (sys * aout) :=
  '(s1, o) <- step w rnd s c ;; Ok (s1, ACall o).
Definition outb (out : ptr unit) (len : Z) : outbuf := match out with Null => Query | At _ => Buf len end.
Definition lbuf (l : ptr unit) (n : Z) : listbuf := match l with Null => LNull | At _ => LBuf n end.

Definition exec (rnd : nat -> list N) (s : sys) (c : api) : res (sys * aout) :=
  match c with
  (* wolfpkcs11.c 110-178 *)
  | A_Initialize _ => call rnd s OInitialize
  | A_Finalize _ => call rnd s OFinalize
  | A_GetInfo p => lib s (need s p (fun _ => Ok (s, AInfo GetInfo)))
  | A_GetFunctionList p => need s p (fun _ => Ok (s, AFns))
  (* slot.c 45-62 *)
  | A_GetSlotList present l n => lib s (
      if andb (negb (present =? 0)%N) (negb (present =? 1)%N) then ans s CKR_ARGUMENTS_BAD else
      need s n (fun n => Ok (s, AList (C_GetSlotList (lbuf l n)))))
  | A_GetSlotInfo slot p => slotc s slot (need s p (fun _ => Ok (s, ASlot (GetSlotInfo slot))))         (* 85-101 *)
  | A_GetTokenInfo slot p now g => slotc s slot (need s p (fun _ => Ok (s, ATok (GetTokenInfo (s_tok s) slot now g)))) (* 127-216 *)
  | A_GetMechanismList slot l n => slotc s slot (need s n (fun n => Ok (s, AList (C_GetMechanismList (lbuf l n))))) (* 293-319 *)
  | A_GetMechanismInfo slot ty p => slotc s slot (need s p (fun _ =>
      Ok (s, AMech (fst (C_GetMechanismInfo ty)) (snd (C_GetMechanismInfo ty)))))                        (* 436-539 *)
  | A_InitToken slot pin label => slotc s slot (need s pin (fun pin => need s label (fun label =>
      call rnd s (OInitToken slot pin label))))                                                          (* 557-586 *)
  | A_InitPIN h pin => sessc s h (fun _ => need s pin (fun pin => call rnd s (OInitPIN h pin)))          (* 602-628 *)
  | A_SetPIN h old new => sessc s h (fun _ => need s old (fun old => need s new (fun new =>
      call rnd s (OSetPIN h old new))))                                                                  (* 647-702 *)
  (* 721-744: the flag comes before the pointer *)
  | A_OpenSession slot fl p => slotc s slot (
      if (Z.land fl CKF_SERIAL_SESSION =? 0)%Z then ans s CKR_SESSION_PARALLEL_NOT_SUPPORTED else
      need s p (fun _ => call rnd s (OOpenSession slot fl)))
  | A_CloseSession h => sessc s h (fun _ => call rnd s (OCloseSession h))                                (* 754-768 *)
  | A_CloseAllSessions slot => slotc s slot (call rnd s (OCloseAllSessions slot))                        (* 778-789 *)
  | A_GetSessionInfo h p => sessc s h (fun x => need s p (fun old =>
      Ok (s, ASess (GetSessionInfo (s_tok s) x old))))                                                   (* 801-820 *)
  | A_GetOperationState h _ len => sessc s h (fun _ => need s len (fun _ => ans s CKR_STATE_UNSAVEABLE)) (* 837-853 *)
  | A_SetOperationState h st _ _ => sessc s h (fun _ => need s st (fun _ => ans s CKR_SAVED_STATE_INVALID)) (* 869-889 *)
  | A_Login h ut pin now => sessc s h (fun _ => need s pin (fun pin => call rnd s (OLogin h ut pin now))) (* 912-955 *)
  | A_Logout h => sessc s h (fun _ => call rnd s (OLogout h))                                            (* 967-981 *)
  (* crypto.c 734-1142 *)
  | A_CreateObject h t p => sessc s h (fun _ => need s t (fun t => need s p (fun _ => call rnd s (OCreateObject h t))))
  | A_CopyObject h ho t p => sessc s h (fun _ => need s t (fun t => need s p (fun _ => call rnd s (OCopyObject h ho t))))
  | A_DestroyObject h ho => sessc s h (fun _ => call rnd s (ODestroyObject h ho))
  | A_GetObjectSize h ho p => sessc s h (fun x => need s p (fun _ =>
      objc s x ho CKR_OBJECT_HANDLE_INVALID (fun _ => Ok (s, ASize UNAVAILABLE))))                       (* 902-923 *)
  | A_GetAttributeValue h ho t => sessc s h (fun _ => need s t (fun t => call rnd s (OGetAttributeValue h ho t)))
  | A_SetAttributeValue h ho t => sessc s h (fun _ => need s t (fun t => call rnd s (OSetAttributeValue h ho t)))
  | A_FindObjectsInit h t => sessc s h (fun _ => need s t (fun t => call rnd s (OFindObjectsInit h t)))
  | A_FindObjects h p n q => sessc s h (fun _ => need s p (fun _ => need s q (fun _ => call rnd s (OFindObjects h n))))
  | A_FindObjectsFinal h => sessc s h (fun _ => call rnd s (OFindObjectsFinal h))
  (* crypto.c 1165-2292 *)
  | A_EncryptInit h m hk => sessc s h (fun _ => need s m (fun '(m, mp) => call rnd s (OCrypto h (KEncryptInit m mp 0) hk)))
  | A_Encrypt h d o n r => sessc s h (fun _ => need s d (fun d => need s n (fun n => call rnd s (OCrypto h (KEncrypt r d (outb o n)) 0))))
  | A_EncryptUpdate h d o n => sessc s h (fun _ => need s d (fun d => need s n (fun n => call rnd s (OCrypto h (KEncryptUpdate d (outb o n)) 0))))
  | A_EncryptFinal h o n => sessc s h (fun _ => need s n (fun n => call rnd s (OCrypto h (KEncryptFinal (outb o n)) 0)))
  | A_DecryptInit h m hk => sessc s h (fun _ => need s m (fun '(m, mp) => call rnd s (OCrypto h (KDecryptInit m mp 0) hk)))
  | A_Decrypt h d o n r => sessc s h (fun _ => need s d (fun d => need s n (fun n => call rnd s (OCrypto h (KDecrypt r d (outb o n)) 0))))
  | A_DecryptUpdate h d o n => sessc s h (fun _ => need s d (fun d => need s n (fun n => call rnd s (OCrypto h (KDecryptUpdate d (outb o n)) 0))))
  | A_DecryptFinal h o n => sessc s h (fun _ => need s n (fun n => call rnd s (OCrypto h (KDecryptFinal (outb o n)) 0)))
  (* crypto.c 2306-2444 *)
  | A_DigestInit h m => sessc s h (fun _ => need s m (fun _ => ans s CKR_MECHANISM_INVALID))
  | A_Digest h d _ n => sessc s h (fun _ => need_some s d (fun _ => need s n (fun _ => ans s CKR_OPERATION_NOT_INITIALIZED)))
  | A_DigestUpdate h d => sessc s h (fun _ => need_some s d (fun _ => ans s CKR_OPERATION_NOT_INITIALIZED))
  | A_DigestKey h hk => sessc s h (fun x => objc s x hk CKR_OBJECT_HANDLE_INVALID (fun _ => ans s CKR_OPERATION_NOT_INITIALIZED))
  | A_DigestFinal h _ n => sessc s h (fun _ => need s n (fun _ => ans s CKR_OPERATION_NOT_INITIALIZED))
  (* crypto.c 2465-2974 *)
  | A_SignInit h m hk => sessc s h (fun _ => need s m (fun '(m, mp) => call rnd s (OCrypto h (KSignInit m mp 0) hk)))
  | A_Sign h d o n r => sessc s h (fun _ => need s d (fun d => need s n (fun n => call rnd s (OCrypto h (KSign r d (outb o n)) 0))))
  | A_SignUpdate h d => sessc s h (fun _ => need s d (fun d => call rnd s (OCrypto h (KSignUpdate d) 0)))
  | A_SignFinal h o n => sessc s h (fun _ => need s n (fun n => call rnd s (OCrypto h (KSignFinal (outb o n)) 0)))
  | A_SignRecoverInit h m hk => sessc s h (fun x => need s m (fun _ => objc s x hk CKR_OBJECT_HANDLE_INVALID (fun _ => ans s CKR_MECHANISM_INVALID)))
  | A_SignRecover h d _ n => sessc s h (fun _ => need_some s d (fun _ => need s n (fun _ => ans s CKR_OPERATION_NOT_INITIALIZED)))
  (* crypto.c 2995-3448 *)
  | A_VerifyInit h m hk => sessc s h (fun _ => need s m (fun '(m, mp) => call rnd s (OCrypto h (KVerifyInit m mp 0) hk)))
  | A_Verify h d g => sessc s h (fun _ => need s d (fun d => need s g (fun g => call rnd s (OCrypto h (KVerify d g) 0))))
  | A_VerifyUpdate h d => sessc s h (fun _ => need s d (fun d => call rnd s (OCrypto h (KVerifyUpdate d) 0)))
  | A_VerifyFinal h g => sessc s h (fun _ => need s g (fun g => call rnd s (OCrypto h (KVerifyFinal g) 0)))
  | A_VerifyRecoverInit h m hk => sessc s h (fun x => need s m (fun _ => objc s x hk CKR_OBJECT_HANDLE_INVALID (fun _ => ans s CKR_MECHANISM_INVALID)))
  | A_VerifyRecover h g _ n => sessc s h (fun _ => need_some s g (fun _ => need s n (fun _ => ans s CKR_OPERATION_NOT_INITIALIZED)))
  (* crypto.c 3468-3598 *)
  | A_DigestEncryptUpdate h d _ n | A_DecryptDigestUpdate h d _ n | A_SignEncryptUpdate h d _ n | A_DecryptVerifyUpdate h d _ n =>
      sessc s h (fun _ => need_some s d (fun _ => need s n (fun _ => ans s CKR_OPERATION_NOT_INITIALIZED)))
  (* crypto.c 3621-3671 *)
  | A_GenerateKey h m t p r => sessc s h (fun _ => need s m (fun m => need s t (fun t => need s p (fun _ =>
      if andb (gm_aes m) (gm_par m) then ans s CKR_MECHANISM_PARAM_INVALID else call rnd s (OGenerateKey h (gm_aes m) t r)))))
  (* crypto.c 3705-3811 *)
  | A_GenerateKeyPair h m tp tq p q g => sessc s h (fun _ => need s m (fun m => need s tp (fun tp => need s tq (fun tq => need s p (fun _ => need s q (fun _ =>
      if andb (match pm_kind m with KP_other => false | _ => true end) (pm_par m) then ans s CKR_MECHANISM_PARAM_INVALID
      else call rnd s (OGenerateKeyPair h (pm_kind m) tp tq g)))))))
  (* crypto.c 3868-3897 *)
  | A_WrapKey h m hw hk o n => sessc s h (fun _ => need s m (fun '(m, mp) => need s n (fun n => call rnd s (OWrapKey h m mp hw hk (outb o n)))))
  (* crypto.c 3996-4022: read-only sessions are refused before the pointers are looked at *)
  | A_UnwrapKey h m hu wr t p => sessc s h (fun x => rwc s x (need s m (fun '(m, mp) => need_some s wr (fun wr => need s t (fun t => need s p (fun _ =>
      call rnd s (OUnwrapKey h m mp hu wr t)))))))
  (* crypto.c 4160-4248 *)
  | A_DeriveKey h m hb t p sec => sessc s h (fun x => need s m (fun m => need s t (fun t => need s p (fun _ =>
      objc s x hb CKR_OBJECT_HANDLE_INVALID (fun _ =>
      let bad := match dm_kind m, dm_par m with
                 | D_ECDH, DPecdh kdf (At pub) => orb (zlen pub =? 0)%Z (negb (kdf =? 1)%Z)
                 | D_ECDH, _ => true
                 | D_DH, DPnull => true
                 | D_DH, DPraw b => (zlen b =? 0)%Z
                 | D_DH, DPecdh _ _ => false
                 | D_other, _ => false
                 end in
      if bad then ans s CKR_MECHANISM_PARAM_INVALID else call rnd s (ODeriveKey h (dm_kind m) hb sec t))))))
  (* crypto.c 4290-4350: MEMORY_E is -125. The length becomes an int and, inside
     wolfCrypt, a word32. *)
  | A_SeedRandom h p ret => sessc s h (fun _ => need s p (fun _ =>
      ans s (if (ret =? -125)%Z then CKR_DEVICE_MEMORY else if (ret =? 0)%Z then CKR_OK else CKR_FUNCTION_FAILED)))
  | A_GenerateRandom h p ret f => sessc s h (fun _ => need s p (fun n =>
      if (ret =? -125)%Z then ans s CKR_DEVICE_MEMORY else if (ret =? 0)%Z then Ok (s, ARandom (f (n mod 2 ^ 32)%Z)) else ans s CKR_FUNCTION_FAILED))
  (* slot.c 991-1041 *)
  | A_GetFunctionStatus h | A_CancelFunction h => sessc s h (fun _ => ans s CKR_FUNCTION_NOT_PARALLEL)
  | A_WaitForSlotEvent _ _ _ => lib s (ans s CKR_FUNCTION_NOT_SUPPORTED)
  end.

(** States reached by any calls of the interface; [areach_end]: the process ends. *)
Inductive areach (s0 : sys) : sys -> Prop :=
  | areach_0 : areach s0 s0
  | areach_call s rnd c s' o : areach s0 s -> exec rnd s c = Ok (s', o) -> areach s0 s'
  | areach_end s rnd s' o : areach s0 s -> step w rnd s ORestart = Ok (s', o) -> areach s0 s'.
End WithWorld.
