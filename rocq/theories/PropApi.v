(** C90-C94: the interface as a whole: which arguments are refused, and how. *)
From Verif Require Import Base Ops Object Store Sys Mech Info Api SysProofs ToyEnv ToySys PropSys1 PropSys2.
From Verif Require PropObject.
From Coq Require Import List.
Import ListNotations.
Open Scope nat_scope.
Open Scope list_scope.

(** ** Specification: what kind of argument each function takes (PKCS #11) *)
Definition session_of (c : api) : option Z :=
  match c with
  | A_InitPIN h _ | A_SetPIN h _ _ | A_CloseSession h | A_GetSessionInfo h _ | A_GetOperationState h _ _ | A_SetOperationState h _ _ _
  | A_Login h _ _ _ | A_Logout h | A_CreateObject h _ _ | A_CopyObject h _ _ _ | A_DestroyObject h _ | A_GetObjectSize h _ _
  | A_GetAttributeValue h _ _ | A_SetAttributeValue h _ _ | A_FindObjectsInit h _ | A_FindObjects h _ _ _ | A_FindObjectsFinal h
  | A_EncryptInit h _ _ | A_Encrypt h _ _ _ _ | A_EncryptUpdate h _ _ _ | A_EncryptFinal h _ _
  | A_DecryptInit h _ _ | A_Decrypt h _ _ _ _ | A_DecryptUpdate h _ _ _ | A_DecryptFinal h _ _
  | A_DigestInit h _ | A_Digest h _ _ _ | A_DigestUpdate h _ | A_DigestKey h _ | A_DigestFinal h _ _
  | A_SignInit h _ _ | A_Sign h _ _ _ _ | A_SignUpdate h _ | A_SignFinal h _ _ | A_SignRecoverInit h _ _ | A_SignRecover h _ _ _
  | A_VerifyInit h _ _ | A_Verify h _ _ | A_VerifyUpdate h _ | A_VerifyFinal h _ | A_VerifyRecoverInit h _ _ | A_VerifyRecover h _ _ _
  | A_DigestEncryptUpdate h _ _ _ | A_DecryptDigestUpdate h _ _ _ | A_SignEncryptUpdate h _ _ _ | A_DecryptVerifyUpdate h _ _ _
  | A_GenerateKey h _ _ _ _ | A_GenerateKeyPair h _ _ _ _ _ _ | A_WrapKey h _ _ _ _ _ | A_UnwrapKey h _ _ _ _ _ | A_DeriveKey h _ _ _ _ _
  | A_SeedRandom h _ _ | A_GenerateRandom h _ _ _ | A_GetFunctionStatus h | A_CancelFunction h => Some h
  | _ => None
  end.
Definition slot_of (c : api) : option Z :=
  match c with
  | A_GetSlotInfo s _ | A_GetTokenInfo s _ _ _ | A_GetMechanismList s _ _ | A_GetMechanismInfo s _ _ | A_InitToken s _ _ | A_OpenSession s _ _ | A_CloseAllSessions s => Some s
  | _ => None
  end.
(** The functions that may be called before C_Initialize. *)
Definition before_init (c : api) : bool := match c with A_Initialize _ | A_GetFunctionList _ => true | _ => false end.
(** A pointer the function reads or writes through in every successful call is NULL. *)
Definition null_arg (c : api) : bool :=
  match c with
  | A_GetInfo p | A_GetFunctionList p | A_GetSlotInfo _ p | A_GetTokenInfo _ p _ _ | A_GetMechanismInfo _ _ p | A_OpenSession _ _ p
  | A_GetObjectSize _ _ p | A_DigestInit _ p | A_SignRecoverInit _ p _ | A_VerifyRecoverInit _ p _ | A_SetOperationState _ p _ _ | A_GetOperationState _ _ p => isnull p
  | A_GetSlotList _ _ n | A_GetMechanismList _ _ n | A_EncryptFinal _ _ n | A_DecryptFinal _ _ n | A_SignFinal _ _ n | A_DigestFinal _ _ n => isnull n
  | A_InitToken _ a b | A_SetPIN _ a b | A_Verify _ a b => isnull a || isnull b
  | A_InitPIN _ a | A_Login _ _ a _ | A_SignUpdate _ a | A_VerifyUpdate _ a | A_VerifyFinal _ a | A_DigestUpdate _ a | A_SeedRandom _ a _ => isnull a
  | A_GetSessionInfo _ p => isnull p
  | A_CreateObject _ t p | A_CopyObject _ _ t p => isnull t || isnull p
  | A_GetAttributeValue _ _ t | A_SetAttributeValue _ _ t | A_FindObjectsInit _ t => isnull t
  | A_FindObjects _ p _ q => isnull p || isnull q
  | A_EncryptInit _ m _ | A_DecryptInit _ m _ | A_SignInit _ m _ | A_VerifyInit _ m _ => isnull m
  | A_Encrypt _ d _ n _ | A_Decrypt _ d _ n _ | A_Sign _ d _ n _ => isnull d || isnull n
  | A_EncryptUpdate _ d _ n | A_DecryptUpdate _ d _ n | A_Digest _ d _ n | A_SignRecover _ d _ n | A_VerifyRecover _ d _ n
  | A_DigestEncryptUpdate _ d _ n | A_DecryptDigestUpdate _ d _ n | A_SignEncryptUpdate _ d _ n | A_DecryptVerifyUpdate _ d _ n => isnull d || isnull n
  | A_GenerateKey _ m t p _ => isnull m || isnull t || isnull p
  | A_GenerateKeyPair _ m t u p q _ => isnull m || isnull t || isnull u || isnull p || isnull q
  | A_WrapKey _ m _ _ _ n => isnull m || isnull n
  | A_UnwrapKey _ m _ d t p => isnull m || isnull d || isnull t || isnull p
  | A_DeriveKey _ m _ t p _ => isnull m || isnull t || isnull p
  | A_GenerateRandom _ p _ _ => isnull p
  | A_Initialize _ | A_Finalize _ | A_CloseSession _ | A_CloseAllSessions _ | A_Logout _ | A_DestroyObject _ _ | A_FindObjectsFinal _ | A_DigestKey _ _
  | A_GetFunctionStatus _ | A_CancelFunction _ | A_WaitForSlotEvent _ _ _ => false
  end.
(** Functions of the standard this library does not carry out. *)
Definition unsupported (c : api) : bool :=
  match c with
  | A_GetOperationState _ _ _ | A_SetOperationState _ _ _ _ | A_DigestInit _ _ | A_Digest _ _ _ _ | A_DigestUpdate _ _ | A_DigestKey _ _ | A_DigestFinal _ _ _
  | A_SignRecoverInit _ _ _ | A_SignRecover _ _ _ _ | A_VerifyRecoverInit _ _ _ | A_VerifyRecover _ _ _ _
  | A_DigestEncryptUpdate _ _ _ _ | A_DecryptDigestUpdate _ _ _ _ | A_SignEncryptUpdate _ _ _ _ | A_DecryptVerifyUpdate _ _ _ _
  | A_GetFunctionStatus _ | A_CancelFunction _ | A_WaitForSlotEvent _ _ _ => true
  | _ => false
  end.
(** Functions that only report; the random generator is not part of the state. *)
Definition query (c : api) : bool :=
  match c with
  | A_GetInfo _ | A_GetFunctionList _ | A_GetSlotList _ _ _ | A_GetSlotInfo _ _ | A_GetTokenInfo _ _ _ _ | A_GetMechanismList _ _ _ | A_GetMechanismInfo _ _ _
  | A_GetSessionInfo _ _ | A_GetObjectSize _ _ _ | A_GetAttributeValue _ _ _ | A_GenerateRandom _ _ _ _ | A_SeedRandom _ _ _ => true
  | _ => false
  end.
Definition refused (w : world) (s : sys) (c : api) (rv : Z) : Prop := forall rnd, exec w rnd s c = Ok (s, ARv rv).

(** ** C90: session information *)
Definition C90_slot_claim (w : world) : Prop := forall d s rnd fl s' h old s2 i,
  reach w (sys0 d) s -> step w rnd s (OOpenSession 1 fl) = Ok (s', OutH CKR_OK h) -> exec w rnd s' (A_GetSessionInfo h (At old)) = Ok (s2, ASess i) -> si_slot i = 1%Z.
Theorem C90_refuted : ~ C90_slot_claim tw.
Proof.
  intros C. set (s := after [OInitialize]). assert (R : reach tw (sys0 nofiles) s) by (apply after_reach; vm_compute; exact I).
  assert (E1 : exists s', step tw (rnd 1) s (OOpenSession 1 RW) = Ok (s', OutH CKR_OK H2)) by (eexists; vm_compute; reflexivity). destruct E1 as [s' E1].
  assert (E2 : exec tw (rnd 1) s' (A_GetSessionInfo H2 (At (mkSessInfo 99 0 0 0))) = Ok (s', ASess (mkSessInfo 99 2 6 0))).
  { assert (E : s' = match step tw (rnd 1) s (OOpenSession 1 RW) with Ok (a, _) => a | _ => s end) by (rewrite E1; reflexivity). rewrite E. vm_compute. reflexivity. }
  pose proof (C _ _ _ _ _ _ _ _ _ R E1 E2) as K. cbn in K. discriminate.
Qed.
Print Assumptions C90_refuted.
(** State, flags and the (never set) device error are right; nothing else is written. *)
Theorem C90_partial w d s h old rnd : reach w (sys0 d) s -> valid w s h ->
  exists i x rw, exec w rnd s (A_GetSessionInfo h (At old)) = Ok (s, ASess i) /\ info w s h = Some (OutInfo CKR_OK (si_state i) (si_flags i)) /\
    who w s x /\ si_state i = state_of x rw /\ si_flags i = (if rw then 6 else 4)%Z /\ si_error i = 0%Z /\ si_slot i = si_slot old.
Proof.
  intros R V. destruct (C05_session_state w d s R) as [x W]. apply valid_eq in V as [Cn [y G]].
  assert (I : info w s h = Some (OutInfo CKR_OK (GetState (s_tok s) y) (mode_flags (is_rw y)))) by (rewrite info_eq, (proj2 (Z.ltb_lt _ _) Cn), G; reflexivity).
  destruct (W _ _ _ I) as (rw & Fl & St).
  exists (GetSessionInfo (s_tok s) y old), x, rw. unfold exec, sessc, lib. rewrite (proj2 (Z.ltb_lt _ _) Cn), G. cbn [need]. split; [reflexivity|]. cbn [GetSessionInfo si_state si_flags si_error si_slot].
  assert (M : (CKF_SERIAL_SESSION + (if is_rw y then CKF_RW_SESSION else 0))%Z = mode_flags (is_rw y)) by (destruct (is_rw y); reflexivity).
  rewrite M. repeat split; auto.
Qed.
Print Assumptions C90_partial.
Example C90_case : valid tw (after [OInitialize; OOpenSession 1 RO]) H2.
Proof. do 2 eexists. vm_compute. reflexivity. Qed.

(** ** C91: calls without a library, a slot or a session are refused *)
Definition C91_claim (w : world) : Prop := forall s c, (s_count s <= 0)%Z -> before_init c = false -> refused w s c CKR_CRYPTOKI_NOT_INITIALIZED.
Theorem C91_refuted : ~ C91_claim tw.
Proof.
  intros C. specialize (C (sys0 nofiles) (A_Finalize Null) ltac:(cbn; lia) eq_refl (rnd 1)). vm_compute in C. discriminate.
Qed.
Print Assumptions C91_refuted.
Theorem C91_library_partial w s c : (s_count s <= 0)%Z -> before_init c = false -> (forall p, c <> A_Finalize p) -> refused w s c CKR_CRYPTOKI_NOT_INITIALIZED.
Proof.
  intros Cn B NF rnd. assert (L : (0 <? s_count s)%Z = false) by (apply Z.ltb_ge; lia).
  destruct c; cbn in B; try discriminate; try (exfalso; eapply NF; reflexivity); unfold exec, slotc, sessc, lib; rewrite L; reflexivity.
Qed.
Print Assumptions C91_library_partial.
Theorem C91_session w s c h : (0 < s_count s)%Z -> session_of c = Some h -> ~ valid w s h -> refused w s c CKR_SESSION_HANDLE_INVALID.
Proof.
  intros Cn E V rnd. assert (L : (0 <? s_count s)%Z = true) by (apply Z.ltb_lt; lia).
  assert (G : sess_get s h = None). { destruct (sess_get s h) as [x|] eqn:G; [|reflexivity]. destruct V. apply valid_eq. split; [exact Cn|eauto]. }
  destruct c; cbn in E; try discriminate; injection E as ->; unfold exec, sessc, lib; rewrite L, G; reflexivity.
Qed.
Print Assumptions C91_session.
Theorem C91_slot w s c i : (0 < s_count s)%Z -> slot_of c = Some i -> i <> 1%Z -> refused w s c CKR_SLOT_ID_INVALID.
Proof.
  intros Cn E V rnd. assert (L : (0 <? s_count s)%Z = true) by (apply Z.ltb_lt; lia).
  assert (G : slot_ok i = false) by (apply Z.eqb_neq; exact V).
  destruct c; cbn in E; try discriminate; injection E as ->; unfold exec, slotc, lib; rewrite L, G; reflexivity.
Qed.
Print Assumptions C91_slot.
(** Every function takes a slot, a session or neither, the latter being seven. *)
Example C91_kinds c : session_of c = None -> slot_of c = None ->
  match c with A_Initialize _ | A_Finalize _ | A_GetInfo _ | A_GetFunctionList _ | A_GetSlotList _ _ _ | A_WaitForSlotEvent _ _ _ => True | _ => False end.
Proof. destruct c; cbn; intros; try discriminate; exact I. Qed.
Example C91_case : (0 < s_count (after setup))%Z /\ ~ valid tw (after setup) H2 /\ valid tw (after (setup ++ [OOpenSession 1 RW])) H2.
Proof. split; [vm_compute; reflexivity|]. split; [intros (a & b & E); vm_compute in E; discriminate|do 2 eexists; vm_compute; reflexivity]. Qed.

(** ** C92: NULL pointers *)
Definition C92_claim (w : world) : Prop := forall d s c, reach w (sys0 d) s -> null_arg c = true ->
  (0 < s_count s)%Z -> (forall h, session_of c = Some h -> valid w s h) -> (forall i, slot_of c = Some i -> i = 1%Z) -> refused w s c CKR_ARGUMENTS_BAD.
Theorem C92_refuted : ~ C92_claim tw.
Proof.
  intros C. set (s := after [OInitialize; OOpenSession 1 RO]).
  assert (V : valid tw s H2) by (do 2 eexists; vm_compute; reflexivity).
  assert (R : reach tw (sys0 nofiles) s) by (apply after_reach; vm_compute; exact I).
  specialize (C _ s (A_UnwrapKey H2 Null 0 Null Null Null) R eq_refl ltac:(vm_compute; reflexivity) ltac:(intros h E; injection E as <-; exact V) ltac:(discriminate) (rnd 1)).
  vm_compute in C. discriminate.
Qed.
Print Assumptions C92_refuted.
(** Whatever the state: a call with a NULL pointer it needs fails, has defined
    behaviour and changes nothing. The code is CKR_ARGUMENTS_BAD unless another
    reason to refuse the call comes first. *)
Theorem C92_partial w s c : null_arg c = true ->
  exists rv, refused w s c rv /\ rv <> CKR_OK /\
    ((0 < s_count s)%Z -> (forall h, session_of c = Some h -> valid w s h) -> (forall i, slot_of c = Some i -> i = 1%Z) ->
      rv = CKR_ARGUMENTS_BAD \/
      (rv = CKR_SESSION_READ_ONLY /\ exists h m hu d t p, c = A_UnwrapKey h m hu d t p) \/
      (rv = CKR_SESSION_PARALLEL_NOT_SUPPORTED /\ exists i fl p, c = A_OpenSession i fl p)).
Proof.
  intros Nl.
  assert (A : forall rv, refused w s c rv -> rv <> CKR_OK -> (rv = CKR_ARGUMENTS_BAD \/
      (rv = CKR_SESSION_READ_ONLY /\ exists h m hu d t p, c = A_UnwrapKey h m hu d t p) \/
      (rv = CKR_SESSION_PARALLEL_NOT_SUPPORTED /\ exists i fl p, c = A_OpenSession i fl p)) ->
    exists rv, refused w s c rv /\ rv <> CKR_OK /\
    ((0 < s_count s)%Z -> (forall h, session_of c = Some h -> valid w s h) -> (forall i, slot_of c = Some i -> i = 1%Z) ->
      rv = CKR_ARGUMENTS_BAD \/
      (rv = CKR_SESSION_READ_ONLY /\ exists h m hu d t p, c = A_UnwrapKey h m hu d t p) \/
      (rv = CKR_SESSION_PARALLEL_NOT_SUPPORTED /\ exists i fl p, c = A_OpenSession i fl p))) by eauto.
  destruct (Z.ltb_spec 0 (s_count s)) as [L|L].
  2:{ destruct (before_init c) eqn:B.
      - destruct c; cbn in B, Nl; try discriminate. apply (A CKR_ARGUMENTS_BAD); [|discriminate|auto]. destruct list; [|discriminate]. intros rnd. reflexivity.
      - exists CKR_CRYPTOKI_NOT_INITIALIZED. split; [apply C91_library_partial; auto; intros p ->; discriminate|]. split; [discriminate|lia]. }
  assert (L' : (0 <? s_count s)%Z = true) by (apply Z.ltb_lt; lia).
  destruct (session_of c) as [h|] eqn:Se.
  { destruct (sess_get s h) as [x|] eqn:G.
    2:{ assert (V : ~ valid w s h). { intros V. apply valid_eq in V as [_ [x G']]. congruence. }
        exists CKR_SESSION_HANDLE_INVALID. split; [eapply C91_session; eauto|]. split; [discriminate|]. intros _ K. destruct (V (K _ eq_refl)). }
    assert (Q : (forall rnd, exec w rnd s c = ans s CKR_ARGUMENTS_BAD) \/ exists m hu d t p, c = A_UnwrapKey h m hu d t p).
    { destruct c; cbn in Se, Nl; try discriminate; injection Se as ->; try (right; eauto 8; fail); left; intros rr; unfold exec, sessc, lib; rewrite L', G;
        repeat match goal with p : ptr _ |- _ => destruct p as [|?]; cbn [isnull orb need need_some] in *; try discriminate Nl; try reflexivity end;
        repeat match goal with x : (_ * _)%type |- _ => destruct x end; try reflexivity; unfold need_some, need; repeat match goal with |- context[(?a =? 0)%Z] => destruct (a =? 0)%Z end; try reflexivity. }
    destruct Q as [Q|(m & hu & d & t & p & ->)]; [apply (A CKR_ARGUMENTS_BAD); [exact Q|discriminate|auto]|].
    destruct (is_rw x) eqn:W.
    - apply (A CKR_ARGUMENTS_BAD); [|discriminate|auto]. intros rnd. unfold exec, sessc, lib, rwc. rewrite L', G, W. cbn in Nl.
      destruct m as [|[]], d as [|?], t, p; cbn [isnull orb need need_some] in *; try discriminate Nl; try reflexivity; unfold need_some, need; destruct (zlen a =? 0)%Z; reflexivity.
    - apply (A CKR_SESSION_READ_ONLY); [|discriminate|eauto 12]. intros rnd. unfold exec, sessc, lib, rwc. rewrite L', G, W. reflexivity. }
  destruct (slot_of c) as [i|] eqn:Sl.
  { destruct (Z.eq_dec i 1) as [->|Ne].
    2:{ exists CKR_SLOT_ID_INVALID. split; [eapply C91_slot; eauto|]. split; [discriminate|]. intros _ _ K. destruct (Ne (K _ eq_refl)). }
    destruct c; cbn in Sl, Nl; try discriminate; injection Sl as ->;
      try (apply (A CKR_ARGUMENTS_BAD); [|discriminate|auto]; intros rnd; unfold exec, slotc, lib; rewrite L'; change (slot_ok 1) with true; cbv iota;
           repeat match goal with p : ptr _ |- _ => destruct p as [|?]; cbn [isnull orb need] in *; try discriminate Nl; try reflexivity end; fail).
    destruct session; [|discriminate]. destruct (Z.land flags CKF_SERIAL_SESSION =? 0)%Z eqn:F.
    - apply (A CKR_SESSION_PARALLEL_NOT_SUPPORTED); [|discriminate|eauto 8]. intros rnd. unfold exec, slotc, lib. rewrite L'. change (slot_ok 1) with true. cbv iota. rewrite F. reflexivity.
    - apply (A CKR_ARGUMENTS_BAD); [|discriminate|auto]. intros rnd. unfold exec, slotc, lib. rewrite L'. change (slot_ok 1) with true. cbv iota. rewrite F. reflexivity. }
  apply (A CKR_ARGUMENTS_BAD); [|discriminate|auto]. intros rnd.
  destruct c; cbn in Se, Sl, Nl; try discriminate; unfold exec, lib; try rewrite L';
    repeat match goal with p : ptr _ |- _ => destruct p as [|?]; cbn [isnull need] in *; try discriminate Nl; try reflexivity end;
    destruct (_ && _); reflexivity.
Qed.
Print Assumptions C92_partial.
(** A reserved pointer that must be NULL is not looked at; an empty template may not
    be given as NULL. *)
Definition C92_reserved_claim (w : world) : Prop := forall d s rnd s' o, reach w (sys0 d) s -> exec w rnd s (A_Finalize (At tt)) = Ok (s', o) -> a_rv o = CKR_ARGUMENTS_BAD.
Theorem C92_reserved_refuted : ~ C92_reserved_claim tw.
Proof.
  intros C. set (s := after [OInitialize]). assert (R : reach tw (sys0 nofiles) s) by (apply after_reach; vm_compute; exact I).
  assert (E : match exec tw (rnd 1) s (A_Finalize (At tt)) with Ok (_, o) => a_rv o = CKR_OK | _ => False end) by (vm_compute; reflexivity).
  destruct (exec tw (rnd 1) s (A_Finalize (At tt))) as [[s' o]| |] eqn:X; try contradiction. pose proof (C _ _ _ _ _ R X) as K. rewrite E in K. discriminate.
Qed.
Print Assumptions C92_reserved_refuted.
Definition C92_empty_claim (w : world) : Prop := forall d s h rnd, reach w (sys0 d) s -> 
  option_map (fun p => a_rv (snd p)) (match exec w rnd s (A_FindObjectsInit h Null) with Ok p => Some p | _ => None end) =
  option_map (fun p => a_rv (snd p)) (match exec w rnd s (A_FindObjectsInit h (At [])) with Ok p => Some p | _ => None end).
Theorem C92_empty_refuted : ~ C92_empty_claim tw.
Proof.
  intros C. set (s := after [OInitialize; OOpenSession 1 RO]). assert (R : reach tw (sys0 nofiles) s) by (apply after_reach; vm_compute; exact I).
  specialize (C _ s H2 (rnd 1) R). vm_compute in C. discriminate.
Qed.
Print Assumptions C92_empty_refuted.

(** Object handles: the calls that take some, and that neither the token nor the
    session has an object of a handle. *)
Definition objects_of (c : api) : list Z :=
  match c with
  | A_CopyObject _ ho _ _ | A_DestroyObject _ ho | A_GetObjectSize _ ho _ | A_GetAttributeValue _ ho _ | A_SetAttributeValue _ ho _
  | A_EncryptInit _ _ ho | A_DecryptInit _ _ ho | A_SignInit _ _ ho | A_VerifyInit _ _ ho | A_SignRecoverInit _ _ ho | A_VerifyRecoverInit _ _ ho | A_DigestKey _ ho
  | A_UnwrapKey _ _ ho _ _ _ | A_DeriveKey _ _ ho _ _ _ => [ho]
  | A_WrapKey _ _ hw hk _ _ => [hw; hk]
  | _ => []
  end.
Definition no_object (s : sys) (h ho : Z) : Prop :=
  Forall (fun o => o_handle o <> ho) (t_objs (s_tok s)) /\
  forall x, In x (s_sess s) -> ss_h x = h -> Forall (fun o => o_handle o <> ho) (ss_objs x).
Definition read_only (w : world) (s : sys) (h : Z) : Prop := exists st, info w s h = Some (OutInfo CKR_OK st CKF_SERIAL_SESSION).
(** Whatever the state, a handle of no object makes a call fail, with defined
    behaviour and no effect; the code names the handle that is wrong unless a pointer
    is NULL, the session read-only or the data empty. *)
Theorem C91_object w s c h ho : session_of c = Some h -> In ho (objects_of c) -> no_object s h ho ->
  exists rv, (forall rnd, exists o, exec w rnd s c = Ok (s, o) /\ a_rv o = rv) /\ rv <> CKR_OK /\
   (valid w s h -> null_arg c = false ->
      rv = CKR_OBJECT_HANDLE_INVALID \/ (rv = CKR_SESSION_READ_ONLY /\ read_only w s h) \/
      (rv = CKR_WRAPPING_KEY_HANDLE_INVALID /\ exists m hk p n, c = A_WrapKey h m ho hk p n) \/
      (rv = CKR_UNWRAPPING_KEY_HANDLE_INVALID /\ exists m d t p, c = A_UnwrapKey h m ho d t p) \/
      (rv = CKR_ARGUMENTS_BAD /\ exists m t p, c = A_UnwrapKey h m ho (At []) t p)).
Proof.
  intros Se Ob No.
  destruct (0 <? s_count s)%Z eqn:L.
  2:{ exists CKR_CRYPTOKI_NOT_INITIALIZED. split; [|split; [discriminate|]].
      - intros rnd. exists (ARv CKR_CRYPTOKI_NOT_INITIALIZED). split; [|reflexivity]. apply C91_library_partial; [apply Z.ltb_ge; exact L|destruct c; cbn in Se; try discriminate; reflexivity|]. intros p ->. discriminate Se.
      - intros V. apply valid_eq in V as [V _]. apply Z.ltb_ge in L. lia. }
  destruct (sess_get s h) as [x|] eqn:G.
  2:{ assert (V : ~ valid w s h) by (intros V; apply valid_eq in V as [_ [x G']]; congruence).
      exists CKR_SESSION_HANDLE_INVALID. split; [|split; [discriminate|intros V'; destruct (V V')]].
      intros rnd. exists (ARv CKR_SESSION_HANDLE_INVALID). split; [|reflexivity]. eapply C91_session; eauto. apply Z.ltb_lt; exact L. }
  assert (Fo : find_obj s x ho = None).
  { pose proof G as G1. apply sess_get_in in G1 as (X & Hx & _). destruct No as [A B]. specialize (B x X Hx). unfold find_obj. destruct (on_token ho); (destruct (find _ _) as [o|] eqn:Fd; [|reflexivity]); apply find_some in Fd as [I E]; apply Z.eqb_eq in E;
    [apply (proj1 (Forall_forall _ _) A) in I|apply (proj1 (Forall_forall _ _) B) in I]; congruence. }
  assert (Ro : is_rw x = false -> read_only w s h).
  { intros W. exists (GetState (s_tok s) x). rewrite info_eq, L, G, W. reflexivity. }
  assert (K : exists rv, (forall rnd, exists o, exec w rnd s c = Ok (s, o) /\ a_rv o = rv) /\ rv <> CKR_OK /\ (null_arg c = false ->
     rv = CKR_OBJECT_HANDLE_INVALID \/ (rv = CKR_SESSION_READ_ONLY /\ is_rw x = false) \/
      (rv = CKR_WRAPPING_KEY_HANDLE_INVALID /\ exists m hk p n, c = A_WrapKey h m ho hk p n) \/
      (rv = CKR_UNWRAPPING_KEY_HANDLE_INVALID /\ exists m d t p, c = A_UnwrapKey h m ho d t p) \/
      (rv = CKR_ARGUMENTS_BAD /\ exists m t p, c = A_UnwrapKey h m ho (At []) t p))).
  2:{ destruct K as (rv & K1 & K2 & K3). exists rv. split; [exact K1|]. split; [exact K2|]. intros _ Nl. destruct (K3 Nl) as [E|[[E W]|E]]; auto. }
  destruct (null_arg c) eqn:Nl.
  { destruct (C92_partial w s c Nl) as (rv & R & Ne & _). exists rv. split; [|split; [exact Ne|discriminate]]. intros rnd. exists (ARv rv). split; [apply R|reflexivity]. }
  assert (Y : forall rv o, (forall rnd, exec w rnd s c = Ok (s, o)) -> a_rv o = rv -> rv <> CKR_OK -> 
     (rv = CKR_OBJECT_HANDLE_INVALID \/ (rv = CKR_SESSION_READ_ONLY /\ is_rw x = false) \/
      (rv = CKR_WRAPPING_KEY_HANDLE_INVALID /\ exists m hk p n, c = A_WrapKey h m ho hk p n) \/
      (rv = CKR_UNWRAPPING_KEY_HANDLE_INVALID /\ exists m d t p, c = A_UnwrapKey h m ho d t p) \/
      (rv = CKR_ARGUMENTS_BAD /\ exists m t p, c = A_UnwrapKey h m ho (At []) t p)) -> 
     exists rv, (forall rnd, exists o, exec w rnd s c = Ok (s, o) /\ a_rv o = rv) /\ rv <> CKR_OK /\ (false = false ->
     rv = CKR_OBJECT_HANDLE_INVALID \/ (rv = CKR_SESSION_READ_ONLY /\ is_rw x = false) \/
      (rv = CKR_WRAPPING_KEY_HANDLE_INVALID /\ exists m hk p n, c = A_WrapKey h m ho hk p n) \/
      (rv = CKR_UNWRAPPING_KEY_HANDLE_INVALID /\ exists m d t p, c = A_UnwrapKey h m ho d t p) \/
      (rv = CKR_ARGUMENTS_BAD /\ exists m t p, c = A_UnwrapKey h m ho (At []) t p))) by (intros rv o E1 E2 E3 E4; exists rv; split; [intros rnd; exists o; auto|auto]).
  destruct c; cbn in Se, Ob; try discriminate; injection Se as ->; try contradiction; cbn [null_arg] in Nl;
  repeat match goal with p : ptr _ |- _ => destruct p; cbn [isnull orb andb] in Nl; try discriminate Nl end;
  repeat match goal with p : (mech * mparam)%type |- _ => destruct p end;
  repeat match goal with H : _ \/ False |- _ => destruct H as [H|[]]; try subst end;
  unfold exec, sessc, lib in *; rewrite L, G in *; unfold rwc, need_some, objc, call in *; cbn [need step bind] in *; unfold with_sess, need_lib in *; rewrite ?L, ?G, ?Fo in *; unfold need_rw, with_object in *.
  all: try (cbn [with_key]; rewrite Fo; eapply (Y CKR_OBJECT_HANDLE_INVALID); [intros rnd; reflexivity|reflexivity|discriminate|auto]).
  all: try (eapply (Y CKR_OBJECT_HANDLE_INVALID); [intros rnd; cbn [with_key]; rewrite ?Fo; reflexivity|reflexivity|discriminate|auto]).
  all: destruct (is_rw x) eqn:W; try (eapply (Y CKR_SESSION_READ_ONLY); [intros rnd; rewrite ?W; reflexivity|reflexivity|discriminate|auto]).
  all: try (eapply (Y CKR_OBJECT_HANDLE_INVALID); [intros rnd; rewrite ?W, ?Fo; reflexivity|reflexivity|discriminate|auto]).
  3:{ (* C_UnwrapKey *) destruct (zlen _ =? 0)%Z eqn:Z0; [eapply (Y CKR_ARGUMENTS_BAD); [intros rnd; rewrite ?W, ?Z0; reflexivity|reflexivity|discriminate|]; do 4 right; split; [reflexivity|]; apply Z.eqb_eq in Z0; do 3 eexists; destruct a1; [reflexivity|unfold zlen in Z0; cbn [length] in Z0; lia]|]. eapply (Y CKR_UNWRAPPING_KEY_HANDLE_INVALID); [intros rnd; rewrite ?W, ?Z0, ?Fo; reflexivity|reflexivity|discriminate|]. do 3 right. left. split; [reflexivity|]. do 4 eexists; reflexivity. }
  (* C_WrapKey *)
  all: destruct (find_obj s x hk) as [ok|] eqn:Fk; [|eapply (Y CKR_OBJECT_HANDLE_INVALID); [intros rnd; rewrite ?W, ?Fk; reflexivity|reflexivity|discriminate|auto]].
  all: (destruct Ob as [->|[->|[]]]; [|congruence]); rewrite Fo in *; (eapply (Y CKR_WRAPPING_KEY_HANDLE_INVALID); [intros rnd; rewrite ?W, ?Fk; reflexivity|reflexivity|discriminate|]); do 2 right; left; (split; [reflexivity|]); do 4 eexists; reflexivity.
Qed.
Print Assumptions C91_object.
Definition one_key : list op := setup ++ [OOpenSession 1 RW; OLogin H2 CKU_USER upin (Some 0%Z); OCreateObject H2 PropObject.aes_tmpl].
Example C91_object_case : valid tw (after one_key) H2 /\ no_object (after one_key) H2 2 /\ ~ no_object (after one_key) H2 1.
Proof.
  split; [do 2 eexists; vm_compute; reflexivity|]. split.
  - split; [vm_compute; constructor|]. vm_compute. intros x I. repeat (destruct I as [<-|I]; [intros E; try discriminate E; repeat constructor; discriminate|]). destruct I.
  - intros [_ B]. vm_compute in B.
    match type of B with forall x, ?a = x \/ _ -> _ => pose proof (B a (or_introl eq_refl) eq_refl) as F; inversion F; congruence end.
Qed.

(** C_GenerateRandom and C_SeedRandom say what wolfCrypt answers: success exactly if
    it has succeeded, and then its bytes. *)
Theorem C91_random w s h n p ret f : valid w s h ->
  (exists o, (forall rnd, exec w rnd s (A_GenerateRandom h (At n) ret f) = Ok (s, o)) /\ (a_rv o = CKR_OK <-> ret = 0%Z) /\
     (ret = 0%Z -> (0 <= n < 2 ^ 32)%Z -> o = ARandom (f n)) /\ (ret <> 0%Z -> forall b, o <> ARandom b)) /\
  (exists rv, refused w s (A_SeedRandom h (At p) ret) rv /\ (rv = CKR_OK <-> ret = 0%Z)).
Proof.
  intros V. apply valid_eq in V as [L [x G]]. unfold refused, exec, sessc, lib. rewrite (proj2 (Z.ltb_lt _ _) L), G. cbn [need]. split.
  - destruct (Z.eqb_spec ret (-125)) as [->|N1]; [|destruct (Z.eqb_spec ret 0) as [->|N2]].
    + exists (ARv CKR_DEVICE_MEMORY). split; [reflexivity|]. split; [split; discriminate|]. split; [discriminate|intros _ b; discriminate].
    + exists (ARandom (f (n mod 2 ^ 32)%Z)). split; [reflexivity|]. split; [split; reflexivity|]. split; [intros _ R; rewrite Z.mod_small by exact R; reflexivity|intros K; destruct (K eq_refl)].
    + exists (ARv CKR_FUNCTION_FAILED). split; [reflexivity|]. split; [split; [discriminate|intros K; destruct (N2 K)]|]. split; [intros K; destruct (N2 K)|intros _ b; discriminate].
  - destruct (Z.eqb_spec ret (-125)) as [->|N1]; [|destruct (Z.eqb_spec ret 0) as [->|N2]]; eexists; (split; [intros rnd; reflexivity|]); split; try discriminate; try reflexivity; intros; contradiction.
Qed.
Print Assumptions C91_random.

(** ** C93: unsupported functions fail, reporting functions report; nothing changes *)
Definition C93_claim (w : world) : Prop := forall s c rnd o s', unsupported c = true -> (0 < s_count s)%Z -> (forall h, session_of c = Some h -> valid w s h) -> null_arg c = false ->
  exec w rnd s c = Ok (s', o) -> a_rv o = CKR_FUNCTION_NOT_SUPPORTED.
Theorem C93_refuted : ~ C93_claim tw.
Proof.
  intros C. set (s := after [OInitialize; OOpenSession 1 RO]).
  assert (V : valid tw s H2) by (do 2 eexists; vm_compute; reflexivity).
  assert (E : exec tw (rnd 1) s (A_DigestInit H2 (At tt)) = Ok (s, ARv CKR_MECHANISM_INVALID)) by (vm_compute; reflexivity).
  specialize (C s (A_DigestInit H2 (At tt)) (rnd 1) _ _ eq_refl ltac:(vm_compute; reflexivity) ltac:(intros h K; injection K as <-; exact V) eq_refl E). discriminate.
Qed.
Print Assumptions C93_refuted.
Theorem C93_partial w s c : unsupported c = true -> exists rv, refused w s c rv /\ rv <> CKR_OK.
Proof.
  intros U.
  assert (A : forall rv, refused w s c rv -> rv <> CKR_OK -> exists rv, refused w s c rv /\ rv <> CKR_OK) by eauto.
  destruct c; cbn in U; try discriminate; unfold refused, exec, sessc, lib; destruct (0 <? s_count s)%Z; try (eexists; split; [intros; reflexivity|discriminate]);
  try (destruct (sess_get s h) as [x|]; [|eexists; split; [intros; reflexivity|discriminate]]); unfold objc;
  repeat match goal with p : ptr _ |- _ => destruct p as [|?]; unfold need_some, need; cbn [need need_some]; try (eexists; split; [intros; reflexivity|discriminate]) end;
  repeat match goal with |- context[(?a =? 0)%Z] => destruct (a =? 0)%Z | |- context[find_obj ?a ?b ?c] => destruct (find_obj a b c) end.
  all: eexists; split; [intros; reflexivity|discriminate].
Qed.
Print Assumptions C93_partial.
Theorem C93_query w s c rnd s' o : query c = true -> exec w rnd s c = Ok (s', o) -> s' = s.
Proof.
  intros Q E.
  assert (K : match exec w rnd s c with Ok (s1, _) => s1 = s | _ => True end).
  { clear E. destruct c; cbn in Q; try discriminate; unfold exec, slotc, sessc, lib, ans, objc, need; destruct (0 <? s_count s)%Z; try reflexivity;
    repeat match goal with
    | |- match match ?x with _ => _ end with _ => _ end => destruct x; try reflexivity
    end.
    unfold call. cbn [step]. unfold with_sess, need_lib. destruct (0 <? s_count s)%Z; [|reflexivity]. destruct (sess_get s h) as [x|]; [|reflexivity].
    unfold with_object. destruct (find_obj s x ho); [|reflexivity]. destruct (GetAttributeValue _ _ _) as [[]| |]; cbn [bind]; trivial. }
  rewrite E in K. exact K.
Qed.
Print Assumptions C93_query.
Example C93_case : unsupported (A_SignRecover H2 (At [1%N]) Null (At 0%Z)) = true /\ query (A_GetAttributeValue H2 16 (At [])) = true.
Proof. split; reflexivity. Qed.

(** ** C94: the states of the library are those the modelled calls lead to *)
(** What a call does is either nothing or one step of Sys.v with the same result:
    the theorems about all reachable states hold for the whole interface. *)
Theorem C94_call w rnd s c s' o : exec w rnd s c = Ok (s', o) -> s' = s \/ exists p r, step w rnd s p = Ok (s', r) /\ o = ACall r /\ a_rv o = out_rv r.
Proof.
  intros E.
  assert (A : forall rv, ans s rv = Ok (s', o) -> s' = s) by (intros rv K; injection K; auto).
  assert (B : forall p, call w rnd s p = Ok (s', o) -> s' = s \/ exists p r, step w rnd s p = Ok (s', r) /\ o = ACall r /\ a_rv o = out_rv r).
  { intros p K. unfold call in K. destruct (step w rnd s p) as [[s1 r]| |] eqn:St; try discriminate. cbn [bind] in K. injection K as <- <-. right. exists p, r. auto. }
  assert (O : forall a, Ok (s, a) = Ok (s', o) -> s' = s) by (intros a K; injection K; auto).
  destruct c; cbn [exec] in E; unfold slotc, sessc, lib, objc, rwc, need_some, need in E;
  repeat match type of E with
    | call _ _ _ _ = _ => exact (B _ E)
    | ans _ _ = _ => left; exact (A _ E)
    | Ok _ = _ => left; exact (O _ E)
    | context[match ?x with _ => _ end] => match type of E with match x with _ => _ end = _ => destruct x end
    | (let x := ?v in _) = _ => cbv zeta in E
    end.
Qed.
Print Assumptions C94_call.
Theorem C94_step w rnd s p s' r : p <> ORestart -> step w rnd s p = Ok (s', r) -> s' = s \/ exists c, exec w rnd s c = Ok (s', ACall r).
Proof.
  intros NR E.
  assert (CL : call w rnd s p = Ok (s', ACall r)) by (unfold call; rewrite E; reflexivity).
  assert (SS : forall h k c, step w rnd s p = with_sess s h k -> exec w rnd s c = sessc s h (fun _ => call w rnd s p) -> s' = s \/ exists c, exec w rnd s c = Ok (s', ACall r)).
  { intros h k c K X. rewrite K in E. unfold with_sess, need_lib, rv_ in E. unfold sessc, lib in X. destruct (0 <? s_count s)%Z; [|left; injection E; auto].
    destruct (sess_get s h); [|left; injection E; auto]. right. exists c. rewrite X. exact CL. }
  assert (SL : forall i k c, step w rnd s p = with_slot s i k -> exec w rnd s c = slotc s i (call w rnd s p) -> s' = s \/ exists c, exec w rnd s c = Ok (s', ACall r)).
  { intros i k c K X. rewrite K in E. unfold with_slot, need_lib, rv_ in E. unfold slotc, lib in X. destruct (0 <? s_count s)%Z; [|left; injection E; auto].
    destruct (slot_ok i); [|left; injection E; auto]. right. exists c. rewrite X. exact CL. }
  destruct p as [ | | |i pin label|h pin|h old new|i fl|h|i|h|h ut pin now|h|i now|h t|h ho t|h ho|h ho t|h ho t|h t|h n|h|h aes t key|h m tp tq g|h m mp hw hk b|h m mp hu wr t|h m hb sec t|h c hk].
  - right. exists (A_Initialize Null). exact CL.
  - right. exists (A_Finalize Null). exact CL.
  - destruct (NR eq_refl).
  - eapply (SL i _ (A_InitToken i (At pin) (At label))); reflexivity.
  - eapply (SS h _ (A_InitPIN h (At pin))); reflexivity.
  - eapply (SS h _ (A_SetPIN h (At old) (At new))); reflexivity.
  - destruct (Z.land fl CKF_SERIAL_SESSION =? 0)%Z eqn:F.
    + left. cbn [step] in E. unfold with_slot, need_lib, OpenSession, rv_ in E. rewrite F in E. destruct (0 <? s_count s)%Z; [destruct (slot_ok i)|]; injection E; auto.
    + eapply (SL i _ (A_OpenSession i fl (At tt))); [reflexivity|]. cbn [exec]. rewrite F. reflexivity.
  - eapply (SS h _ (A_CloseSession h)); reflexivity.
  - eapply (SL i _ (A_CloseAllSessions i)); reflexivity.
  - left. cbn [step] in E. unfold with_sess, need_lib, rv_ in E. destruct (0 <? s_count s)%Z; [destruct (sess_get s h)|]; injection E; auto.
  - eapply (SS h _ (A_Login h ut (At pin) now)); reflexivity.
  - eapply (SS h _ (A_Logout h)); reflexivity.
  - left. cbn [step] in E. unfold with_slot, need_lib, rv_ in E. destruct (0 <? s_count s)%Z; [destruct (slot_ok i)|]; injection E; auto.
  - eapply (SS h _ (A_CreateObject h (At t) (At tt))); reflexivity.
  - eapply (SS h _ (A_CopyObject h ho (At t) (At tt))); reflexivity.
  - eapply (SS h _ (A_DestroyObject h ho)); reflexivity.
  - eapply (SS h _ (A_GetAttributeValue h ho (At t))); reflexivity.
  - eapply (SS h _ (A_SetAttributeValue h ho (At t))); reflexivity.
  - eapply (SS h _ (A_FindObjectsInit h (At t))); reflexivity.
  - eapply (SS h _ (A_FindObjects h (At tt) n (At tt))); reflexivity.
  - eapply (SS h _ (A_FindObjectsFinal h)); reflexivity.
  - eapply (SS h _ (A_GenerateKey h (At (mkGM aes false)) (At t) (At tt) key)); [reflexivity|]. destruct aes; reflexivity.
  - eapply (SS h _ (A_GenerateKeyPair h (At (mkPM m false)) (At tp) (At tq) (At tt) (At tt) g)); [reflexivity|]. destruct m; reflexivity.
  - destruct b as [|n]; [eapply (SS h _ (A_WrapKey h (At (m, mp)) hw hk Null (At 0%Z)))|eapply (SS h _ (A_WrapKey h (At (m, mp)) hw hk (At tt) (At n)))]; reflexivity.
  - pose proof E as E0. cbn [step] in E0. unfold with_sess, need_lib, need_rw, rv_ in E0. destruct (0 <? s_count s)%Z eqn:C; [|left; injection E0; auto].
    destruct (sess_get s h) as [x|] eqn:G; [|left; injection E0; auto]. destruct (is_rw x) eqn:W; [|left; injection E0; auto]. destruct (zlen wr =? 0)%Z eqn:Z; [left; injection E0; auto|].
    right. exists (A_UnwrapKey h (At (m, mp)) hu (At wr) (At t) (At tt)). cbn [exec]. unfold sessc, lib, rwc. rewrite C, G, W. cbn [need]. unfold need_some, need. rewrite Z. exact CL.
  - pose proof E as E0. cbn [step] in E0. unfold with_sess, need_lib, with_object, rv_ in E0. destruct (0 <? s_count s)%Z eqn:C; [|left; injection E0; auto].
    destruct (sess_get s h) as [x|] eqn:G; [|left; injection E0; auto]. destruct (find_obj s x hb) as [o|] eqn:F; [|left; injection E0; auto].
    right. exists (A_DeriveKey h (At (mkDM m (match m with D_ECDH => DPecdh 1 (At [4%N]) | _ => DPraw [4%N] end))) hb (At t) (At tt) sec). cbn [exec]. unfold sessc, lib, objc. rewrite C, G. cbn [need]. rewrite F. destruct m; exact CL.
  - destruct c as [m mp k|m mp k|m mp k|m mp k|rd da [|n]|da [|n]|[|n]|rd da [|n]|da [|n]|[|n]|rd da [|n]|da|[|n]|da sg|da|sg|].
    + eapply (SS h _ (A_EncryptInit h (At (m, mp)) hk)); reflexivity.
    + eapply (SS h _ (A_DecryptInit h (At (m, mp)) hk)); reflexivity.
    + eapply (SS h _ (A_SignInit h (At (m, mp)) hk)); reflexivity.
    + eapply (SS h _ (A_VerifyInit h (At (m, mp)) hk)); reflexivity.
    + eapply (SS h _ (A_Encrypt h (At da) Null (At 0%Z) rd)); reflexivity.
    + eapply (SS h _ (A_Encrypt h (At da) (At tt) (At n) rd)); reflexivity.
    + eapply (SS h _ (A_EncryptUpdate h (At da) Null (At 0%Z))); reflexivity.
    + eapply (SS h _ (A_EncryptUpdate h (At da) (At tt) (At n))); reflexivity.
    + eapply (SS h _ (A_EncryptFinal h Null (At 0%Z))); reflexivity.
    + eapply (SS h _ (A_EncryptFinal h (At tt) (At n))); reflexivity.
    + eapply (SS h _ (A_Decrypt h (At da) Null (At 0%Z) rd)); reflexivity.
    + eapply (SS h _ (A_Decrypt h (At da) (At tt) (At n) rd)); reflexivity.
    + eapply (SS h _ (A_DecryptUpdate h (At da) Null (At 0%Z))); reflexivity.
    + eapply (SS h _ (A_DecryptUpdate h (At da) (At tt) (At n))); reflexivity.
    + eapply (SS h _ (A_DecryptFinal h Null (At 0%Z))); reflexivity.
    + eapply (SS h _ (A_DecryptFinal h (At tt) (At n))); reflexivity.
    + eapply (SS h _ (A_Sign h (At da) Null (At 0%Z) rd)); reflexivity.
    + eapply (SS h _ (A_Sign h (At da) (At tt) (At n) rd)); reflexivity.
    + eapply (SS h _ (A_SignUpdate h (At da))); reflexivity.
    + eapply (SS h _ (A_SignFinal h Null (At 0%Z))); reflexivity.
    + eapply (SS h _ (A_SignFinal h (At tt) (At n))); reflexivity.
    + eapply (SS h _ (A_Verify h (At da) (At sg))); reflexivity.
    + eapply (SS h _ (A_VerifyUpdate h (At da))); reflexivity.
    + eapply (SS h _ (A_VerifyFinal h (At sg))); reflexivity.
    + left. cbn [step with_key] in E. unfold with_sess, need_lib, rv_ in E. destruct (0 <? s_count s)%Z; [destruct (sess_get s h)|]; injection E; auto.
Qed.
Print Assumptions C94_step.
Theorem C94_reach w s0 s : areach w s0 s <-> reach w s0 s.
Proof.
  split.
  - induction 1 as [|s rnd c s' o R IH E|s rnd s' o R IH E]; [constructor| |eapply reach_step; eauto].
    destruct (C94_call _ _ _ _ _ _ E) as [->|(p & r & St & _)]; [exact IH|eapply reach_step; eauto].
  - induction 1 as [|s rnd p s' r R IH E]; [constructor|].
    assert (D : p = ORestart \/ p <> ORestart) by (destruct p; try (right; discriminate); left; reflexivity). destruct D as [->|D]; [eapply areach_end; eauto|].
    destruct (C94_step _ _ _ _ _ _ D E) as [->|[c X]]; [exact IH|eapply areach_call; eauto].
Qed.
Print Assumptions C94_reach.
(** A history through the interface: a session, a key, an encryption. *)
Definition aseq (l : list api) : res (sys * list Z) :=
  fold_left (fun a c => '(s, rvs) <- a ;; '(s', o) <- exec tw (rnd 1) s c ;; Ok (s', rvs ++ [a_rv o])) l (Ok (sys0 nofiles, [])).
Example C94_case : match aseq [A_GetInfo (At tt); A_Initialize Null; A_GetInfo Null; A_GetInfo (At tt); A_OpenSession 1 RW Null; A_OpenSession 1 RW (At tt); A_GetSessionInfo H2 (At (mkSessInfo 0 0 0 0));
    A_GenerateRandom H2 (At 4%Z) 0 (fun n => repeat 7%N (Z.to_nat n)); A_SignInit H2 Null 3; A_CancelFunction H2; A_CloseSession H2; A_CloseSession H2; A_Finalize Null] with
  | Ok (_, rvs) => rvs = [CKR_CRYPTOKI_NOT_INITIALIZED; CKR_OK; CKR_ARGUMENTS_BAD; CKR_OK; CKR_ARGUMENTS_BAD; CKR_OK; CKR_OK; CKR_OK; CKR_ARGUMENTS_BAD; CKR_FUNCTION_NOT_PARALLEL; CKR_OK; CKR_SESSION_HANDLE_INVALID; CKR_OK]
  | _ => False end.
Proof. vm_compute. reflexivity. Qed.

(** ** C95: mechanism parameters of key generation and key agreement *)
(** The key generation mechanisms take no parameter; ECDH takes the structure with a
    public value and no key derivation function; DH takes the public value. *)
Definition wrong_param (c : api) : bool :=
  match c with
  | A_GenerateKey _ (At m) _ _ _ => gm_aes m && gm_par m
  | A_GenerateKeyPair _ (At m) _ _ _ _ _ => match pm_kind m with KP_other => false | _ => pm_par m end
  | A_DeriveKey _ (At m) _ _ _ _ =>
      match dm_kind m, dm_par m with
      | D_ECDH, DPecdh kdf (At (_ :: _)) => negb (kdf =? 1)%Z
      | D_ECDH, _ | D_DH, (DPnull | DPraw []) => true
      | _, _ => false
      end
  | _ => false
  end.
Theorem C95_parameters w s c h : wrong_param c = true -> null_arg c = false -> session_of c = Some h -> valid w s h ->
  refused w s c CKR_MECHANISM_PARAM_INVALID \/
  (refused w s c CKR_OBJECT_HANDLE_INVALID /\ exists m hb t p sec x, c = A_DeriveKey h m hb t p sec /\ sess_get s h = Some x /\ find_obj s x hb = None).
Proof.
  intros B Nl Se V. apply valid_eq in V as [L [x G]]. apply Z.ltb_lt in L.
  destruct c; cbn in B; try discriminate; cbn in Se; injection Se as ->; destruct m as [|m]; try discriminate B; cbn in Nl;
    repeat match goal with p : ptr _ |- _ => destruct p as [|?]; cbn [isnull orb] in *; try discriminate Nl end.
  - left. intros rr. unfold exec, sessc, lib. rewrite L, G. cbn [need]. rewrite B. reflexivity.
  - left. intros rr. unfold exec, sessc, lib. rewrite L, G. cbn [need]. destruct (pm_kind m); try discriminate B; rewrite B; reflexivity.
  - unfold refused, exec, sessc, lib. rewrite L, G. cbn [need]. unfold objc. destruct (find_obj s x hb) as [o|] eqn:F.
    + left. intros rr. destruct (dm_kind m), (dm_par m) as [|[|? ?]|kdf [|[|? ?]]]; try discriminate B; try reflexivity. change (zlen (n :: l) =? 0)%Z with false. cbn [orb]. cbv zeta. rewrite B. reflexivity.
    + right. split; [intros; reflexivity|]. do 6 eexists. split; [reflexivity|]. split; [reflexivity|exact F].
Qed.
Print Assumptions C95_parameters.
(** Without such a fault the call proper is made. *)
Theorem C95_proper w s c h : wrong_param c = false -> null_arg c = false -> session_of c = Some h -> valid w s h ->
  match c with
  | A_GenerateKey _ (At m) (At t) _ r => forall rnd, exec w rnd s c = call w rnd s (OGenerateKey h (gm_aes m) t r)
  | A_GenerateKeyPair _ (At m) (At tp) (At tq) _ _ g => forall rnd, exec w rnd s c = call w rnd s (OGenerateKeyPair h (pm_kind m) tp tq g)
  | A_DeriveKey _ (At m) hb (At t) _ sec => forall rnd x o, sess_get s h = Some x -> find_obj s x hb = Some o -> exec w rnd s c = call w rnd s (ODeriveKey h (dm_kind m) hb sec t)
  | _ => True
  end.
Proof.
  intros B Nl Se V. apply valid_eq in V as [L [x G]]. apply Z.ltb_lt in L.
  destruct c; trivial; cbn in Se; injection Se as ->; destruct m as [|m]; trivial; cbn in B, Nl;
    repeat match goal with p : ptr _ |- _ => destruct p as [|?]; cbn [isnull orb] in *; try discriminate Nl end; intros rr.
  - unfold exec, sessc, lib. rewrite L, G. cbn [need]. rewrite B. reflexivity.
  - unfold exec, sessc, lib. rewrite L, G. cbn [need]. destruct (pm_kind m); cbn [andb]; try rewrite B; reflexivity.
  - intros y o Gy F. unfold exec, sessc, lib. rewrite L, Gy. cbn [need]. unfold objc. rewrite F. cbv zeta.
    destruct (dm_kind m), (dm_par m) as [|[|? ?]|kdf [|[|? ?]]]; try discriminate B; try reflexivity. change (zlen (n :: l) =? 0)%Z with false. cbn [orb]. rewrite B. reflexivity.
Qed.
Print Assumptions C95_proper.
Example C95_case : wrong_param (A_DeriveKey H2 (At (mkDM D_ECDH (DPecdh 2 (At [4%N])))) 16 (At []) (At tt) None) = true /\ wrong_param (A_DeriveKey H2 (At (mkDM D_DH (DPraw [2%N]))) 16 (At []) (At tt) None) = false.
Proof. split; reflexivity. Qed.
