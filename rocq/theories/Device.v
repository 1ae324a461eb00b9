(** Reference machine for sessions and login (C118), written from the PKCS#11 state diagrams and the few choices
    this library makes of its own; it knows nothing of lists of sessions, of tokens or of objects. *)
From Verif Require Import Base Ops Object Store Sys LoginProofs PropSys1 PropSys2.

(** How often C_Initialize was called and not undone; the open sessions (handle, read/write?); who is logged in. *)
Record dev := Dev { d_count : Z; d_mode : Z -> option bool; d_who : option role }.
Definition none_open : Z -> option bool := fun _ => None.
Definition dev0 : dev := Dev 0 none_open None.
(** The handle of session number [n], the numbers there are, and the numbers in use. *)
Definition H (n : Z) : Z := (65536 + n)%Z.
Definition numbers : list Z := map Z.of_nat (seq 1 70).
Definition is_open (d : dev) (h : Z) : bool := match d_mode d h with Some _ => true | None => false end.
Definition any_open (d : dev) : bool := existsb (fun n => is_open d (H n)) numbers.
Definition any_ro (d : dev) : bool := existsb (fun n => match d_mode d (H n) with Some false => true | _ => false end) numbers.
Definition full (d : dev) : bool := forallb (fun n => is_open d (H n)) numbers.
(** The number C_OpenSession chooses: the greatest free one up to the greatest in use (at least up to 2), or, if
    all of these are in use, the next one. *)
Definition within (d : dev) (n : Z) : Prop := (1 <= n <= 2)%Z \/ ((1 <= n)%Z /\ exists m, (n <= m)%Z /\ is_open d (H m) = true).
Definition chosen (d : dev) (n : Z) : Prop :=
  In n numbers /\ is_open d (H n) = false /\
  (forall m, (n < m)%Z -> within d m -> is_open d (H m) = true) /\
  (within d n \/ forall m, (1 <= m < n)%Z -> is_open d (H m) = true).
Definition good_pin (p : list N) : bool := andb (4 <=? zlen p)%Z (zlen p <=? 32)%Z.
Definition rv_in (o : out) (l : list Z) : Prop := exists rv, o = OutRv rv /\ In rv l.

(** What a call may answer. *)
Definition on_slot (d : dev) (slot : Z) (o : out) (k : Prop) : Prop :=
  if (d_count d <=? 0)%Z then o = OutRv CKR_CRYPTOKI_NOT_INITIALIZED
  else if (slot =? 1)%Z then k else o = OutRv CKR_SLOT_ID_INVALID.
Definition on_session (d : dev) (h : Z) (o : out) (k : bool -> Prop) : Prop :=
  if (d_count d <=? 0)%Z then o = OutRv CKR_CRYPTOKI_NOT_INITIALIZED
  else match d_mode d h with Some rw => k rw | None => o = OutRv CKR_SESSION_HANDLE_INVALID end.
(** C_Login for role [r] with a PIN of allowed length. A lock-out hides the other reasons but that someone is logged in. *)
Definition login_says (d : dev) (r : role) (now : option Z) (o : out) : Prop :=
  match now, d_who d, r with
  | None, _, _ => o = OutRv CKR_PIN_INCORRECT                       (* no clock *)
  | _, Some _, _ => o = OutRv CKR_USER_ALREADY_LOGGED_IN
  | _, None, SO => if any_ro d then rv_in o [CKR_PIN_INCORRECT; CKR_SESSION_READ_ONLY_EXISTS]
                   else rv_in o [CKR_OK; CKR_PIN_INCORRECT; CKR_USER_PIN_NOT_INITIALIZED]
  | _, None, User => exists rv, o = OutRv rv                        (* also failures to decode the objects *)
  end.
Definition says (d : dev) (c : op) (o : out) : Prop :=
  match c with
  | OInitialize | OFinalize | ORestart => o = OutRv CKR_OK
  | OOpenSession slot fl => on_slot d slot o (
      if negb (wants_serial fl) then o = OutRv CKR_SESSION_PARALLEL_NOT_SUPPORTED
      else match wants_rw fl, d_who d with
           | false, Some SO => o = OutRv CKR_SESSION_READ_WRITE_SO_EXISTS
           | _, _ => if full d then o = OutRv CKR_SESSION_COUNT else exists n, chosen d n /\ o = OutH CKR_OK (H n)
           end)
  | OCloseSession h => on_session d h o (fun _ => o = OutRv CKR_OK)
  | OCloseAllSessions slot => on_slot d slot o (o = OutRv CKR_OK)
  | OGetSessionInfo h => on_session d h o (fun rw => o = OutInfo CKR_OK (state_of (d_who d) rw) (mode_flags rw))
  | OLogin h ut p now => on_session d h o (fun _ =>
      if negb (good_pin p) then o = OutRv CKR_PIN_INCORRECT
      else if (ut =? 0)%Z then login_says d SO now o
      else if (ut =? 1)%Z then login_says d User now o
      else if (ut =? 2)%Z then o = OutRv CKR_OPERATION_NOT_INITIALIZED else o = OutRv CKR_USER_TYPE_INVALID)
  | OLogout h => on_session d h o (fun _ => o = OutRv CKR_OK)
  | OInitToken slot p _ => on_slot d slot o (
      if negb (good_pin p) then o = OutRv CKR_PIN_INCORRECT
      else rv_in o ([CKR_OK; CKR_PIN_INCORRECT; CKR_FUNCTION_FAILED] ++ (if any_open d then [CKR_SESSION_EXISTS] else [])))
  | OInitPIN h p => on_session d h o (fun _ =>
      match d_who d with
      | Some SO => if good_pin p then rv_in o [CKR_OK; CKR_FUNCTION_FAILED] else o = OutRv CKR_PIN_INCORRECT
      | _ => o = OutRv CKR_USER_NOT_LOGGED_IN
      end)
  | OSetPIN h p q => on_session d h o (fun rw =>
      if negb (andb (good_pin p) (good_pin q)) then o = OutRv CKR_PIN_INCORRECT
      else if rw then rv_in o [CKR_OK; CKR_PIN_INCORRECT; CKR_USER_PIN_NOT_INITIALIZED; CKR_FUNCTION_FAILED]
      else o = OutRv CKR_SESSION_READ_ONLY)
  | OGetTokenInfo slot _ => on_slot d slot o True
  | OCreateObject h _ | OCopyObject h _ _ | ODestroyObject h _ | OSetAttributeValue h _ _ | OWrapKey h _ _ _ _ _ | OUnwrapKey h _ _ _ _ _ =>
      on_session d h o (fun rw => if rw then True else o = OutRv CKR_SESSION_READ_ONLY)
  | OGetAttributeValue h _ _ | OFindObjectsInit h _ | OFindObjects h _ | OFindObjectsFinal h | OGenerateKey h _ _ _
  | OGenerateKeyPair h _ _ _ _ | ODeriveKey h _ _ _ _ | OCrypto h _ _ => on_session d h o (fun _ => True)
  end.

(** What it does. Only the calls listed here do anything, and their effect is known from the call and its answer. *)
Definition with_mode (d : dev) (h : Z) (m : option bool) : Z -> option bool := fun h' => if (h' =? h)%Z then m else d_mode d h'.
Definition next (d : dev) (c : op) (o : out) : dev :=
  match c with
  | OInitialize => if (d_count d =? 0)%Z then Dev 1 none_open None else Dev (d_count d + 1) (d_mode d) (d_who d)
  | OFinalize => if (d_count d =? 1)%Z then dev0 else Dev (d_count d - 1) (d_mode d) (d_who d)
  | ORestart => dev0
  | _ =>
      if negb (out_rv o =? CKR_OK)%Z then
        match c with OInitToken _ _ _ => if (out_rv o =? CKR_FUNCTION_FAILED)%Z then Dev (d_count d) (d_mode d) None else d | _ => d end
      else match c with
      | OOpenSession _ fl => match o with OutH _ h => Dev (d_count d) (with_mode d h (Some (wants_rw fl))) (d_who d) | _ => d end
      | OCloseSession h => let d1 := Dev (d_count d) (with_mode d h None) (d_who d) in
                           if any_open d1 then d1 else Dev (d_count d) (d_mode d1) None   (* the last one: logged out *)
      | OCloseAllSessions _ => Dev (d_count d) (fun h => if (h =? H 1)%Z then d_mode d h else None) (d_who d)  (* see C03 *)
      | OLogin _ ut _ _ => Dev (d_count d) (d_mode d) (Some (if (ut =? 0)%Z then SO else User))
      | OLogout _ | OInitToken _ _ _ => Dev (d_count d) (d_mode d) None
      | _ => d
      end
  end.
Fixpoint follows (d : dev) (cs : list op) (os : list out) : Prop :=
  match cs, os with
  | [], [] => True
  | c :: cs, o :: os => says d c o /\ follows (next d c o) cs os
  | _, _ => False
  end.
Fixpoint device (d : dev) (cs : list op) (os : list out) : dev :=
  match cs, os with c :: cs, o :: os => device (next d c o) cs os | _, _ => d end.
(** The calls of a history that matter, with their answers. *)
Definition matters (c : op) : bool := 
  match c with
  | OInitialize | OFinalize | ORestart | OOpenSession _ _ | OCloseSession _ | OCloseAllSessions _ | OLogin _ _ _ _ | OLogout _ | OInitToken _ _ _ => true
  | _ => false
  end.
Definition session_events (cs : list op) (os : list out) : list (op * out) := filter (fun p => matters (fst p)) (combine cs os).
