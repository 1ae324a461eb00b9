(** The library when memory runs out: each allocation of these calls may be denied:
    C_Initialize (loading), C_Finalize, C_OpenSession, C_CloseSession, C_Login,
    C_Logout, C_CreateObject, C_SetAttributeValue, C_FindObjectsInit. Their functions
    are those of Object.v, Store.v and Sys.v with the failing branches of malloc; the
    other calls are as in Sys.v (the allocations of C_WrapKey, C_UnwrapKey, C_DeriveKey,
    of key generation, copying, PIN changes and of the GCM and OAEP parameters are
    granted, and so are those inside wolfCrypt and libc). *)
From Verif Require Import Base Codec Ops Object Store Sys.
From Coq Require Import List.
Import ListNotations.
Open Scope nat_scope.
Open Scope list_scope.

(** What is granted in one call. Objects are named by [o_uid]. *)
Record supply := mkSup {
  m_attr : nat -> bool;          (* the copy of the value of the i-th template entry *)
  m_new : bool;                  (* a new object *)
  m_sess : bool;                 (* a new session *)
  m_add : bool;                  (* the encoded form of the object that is added *)
  m_enc : nat -> bool;           (* the encoded form of an object *)
  m_der : nat -> bool;           (* a DER buffer for an object *)
  m_match : nat -> nat -> bool;  (* the buffer for object and i-th template entry *)
  m_load : bool                  (* all allocations of loading *)
}.
Definition plenty : supply :=
  mkSup (fun _ => true) true true true (fun _ => true) (fun _ => true) (fun _ _ => true) true.

Section WithWorld.
Variable w : world.
Variable a : supply.
Let se := w_se w.
Let oe := w_oe w.

(** WP11_Object_SetKeyId, WP11_Object_SetLabel: internal.c 6100-6146: the old value
    is freed first; the length stays. *)
Definition mSetAttr (i : nat) (o : obj) (at_ : attr) : res (Z * obj) :=
  if m_attr a i then SetAttr o at_
  else if (a_type at_ =? CKA_ID)%Z then Ok (MEMORY_E, set_keyId o (SNull (s_len (o_keyId o))))
  else if (a_type at_ =? CKA_LABEL)%Z then Ok (MEMORY_E, set_label o (SNull (s_len (o_label o))))
  else SetAttr o at_.
(** crypto.c 427-440. *)
Fixpoint mset_loop (i : nat) (o : obj) (t : template) : res (Z * obj) :=
  match t with
  | [] => Ok (CKR_OK, o)
  | x :: r => '(c, o') <- mSetAttr i o x ;;
              if (set_rv c =? CKR_OK)%Z then mset_loop (S i) o' r else Ok (set_rv c, o')
  end.
(** SetAttributeValue: crypto.c 315-442. *)
Definition mSetAttributeValue (rw : bool) (o : obj) (t : template) : res (Z * obj) :=
  if negb rw then Ok (CKR_SESSION_READ_ONLY, o) else
  let c := check_attrs true t in
  if negb (c =? CKR_OK)%Z then Ok (c, o) else
  match params_of o with
  | None => Ok (CKR_OBJECT_HANDLE_INVALID, o)
  | Some ps =>
      match param_vals t ps with
      | None => Ok (CKR_ATTRIBUTE_VALUE_INVALID, o)
      | Some v =>
          '(c, o1) <- SetKey oe o v ;;
          if (c =? MEMORY_E)%Z then Ok (CKR_DEVICE_MEMORY, o1)
          else if negb (c =? 0)%Z then Ok (CKR_FUNCTION_FAILED, o1)
          else mset_loop 0 o1 t
      end
  end.
(** NewObject: crypto.c 457-486; wp11_Object_New: internal.c 1455-1480. *)
Definition mNewObject (rw : bool) (uid : nat) (ty cls : Z) (t : template) : res (Z * option obj) :=
  if m_new a then
    '(rv, o) <- mSetAttributeValue rw (set_class (obj_new uid ty) cls) t ;;
    Ok (rv, if (rv =? CKR_OK)%Z then Some o else None)
  else Ok (CKR_DEVICE_MEMORY, None).
(** CreateObject: crypto.c 664-718. *)
Definition mCreateObject (rw : bool) (uid : nat) (t : template) : res (Z * option obj) :=
  let body (cls : Z) :=
    let '(ty, good) := if (cls =? CKO_CERTIFICATE)%Z then (CKA_CERTIFICATE_TYPE, [0; 1; 2]%Z)
      else (CKA_KEY_TYPE, [CKK_RSA; CKK_EC; CKK_DH; CKK_AES; CKK_GENERIC_SECRET]) in
    match find_last t ty with
    | None => Ok (CKR_TEMPLATE_INCOMPLETE, None)
    | Some x => match tmpl_ulong x with
                | None => Ok (CKR_ATTRIBUTE_VALUE_INVALID, None)
                | Some k => if mem k good then mNewObject rw uid k cls t
                            else Ok (CKR_ATTRIBUTE_VALUE_INVALID, None)
                end
    end in
  match find_last t CKA_CLASS with
  | None => body UNAVAILABLE
  | Some x => match tmpl_ulong x with
              | None => Ok (CKR_ATTRIBUTE_VALUE_INVALID, None)
              | Some cls => body cls
              end
  end.

(** wp11_Object_Encode_RsaKey 1700-1705 and 1728-1732, EccKey 1994-1999 and
    2021-2025, DhKey 2154-2159, SymmKey 2476-2481: the old encoded form is freed
    before the new one is allocated. (keyDataLen is not reset for DH and symmetric
    keys; it is not read while keyData is NULL.) *)
Definition mEncodeKey (ok : bool) (key : list N) (o : obj) : res (Z * obj) :=
  '(c, o1) <- EncodeKey se key o ;;
  if orb ok (negb (c =? 0)%Z) then Ok (c, o1)
  else Ok (MEMORY_E, set_store o (o_iv o) None (o_enc o)).
(** wp11_Object_Encode: internal.c 2857-2909. *)
Definition mEncode (ok : bool) (key : list N) (protect : bool) (o : obj) : res (Z * obj) :=
  if is_cert o then Ok (0%Z, o) else
  '(c, o1) <- mEncodeKey ok key o ;;
  Ok (c, if andb protect (c =? 0)%Z then protect_key o1 else o1).
(** wp11_Object_Decode, internal.c 2806-2847: the buffer of Decode_RsaKey 1641-1644,
    Decode_EccKey 1932-1935. *)
Definition der_key (o : obj) : bool :=
  andb (negb (is_cert o)) (andb (is_priv o) (orb (o_type o =? CKK_RSA)%Z (o_type o =? CKK_EC)%Z)).
Definition mDecode (key : list N) (o : obj) : res (Z * obj) :=
  if andb (negb (m_der a (o_uid o))) (der_key o)
  then Ok (MEMORY_E, set_store o (o_iv o) (o_keyData o) true)
  else Decode se key o.

(** wp11_Object_Store_RsaKey 1883-1910, EccKey 2077-2105, SymmKey 2534-2556, DhKey
    2382-2438: the file is opened, and so emptied, before anything is allocated. *)
Definition mstore_kd (key : list N) (f : fname) (o : obj) : res sres :=
  '(c, o1) <- match o_keyData o with None => mEncodeKey (m_enc a (o_uid o)) key o | Some _ => Ok (0%Z, o) end ;;
  if negb (c =? 0)%Z then Ok (c, o1, [WOpen f]) else
  d <- w_array (kd_bytes o1) (zlen (kd_bytes o1)) ;;
  Ok (0%Z, o1, [WOpen f; WWrite f d]).
Definition mstore_key (key : list N) (id : nat) (o : obj) : res sres :=
  if is_cert o then
    '(l, b) <- as_cert o ;;
    if (l <=? 0)%Z then Ok (BAD_FUNC_ARG, o, []) else
    d <- w_array b l ;; Ok (0%Z, o, [WOpen (F_CERT, id); WWrite (F_CERT, id) d])
  else match key_kind o with
  | None => Ok (NOT_AVAILABLE_E, o, [])
  | Some k =>
      if (o_type o =? CKK_DH)%Z then
        '(c, o1, ws) <- mstore_kd key (k, id) o ;;
        if negb (c =? 0)%Z then Ok (c, o1, ws) else
        '(p, g, _, _) <- as_dh o1 ;;
        let '(c2, der) := se_dh_der se p g in
        if (c2 <? 0)%Z then Ok (c2, o1, ws) else
        if negb (m_der a (o_uid o)) then Ok (MEMORY_E, o1, ws) else
        d <- w_array der (zlen der) ;;
        Ok (0%Z, o1, ws ++ [WWrite (k, id) d])
      else mstore_kd key (k, id) o
  end.
(** wp11_Object_Store: internal.c 2689-2794; wp11_Token_Store: 3157-3245. *)
Definition mstore_obj (key rnd : list N) (id : nat) (o : obj) : res sres :=
  h <- obj_header o ;;
  let o1 := match o_keyData o with
            | None => if orb (is_priv o) (is_sym o) then set_store o (rbytes 12 rnd) None (o_enc o) else o
            | Some _ => o end in
  '(c, o2, ws) <- mstore_key key id o1 ;;
  Ok (c, o2, [WOpen (F_OBJECT, id); WWrite (F_OBJECT, id) h] ++ ws).
Fixpoint mstore_objs (key : list N) (rnd : nat -> list N) (l : list obj) : res (Z * list obj * list wop) :=
  match l with
  | [] => Ok (0%Z, [], [])
  | o :: r =>
      '(c, o1, ws) <- mstore_obj key (rnd (length r)) (length r) o ;;
      if negb (c =? 0)%Z then Ok (c, o1 :: r, ws) else
      '(c2, r1, ws2) <- mstore_objs key rnd r ;;
      Ok (c2, o1 :: r1, ws ++ ws2)
  end.
Definition mstore (rnd : nat -> list N) (s : sys) : res (Z * sys) :=
  let t := s_tok s in
  h <- tok_header t ;;
  '(c, l, ws) <- mstore_objs (t_key t) (fun i => rnd (2 + i)) (t_objs t) ;;
  Ok (c, do_ops (set_tok s (set_objs t l)) ([WOpen (F_TOKEN, 0); WWrite (F_TOKEN, 0) h] ++ ws)).

(** WP11_Session_AddObject: internal.c 4639-4697. *)
Definition mAddToSession (rnd : nat -> list N) (s : sys) (x : session) (b : N) (o : obj) : res (Z * Z * sys) :=
  let o1 := set_onTok o (N.odd b) in
  if (b =? 0)%N then
    if (SESS_OBJ_MAX <=? zlen (ss_objs x))%Z then Ok (OBJ_COUNT_E, 0%Z, s)
    else let h := next_handle (ss_objs x) b in
         Ok (0%Z, h, put_sess s (set_sobjs x (set_handle o1 h :: ss_objs x)))
  else
    let t := s_tok s in
    if (TOK_OBJ_MAX <=? zlen (t_objs t))%Z then Ok (OBJ_COUNT_E, 0%Z, s)
    else '(c, o2) <- mEncode (m_add a) (t_key t) false o1 ;;
         if negb (c =? 0)%Z then Ok (c, 0%Z, s)
         else let h := next_handle (t_objs t) b in
              '(_, s1) <- mstore rnd (set_tok s (set_objs t (set_handle o2 h :: t_objs t))) ;;
              Ok (0%Z, h, s1).
(** AddObject: crypto.c 499-524; C_CreateObject: 734-766. *)
Definition mAddObject (rnd : nat -> list N) (s : sys) (x : session) (t : template) (o : obj) : res (Z * Z * sys) :=
  match tmpl_token t with
  | None => Ok (CKR_ATTRIBUTE_VALUE_INVALID, 0%Z, s)
  | Some b => '(c, h, s1) <- mAddToSession rnd s x b o ;;
              Ok (if (c =? 0)%Z then CKR_OK else CKR_FUNCTION_FAILED, h, s1)
  end.
Definition mCreate (rnd : nat -> list N) (s : sys) (x : session) (t : template) : res (sys * out) :=
  '(rv, o) <- mCreateObject (is_rw x) (s_uid s) t ;;
  let s1 := bump s 1 in
  match o with
  | Some o => '(rv2, h, s2) <- mAddObject rnd s1 x t o ;; Ok (s2, OutH rv2 h)
  | None => rv_ s1 rv
  end.

(** WP11_Object_MatchAttr: internal.c 6410-6432: values of more than 8 bytes need a
    buffer; without one there is no match. *)
Definition mMatchAttr (i : nat) (o : obj) (x : attr) : res bool :=
  if orb (m_match a (o_uid o) i) (a_len x <=? 8)%Z then MatchAttr oe o x else Ok false.
Fixpoint mmatch_all (i : nat) (o : obj) (t : template) : res bool :=
  match t with
  | [] => Ok true
  | x :: r => b <- mMatchAttr i o x ;; if b then mmatch_all (S i) o r else Ok false
  end.
(** WP11_Session_Find, wp11_Session_FindNext: internal.c 4820-4890. *)
Fixpoint mfind_loop (tk : token) (t : template) (l : list obj) (acc : list Z) : res (list Z * bool) :=
  match l with
  | [] => Ok (acc, false)
  | o :: r =>
      if visible tk o then
        m <- mmatch_all 0 o t ;;
        if m then if (length acc =? FIND_MAX)%nat then Ok (acc, true)
                  else mfind_loop tk t r (o_handle o :: acc)
        else mfind_loop tk t r acc
      else mfind_loop tk t r acc
  end.
Fixpoint mfind_tok (fuel : nat) (tk : token) (t : template) (acc : list Z) : res (list Z) :=
  '(acc1, full) <- mfind_loop tk t (t_objs tk) acc ;;
  if full then Ok acc1
  else if loops (t_objs tk) then
    match fuel with
    | S n => if (length acc =? length acc1)%nat then Undef UB_diverge else mfind_tok n tk t acc1
    | O => Undef UB_diverge
    end
  else Ok acc1.
Definition mFind (tk : token) (x : session) (onTok : bool) (t : template) : res (list Z) :=
  '(acc, full) <- mfind_loop tk t (ss_objs x) [] ;;
  if orb full (negb onTok) then Ok (rev acc)
  else acc1 <- mfind_tok (S FIND_MAX) tk t acc ;; Ok (rev acc1).
(** C_FindObjectsInit: crypto.c 1050-1080. *)
Definition mFindInit (s : sys) (x : session) (t : template) : res (sys * out) :=
  if ss_find x then rv_ s CKR_OPERATION_ACTIVE else
  let go b := l <- mFind (s_tok s) x b t ;; rv_ (put_sess s (set_find x true l 0)) CKR_OK in
  match find_last t CKA_TOKEN with
  | None => go true
  | Some _ => match tmpl_token t with
              | None => rv_ (put_sess s (set_find x true [] 0)) CKR_ATTRIBUTE_VALUE_INVALID
              | Some b => go (negb (b =? 0)%N)
              end
  end.

(** WP11_Slot_UserLogin: internal.c 3974-4058; WP11_Slot_Logout: 4162-4189. *)
Fixpoint mdecode_all (key : list N) (l : list obj) : res (Z * list obj) :=
  match l with
  | [] => Ok (0%Z, [])
  | o :: r => '(c, o1) <- mDecode key o ;;
              if negb (c =? 0)%Z then Ok (c, o1 :: r)
              else '(c2, r1) <- mdecode_all key r ;; Ok (c2, o1 :: r1)
  end.
Fixpoint mencode_all (key : list N) (l : list obj) : res (list obj) :=
  match l with
  | [] => Ok []
  | o :: r => '(c, o1) <- mEncode (m_enc a (o_uid o)) key true o ;;
              if negb (c =? 0)%Z then Ok (o1 :: r)
              else r1 <- mencode_all key r ;; Ok (o1 :: r1)
  end.
Definition mUserLogin (t : token) (attempt : list N) (now : option Z) : res (Z * token) :=
  match now with
  | None => Ok (PIN_INVALID_E, t)
  | Some n =>
      if logged_in (t_login t) then Ok (LOGGED_IN_E, t) else
      match lock_check (t_user t) n with
      | None => Ok (PIN_INVALID_E, t)
      | Some p =>
          let t1 := set_user t p in
          let c := CheckPin w t1 p attempt in
          if (c =? PIN_INVALID_E)%Z then Ok (c, set_user t1 (count_fail p n USER_TIMEOUT))
          else if (c =? 0)%Z then
            let t2 := set_key (set_user t1 (reset_fail p)) (se_hash se attempt (t_seed t)) in
            '(c2, l) <- mdecode_all (t_key t2) (t_objs t2) ;;
            let t3 := set_objs t2 l in
            if (c2 =? 0)%Z then Ok (0%Z, set_login t3 RW_USER) else Ok (c2, t3)
          else Ok (c, t1)
      end
  end.
Definition mLogout (t : token) : res token :=
  if orb (t_login t =? RO_USER)%Z (t_login t =? RW_USER)%Z then
    l <- mencode_all (t_key t) (t_objs t) ;; Ok (set_login (set_objs t l) RW_PUBLIC)
  else Ok (set_login t RW_PUBLIC).
(** C_Login: slot.c 912-955. *)
Definition mLogin (s : sys) (ut : Z) (pin : list N) (now : option Z) : res (sys * out) :=
  if negb (pin_len_ok pin) then rv_ s CKR_PIN_INCORRECT
  else if (ut =? CKU_SO)%Z then
    let '(c, t) := SOLogin w (s_sess s) (s_tok s) pin now in rv_ (set_tok s t) (login_rv true c)
  else if (ut =? CKU_USER)%Z then
    '(c, t) <- mUserLogin (s_tok s) pin now ;; rv_ (set_tok s t) (login_rv false c)
  else if (ut =? CKU_CONTEXT_SPECIFIC)%Z then rv_ s CKR_OPERATION_NOT_INITIALIZED
  else rv_ s CKR_USER_TYPE_INVALID.

(** C_OpenSession, slot.c 721-744, WP11_Slot_OpenSession, internal.c 3596-3643: every
    code but SESSION_EXISTS_E and SESSION_COUNT_E is answered CKR_OK; no handle is
    written when there is no session. *)
Definition mOpenSession (s : sys) (flags : Z) : res (sys * out) :=
  if (Z.land flags CKF_SERIAL_SESSION =? 0)%Z then rv_ s CKR_SESSION_PARALLEL_NOT_SUPPORTED else
  let rw := negb (Z.land flags CKF_RW_SESSION =? 0)%Z in
  if andb (negb rw) (t_login (s_tok s) =? RW_SO)%Z then rv_ s CKR_SESSION_READ_WRITE_SO_EXISTS else
  let open l x := Ok (put_sess (set_sess s l) (set_use x (if rw then SESSION_RW else SESSION_RO)),
                      OutH CKR_OK (ss_h x)) in
  match first_unused (s_sess s) with
  | Some x => open (s_sess s) x
  | None =>
      if match s_sess s with x :: _ => (sess_id x =? SESSION_MAX)%Z | [] => false end
      then rv_ s CKR_SESSION_COUNT
      else if m_sess a then open (add_sess (s_sess s)) (new_sess (s_sess s))
      else rv_ s CKR_OK
  end.
(** C_CloseSession: slot.c 754-768; internal.c 3652-3681. *)
Definition mCloseSession (s : sys) (x : session) : res (sys * out) :=
  l <- close_sess (s_sess s) x ;;
  let s1 := set_sess s l in
  if existsb in_use l then rv_ s1 CKR_OK
  else t <- mLogout (s_tok s1) ;; rv_ (set_tok s1 t) CKR_OK.
(** wp11_Token_Load, internal.c 3028-3145: allocation only if there are objects to
    load (3108, 1400); a failure is treated as any failure to load. *)
Definition mToken_Load (d : fs) (uid : nat) : res token :=
  if m_load a then Token_Load se d uid else
  match d (F_TOKEN, 0) with
  | None => Ok tok_fresh
  | Some f => match read_tok_file f with
              | Ok (tf, _) => match tf_types tf with
                              | [] => Token_Load se d uid
                              | _ => Ok (tok_init (zeros 32))
                              end
              | _ => Token_Load se d uid
              end
  end.
(** C_Initialize, C_Finalize: wolfpkcs11.c 127-150; internal.c 3443-3496. The two
    sessions every slot starts with are granted. *)
Definition mInitialize (s : sys) : res (sys * out) :=
  if (s_count s =? 0)%Z then
    t <- mToken_Load (s_fs s) (s_uid s) ;;
    Ok (mkSys 1 (add_sess (add_sess [])) t (s_fs s) (s_log s) (s_uid s + length (t_objs t)), OutRv CKR_OK)
  else Ok (mkSys (s_count s + 1) (s_sess s) (s_tok s) (s_fs s) (s_log s) (s_uid s), OutRv CKR_OK).
Definition mFinalize (rnd : nat -> list N) (s : sys) : res (sys * out) :=
  if (s_count s - 1 =? 0)%Z then
    '(_, s1) <- mstore rnd s ;;
    _ <- final_all (s_sess s1) ;;
    _ <- free_all (t_objs (s_tok s1)) ;;
    Ok (mkSys 0 [] tok_fresh (s_fs s1) (s_log s1) (s_uid s1), OutRv CKR_OK)
  else Ok (mkSys (s_count s - 1) (s_sess s) (s_tok s) (s_fs s) (s_log s) (s_uid s), OutRv CKR_OK).

Definition mem_step (rnd : nat -> list N) (s : sys) (c : op) : res (sys * out) :=
  match c with
  | OInitialize => mInitialize s
  | OFinalize => mFinalize rnd s
  | OOpenSession slot flags => with_slot s slot (mOpenSession s flags)
  | OCloseSession h => with_sess s h (mCloseSession s)
  | OLogin h ut pin now => with_sess s h (fun _ => mLogin s ut pin now)
  | OLogout h => with_sess s h (fun _ => t <- mLogout (s_tok s) ;; rv_ (set_tok s t) CKR_OK)
  | OCreateObject h t => with_sess s h (fun x => need_rw s x (mCreate rnd s x t))
  | OSetAttributeValue h ho t => with_sess s h (fun x => need_rw s x (
      with_object s x ho CKR_OBJECT_HANDLE_INVALID (fun o =>
        '(rv, o1) <- mSetAttributeValue (is_rw x) o t ;; rv_ (put_obj s o1) rv)))
  | OFindObjectsInit h t => with_sess s h (fun x => mFindInit s x t)
  | _ => step w rnd s c
  end.
End WithWorld.

(** Histories in which the supply may differ from call to call. *)
Inductive mreach (w : world) (s0 : sys) : sys -> Prop :=
  | mreach_0 : mreach w s0 s0
  | mreach_step s a rnd c s' o : mreach w s0 s -> mem_step w a rnd s c = Ok (s', o) -> mreach w s0 s'.
