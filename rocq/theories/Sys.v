(** The whole library as one state machine: internal.c 520-625, 3245-4350,
    4600-4960, 5430-5490, 6490-7600 (key generation), slot.c 130-1000, crypto.c
    440-1160 and 3600-4275, wolfpkcs11.c 127-150.

    Calls are executed one after another (the concurrent login and lock code is
    modelled in LoginRace.v and RwLock.v). Pointer arguments are not NULL unless a
    template says so; memory allocation and wolfCrypt initialisation functions
    succeed; HashPIN succeeds. One slot, as in slotCnt = 1. Randomness is a stream
    given to each call. Key generation and derivation get well-formed mechanism
    parameters (the CKR_MECHANISM_PARAM_INVALID answers are left out). [Undef] ends a history: the code has undefined behaviour
    there (or, where a comment says so, has left a dangling pointer behind). *)
From Verif Require Import Base Ops Object Store.

Definition CKR_SLOT_ID_INVALID : Z := 0x3.
Definition CKR_KEY_NOT_WRAPPABLE : Z := 0x69.
Definition CKR_OPERATION_ACTIVE : Z := 0x90.
Definition CKR_PIN_INCORRECT : Z := 0xA0.
Definition CKR_SESSION_COUNT : Z := 0xB1.
Definition CKR_SESSION_HANDLE_INVALID : Z := 0xB3.
Definition CKR_SESSION_PARALLEL_NOT_SUPPORTED : Z := 0xB4.
Definition CKR_SESSION_EXISTS : Z := 0xB6.
Definition CKR_SESSION_READ_ONLY_EXISTS : Z := 0xB7.
Definition CKR_SESSION_READ_WRITE_SO_EXISTS : Z := 0xB8.
Definition CKR_UNWRAPPING_KEY_HANDLE_INVALID : Z := 0xF0.
Definition CKR_UNWRAPPING_KEY_TYPE_INCONSISTENT : Z := 0xF2.
Definition CKR_USER_ALREADY_LOGGED_IN : Z := 0x100.
Definition CKR_USER_NOT_LOGGED_IN : Z := 0x101.
Definition CKR_USER_PIN_NOT_INITIALIZED : Z := 0x102.
Definition CKR_USER_TYPE_INVALID : Z := 0x103.
Definition CKR_WRAPPED_KEY_INVALID : Z := 0x110.
Definition CKR_WRAPPING_KEY_HANDLE_INVALID : Z := 0x113.
Definition CKR_WRAPPING_KEY_TYPE_INCONSISTENT : Z := 0x115.
Definition CKR_CRYPTOKI_NOT_INITIALIZED : Z := 0x190.

Definition CKU_SO : Z := 0.
Definition CKU_USER : Z := 1.
Definition CKU_CONTEXT_SPECIFIC : Z := 2.
Definition CKF_RW_SESSION : Z := 2.
Definition CKF_SERIAL_SESSION : Z := 4.
Definition SESSION_RO : Z := 1.        (* internal.h 64-65 *)
Definition SESSION_RW : Z := 2.
Definition SESSION_MAX : Z := 70.      (* internal.h 56 *)
Definition SESSION_MIN : Z := 2.       (* internal.h 60 *)
Definition SESS_OBJ_MAX : Z := 8.      (* internal.h 69 *)
Definition TOK_OBJ_MAX : Z := 64.      (* internal.h 74 *)
Definition FIND_MAX : nat := 10.       (* internal.h 98 *)
Definition MAX_FAILS : Z := 3.         (* internal.h 157-168 *)
Definition SO_TIMEOUT : Z := 600.
Definition USER_TIMEOUT : Z := 60.

(** struct WP11_Session: internal.c 268-303. *)
Record session := mkS {
  ss_h : Z;             (* handle *)
  ss_use : Z;           (* inUse: 0, RO, RW *)
  ss_objs : list obj;   (* head first; objCnt is its length *)
  ss_find : bool;       (* find.state <> NULL *)
  ss_found : list Z;    (* find.found[0..count) *)
  ss_cur : nat;         (* find.curr *)
  ss_op : opst
}.
Definition set_op (x : session) (p : opst) : session :=
  mkS (ss_h x) (ss_use x) (ss_objs x) (ss_find x) (ss_found x) (ss_cur x) p.
Definition set_sobjs (x : session) (l : list obj) : session :=
  mkS (ss_h x) (ss_use x) l (ss_find x) (ss_found x) (ss_cur x) (ss_op x).
Definition set_find (x : session) (b : bool) (f : list Z) (n : nat) : session :=
  mkS (ss_h x) (ss_use x) (ss_objs x) b f n (ss_op x).
Definition set_use (x : session) (u : Z) : session :=
  mkS (ss_h x) u (ss_objs x) (ss_find x) (ss_found x) (ss_cur x) (ss_op x).

(** libraryInitCount, slotList[0] and the files. [s_uid] names the next object
    allocation; [s_log] records every storage operation (not part of the code). *)
Record sys := mkSys {
  s_count : Z; s_sess : list session; s_tok : token; s_fs : fs; s_log : list wop; s_uid : nat
}.
Definition set_tok (s : sys) (t : token) : sys :=
  mkSys (s_count s) (s_sess s) t (s_fs s) (s_log s) (s_uid s).
Definition set_sess (s : sys) (l : list session) : sys :=
  mkSys (s_count s) l (s_tok s) (s_fs s) (s_log s) (s_uid s).
Definition set_uid (s : sys) (n : nat) : sys :=
  mkSys (s_count s) (s_sess s) (s_tok s) (s_fs s) (s_log s) n.
Definition do_ops (s : sys) (ws : list wop) : sys :=
  mkSys (s_count s) (s_sess s) (s_tok s) (apply (s_fs s) ws) (s_log s ++ ws) (s_uid s).

(** A process that has not called C_Initialize, with the given files. *)
Definition sys0 (d : fs) : sys := mkSys 0 [] tok_fresh d [] 0.

(** What the library calls. [w_pk], [w_klen]: key material and length as the
    crypto operations see it (Ops.v); [w_p8], [w_p8_dec]:
    WP11_Rsa_SerializeKeyPTPKC8, WP11_Rsa_ParsePrivKey. *)
Record world := mkW {
  w_ev : env; w_oe : oenv; w_se : senv;
  w_pk : kdata -> list N; w_klen : kdata -> Z;
  w_p8 : rsak -> Z * list N; w_p8_dec : list N -> Z * rsak
}.

(** Generated key pair: private RSA key; private value and point; private and
    public DH values. *)
Inductive gen := GRsa (r : rsak) | GEc (k : N) (pt : list N) | GDh (prv pub : list N).
Inductive kpmech := KP_RSA | KP_EC | KP_DH | KP_other.
Inductive dmech := D_ECDH | D_DH | D_other.

Inductive op :=
  | OInitialize | OFinalize
  | ORestart                                      (* the process ends between two calls *)
  | OInitToken (slot : Z) (pin label : list N)
  | OInitPIN (h : Z) (pin : list N)
  | OSetPIN (h : Z) (old new : list N)
  | OOpenSession (slot flags : Z)
  | OCloseSession (h : Z)
  | OCloseAllSessions (slot : Z)
  | OGetSessionInfo (h : Z)
  | OLogin (h ut : Z) (pin : list N) (now : option Z)
  | OLogout (h : Z)
  | OGetTokenInfo (slot now : Z)
  | OCreateObject (h : Z) (t : template)
  | OCopyObject (h ho : Z) (t : template)
  | ODestroyObject (h ho : Z)
  | OGetAttributeValue (h ho : Z) (t : template)
  | OSetAttributeValue (h ho : Z) (t : template)
  | OFindObjectsInit (h : Z) (t : template)
  | OFindObjects (h n : Z)
  | OFindObjectsFinal (h : Z)
  | OGenerateKey (h : Z) (aes : bool) (t : template) (key : list N)
  | OGenerateKeyPair (h : Z) (m : kpmech) (tpub tpriv : template) (g : option gen)
  | OWrapKey (h : Z) (m : mech) (mp : mparam) (hw hk : Z) (b : outbuf)
  | OUnwrapKey (h : Z) (m : mech) (mp : mparam) (hu : Z) (wrapped : list N) (t : template)
  | ODeriveKey (h : Z) (m : dmech) (hb : Z) (secret : option (list N)) (t : template)
  | OCrypto (h : Z) (c : call) (hk : Z).

Inductive out :=
  | OutRv (rv : Z)
  | OutH (rv h : Z)                   (* return value, handle *)
  | OutH2 (rv h1 h2 : Z)
  | OutHs (rv : Z) (l : list Z)
  | OutT (rv : Z) (t : template)
  | OutInfo (rv state flags : Z)
  | OutTok (rv : Z) (label : list N) (so user : bool * bool * bool) (init pinset : bool)
  | OutC (c : outc).
Definition out_rv (o : out) : Z :=
  match o with
  | OutRv r | OutH r _ | OutH2 r _ _ | OutHs r _ | OutT r _ | OutInfo r _ _ | OutTok r _ _ _ _ _ => r
  | OutC c => o_rv c
  end.

(** ** Sessions *)
(** SESS_HANDLE, SESS_HANDLE_SESS_ID: internal.c 103-107; slot id 1. *)
Definition sess_handle (n : Z) : Z := 1 * 2^16 + n.
Definition sess_id (x : session) : Z := (ss_h x) mod 2^16.
Definition in_use (x : session) : bool := negb (ss_use x =? 0)%Z.
(** wp11_Session_New, wp11_Slot_AddSession: internal.c 525-570. *)
Definition new_sess (l : list session) : session :=
  mkS (match l with [] => sess_handle 1 | x :: _ => ss_h x + 1 end)%Z 0 [] false [] 0 op_zero.
Definition add_sess (l : list session) : list session := new_sess l :: l.

(** WP11_Session_Get: internal.c 4278-4299. *)
Definition slot_ok (id : Z) : bool := (id =? 1)%Z.
Definition find_sess (l : list session) (h : Z) : option session :=
  find (fun x => ss_h x =? h)%Z l.
Definition sess_get (s : sys) (h : Z) : option session :=
  if slot_ok (h / 2^16) then
    match find_sess (s_sess s) h with
    | Some x => if in_use x then Some x else None
    | None => None
    end
  else None.
Definition upd_sess (l : list session) (x : session) : list session :=
  map (fun y => if ss_h y =? ss_h x then x else y)%Z l.
Definition put_sess (s : sys) (x : session) : sys := set_sess s (upd_sess (s_sess s) x).

(** WP11_Object_Free: internal.c 4938-4974, as far as it looks at the key union. Freeing an
    object that was never linked (a failed creation) is not modelled. *)
Definition obj_free (o : obj) : res unit :=
  if is_cert o then '(l, b) <- as_cert o ;;
    if (zlen b <? l)%Z then Undef UB_write_overflow else Ok tt
  else if (o_type o =? CKK_RSA)%Z then _ <- as_rsa o ;; Ok tt
  else if (o_type o =? CKK_EC)%Z then _ <- as_ec o ;; Ok tt
  else if (o_type o =? CKK_DH)%Z then _ <- as_dh o ;; Ok tt
  else if is_sym o then '(l, b) <- as_sym o ;;
    if (zlen b <? l)%Z then Undef UB_write_overflow else Ok tt
  else Ok tt.
Fixpoint free_all (l : list obj) : res unit :=
  match l with [] => Ok tt | o :: r => _ <- obj_free o ;; free_all r end.

(** wp11_Session_Final: internal.c 580-623. *)
Definition sess_final (x : session) : res session :=
  _ <- free_all (if in_use x then ss_objs x else []) ;;
  p <- op_session_final (ss_op x) ;;
  Ok (mkS (ss_h x) 0 (if in_use x then [] else ss_objs x) false (ss_found x) (ss_cur x) p).

(** The second half of wp11_Slot_FreeSession: internal.c 3265-3272. *)
Fixpoint drop_unused (l : list session) : res (list session) :=
  match l with
  | [] => Ok []
  | x :: r => if andb (negb (in_use x)) (SESSION_MIN <? sess_id x)%Z
              then _ <- sess_final x ;; drop_unused r else Ok l
  end.
(** WP11_Slot_CloseSession, list part: internal.c 3658-3669. *)
Definition close_sess (l : list session) (x : session) : res (list session) :=
  x' <- sess_final x ;;
  match l with
  | y :: r => if andb (ss_h y =? ss_h x)%Z (SESSION_MIN <? sess_id x)%Z then drop_unused r
              else Ok (upd_sess l x')
  | [] => Ok []
  end.
(** WP11_Slot_CloseSessions: internal.c 3688-3703. Note that the second loop
    finalizes the head of the list each time. *)
Fixpoint drop_dyn (l : list session) : res (list session) :=
  match l with
  | [] => Ok []
  | x :: r => if (SESSION_MIN <? sess_id x)%Z then _ <- sess_final x ;; drop_dyn r else Ok l
  end.
Fixpoint final_head (n : nat) (l : list session) : res (list session) :=
  match n with
  | O => Ok l
  | S m => match l with
           | [] => Ok []
           | x :: r => x' <- sess_final x ;; final_head m (x' :: r)
           end
  end.
Definition close_all (l : list session) : res (list session) :=
  l1 <- drop_dyn l ;; final_head (length l1) l1.
Fixpoint final_all (l : list session) : res unit :=
  match l with [] => Ok tt | x :: r => _ <- sess_final x ;; final_all r end.

(** ** PINs and login *)
Definition pin_len_ok (p : list N) : bool := andb (4 <=? zlen p)%Z (zlen p <=? 32)%Z.
Definition logged_in (st : Z) : bool := orb (st =? RW_SO)%Z (orb (st =? RO_USER) (st =? RW_USER))%Z.
Definition reset_fail (p : pin) : pin := mkPin (p_hash p) (p_len p) (p_seed p) 0 0 0.
Definition zero_fail (p : pin) : pin := mkPin (p_hash p) (p_len p) (p_seed p) 0 (p_last p) (p_tmo p).
(** soFailedLogin++ and what follows: internal.c 3937-3941, 4025-4029. *)
Definition count_fail (p : pin) (now tmo : Z) : pin :=
  let n := (p_fail p + 1)%Z in
  if (n =? MAX_FAILS)%Z then mkPin (p_hash p) (p_len p) (p_seed p) n now (p_tmo p + tmo)
  else mkPin (p_hash p) (p_len p) (p_seed p) n (p_last p) (p_tmo p).

Section WithWorld.
Variable w : world.
Let se := w_se w.
Let oe := w_oe w.

(** WP11_Slot_CheckSOPin, WP11_Slot_CheckUserPin: internal.c 3808-3869. [n] bytes
    are compared. *)
Definition CheckPin (t : token) (p : pin) (attempt : list N) : Z :=
  if orb (negb (t_init t)) (p_len p =? 0)%Z then PIN_NOT_SET_E
  else let n := Z.to_nat (p_len p) in
    if list_eq_dec N.eq_dec (firstn n (se_hash se attempt (p_seed p))) (firstn n (p_hash p))
    then 0 else PIN_INVALID_E.

(** Lock-out part of WP11_Slot_SOLogin/UserLogin: internal.c 3910-3917,
    4001-4007. [None]: refused; [Some p']: go on, with the counter perhaps reset. *)
Definition lock_check (p : pin) (now : Z) : option pin :=
  if (p_fail p =? MAX_FAILS)%Z then
    if (p_last p + p_tmo p <? now)%Z then Some (zero_fail p) else None
  else Some p.

(** WP11_Slot_SOLogin: internal.c 3884-3958. *)
Definition SOLogin (l : list session) (t : token) (attempt : list N) (now : option Z) : Z * token :=
  match now with
  | None => (PIN_INVALID_E, t)
  | Some n =>
      if logged_in (t_login t) then (LOGGED_IN_E, t) else
      match lock_check (t_so t) n with
      | None => (PIN_INVALID_E, t)
      | Some p =>
          let t1 := set_so t p in
          if existsb (fun x => ss_use x =? SESSION_RO)%Z l then (READ_ONLY_E, t1) else
          let c := CheckPin t1 p attempt in
          if (c =? PIN_INVALID_E)%Z then (c, set_so t1 (count_fail p n SO_TIMEOUT))
          else if (c =? 0)%Z then (0%Z, set_login (set_so t1 (reset_fail p)) RW_SO)
          else (c, t1)
      end
  end.

(** The loops of WP11_Slot_UserLogin and WP11_Slot_Logout over the token's objects:
    internal.c 4043-4047, 4174-4178. They stop at the first error. *)
Fixpoint decode_all (key : list N) (l : list obj) : res (Z * list obj) :=
  match l with
  | [] => Ok (0%Z, [])
  | o :: r => '(c, o1) <- Decode se key o ;;
              if negb (c =? 0)%Z then Ok (c, o1 :: r)
              else '(c2, r1) <- decode_all key r ;; Ok (c2, o1 :: r1)
  end.
Fixpoint encode_all (key : list N) (l : list obj) : res (list obj) :=
  match l with
  | [] => Ok []
  | o :: r => '(c, o1) <- Encode se key true o ;;
              if negb (c =? 0)%Z then Ok (o1 :: r)
              else r1 <- encode_all key r ;; Ok (o1 :: r1)
  end.

(** WP11_Slot_UserLogin: internal.c 3974-4058. *)
Definition UserLogin (t : token) (attempt : list N) (now : option Z) : res (Z * token) :=
  match now with
  | None => Ok (PIN_INVALID_E, t)
  | Some n =>
      if logged_in (t_login t) then Ok (LOGGED_IN_E, t) else
      match lock_check (t_user t) n with
      | None => Ok (PIN_INVALID_E, t)
      | Some p =>
          let t1 := set_user t p in
          let c := CheckPin t1 p attempt in
          if (c =? PIN_INVALID_E)%Z then Ok (c, set_user t1 (count_fail p n USER_TIMEOUT))
          else if (c =? 0)%Z then
            let t2 := set_key (set_user t1 (reset_fail p)) (se_hash se attempt (t_seed t)) in
            '(c2, l) <- decode_all (t_key t2) (t_objs t2) ;;
            let t3 := set_objs t2 l in
            if (c2 =? 0)%Z then Ok (0%Z, set_login t3 RW_USER) else Ok (c2, t3)
          else Ok (c, t1)
      end
  end.

(** WP11_Slot_Logout: internal.c 4162-4189. *)
Definition Logout (t : token) : res token :=
  if orb (t_login t =? RO_USER)%Z (t_login t =? RW_USER)%Z then
    l <- encode_all (t_key t) (t_objs t) ;; Ok (set_login (set_objs t l) RW_PUBLIC)
  else Ok (set_login t RW_PUBLIC).

(** WP11_Session_GetState: internal.c 4307-4330. *)
Definition GetState (t : token) (x : session) : Z :=
  if (t_login t =? RW_SO)%Z then RW_SO
  else if (t_login t =? RW_USER)%Z then (if (ss_use x =? SESSION_RW)%Z then RW_USER else RO_USER)
  else if (ss_use x =? SESSION_RW)%Z then RW_PUBLIC else RO_PUBLIC.

(** Store the token and carry out the file operations. *)
Definition store (rnd : nat -> list N) (s : sys) : res (Z * sys) :=
  '(c, t, ws) <- Token_Store se (fun i => rnd (2 + i)) (s_tok s) ;;
  Ok (c, do_ops (set_tok s t) ws).

(** WP11_Slot_SetSOPin, WP11_Slot_SetUserPin: internal.c 4073-4155. *)
Definition SetSOPin (rnd : nat -> list N) (s : sys) (new : list N) : res (Z * sys) :=
  let t := s_tok s in let p := t_so t in
  store rnd (set_tok s (set_so t (mkPin (se_hash se new (rbytes 16 (rnd 0))) 32 (rbytes 16 (rnd 0)) (p_fail p) (p_last p) (p_tmo p)))).
Definition SetUserPin (rnd : nat -> list N) (s : sys) (new : list N) : res (Z * sys) :=
  let t := s_tok s in let p := t_user t in
  store rnd (set_tok s
    (set_key (set_seed (set_user t
       (mkPin (se_hash se new (rbytes 16 (rnd 0))) 32 (rbytes 16 (rnd 0)) (p_fail p) (p_last p) (p_tmo p))) (rbytes 16 (rnd 1)))
       (se_hash se new (rbytes 16 (rnd 1))))).

(** ** Objects *)
(** OBJ_HANDLE(onToken, 1): internal.c 110; onToken is an int. *)
Definition obj_handle (b : N) : Z := u64 (i32 (Z.lor (Z.of_N b * 2^28) 1)).
Definition next_handle (l : list obj) (b : N) : Z :=
  match l with [] => obj_handle b | o :: _ => u64 (o_handle o + 1) end.

(** WP11_Session_AddObject: internal.c 4639-4697. [b]: the CKA_TOKEN byte. The
    onToken field of the object is one bit wide. *)
Definition AddToSession (rnd : nat -> list N) (s : sys) (x : session) (b : N) (o : obj) : res (Z * Z * sys) :=
  let o1 := set_onTok o (N.odd b) in
  if (b =? 0)%N then
    if (SESS_OBJ_MAX <=? zlen (ss_objs x))%Z then Ok (OBJ_COUNT_E, 0%Z, s)
    else let h := next_handle (ss_objs x) b in
         Ok (0%Z, h, put_sess s (set_sobjs x (set_handle o1 h :: ss_objs x)))
  else
    let t := s_tok s in
    if (TOK_OBJ_MAX <=? zlen (t_objs t))%Z then Ok (OBJ_COUNT_E, 0%Z, s)
    else '(c, o2) <- Encode se (t_key t) false o1 ;;
         if negb (c =? 0)%Z then Ok (c, 0%Z, s)
         else let h := next_handle (t_objs t) b in
              '(_, s1) <- store rnd (set_tok s (set_objs t (set_handle o2 h :: t_objs t))) ;;
              Ok (0%Z, h, s1).
(** AddObject: crypto.c 499-524. *)
Definition AddObject (rnd : nat -> list N) (s : sys) (x : session) (t : template) (o : obj) : res (Z * Z * sys) :=
  match tmpl_token t with
  | None => Ok (CKR_ATTRIBUTE_VALUE_INVALID, 0%Z, s)
  | Some b => '(c, h, s1) <- AddToSession rnd s x b o ;;
              Ok (if (c =? 0)%Z then CKR_OK else CKR_FUNCTION_FAILED, h, s1)
  end.

(** WP11_Object_Find: internal.c 5445-5478. *)
Definition on_token (h : Z) : bool := negb (i32 (h / 2^28) =? 0)%Z.
Definition find_obj (s : sys) (x : session) (h : Z) : option obj :=
  find (fun o => o_handle o =? h)%Z (if on_token h then t_objs (s_tok s) else ss_objs x).
(** A change to an object in place. *)
Definition upd_objs (l : list obj) (o : obj) : list obj :=
  map (fun y => if (o_uid y =? o_uid o)%nat then o else y) l.
Definition put_obj (s : sys) (o : obj) : sys :=
  set_sess (set_tok s (set_objs (s_tok s) (upd_objs (t_objs (s_tok s)) o)))
           (map (fun x => set_sobjs x (upd_objs (ss_objs x) o)) (s_sess s)).
(** WP11_Session_RemoveObject and WP11_Object_Free: internal.c 4705-4743. The id of
    the object's files is the number of objects behind it. An object of the
    token list whose onToken bit is 0 is freed but stays in the list. *)
Fixpoint remove_uid (u : nat) (l : list obj) : list obj :=
  match l with [] => [] | o :: r => if (o_uid o =? u)%nat then r else o :: remove_uid u r end.
Fixpoint behind (u : nat) (l : list obj) : nat :=
  match l with [] => 0 | o :: r => if (o_uid o =? u)%nat then length r else behind u r end.
(** wp11_Object_Unstore, internal.c 2920-2970: the second open of an object of no
    storable kind fails and the first file is closed again. *)
Definition no_kind (o : obj) : bool := match key_kind o with Some _ => false | None => true end.
Definition RemoveObject (rnd : nat -> list N) (s : sys) (x : session) (h : Z) (o : obj) : res sys :=
  _ <- obj_free o ;;
  if on_token h then
    if o_onTok o then
      if no_kind o then Undef UB_use_after_free else
      let t := s_tok s in
      let s1 := do_ops (set_tok s (set_objs t (remove_uid (o_uid o) (t_objs t))))
                       (Unstore (behind (o_uid o) (t_objs t)) o) in
      '(_, s2) <- store rnd s1 ;; Ok s2
    else Undef UB_use_after_free
  else Ok (put_sess s (set_sobjs x (remove_uid (o_uid o) (ss_objs x)))).

(** ** Searching *)
(** wp11_Session_FindNext, the test on one object: internal.c 4820-4840. *)
Definition visible (t : token) (o : obj) : bool :=
  andb (negb (o_enc o))
       (negb (andb (Z.lor (o_opFlag o) FL_PRIVATE =? FL_PRIVATE)%Z
                   (orb (t_login t =? RW_PUBLIC)%Z (t_login t =? RO_PUBLIC)%Z))).
Fixpoint match_all (o : obj) (t : template) : res bool :=
  match t with
  | [] => Ok true
  | a :: r => b <- MatchAttr oe o a ;; if b then match_all o r else Ok false
  end.
(** WP11_Session_Find over a list: internal.c 4874-4890; [acc] is the result so
    far, newest first; the flag tells that an eleventh match ended the search. *)
Fixpoint find_loop (tk : token) (t : template) (l : list obj) (acc : list Z) : res (list Z * bool) :=
  match l with
  | [] => Ok (acc, false)
  | o :: r =>
      if visible tk o then
        m <- match_all o t ;;
        if m then if (length acc =? FIND_MAX)%nat then Ok (acc, true)
                  else find_loop tk t r (o_handle o :: acc)
        else find_loop tk t r acc
      else find_loop tk t r acc
  end.
(** After the last object of the token list FindNext returns to the head of that
    list if the object's onToken bit is 0. *)
Definition loops (l : list obj) : bool :=
  match rev l with [] => false | o :: _ => negb (o_onTok o) end.
Fixpoint find_tok (fuel : nat) (tk : token) (t : template) (acc : list Z) : res (list Z) :=
  '(acc1, full) <- find_loop tk t (t_objs tk) acc ;;
  if full then Ok acc1
  else if loops (t_objs tk) then
    match fuel with
    | S n => if (length acc =? length acc1)%nat then Undef UB_diverge else find_tok n tk t acc1
    | O => Undef UB_diverge
    end
  else Ok acc1.
Definition Find (tk : token) (x : session) (onTok : bool) (t : template) : res (list Z) :=
  '(acc, full) <- find_loop tk t (ss_objs x) [] ;;
  if orb full (negb onTok) then Ok (rev acc)
  else acc1 <- find_tok (S FIND_MAX) tk t acc ;; Ok (rev acc1).

(** ** Crypto operations *)
Fixpoint all_objs (l : list session) : list obj :=
  match l with [] => [] | x :: r => ss_objs x ++ all_objs r end.
Definition live (s : sys) : list obj := t_objs (s_tok s) ++ all_objs (s_sess s).
Definition find_uid (s : sys) (u : nat) : option obj := find (fun o => (o_uid o =? u)%nat) (live s).
(** The object as the operations of Ops.v see it. An object whose union holds
    another member is refused as undefined (also where only its type is read). *)
Definition view (o : obj) : res keyobj :=
  if (o_type o =? CKK_RSA)%Z then r <- as_rsa o ;; Ok (mkKey (o_type o) [] (w_pk w (KRsa r)) (w_klen w (KRsa r)))
  else if (o_type o =? CKK_EC)%Z then e <- as_ec o ;; Ok (mkKey (o_type o) [] (w_pk w (KEc e)) (w_klen w (KEc e)))
  else if is_sym o then '(l, b) <- as_sym o ;; d <- take_buf l b ;; Ok (mkKey (o_type o) d [] 0)
  else Ok (mkKey (o_type o) [] [] 0).
(** The call with the object identity in place of the key handle; [None]: not an
    Init call. *)
Definition with_key (c : call) (u : nat) : option call :=
  match c with
  | KEncryptInit m mp _ => Some (KEncryptInit m mp u)
  | KDecryptInit m mp _ => Some (KDecryptInit m mp u)
  | KSignInit m mp _ => Some (KSignInit m mp u)
  | KVerifyInit m mp _ => Some (KVerifyInit m mp u)
  | _ => None
  end.
Definition run_init (s : sys) (x : session) (c : call) (o : obj) : res (session * outc) :=
  ko <- view o ;;
  '(p, r) <- Ops.step (w_ev w) (fun u => if (u =? o_uid o)%nat then Some ko else None) (ss_op x) c ;;
  Ok (set_op x p, r).
Definition run_cont (s : sys) (x : session) (c : call) : res (session * outc) :=
  ko <- match os_curr (ss_op x) with
        | None => Ok None
        | Some u => match find_uid s u with
                    | None => Ok None
                    | Some o => k <- view o ;; Ok (Some k)
                    end
        end ;;
  '(p, r) <- Ops.step (w_ev w) (fun _ => ko) (ss_op x) c ;;
  Ok (set_op x p, r).

(** ** Key generation: internal.c 6501-6562, 7127-7170, 7483-7515, 7550-7562 *)
Definition be_size (n : N) : Z := zlen (be_of n).
Definition RsaGen (pub priv : obj) (g : option gen) : res (option (obj * obj)) :=
  rp <- as_rsa pub ;;
  let e := if (r_e rp =? 0)%N then 65537%N else r_e rp in
  if (8 <? be_size e)%Z then Ok None else
  match g with
  | Some (GRsa r) =>
      Ok (Some (set_gen (set_data pub (KRsa (mkRsa (r_n r) (r_d rp) (r_p rp) (r_q rp) (r_dP rp) (r_dQ rp) (r_u rp) e))) 0,
                set_gen (set_data priv (KRsa r)) 0))
  | _ => Ok None
  end.
Definition EcGen (pub priv : obj) (g : option gen) : res (option (obj * obj)) :=
  ep <- as_ec pub ;;
  match ec_curve ep with
  | None => Undef UB_null_deref
  | Some c =>
      match g with
      | Some (GEc k pt) =>
          Ok (Some (set_gen (set_data pub (KEc (mkEc (Some c) 1 (ec_k ep) pt))) 0x1040,
                    set_gen (set_data priv (KEc (mkEc (Some c) 2 k pt))) 0x1040))
      | _ => Ok None
      end
  end.
Definition DhGen (pub priv : obj) (g : option gen) : res (option (obj * obj)) :=
  '(p, gg, _, bp) <- as_dh pub ;;
  '(_, _, _, bq) <- as_dh priv ;;
  match g with
  | Some (GDh prv pb) =>
      if orb (Z.of_nat DH_BUF <? zlen prv)%Z (Z.of_nat DH_BUF <? zlen pb)%Z then Ok None else
      Ok (Some (set_gen (set_data pub (KDh p gg (zlen pb) (overlay bp pb))) 0x20,
                set_gen (set_data priv (KDh p gg (zlen prv) (overlay bq prv))) 0x20))
  | _ => Ok None
  end.

(** ** The API *)
Definition rv_ (s : sys) (rv : Z) : res (sys * out) := Ok (s, OutRv rv).
Definition need_lib (s : sys) (k : res (sys * out)) : res (sys * out) :=
  if (0 <? s_count s)%Z then k else rv_ s CKR_CRYPTOKI_NOT_INITIALIZED.
Definition with_slot (s : sys) (slot : Z) (k : res (sys * out)) : res (sys * out) :=
  need_lib s (if slot_ok slot then k else rv_ s CKR_SLOT_ID_INVALID).
Definition with_sess (s : sys) (h : Z) (k : session -> res (sys * out)) : res (sys * out) :=
  need_lib s (match sess_get s h with Some x => k x | None => rv_ s CKR_SESSION_HANDLE_INVALID end).
(** WP11_Session_IsRW *)
Definition is_rw (x : session) : bool := (ss_use x =? SESSION_RW)%Z.
Definition need_rw (s : sys) (x : session) (k : res (sys * out)) : res (sys * out) :=
  if is_rw x then k else rv_ s CKR_SESSION_READ_ONLY.
Definition with_object (s : sys) (x : session) (h err : Z) (k : obj -> res (sys * out)) : res (sys * out) :=
  match find_obj s x h with Some o => k o | None => rv_ s err end.
(** Use up the identity of an allocation. *)
Definition bump (s : sys) (n : nat) : sys := set_uid s (s_uid s + n).

(** C_Initialize, C_Finalize: wolfpkcs11.c 127-150; WP11_Library_Init/Final:
    internal.c 3443-3496. A C_Finalize too many also locks
    an uninitialised mutex, which is taken to do nothing. *)
Definition Initialize (s : sys) : res (sys * out) :=
  if (s_count s =? 0)%Z then
    t <- Token_Load se (s_fs s) (s_uid s) ;;
    Ok (mkSys 1 (add_sess (add_sess [])) t (s_fs s) (s_log s) (s_uid s + length (t_objs t)), OutRv CKR_OK)
  else Ok (mkSys (s_count s + 1) (s_sess s) (s_tok s) (s_fs s) (s_log s) (s_uid s), OutRv CKR_OK).
Definition Finalize (rnd : nat -> list N) (s : sys) : res (sys * out) :=
  if (s_count s - 1 =? 0)%Z then
    '(_, s1) <- store rnd s ;;
    _ <- final_all (s_sess s1) ;;
    _ <- free_all (t_objs (s_tok s1)) ;;
    Ok (mkSys 0 [] tok_fresh (s_fs s1) (s_log s1) (s_uid s1), OutRv CKR_OK)
  else Ok (mkSys (s_count s - 1) (s_sess s) (s_tok s) (s_fs s) (s_log s) (s_uid s), OutRv CKR_OK).

(** C_InitToken: slot.c 557-586; WP11_Slot_TokenReset: internal.c 3779-3797. The
    caller's label buffer must have 32 bytes. *)
Definition TokenReset (rnd : nat -> list N) (s : sys) (pin label : list N) : res (Z * sys) :=
  _ <- free_all (t_objs (s_tok s)) ;;
  if (zlen label <? 32)%Z then Undef UB_read_overflow else
  SetSOPin rnd (set_tok s (tok_init (firstn 32 label))) pin.
Definition InitToken (rnd : nat -> list N) (s : sys) (pin label : list N) : res (sys * out) :=
  let t := s_tok s in
  if negb (pin_len_ok pin) then rv_ s CKR_PIN_INCORRECT
  else if andb (t_init t) (existsb in_use (s_sess s)) then rv_ s CKR_SESSION_EXISTS
  else if andb (t_init t) (negb (CheckPin t (t_so t) pin =? 0)%Z) then rv_ s CKR_PIN_INCORRECT
  else '(c, s1) <- TokenReset rnd s pin label ;;
       rv_ s1 (if (c =? 0)%Z then CKR_OK else CKR_FUNCTION_FAILED).

(** C_InitPIN, C_SetPIN: slot.c 602-628, 647-702. *)
Definition InitPIN (rnd : nat -> list N) (s : sys) (x : session) (pin : list N) : res (sys * out) :=
  if negb (GetState (s_tok s) x =? RW_SO)%Z then rv_ s CKR_USER_NOT_LOGGED_IN
  else if negb (pin_len_ok pin) then rv_ s CKR_PIN_INCORRECT
  else '(c, s1) <- SetUserPin rnd s pin ;; rv_ s1 (if (c =? 0)%Z then CKR_OK else CKR_FUNCTION_FAILED).
Definition SetPIN (rnd : nat -> list N) (s : sys) (x : session) (old new : list N) : res (sys * out) :=
  let t := s_tok s in
  let st := GetState t x in
  if negb (pin_len_ok old) then rv_ s CKR_PIN_INCORRECT
  else if negb (pin_len_ok new) then rv_ s CKR_PIN_INCORRECT
  else if negb (orb (st =? RW_SO) (orb (st =? RW_USER) (st =? RW_PUBLIC)))%Z then rv_ s CKR_SESSION_READ_ONLY
  else let so := (st =? RW_SO)%Z in
    let c := CheckPin t (if so then t_so t else t_user t) old in
    if (c =? PIN_NOT_SET_E)%Z then rv_ s CKR_USER_PIN_NOT_INITIALIZED
    else if negb (c =? 0)%Z then rv_ s CKR_PIN_INCORRECT
    else '(c2, s1) <- (if so then SetSOPin rnd s new else SetUserPin rnd s new) ;;
         rv_ s1 (if (c2 =? 0)%Z then CKR_OK else CKR_FUNCTION_FAILED).

(** C_OpenSession: slot.c 721-744; WP11_Slot_OpenSession: internal.c 3596-3643. *)
Definition first_unused (l : list session) : option session := find (fun x => negb (in_use x)) l.
Definition OpenSession (s : sys) (flags : Z) : res (sys * out) :=
  if (Z.land flags CKF_SERIAL_SESSION =? 0)%Z then rv_ s CKR_SESSION_PARALLEL_NOT_SUPPORTED else
  let rw := negb (Z.land flags CKF_RW_SESSION =? 0)%Z in
  if andb (negb rw) (t_login (s_tok s) =? RW_SO)%Z then rv_ s CKR_SESSION_READ_WRITE_SO_EXISTS else
  let open l x := Ok (put_sess (set_sess s l) (set_use x (if rw then SESSION_RW else SESSION_RO)),
                      OutH CKR_OK (ss_h x)) in
  match first_unused (s_sess s) with
  | Some x => open (s_sess s) x
  | None =>
      if match s_sess s with x :: _ => (sess_id x =? SESSION_MAX)%Z | [] => false end
      then rv_ s CKR_SESSION_COUNT
      else open (add_sess (s_sess s)) (new_sess (s_sess s))
  end.
(** C_CloseSession: slot.c 754-768; internal.c 3652-3681. *)
Definition CloseSession (s : sys) (x : session) : res (sys * out) :=
  l <- close_sess (s_sess s) x ;;
  let s1 := set_sess s l in
  if existsb in_use l then rv_ s1 CKR_OK
  else t <- Logout (s_tok s1) ;; rv_ (set_tok s1 t) CKR_OK.

(** C_Login: slot.c 912-955. *)
Definition login_rv (so : bool) (c : Z) : Z :=
  if (c =? LOGGED_IN_E)%Z then CKR_USER_ALREADY_LOGGED_IN
  else if andb so (c =? READ_ONLY_E)%Z then CKR_SESSION_READ_ONLY_EXISTS
  else if (c =? PIN_NOT_SET_E)%Z then CKR_USER_PIN_NOT_INITIALIZED
  else if negb (c =? 0)%Z then CKR_PIN_INCORRECT else CKR_OK.
Definition Login (s : sys) (ut : Z) (pin : list N) (now : option Z) : res (sys * out) :=
  if negb (pin_len_ok pin) then rv_ s CKR_PIN_INCORRECT
  else if (ut =? CKU_SO)%Z then
    let '(c, t) := SOLogin (s_sess s) (s_tok s) pin now in rv_ (set_tok s t) (login_rv true c)
  else if (ut =? CKU_USER)%Z then
    '(c, t) <- UserLogin (s_tok s) pin now ;; rv_ (set_tok s t) (login_rv false c)
  else if (ut =? CKU_CONTEXT_SPECIFIC)%Z then rv_ s CKR_OPERATION_NOT_INITIALIZED
  else rv_ s CKR_USER_TYPE_INVALID.

(** C_GetTokenInfo, flags COUNT_LOW, FINAL_TRY, LOCKED of one role: slot.c
    183-207. *)
Definition pin_flags (p : pin) (now : Z) : bool * bool * bool :=
  ((0 <? p_fail p)%Z, (p_fail p =? MAX_FAILS - 1)%Z,
   andb (p_fail p =? MAX_FAILS)%Z (now <? p_last p + p_tmo p)%Z).
(** WP11_Slot_GetTokenLabel: internal.c 4193-4206. *)
Definition shown_label (t : token) : list N :=
  if (nth 0 (t_label t) 0 =? 0)%N then repeat 32%N 32 else t_label t.

(** C_CreateObject: crypto.c 734-766; CreateObject also checks the session mode. *)
Definition Create (rnd : nat -> list N) (s : sys) (x : session) (t : template) : res (sys * out) :=
  '(rv, o) <- CreateObject oe (is_rw x) (s_uid s) t ;;
  let s1 := bump s 1 in
  match o with
  | Some o => '(rv2, h, s2) <- AddObject rnd s1 x t o ;; Ok (s2, OutH rv2 h)
  | None => rv_ s1 rv
  end.
(** C_CopyObject: crypto.c 783-852. *)
Definition Copy (rnd : nat -> list N) (s : sys) (x : session) (src : obj) (t : template) : res (sys * out) :=
  '(rv, t1, r) <- CopyObject oe (is_rw x) (s_uid s) src t ;;
  let s1 := bump s 1 in
  match r with
  | Some (b, o) => '(c, h, s2) <- AddToSession rnd s1 x b o ;;
                   Ok (s2, OutH (if (c =? 0)%Z then CKR_OK else CKR_FUNCTION_FAILED) h)
  | None => rv_ s1 rv
  end.

(** C_FindObjectsInit, C_FindObjects: crypto.c 1050-1080, 1095-1118. *)
Definition FindInit (s : sys) (x : session) (t : template) : res (sys * out) :=
  if ss_find x then rv_ s CKR_OPERATION_ACTIVE else
  let go b := l <- Find (s_tok s) x b t ;; rv_ (put_sess s (set_find x true l 0)) CKR_OK in
  match find_last t CKA_TOKEN with
  | None => go true
  | Some _ => match tmpl_token t with
              | None => rv_ (put_sess s (set_find x true [] 0)) CKR_ATTRIBUTE_VALUE_INVALID
              | Some b => go (negb (b =? 0)%N)
              end
  end.
Definition FindNext (s : sys) (x : session) (n : Z) : res (sys * out) :=
  let l := firstn (Z.to_nat (i32 n)) (skipn (ss_cur x) (ss_found x)) in
  Ok (put_sess s (set_find x (ss_find x) (ss_found x) (ss_cur x + length l)), OutHs CKR_OK l).

(** C_GenerateKey: crypto.c 3621-3668. [key]: the random bytes. *)
Definition GenKey (rnd : nat -> list N) (s : sys) (x : session) (t : template) (key : list N) : res (sys * out) :=
  '(rv, o) <- NewObject oe (is_rw x) (s_uid s) CKK_AES CKO_SECRET_KEY t ;;
  let s1 := bump s 1 in
  match o with
  | None => rv_ s1 rv
  | Some o =>
      '(l, b) <- as_sym o ;;
      if (zlen b <? l)%Z then Undef UB_write_overflow else
      let o1 := set_data o (KSym l (overlay b (firstn (Z.to_nat l) (key ++ zeros SYM_BUF)))) in
      '(rv2, h, s2) <- AddObject rnd s1 x t o1 ;; Ok (s2, OutH rv2 h)
  end.
(** C_GenerateKeyPair: crypto.c 3704-3836 (without
    WOLFPKCS11_KEYPAIR_GEN_COMMON_LABEL). If adding the private key fails, the
    public key object is freed while it is in the object list. *)
Definition GenKeyPair (rnd : nat -> list N) (s : sys) (x : session) (m : kpmech) (tpub tpriv : template)
  (g : option gen) : res (sys * out) :=
  match (match m with KP_RSA => Some CKK_RSA | KP_EC => Some CKK_EC | KP_DH => Some CKK_DH | KP_other => None end) with
  | None => rv_ s CKR_MECHANISM_INVALID
  | Some ty =>
      '(rv, o) <- NewObject oe (is_rw x) (s_uid s) ty CKO_PUBLIC_KEY tpub ;;
      let s1 := bump s 2 in
      match o with
      | None => rv_ s1 rv
      | Some pub =>
          '(rv2, o2) <- NewObject oe (is_rw x) (S (s_uid s)) ty CKO_PRIVATE_KEY tpriv ;;
          match o2 with
          | None => rv_ s1 rv2
          | Some priv =>
              r <- (match m with KP_RSA => RsaGen pub priv g | KP_EC => EcGen pub priv g | _ => DhGen pub priv g end) ;;
              match r with
              | None => rv_ s1 CKR_FUNCTION_FAILED
              | Some (pub1, priv1) =>
                  '(rv3, h1, s2) <- AddObject rnd s1 x tpub pub1 ;;
                  if negb (rv3 =? CKR_OK)%Z then rv_ s2 rv3 else
                  match sess_get s2 (ss_h x) with
                  | None => rv_ s2 CKR_SESSION_HANDLE_INVALID (* not reached: adding closes nothing *)
                  | Some x2 =>
                      '(rv4, h2, s3) <- AddObject (fun i => rnd (100 + i)) s2 x2 tpriv priv1 ;;
                      if (rv4 =? CKR_OK)%Z then Ok (s3, OutH2 CKR_OK h1 h2) else Undef UB_use_after_free
                  end
              end
          end
      end
  end.

(** CHECK_WRAPPABLE: crypto.c 50-51. *)
Definition wrappable (cls ty : Z) : bool := andb (cls =? CKO_PRIVATE_KEY)%Z (ty =? CKK_RSA)%Z.
Definition is_cbc_pad (m : mech) : bool := match m with M_AES_CBC_PAD => true | _ => false end.
(** C_WrapKey: crypto.c 3862-3960. *)
Definition Wrap (s : sys) (x : session) (m : mech) (mp : mparam) (wk k : obj) (b : outbuf) : res (sys * out) :=
  if negb (wrappable (o_class k) (o_type k)) then rv_ s CKR_KEY_NOT_WRAPPABLE else
  r <- as_rsa k ;;
  let '(c, der) := w_p8 w r in
  if negb (c =? 0)%Z then rv_ s CKR_FUNCTION_FAILED else
  if negb (is_cbc_pad m) then rv_ s CKR_MECHANISM_INVALID else
  if negb (o_type wk =? CKK_AES)%Z then rv_ s CKR_WRAPPING_KEY_TYPE_INCONSISTENT else
  '(x1, o1) <- run_init s x (KEncryptInit m mp (o_uid wk)) wk ;;
  if negb (o_rv o1 =? CKR_OK)%Z then rv_ (put_sess s x1) (o_rv o1) else
  '(x2, o2) <- run_cont s x1 (KEncrypt [] der b) ;;
  Ok (put_sess s x2, OutC o2).
(** C_UnwrapKey: crypto.c 3987-4103; AddRSAPrivateKeyObject 547-645. *)
Definition Unwrap (rnd : nat -> list N) (s : sys) (x : session) (m : mech) (mp : mparam) (uk : obj) (wrapped : list N)
  (t : template) : res (sys * out) :=
  if negb (is_cbc_pad m) then rv_ s CKR_MECHANISM_INVALID else
  let attr ty k := match find_last t ty with
    | None => rv_ s CKR_TEMPLATE_INCOMPLETE
    | Some a => match tmpl_ulong a with None => rv_ s CKR_ATTRIBUTE_VALUE_INVALID | Some v => k v end
    end in
  attr CKA_KEY_TYPE (fun kt =>
  if negb (mem kt [CKK_RSA; CKK_EC; CKK_DH; CKK_AES; CKK_GENERIC_SECRET]) then rv_ s CKR_ATTRIBUTE_VALUE_INVALID else
  attr CKA_CLASS (fun cls =>
  if negb (mem cls [CKO_PRIVATE_KEY; CKO_PUBLIC_KEY; CKO_SECRET_KEY]) then rv_ s CKR_ATTRIBUTE_VALUE_INVALID else
  if negb (wrappable cls kt) then rv_ s CKR_KEY_NOT_WRAPPABLE else
  if negb (o_type uk =? CKK_AES)%Z then rv_ s CKR_UNWRAPPING_KEY_TYPE_INCONSISTENT else
  '(x1, o1) <- run_init s x (KDecryptInit m mp (o_uid uk)) uk ;;
  if negb (o_rv o1 =? CKR_OK)%Z then rv_ (put_sess s x1) (o_rv o1) else
  '(x2, o2) <- run_cont s x1 (KDecrypt [] wrapped (Buf 0)) ;;
  let s2 := put_sess s x2 in
  if negb (o_rv o2 =? CKR_OK)%Z then rv_ s2 (o_rv o2) else
  '(rv, o) <- NewObject oe (is_rw x2) (s_uid s2) CKK_RSA CKO_PRIVATE_KEY t ;;
  let s3 := bump s2 1 in
  match o with
  | None => rv_ s3 rv
  | Some o =>
      let '(c, r) := w_p8_dec w (o_out o2) in
      if negb (c =? 0)%Z then rv_ s3 CKR_WRAPPED_KEY_INVALID else
      '(rv2, h, s4) <- AddObject rnd s3 x2 t (set_data o (KRsa r)) ;; Ok (s4, OutH rv2 h)
  end)).

(** C_DeriveKey: crypto.c 4163-4275. [secret]: what WP11_EC_Derive/WP11_Dh_Derive
    put into derivedKey (keyLen bytes), or a failure. OutRv CKR_OK is the outcome
    "CKR_OK without a handle". *)
Definition Derive (rnd : nat -> list N) (s : sys) (x : session) (m : dmech) (base : obj) (secret : option (list N))
  (t : template) : res (sys * out) :=
  match m with
  | D_other => rv_ s CKR_MECHANISM_INVALID
  | _ =>
      _ <- (match m with D_ECDH => _ <- as_ec base ;; Ok tt | _ => _ <- as_dh base ;; Ok tt end) ;;
      match secret with
      | None => rv_ s CKR_FUNCTION_FAILED
      | Some sec =>
          '(rv, o) <- CreateObject oe (is_rw x) (s_uid s) t ;;
          let s1 := bump s 1 in
          match o with
          | None => rv_ s1 rv
          | Some o =>
              (* SymmKeyLen: crypto.c 4113-4137 *)
              '(c, _, d) <- GetAttr oe o CKA_VALUE_LEN (Some 8%Z) ;;
              if negb (c =? 0)%Z then rv_ s1 CKR_OK else
              let vl := u32 (ulong_of d) in
              let sl := if andb (0 <? vl)%Z (vl <=? zlen sec)%Z then vl else zlen sec in
              if (sl <? zlen sec)%Z then Undef UB_read_overflow else
              '(c2, o1) <- SetSecretKey o [None; Some sec] ;;
              if negb (c2 =? 0)%Z then rv_ s1 CKR_FUNCTION_FAILED else
              '(rv2, h, s2) <- AddObject rnd s1 x t o1 ;; Ok (s2, OutH rv2 h)
          end
      end
  end.

Definition step (rnd : nat -> list N) (s : sys) (c : op) : res (sys * out) :=
  match c with
  | OInitialize => Initialize s
  | OFinalize => Finalize rnd s
  | ORestart => Ok (mkSys 0 [] tok_fresh (s_fs s) (s_log s) (s_uid s), OutRv CKR_OK)
  | OInitToken slot pin label => with_slot s slot (InitToken rnd s pin label)
  | OInitPIN h pin => with_sess s h (fun x => InitPIN rnd s x pin)
  | OSetPIN h old new => with_sess s h (fun x => SetPIN rnd s x old new)
  | OOpenSession slot flags => with_slot s slot (OpenSession s flags)
  | OCloseSession h => with_sess s h (CloseSession s)
  | OCloseAllSessions slot => with_slot s slot (l <- close_all (s_sess s) ;; rv_ (set_sess s l) CKR_OK)
  | OGetSessionInfo h => with_sess s h (fun x =>
      Ok (s, OutInfo CKR_OK (GetState (s_tok s) x)
               (CKF_SERIAL_SESSION + (if is_rw x then CKF_RW_SESSION else 0))))
  | OLogin h ut pin now => with_sess s h (fun _ => Login s ut pin now)
  | OLogout h => with_sess s h (fun _ => t <- Logout (s_tok s) ;; rv_ (set_tok s t) CKR_OK)
  | OGetTokenInfo slot now => with_slot s slot (
      let t := s_tok s in
      Ok (s, OutTok CKR_OK (shown_label t) (pin_flags (t_so t) now) (pin_flags (t_user t) now)
               (t_init t) (0 <? p_len (t_user t))%Z))
  | OCreateObject h t => with_sess s h (fun x => need_rw s x (Create rnd s x t))
  | OCopyObject h ho t => with_sess s h (fun x => need_rw s x (
      with_object s x ho CKR_OBJECT_HANDLE_INVALID (fun o => Copy rnd s x o t)))
  | ODestroyObject h ho => with_sess s h (fun x => need_rw s x (
      with_object s x ho CKR_OBJECT_HANDLE_INVALID (fun o =>
        s1 <- RemoveObject rnd s x ho o ;; rv_ s1 CKR_OK)))
  | OGetAttributeValue h ho t => with_sess s h (fun x =>
      with_object s x ho CKR_OBJECT_HANDLE_INVALID (fun o =>
        '(rv, t1) <- GetAttributeValue oe o t ;; Ok (s, OutT rv t1)))
  | OSetAttributeValue h ho t => with_sess s h (fun x => need_rw s x (
      with_object s x ho CKR_OBJECT_HANDLE_INVALID (fun o =>
        '(rv, o1) <- SetAttributeValue oe (is_rw x) o t ;; rv_ (put_obj s o1) rv)))
  | OFindObjectsInit h t => with_sess s h (fun x => FindInit s x t)
  | OFindObjects h n => with_sess s h (fun x => FindNext s x n)
  | OFindObjectsFinal h => with_sess s h (fun x =>
      rv_ (put_sess s (set_find x false (ss_found x) (ss_cur x))) CKR_OK)
  | OGenerateKey h aes t key => with_sess s h (fun x =>
      if aes then GenKey rnd s x t key else rv_ s CKR_MECHANISM_INVALID)
  | OGenerateKeyPair h m tp tq g => with_sess s h (fun x => GenKeyPair rnd s x m tp tq g)
  | OWrapKey h m mp hw hk b => with_sess s h (fun x => need_rw s x (
      with_object s x hk CKR_OBJECT_HANDLE_INVALID (fun k =>
      with_object s x hw CKR_WRAPPING_KEY_HANDLE_INVALID (fun wk => Wrap s x m mp wk k b))))
  | OUnwrapKey h m mp hu wr t => with_sess s h (fun x => need_rw s x (
      if (zlen wr =? 0)%Z then rv_ s CKR_ARGUMENTS_BAD else
      with_object s x hu CKR_UNWRAPPING_KEY_HANDLE_INVALID (fun uk => Unwrap rnd s x m mp uk wr t)))
  | ODeriveKey h m hb sec t => with_sess s h (fun x =>
      with_object s x hb CKR_OBJECT_HANDLE_INVALID (fun b => Derive rnd s x m b sec t))
  | OCrypto h c hk => with_sess s h (fun x =>
      match with_key c 0 with
      | Some _ =>
          with_object s x hk CKR_OBJECT_HANDLE_INVALID (fun o =>
          match with_key c (o_uid o) with
          | Some c1 => '(x1, r) <- run_init s x c1 o ;; Ok (put_sess s x1, OutC r)
          | None => rv_ s CKR_ARGUMENTS_BAD
          end)
      | None =>
          match c with
          | KReopen => rv_ s CKR_ARGUMENTS_BAD         (* not an API call *)
          | _ => '(x1, r) <- run_cont s x c ;; Ok (put_sess s x1, OutC r)
          end
      end)
  end.

(** A history; outputs in order. *)
Fixpoint run (s : sys) (l : list (op * (nat -> list N))) : res (sys * list out) :=
  match l with
  | [] => Ok (s, [])
  | (c, rnd) :: r =>
      '(s1, o) <- step rnd s c ;; '(s2, os) <- run s1 r ;; Ok (s2, o :: os)
  end.
Inductive reach (s0 : sys) : sys -> Prop :=
  | reach_0 : reach s0 s0
  | reach_step s rnd c s' o : reach s0 s -> step rnd s c = Ok (s', o) -> reach s0 s'.
End WithWorld.
