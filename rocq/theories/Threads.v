(** Several threads calling the library at once: which locks each PKCS #11 call
    takes and which shared data it touches in between.

    Every call is described by its sequence of lock operations and accesses
    ([code]); branches become [Alt] and loops become [Loop], whatever decides
    them.  The read/write locks behave as internal.c 343-491 (model and mutual
    exclusion in RwLock.v): one writer or any number of readers.  One slot with
    its token.  Not in the table: WP11_Library_Init/Final, which create and free
    the locks; that C_InitToken frees and creates token.lock and token.rngLock
    anew (internal.c 3784-3790 through 2978-3020); data that belong to one
    session (its object list, operation state and search state). *)
From Coq Require Import List Arith Lia Bool.
Import ListNotations.

(** WP11_Slot.lock, WP11_Token.lock (also the [lock] of every token object,
    internal.c 4661, 3119), WP11_Token.rngLock, and globalLock (internal.c 359). *)
Inductive lock := LSlot | LTok | LRng | LGlob.
Inductive mode := RO | RW.
(** The shared data: token.rng; globalRandom; the links of the slot's session
    list; the inUse members of the sessions; token.loginState; PIN hashes, seeds and the storage key;
    failed-login counts and times; token label and state; the token's object
    list with objCnt; the contents of token objects; the storage files. *)
Inductive field := Frng | Fgrng | Fsess | Fuse | Flogin | Fpin | Ffail | Ftok | Fobjs | Fkey | Ffile.
Inductive ev := Acq (l : lock) (m : mode) | Rel (l : lock) (m : mode) | Rd (f : field) | Wr (f : field).
Inductive code := Skip | E (e : ev) | Seq (a b : code) | Alt (a b : code) | Loop (a : code).
Inductive path : code -> list ev -> Prop :=
| p_skip : path Skip []
| p_ev e : path (E e) [e]
| p_seq a b p q : path a p -> path b q -> path (Seq a b) (p ++ q)
| p_left a b p : path a p -> path (Alt a b) p
| p_right a b p : path b p -> path (Alt a b) p
| p_done a : path (Loop a) []
| p_again a p q : path a p -> path (Loop a) q -> path (Loop a) (p ++ q).

(** ** The machine *)
Definition held := list (lock * mode).
Record thread := mkT { t_held : held; t_todo : list ev }.
Definition lock_eqb (a b : lock) : bool := match a, b with LSlot, LSlot | LTok, LTok | LRng, LRng | LGlob, LGlob => true | _, _ => false end.
Definition mode_eqb (a b : mode) : bool := match a, b with RO, RO | RW, RW => true | _, _ => false end.
Definition hm_eqb (a b : lock * mode) : bool := andb (lock_eqb (fst a) (fst b)) (mode_eqb (snd a) (snd b)).
Definition has (h : held) (l : lock) (m : mode) : bool := existsb (hm_eqb (l, m)) h.
Fixpoint drop (x : lock * mode) (h : held) : held := match h with [] => [] | y :: r => if hm_eqb x y then r else y :: drop x r end.
(** A reader gets in unless somebody holds the lock for writing, a writer unless
    anybody holds it, the asking thread included: the locks are not recursive. *)
Definition admits (ts : list thread) (l : lock) (m : mode) : bool :=
  match m with
  | RO => forallb (fun t => negb (has (t_held t) l RW)) ts
  | RW => forallb (fun t => negb (orb (has (t_held t) l RW) (has (t_held t) l RO))) ts
  end.
Inductive tstep (ts : list thread) : thread -> thread -> Prop :=
| s_acq h l m r : admits ts l m = true -> tstep ts (mkT h (Acq l m :: r)) (mkT ((l, m) :: h) r)
| s_rel h l m r : has h l m = true -> tstep ts (mkT h (Rel l m :: r)) (mkT (drop (l, m) h) r)
| s_rd h f r : tstep ts (mkT h (Rd f :: r)) (mkT h r)
| s_wr h f r : tstep ts (mkT h (Wr f :: r)) (mkT h r).
Fixpoint upd (ts : list thread) (i : nat) (t : thread) : list thread :=
  match ts, i with [], _ => [] | _ :: r, O => t :: r | x :: r, S j => x :: upd r j t end.
Inductive step (ts : list thread) : list thread -> Prop :=
| st_one i t t' : nth_error ts i = Some t -> tstep ts t t' -> step ts (upd ts i t').
Inductive steps : list thread -> list thread -> Prop :=
| ss_0 ts : steps ts ts
| ss_1 a b c : steps a b -> step b c -> steps a c.
Definition start (ps : list (list ev)) : list thread := map (mkT []) ps.

(** ** The library's functions *)
Fixpoint seq (l : list code) : code := match l with [] => Skip | [c] => c | c :: r => Seq c (seq r) end.
Fixpoint alts (l : list code) : code := match l with [] => Skip | [c] => c | c :: r => Alt c (alts r) end.
Definition opt (c : code) : code := Alt Skip c.
Definition under (l : lock) (m : mode) (cs : list code) : code := Seq (E (Acq l m)) (Seq (seq cs) (E (Rel l m))).
Definition rd f := E (Rd f).
Definition wr f := E (Wr f).

(** WP11_Library_IsInitialized: internal.c 3503-3516 (the count itself only changes in C_Initialize and C_Finalize). *)
Definition is_init : code := opt (under LGlob RO []).
(** WP11_Session_Get: internal.c 4276-4299. *)
Definition session_get : code := under LSlot RO [rd Fsess; opt (rd Fuse)].
Definition enter : code := Seq is_init session_get.
(** WP11_Session_GetState: internal.c 4307-4329; WP11_Session_IsRW: 4338-4341. *)
Definition get_state : code := under LSlot RO [rd Flogin; rd Fuse].
Definition is_rw : code := rd Fuse.
(** Rng_New on the token's generator: internal.c 494-508. *)
Definition rng_new : code := under LRng RW [wr Frng].
(** wp11_Object_Store: internal.c 2690-2791; lines 2753-2758 draw a new IV from
    token.rng, for a private or secret key without encoded key data, and do not
    take rngLock.  (Encoded key data are missing after a failed encoding at
    logout, for instance of a public key whose CKA_CLASS was changed.) *)
Definition object_store : code := seq [rd Fkey; wr Ffile; opt (Seq (wr Frng) (wr Fkey))].
(** wp11_Token_Store: internal.c 3157-3243. *)
Definition token_store : code := seq [rd Ftok; rd Fpin; rd Ffail; rd Fobjs; wr Ffile; Loop object_store].
(** wp11_Object_Encode: internal.c 2857-2909; wp11_Object_Decode: 2802-2848. *)
Definition object_encode : code := seq [rd Fkey; rd Fpin; wr Fkey].
Definition object_decode : code := seq [rd Fkey; rd Fpin; wr Fkey].
(** WP11_Slot_HasSession: internal.c 3711-3728. *)
Definition has_session : code := under LSlot RO [rd Fsess; rd Fuse].
(** WP11_Slot_CheckSOPin, WP11_Slot_CheckUserPin: internal.c 3807-3870; the seed is read with the lock released. *)
Definition check_pin : code := Seq (under LSlot RO [rd Ftok; rd Fpin]) (opt (Seq (rd Fpin) (under LSlot RO [rd Fpin]))).
(** WP11_Slot_SetSOPin, WP11_Slot_SetUserPin: internal.c 4072-4155; the hash is written with the lock released. *)
Definition set_pin : code :=
  Seq (under LSlot RW [under LRng RW [wr Frng; wr Fpin]]) (Seq (seq [rd Fpin; wr Fpin]) (under LSlot RW [opt (Seq (wr Fpin) token_store)])).
(** WP11_Slot_TokenReset: internal.c 3778-3796, with wp11_Token_Final and wp11_Token_Init (2978-3030). *)
Definition token_reset : code :=
  Seq (under LSlot RW [rd Fobjs; wr Fobjs; wr Fkey; wr Frng; under LGlob RW [wr Fgrng]; wr Ftok; wr Flogin; wr Fpin]) set_pin.
(** WP11_Slot_SOLogin: internal.c 3884-3960; the failure count is reset at line 3916 under the read lock. *)
Definition so_login : code :=
  seq [under LSlot RO [rd Flogin; rd Ffail; opt (wr Ffail); rd Fsess; rd Fuse];
       opt (seq [check_pin; under LSlot RW [wr Ffail]; opt (under LSlot RW [wr Flogin])])].
(** WP11_Slot_UserLogin: internal.c 3973-4061; the storage key is written at line 4017 with no lock held. *)
Definition user_login : code :=
  seq [under LSlot RW [rd Flogin; rd Ffail; opt (wr Ffail)];
       opt (seq [check_pin; opt (Seq (rd Fpin) (wr Fpin)); under LSlot RW [wr Ffail; opt (Seq (rd Fobjs) (Loop object_decode))]; opt (under LSlot RW [wr Flogin])])].
(** WP11_Slot_Logout: internal.c 4162-4184. *)
Definition logout : code := under LSlot RW [rd Flogin; opt (Seq (rd Fobjs) (Loop object_encode)); wr Flogin].
(** WP11_Slot_OpenSession: internal.c 3596-3643. *)
Definition open_session : code := under LSlot RW [rd Flogin; rd Fsess; rd Fuse; opt (seq [opt (wr Fsess); wr Fuse])].
(** WP11_Slot_CloseSession: internal.c 3652-3681. *)
Definition close_session : code := seq [under LSlot RW [rd Fsess; opt (wr Fsess); wr Fuse]; under LSlot RO [rd Fsess; rd Fuse]; opt logout].
(** WP11_Slot_CloseSessions: internal.c 3690-3703; sessions above the minimum are freed with no lock held. *)
Definition close_sessions : code := Seq (Seq (rd Fsess) (Loop (seq [wr Fsess; wr Fuse; rd Fsess]))) (under LSlot RW [rd Fsess; wr Fuse]).
(** WP11_Session_AddObject: internal.c 4639-4697; [tok] is false for calls that
    only ever create (or destroy) session objects. *)
Definition add_object (tok : bool) : code := if negb tok then Skip else opt (under LTok RW [rd Fobjs; opt (seq [object_encode; wr Fobjs; token_store])]).
(** WP11_Session_RemoveObject: internal.c 4705-4743. *)
Definition remove_object (tok : bool) : code := if negb tok then Skip else opt (under LTok RW [rd Fobjs; wr Fobjs; wr Ffile; token_store]).
(** WP11_Object_Find: internal.c 5445-5478. *)
Definition object_find : code := opt (under LTok RO [rd Fobjs]).
(** For an object of the token; objects of a session are not shared.
    WP11_Object_GetAttr: internal.c 5905-6075; WP11_Object_SetAttr: 6215-6400;
    the key setting functions: 5045-5432. *)
Definition get_attr : code := opt (under LTok RO [rd Fkey]).
Definition set_attr : code := opt (under LTok RW [rd Fkey; wr Fkey]).
(** wp11_Session_FindNext and WP11_Session_Find: internal.c 4800-4845, 4876-4899; with
    onToken the token lock is held throughout and taken again by WP11_Object_GetAttr. *)
Definition find_step (tok : bool) : code := if tok then seq [rd Fobjs; rd Fkey; opt (rd Flogin); Loop get_attr] else Seq (opt (under LTok RO [rd Flogin])) (Loop get_attr).
Definition find : code := Alt (Loop (find_step false)) (under LTok RO [Loop (find_step true)]).
(** The functions that use a key, internal.c 4573-4578 and 6585-8400: the key is
    read under the read lock, WP11_RsaPkcs15_PrivateDecrypt and
    WP11_RsaOaep_PrivateDecrypt take the write lock (6708, 6810), and those that
    need random bytes call [rng_new] while holding it.  Without lock: reading the
    key type, WP11_Rsa_KeyLen (6571-6574) and WP11_Ec_SigLen (7325-7328), and
    WP11_EC_Derive storing a pointer to its own generator in the key (7452). *)
Definition use_key : code :=
  alts [Skip; rd Fkey; under LTok RO [opt rng_new; rd Fkey]; under LTok RW [opt rng_new; rd Fkey; wr Fkey]; seq [rng_new; wr Fkey; under LTok RO [rd Fkey]]].
(** WP11_AesGenerateKey: internal.c 7550-7562, and the key pair generators. *)
Definition generate : code := Loop rng_new.

(** ** The calls *)
Definition C_slot_info : code := is_init.
(** C_GetTokenInfo: slot.c 138-215 with internal.c 4193-4268; the counters and the PIN length are read without lock. *)
Definition C_GetTokenInfo : code := seq [is_init; under LSlot RO [rd Ftok]; rd Ffail; rd Ffail; under LSlot RO [rd Ftok]; rd Fpin].
(** C_InitToken: slot.c 556-590. *)
Definition C_InitToken : code := seq [is_init; under LSlot RO [rd Ftok]; opt (Seq has_session check_pin); opt token_reset].
(** C_InitPIN: slot.c 602-630. *)
Definition C_InitPIN : code := seq [enter; get_state; opt set_pin].
(** C_SetPIN: slot.c 647-702. *)
Definition C_SetPIN : code := seq [enter; get_state; opt (Seq check_pin (opt set_pin))].
(** C_OpenSession, C_CloseSession, C_CloseAllSessions, C_GetSessionInfo: slot.c 721-830. *)
Definition C_OpenSession : code := Seq is_init open_session.
Definition C_CloseSession : code := Seq enter close_session.
Definition C_CloseAllSessions : code := Seq is_init close_sessions.
Definition C_GetSessionInfo : code := seq [enter; get_state; is_rw].
(** C_Login, C_Logout: slot.c 910-985. *)
Definition C_Login_SO : code := Seq enter so_login.
Definition C_Login_user : code := Seq enter user_login.
Definition C_Logout : code := Seq enter logout.
(** C_CreateObject, C_UnwrapKey's second half: crypto.c 734-760, 499-530. *)
Definition C_CreateObject (tok : bool) : code := seq [enter; is_rw; Loop set_attr; add_object tok].
(** C_CopyObject: crypto.c 783-850. *)
Definition C_CopyObject (tok : bool) : code := seq [enter; is_rw; object_find; Loop get_attr; Loop set_attr; add_object tok].
(** C_DestroyObject: crypto.c 863-890. *)
Definition C_DestroyObject (tok : bool) : code := seq [enter; is_rw; object_find; remove_object tok].
(** C_GetObjectSize, C_GetAttributeValue, C_SetAttributeValue: crypto.c 902-1035. *)
Definition C_GetAttributeValue : code := seq [enter; object_find; Loop get_attr].
Definition C_SetAttributeValue : code := seq [enter; is_rw; object_find; Loop set_attr].
(** C_FindObjectsInit: crypto.c 1050-1080; C_FindObjects, C_FindObjectsFinal: 1095-1142. *)
Definition C_FindObjectsInit : code := Seq enter (opt find).
Definition C_FindObjects : code := enter.
(** C_EncryptInit to C_VerifyFinal: crypto.c 1165-3376. *)
Definition C_crypto : code := seq [enter; opt object_find; Loop use_key].
(** C_GenerateKey, C_GenerateKeyPair: crypto.c 3621-3836. *)
Definition C_Generate (tok : bool) : code := seq [enter; is_rw; Loop set_attr; generate; add_object tok; opt (add_object tok)].
(** C_WrapKey: crypto.c 3862-3960; C_UnwrapKey: 3987-4103; C_DeriveKey: 4163-4275. *)
Definition C_WrapKey : code := seq [enter; is_rw; object_find; object_find; Loop use_key].
Definition C_UnwrapKey (tok : bool) : code := seq [enter; is_rw; object_find; Loop use_key; Loop set_attr; add_object tok].
Definition C_DeriveKey (tok : bool) : code := seq [enter; object_find; Loop use_key; Loop set_attr; add_object tok].
(** C_SeedRandom, C_GenerateRandom: crypto.c 4290-4350 with internal.c 8536-8566. *)
Definition C_Random : code := seq [enter; under LRng RW [wr Frng]].

(** The calls that manage the token, the PINs and logins; those that manage
    sessions; those on objects and keys. *)
Definition init_calls : list code := [C_InitToken; C_InitPIN; C_SetPIN].
Definition user_calls : list code := [C_CloseSession; C_Login_user; C_Logout].
Definition so_calls : list code := [C_Login_SO; C_GetTokenInfo].
Definition session_calls : list code := [C_slot_info; C_OpenSession; C_GetSessionInfo; C_FindObjects].
Definition object_calls (tok : bool) : list code :=
  [C_CreateObject tok; C_CopyObject tok; C_DestroyObject tok; C_GetAttributeValue; C_SetAttributeValue; C_Generate tok; C_Random].
Definition key_calls (tok : bool) : list code := [C_crypto; C_WrapKey; C_UnwrapKey tok; C_DeriveKey tok].
Definition calls : list code :=
  init_calls ++ user_calls ++ so_calls ++ session_calls ++ object_calls true ++ key_calls true ++ [C_FindObjectsInit; C_CloseAllSessions].
(** What a thread does: one call after another, each taken from [cs]. *)
Inductive client (cs : list code) : list ev -> Prop :=
| cl_0 : client cs []
| cl_1 c p q : In c cs -> path c p -> client cs q -> client cs (p ++ q).
