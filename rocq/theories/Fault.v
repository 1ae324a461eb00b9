(** The library when the storage fails: opening a file for reading or writing, reading
    and writing may fail at any time. The functions that store or load are those of
    Store.v and Sys.v with the file operations carried out by [perform]; all others
    are unchanged. *)
From Verif Require Import Base Codec Ops Object Store Sys.
From Coq Require Import List.
Import ListNotations.
Open Scope nat_scope.
Open Scope list_scope.

(** What becomes of one operation that writes.
    [Good]: it is done. [Lost n]: fwrite puts the bytes into its buffer and succeeds,
    but only [n] bytes get to the device; the answers of fflush and fclose are thrown
    away (wolfPKCS11_Store_Write, internal.c 943-973; Store_Close 871-892).
    [Fails n]: the operation reports a failure, [n] bytes having been written. *)
Inductive verdict := Good | Lost (n : nat) | Fails (n : nat).
(** What becomes of reading a file: all is read, it cannot be opened, or reading ends
    after [n] bytes. *)
Inductive reading := All | Shut | Short (n : nat).
(** [f_write]: by the number of the operation; [f_read]: by file. *)
Record faults := mkF { f_write : nat -> verdict; f_read : fname -> reading }.

(** wolfPKCS11_Store_Open for writing, internal.c 838-855, and wp11_storage_write,
    internal.c 1051-1076 (BUFFER_E once fwrite writes nothing). Opening fails
    without touching the file. *)
Definition perform1 (v : verdict) (d : fs) (o : wop) : Z * fs :=
  match o, v with
  | WOpen _, Fails _ => (READ_ONLY_E, d)
  | WOpen f, _ => (0%Z, fs_set d f [])
  | WWrite f b, Good => (0%Z, apply1 d o)
  | WWrite f b, Lost n => (0%Z, apply1 d (WWrite f (firstn n b)))
  | WWrite f b, Fails n => (BUFFER_E, apply1 d (WWrite f (firstn n b)))
  end.
(** Operations up to the first failure: answer, files, operations attempted. [n]: the
    number of the first. *)
Fixpoint performs (ft : faults) (n : nat) (d : fs) (ws : list wop) : Z * fs * list wop :=
  match ws with
  | [] => (0%Z, d, [])
  | o :: r =>
      let '(c, d1) := perform1 (f_write ft n) d o in
      if negb (c =? 0)%Z then (c, d1, [o])
      else let '(c2, d2, l) := performs ft (S n) d1 r in (c2, d2, o :: l)
  end.
(** wolfPKCS11_Store_Open for reading (NOT_AVAILABLE_E if fopen fails, for whatever
    reason) and wp11_storage_read: internal.c 838-846, 1016-1040. *)
Definition readable (ft : faults) (d : fs) : fs := fun f =>
  match f_read ft f with All => d f | Shut => None | Short n => match d f with Some b => Some (firstn n b) | None => None end end.

Section WithWorld.
Variable w : world.
Variable ft : faults.
Let se := w_se w.
Let oe := w_oe w.

(** wp11_Object_Store: internal.c 2689-2794, and the functions for the key files it
    calls: if the key file cannot be opened the key is not encoded. *)
Definition fstore_obj (key rnd : list N) (id : nat) (o : obj) (n : nat) (d : fs) : res (Z * obj * fs * list wop) :=
  h <- obj_header o ;;
  let '(c, d1, l1) := performs ft n d [WOpen (F_OBJECT, id); WWrite (F_OBJECT, id) h] in
  if negb (c =? 0)%Z then Ok (c, o, d1, l1) else
  let o1 := match o_keyData o with
            | None => if orb (is_priv o) (is_sym o) then set_store o (rbytes 12 rnd) None (o_enc o) else o
            | Some _ => o end in
  '(c1, o2, ws) <- store_key se key id o1 ;;
  let '(c2, d2, l2) := performs ft (n + 2) d1 ws in
  if (c2 =? READ_ONLY_E)%Z then Ok (c2, o1, d2, l1 ++ l2)
  else Ok (if (c2 =? 0)%Z then c1 else c2, o2, d2, l1 ++ l2).
(** wp11_Token_Store: internal.c 3157-3245. *)
Fixpoint fstore_objs (key : list N) (rnd : nat -> list N) (l : list obj) (n : nat) (d : fs) : res (Z * list obj * fs * list wop) :=
  match l with
  | [] => Ok (0%Z, [], d, [])
  | o :: r =>
      '(c, o1, d1, l1) <- fstore_obj key (rnd (length r)) (length r) o n d ;;
      if negb (c =? 0)%Z then Ok (c, o1 :: r, d1, l1) else
      '(c2, r1, d2, l2) <- fstore_objs key rnd r (n + length l1) d1 ;;
      Ok (c2, o1 :: r1, d2, l1 ++ l2)
  end.
Definition with_files (s : sys) (t : token) (d : fs) (l : list wop) : sys :=
  mkSys (s_count s) (s_sess s) t d (s_log s ++ l) (s_uid s).
(** [s_log] records the operations attempted; its length numbers them. *)
Definition fstore (rnd : nat -> list N) (s : sys) : res (Z * sys) :=
  let t := s_tok s in
  h <- tok_header t ;;
  let '(c, d1, l1) := performs ft (length (s_log s)) (s_fs s) [WOpen (F_TOKEN, 0); WWrite (F_TOKEN, 0) h] in
  if negb (c =? 0)%Z then Ok (c, with_files s t d1 l1) else
  '(c2, l, d2, l2) <- fstore_objs (t_key t) (fun i => rnd (2 + i)) (t_objs t) (length (s_log s) + 2) d1 ;;
  Ok (c2, with_files s (set_objs t l) d2 (l1 ++ l2)).
(** wp11_Object_Unstore: internal.c 2920-2970. The answers are not looked at: if the
    first file is opened and the second is not, the first is closed again. *)
Definition FUnstore (s : sys) (id : nat) (o : obj) : res sys :=
  let '(c1, d1) := perform1 (f_write ft (length (s_log s))) (s_fs s) (WOpen (F_OBJECT, id)) in
  match key_kind o with
  | None => if (c1 =? 0)%Z then Undef UB_use_after_free else Ok (with_files s (s_tok s) d1 [WOpen (F_OBJECT, id)])
  | Some k =>
      let '(c2, d2) := perform1 (f_write ft (length (s_log s) + 1)) d1 (WOpen (k, id)) in
      if andb (c1 =? 0)%Z (negb (c2 =? 0)%Z) then Undef UB_use_after_free
      else Ok (with_files s (s_tok s) d2 [WOpen (F_OBJECT, id); WOpen (k, id)])
  end.

(** internal.c 4073-4155. *)
Definition FSetSOPin (rnd : nat -> list N) (s : sys) (new : list N) : res (Z * sys) :=
  let t := s_tok s in let p := t_so t in
  fstore rnd (set_tok s (set_so t (mkPin (se_hash se new (rbytes 16 (rnd 0))) 32 (rbytes 16 (rnd 0)) (p_fail p) (p_last p) (p_tmo p)))).
Definition FSetUserPin (rnd : nat -> list N) (s : sys) (new : list N) : res (Z * sys) :=
  let t := s_tok s in let p := t_user t in
  fstore rnd (set_tok s
    (set_key (set_seed (set_user t
       (mkPin (se_hash se new (rbytes 16 (rnd 0))) 32 (rbytes 16 (rnd 0)) (p_fail p) (p_last p) (p_tmo p))) (rbytes 16 (rnd 1)))
       (se_hash se new (rbytes 16 (rnd 1))))).
(** internal.c 4639-4697: what storing answers is not looked at. *)
Definition FAddToSession (rnd : nat -> list N) (s : sys) (x : session) (b : N) (o : obj) : res (Z * Z * sys) :=
  let o1 := set_onTok o (N.odd b) in
  if (b =? 0)%N then
    if (SESS_OBJ_MAX <=? zlen (ss_objs x))%Z then Ok (OBJ_COUNT_E, 0%Z, s)
    else let h := next_handle (ss_objs x) b in
         Ok (0%Z, h, put_sess s (set_sobjs x (set_handle o1 h :: ss_objs x)))
  else
    let t := s_tok s in
    if (TOK_OBJ_MAX <=? zlen (t_objs t))%Z then Ok (OBJ_COUNT_E, 0%Z, s)
    else '(c, o2) <- Encode se (t_key t) false o1 ;;
         if negb (c =? 0)%Z then Ok (c, 0%Z, s)
         else let h := next_handle (t_objs t) b in
              '(_, s1) <- fstore rnd (set_tok s (set_objs t (set_handle o2 h :: t_objs t))) ;;
              Ok (0%Z, h, s1).
(** crypto.c 499-524. *)
Definition FAddObject (rnd : nat -> list N) (s : sys) (x : session) (t : template) (o : obj) : res (Z * Z * sys) :=
  match tmpl_token t with
  | None => Ok (CKR_ATTRIBUTE_VALUE_INVALID, 0%Z, s)
  | Some b => '(c, h, s1) <- FAddToSession rnd s x b o ;;
              Ok (if (c =? 0)%Z then CKR_OK else CKR_FUNCTION_FAILED, h, s1)
  end.
(** internal.c 4705-4743: neither answer is looked at. *)
Definition FRemoveObject (rnd : nat -> list N) (s : sys) (x : session) (h : Z) (o : obj) : res sys :=
  _ <- obj_free o ;;
  if on_token h then
    if o_onTok o then
      let t := s_tok s in
      s1 <- FUnstore (set_tok s (set_objs t (remove_uid (o_uid o) (t_objs t)))) (behind (o_uid o) (t_objs t)) o ;;
      '(_, s2) <- fstore rnd s1 ;; Ok s2
    else Undef UB_use_after_free
  else Ok (put_sess s (set_sobjs x (remove_uid (o_uid o) (ss_objs x)))).
(** internal.c 3443-3470: a file that cannot be opened is taken for missing. *)
Definition FInitialize (s : sys) : res (sys * out) :=
  if (s_count s =? 0)%Z then
    t <- Token_Load se (readable ft (s_fs s)) (s_uid s) ;;
    Ok (mkSys 1 (add_sess (add_sess [])) t (s_fs s) (s_log s) (s_uid s + length (t_objs t)), OutRv CKR_OK)
  else Ok (mkSys (s_count s + 1) (s_sess s) (s_tok s) (s_fs s) (s_log s) (s_uid s), OutRv CKR_OK).
(** internal.c 3474-3496: the answer of storing is not looked at. *)
Definition FFinalize (rnd : nat -> list N) (s : sys) : res (sys * out) :=
  if (s_count s - 1 =? 0)%Z then
    '(_, s1) <- fstore rnd s ;;
    _ <- final_all (s_sess s1) ;;
    _ <- free_all (t_objs (s_tok s1)) ;;
    Ok (mkSys 0 [] tok_fresh (s_fs s1) (s_log s1) (s_uid s1), OutRv CKR_OK)
  else Ok (mkSys (s_count s - 1) (s_sess s) (s_tok s) (s_fs s) (s_log s) (s_uid s), OutRv CKR_OK).
(** internal.c 3779-3797; slot.c 557-586. *)
Definition FTokenReset (rnd : nat -> list N) (s : sys) (pin label : list N) : res (Z * sys) :=
  _ <- free_all (t_objs (s_tok s)) ;;
  if (zlen label <? 32)%Z then Undef UB_read_overflow else
  FSetSOPin rnd (set_tok s (tok_init (firstn 32 label))) pin.
Definition FInitToken (rnd : nat -> list N) (s : sys) (pin label : list N) : res (sys * out) :=
  let t := s_tok s in
  if negb (pin_len_ok pin) then rv_ s CKR_PIN_INCORRECT
  else if andb (t_init t) (existsb in_use (s_sess s)) then rv_ s CKR_SESSION_EXISTS
  else if andb (t_init t) (negb (CheckPin w t (t_so t) pin =? 0)%Z) then rv_ s CKR_PIN_INCORRECT
  else '(c, s1) <- FTokenReset rnd s pin label ;;
       rv_ s1 (if (c =? 0)%Z then CKR_OK else CKR_FUNCTION_FAILED).
(** slot.c 602-628, 647-702. *)
Definition FInitPIN (rnd : nat -> list N) (s : sys) (x : session) (pin : list N) : res (sys * out) :=
  if negb (GetState (s_tok s) x =? RW_SO)%Z then rv_ s CKR_USER_NOT_LOGGED_IN
  else if negb (pin_len_ok pin) then rv_ s CKR_PIN_INCORRECT
  else '(c, s1) <- FSetUserPin rnd s pin ;; rv_ s1 (if (c =? 0)%Z then CKR_OK else CKR_FUNCTION_FAILED).
Definition FSetPIN (rnd : nat -> list N) (s : sys) (x : session) (old new : list N) : res (sys * out) :=
  let t := s_tok s in
  let st := GetState t x in
  if negb (pin_len_ok old) then rv_ s CKR_PIN_INCORRECT
  else if negb (pin_len_ok new) then rv_ s CKR_PIN_INCORRECT
  else if negb (orb (st =? RW_SO) (orb (st =? RW_USER) (st =? RW_PUBLIC)))%Z then rv_ s CKR_SESSION_READ_ONLY
  else let so := (st =? RW_SO)%Z in
    let c := CheckPin w t (if so then t_so t else t_user t) old in
    if (c =? PIN_NOT_SET_E)%Z then rv_ s CKR_USER_PIN_NOT_INITIALIZED
    else if negb (c =? 0)%Z then rv_ s CKR_PIN_INCORRECT
    else '(c2, s1) <- (if so then FSetSOPin rnd s new else FSetUserPin rnd s new) ;;
         rv_ s1 (if (c2 =? 0)%Z then CKR_OK else CKR_FUNCTION_FAILED).
(** crypto.c 734-766. *)
Definition FCreate (rnd : nat -> list N) (s : sys) (x : session) (t : template) : res (sys * out) :=
  '(rv, o) <- CreateObject oe (is_rw x) (s_uid s) t ;;
  let s1 := bump s 1 in
  match o with
  | Some o => '(rv2, h, s2) <- FAddObject rnd s1 x t o ;; Ok (s2, OutH rv2 h)
  | None => rv_ s1 rv
  end.
(** crypto.c 783-852. *)
Definition FCopy (rnd : nat -> list N) (s : sys) (x : session) (src : obj) (t : template) : res (sys * out) :=
  '(rv, t1, r) <- CopyObject oe (is_rw x) (s_uid s) src t ;;
  let s1 := bump s 1 in
  match r with
  | Some (b, o) => '(c, h, s2) <- FAddToSession rnd s1 x b o ;;
                   Ok (s2, OutH (if (c =? 0)%Z then CKR_OK else CKR_FUNCTION_FAILED) h)
  | None => rv_ s1 rv
  end.
(** crypto.c 3621-3668. *)
Definition FGenKey (rnd : nat -> list N) (s : sys) (x : session) (t : template) (key : list N) : res (sys * out) :=
  '(rv, o) <- NewObject oe (is_rw x) (s_uid s) CKK_AES CKO_SECRET_KEY t ;;
  let s1 := bump s 1 in
  match o with
  | None => rv_ s1 rv
  | Some o =>
      '(l, b) <- as_sym o ;;
      if (zlen b <? l)%Z then Undef UB_write_overflow else
      let o1 := set_data o (KSym l (overlay b (firstn (Z.to_nat l) (key ++ zeros SYM_BUF)))) in
      '(rv2, h, s2) <- FAddObject rnd s1 x t o1 ;; Ok (s2, OutH rv2 h)
  end.
(** crypto.c 3704-3836. *)
Definition FGenKeyPair (rnd : nat -> list N) (s : sys) (x : session) (m : kpmech) (tpub tpriv : template)
  (g : option gen) : res (sys * out) :=
  match (match m with KP_RSA => Some CKK_RSA | KP_EC => Some CKK_EC | KP_DH => Some CKK_DH | KP_other => None end) with
  | None => rv_ s CKR_MECHANISM_INVALID
  | Some ty =>
      '(rv, o) <- NewObject oe (is_rw x) (s_uid s) ty CKO_PUBLIC_KEY tpub ;;
      let s1 := bump s 2 in
      match o with
      | None => rv_ s1 rv
      | Some pub =>
          '(rv2, o2) <- NewObject oe (is_rw x) (S (s_uid s)) ty CKO_PRIVATE_KEY tpriv ;;
          match o2 with
          | None => rv_ s1 rv2
          | Some priv =>
              r <- (match m with KP_RSA => RsaGen pub priv g | KP_EC => EcGen pub priv g | _ => DhGen pub priv g end) ;;
              match r with
              | None => rv_ s1 CKR_FUNCTION_FAILED
              | Some (pub1, priv1) =>
                  '(rv3, h1, s2) <- FAddObject rnd s1 x tpub pub1 ;;
                  if negb (rv3 =? CKR_OK)%Z then rv_ s2 rv3 else
                  match sess_get s2 (ss_h x) with
                  | None => rv_ s2 CKR_SESSION_HANDLE_INVALID (* not reached: adding closes nothing *)
                  | Some x2 =>
                      '(rv4, h2, s3) <- FAddObject (fun i => rnd (100 + i)) s2 x2 tpriv priv1 ;;
                      if (rv4 =? CKR_OK)%Z then Ok (s3, OutH2 CKR_OK h1 h2) else Undef UB_use_after_free
                  end
              end
          end
      end
  end.
(** crypto.c 3987-4103. *)
Definition FUnwrap (rnd : nat -> list N) (s : sys) (x : session) (m : mech) (mp : mparam) (uk : obj) (wrapped : list N)
  (t : template) : res (sys * out) :=
  if negb (is_cbc_pad m) then rv_ s CKR_MECHANISM_INVALID else
  let attr ty k := match find_last t ty with
    | None => rv_ s CKR_TEMPLATE_INCOMPLETE
    | Some a => match tmpl_ulong a with None => rv_ s CKR_ATTRIBUTE_VALUE_INVALID | Some v => k v end
    end in
  attr CKA_KEY_TYPE (fun kt =>
  if negb (mem kt [CKK_RSA; CKK_EC; CKK_DH; CKK_AES; CKK_GENERIC_SECRET]) then rv_ s CKR_ATTRIBUTE_VALUE_INVALID else
  attr CKA_CLASS (fun cls =>
  if negb (mem cls [CKO_PRIVATE_KEY; CKO_PUBLIC_KEY; CKO_SECRET_KEY]) then rv_ s CKR_ATTRIBUTE_VALUE_INVALID else
  if negb (wrappable cls kt) then rv_ s CKR_KEY_NOT_WRAPPABLE else
  if negb (o_type uk =? CKK_AES)%Z then rv_ s CKR_UNWRAPPING_KEY_TYPE_INCONSISTENT else
  '(x1, o1) <- run_init w s x (KDecryptInit m mp (o_uid uk)) uk ;;
  if negb (o_rv o1 =? CKR_OK)%Z then rv_ (put_sess s x1) (o_rv o1) else
  '(x2, o2) <- run_cont w s x1 (KDecrypt [] wrapped (Buf 0)) ;;
  let s2 := put_sess s x2 in
  if negb (o_rv o2 =? CKR_OK)%Z then rv_ s2 (o_rv o2) else
  '(rv, o) <- NewObject oe (is_rw x2) (s_uid s2) CKK_RSA CKO_PRIVATE_KEY t ;;
  let s3 := bump s2 1 in
  match o with
  | None => rv_ s3 rv
  | Some o =>
      let '(c, r) := w_p8_dec w (o_out o2) in
      if negb (c =? 0)%Z then rv_ s3 CKR_WRAPPED_KEY_INVALID else
      '(rv2, h, s4) <- FAddObject rnd s3 x2 t (set_data o (KRsa r)) ;; Ok (s4, OutH rv2 h)
  end)).
(** crypto.c 4163-4275. *)
Definition FDerive (rnd : nat -> list N) (s : sys) (x : session) (m : dmech) (base : obj) (secret : option (list N))
  (t : template) : res (sys * out) :=
  match m with
  | D_other => rv_ s CKR_MECHANISM_INVALID
  | _ =>
      _ <- (match m with D_ECDH => _ <- as_ec base ;; Ok tt | _ => _ <- as_dh base ;; Ok tt end) ;;
      match secret with
      | None => rv_ s CKR_FUNCTION_FAILED
      | Some sec =>
          '(rv, o) <- CreateObject oe (is_rw x) (s_uid s) t ;;
          let s1 := bump s 1 in
          match o with
          | None => rv_ s1 rv
          | Some o =>
              (* SymmKeyLen: crypto.c 4113-4137 *)
              '(c, _, d) <- GetAttr oe o CKA_VALUE_LEN (Some 8%Z) ;;
              if negb (c =? 0)%Z then rv_ s1 CKR_OK else
              let vl := u32 (ulong_of d) in
              let sl := if andb (0 <? vl)%Z (vl <=? zlen sec)%Z then vl else zlen sec in
              if (sl <? zlen sec)%Z then Undef UB_read_overflow else
              '(c2, o1) <- SetSecretKey o [None; Some sec] ;;
              if negb (c2 =? 0)%Z then rv_ s1 CKR_FUNCTION_FAILED else
              '(rv2, h, s2) <- FAddObject rnd s1 x t o1 ;; Ok (s2, OutH rv2 h)
          end
      end
  end.
Definition fstep (rnd : nat -> list N) (s : sys) (c : op) : res (sys * out) :=
  match c with
  | OInitialize => FInitialize s
  | OFinalize => FFinalize rnd s
  | OInitToken slot pin label => with_slot s slot (FInitToken rnd s pin label)
  | OInitPIN h pin => with_sess s h (fun x => FInitPIN rnd s x pin)
  | OSetPIN h old new => with_sess s h (fun x => FSetPIN rnd s x old new)
  | OCreateObject h t => with_sess s h (fun x => need_rw s x (FCreate rnd s x t))
  | OCopyObject h ho t => with_sess s h (fun x => need_rw s x (
      with_object s x ho CKR_OBJECT_HANDLE_INVALID (fun o => FCopy rnd s x o t)))
  | ODestroyObject h ho => with_sess s h (fun x => need_rw s x (
      with_object s x ho CKR_OBJECT_HANDLE_INVALID (fun o =>
        s1 <- FRemoveObject rnd s x ho o ;; rv_ s1 CKR_OK)))
  | OGenerateKey h aes t key => with_sess s h (fun x =>
      if aes then FGenKey rnd s x t key else rv_ s CKR_MECHANISM_INVALID)
  | OGenerateKeyPair h m tp tq g => with_sess s h (fun x => FGenKeyPair rnd s x m tp tq g)
  | OUnwrapKey h m mp hu wr t => with_sess s h (fun x => need_rw s x (
      if (zlen wr =? 0)%Z then rv_ s CKR_ARGUMENTS_BAD else
      with_object s x hu CKR_UNWRAPPING_KEY_HANDLE_INVALID (fun uk => FUnwrap rnd s x m mp uk wr t)))
  | ODeriveKey h m hb sec t => with_sess s h (fun x =>
      with_object s x hb CKR_OBJECT_HANDLE_INVALID (fun b => FDerive rnd s x m b sec t))
  | _ => step w rnd s c
  end.
End WithWorld.
(** Histories: every call with its own randomness and faults. *)
Inductive freach (w : world) (s0 : sys) : sys -> Prop :=
  | freach_0 : freach w s0 s0
  | freach_step ft s rnd c s' o : freach w s0 s -> fstep w ft rnd s c = Ok (s', o) -> freach w s0 s'.
