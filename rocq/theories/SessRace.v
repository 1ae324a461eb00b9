(** The multi-part calls C_EncryptUpdate, C_EncryptFinal, C_DecryptUpdate and C_DecryptFinal
    (crypto.c 1507-1718, 2079-2292) taken apart into the accesses they make to their session, and
    run by several threads.  None of them takes a lock that protects the session: WP11_Session_Get
    (internal.c 3556-3580) gives out the pointer and the calls use it without more ado.

    A call is a program that goes on in steps; a step reads or writes one thing of the session, as one
    line of C does.  Simplifications: a call of wolfCrypt, a memcpy and a `+=` are one step each (this
    only removes executions); the additional data of AES-GCM and the Aes object are not followed as
    memory; objects do not change meanwhile; sessions are not closed meanwhile.  Unlike in Ops.v the
    ciphertext that AES-GCM decryption collects is a block of memory with a pointer to it, and
    the bytes written to the caller's buffer are compared with its size. *)
From Verif Require Import Base Cbc Ops.

(** The session: its operation as in Ops.v (where [g_enc] is not used), and gcm.enc, gcm.encSz
    (internal.c 257-258) with the memory gcm.enc points to. *)
Record sst := mkSs {
  ss_op : opst;
  ss_enc : option nat;
  ss_encSz : Z;
  ss_mem : nat -> option (list N);     (* live blocks *)
  ss_next : nat                        (* where XREALLOC puts the next block *)
}.
Definition with_op (s : sst) (o : opst) : sst := mkSs o (ss_enc s) (ss_encSz s) (ss_mem s) (ss_next s).
Definition with_enc (s : sst) (e : option nat) : sst := mkSs (ss_op s) e (ss_encSz s) (ss_mem s) (ss_next s).
Definition with_encSz (s : sst) (z : Z) : sst := mkSs (ss_op s) (ss_enc s) z (ss_mem s) (ss_next s).
Definition upd {A} (m : nat -> A) (p : nat) (x : A) : nat -> A := fun q => if q =? p then x else m q.

Inductive prog := Ret (o : outc) | Act (f : sst -> res (sst * prog)).

Section WithEnv.
Variable ev : env.
Variable objs : nat -> option keyobj.
(** realloc(p, 0) frees p and gives NULL (as in glibc) or gives an empty block: C leaves it open. *)
Variable rz : bool.
Let ci := e_ci ev.

Definition rd {A} (f : sst -> res A) (k : A -> prog) : prog := Act (fun s => a <- f s ;; Ok (s, k a)).
Definition wr (f : sst -> res sst) (k : prog) : prog := Act (fun s => s' <- f s ;; Ok (s', k)).
Definition rd_cbc {A} (f : cbc -> A) (k : A -> prog) : prog := rd (fun s => p <- get_cbc (ss_op s) ;; Ok (f p)) k.
Definition wr_cbc (f : cbc -> res cbc) (k : prog) : prog :=
  wr (fun s => p <- get_cbc (ss_op s) ;; p' <- f p ;; Ok (with_op s (put_cbc (ss_op s) p'))) k.
Definition rd_gcm {A} (f : gcm -> A) (k : A -> prog) : prog := rd (fun s => g <- get_gcm (ss_op s) ;; Ok (f g)) k.
Definition wr_gcm (f : gcm -> gcm) (k : prog) : prog :=
  wr (fun s => g <- get_gcm (ss_op s) ;; Ok (with_op s (set_params (ss_op s) (PGcm (f g))))) k.
Definition wr_init0 (k : prog) : prog := wr (fun s => Ok (with_op s (set_init (ss_op s) 0))) k.
Definition wr_psz (z : Z) : prog -> prog := wr_cbc (fun p => Ok (mkCbc (cb_aes p) (cb_partial p) (Z.to_nat z))).

(** wc_AesCbcEncrypt / wc_AesCbcDecrypt writing at [off] in the caller's buffer, which
    holds [out] so far: as many bytes as they are given. *)
Definition crypt_to (crypt : aes -> list N -> res (list N * aes)) (src : cbc -> list N) (room off : Z)
    (out : list N) (k : list N -> prog) (kerr : prog) : prog :=
  Act (fun s =>
    p <- get_cbc (ss_op s) ;;
    match crypt (cb_aes p) (src p) with
    | Ok (o, a) => if (room <? off + zlen (src p))%Z then Undef UB_write_overflow
                   else Ok (with_op s (put_cbc (ss_op s) (mkCbc a (cb_partial p) (cb_psz p))), k (out ++ o))
    | Err _ => Ok (s, kerr)
    | Undef u => Undef u
    end).

(** WP11_AesCbc_EncryptUpdate (internal.c 7620-7663), WP11_AesCbc_DecryptUpdate (7727-7769) and
    WP11_AesCbcPad_DecryptUpdate (7923-7965).  They differ in when a full partial block is processed
    ([full]), whether it is cleared then, and how many bytes of complete blocks follow ([blk]). *)
Section Update.
Variable crypt : aes -> list N -> res (list N * aes).
Variable clear : bool.
Variable full : Z -> list N -> bool.
Variable blk : list N -> nat.
Variable room : Z.
Variable k : list N -> prog.
Variable kerr : prog.
Definition up_rest (d : list N) (out : list N) : prog :=
  if 0 <? length d then
    wr_cbc (fun p => Ok (mkCbc (cb_aes p) (blit (cb_partial p) 0 d) (cb_psz p)))      (* 7656 *)
      (wr_psz (zlen d) (k out))                                                      (* 7657 *)
  else k out.
Definition up_blocks (d : list N) (off : Z) (out : list N) : prog :=
  if 0 <? blk d then                                                                 (* 7647-7648 *)
    crypt_to crypt (fun _ => firstn (blk d) d) room off out (up_rest (skipn (blk d) d)) kerr
  else up_rest d out.
Definition up_full (d : list N) : prog :=
  rd_cbc cb_psz (fun z =>                                                            (* 7637 *)
    if full (Z.of_nat z) d then
      crypt_to crypt cb_partial room 0 []                                            (* 7638 *)
        (fun out =>
          wr_psz 0                                                                   (* 7642 *)
            (if clear then wr_cbc (fun p => Ok (mkCbc (cb_aes p) zero_block (cb_psz p))) (up_blocks d 16 out)
             else up_blocks d 16 out)) kerr
    else up_blocks d 0 []).
Definition up (d : list N) : prog :=
  if (2^31 <=? zlen d)%Z then Act (fun _ => Undef UB_write_overflow)
  else rd_cbc cb_psz (fun z =>                                                       (* 7629 *)
    if 0 <? z then
      rd_cbc cb_psz (fun z1 =>                                                       (* 7630-7632 *)
        let sz := Z.min (16 - Z.of_nat z1) (zlen d) in
        wr_cbc (fun p =>                                                             (* 7633 *)
            if orb (sz <? 0)%Z (16 <? Z.of_nat (cb_psz p) + sz)%Z then Undef UB_write_overflow
            else Ok (mkCbc (cb_aes p) (blit (cb_partial p) (cb_psz p) (firstn (Z.to_nat sz) d)) (cb_psz p)))
          (wr_cbc (fun p => Ok (mkCbc (cb_aes p) (cb_partial p) (Z.to_nat ((Z.of_nat (cb_psz p) + sz) mod 256))))  (* 7634 *)
            (up_full (skipn (Z.to_nat sz) d))))
    else up_blocks d 0 []).
End Update.

Definition enc_up := up (wc_AesCbcEncrypt ci) true (fun z _ => (z =? 16)%Z) (fun d => (length d / BLK) * BLK).
Definition dec_up := up (wc_AesCbcDecrypt ci) false (fun z _ => (z =? 16)%Z) (fun d => (length d / BLK) * BLK).
Definition pad_dec_up := up (wc_AesCbcDecrypt ci) false (fun z d => andb (z =? 16)%Z (0 <? length d))
  (fun d => if BLK <? length d then
              let sz0 := length d - length d mod BLK in if sz0 =? length d then sz0 - BLK else sz0
            else 0).

(** What the C_ functions do around it: as in Ops.v. *)
Definition sized_p (need : Z) (b : outbuf) (k : prog) : prog :=
  match b with
  | Query => Ret (mkOut CKR_OK need [])
  | Buf n => if (u32 n <? need)%Z then Ret (fail b CKR_BUFFER_TOO_SMALL) else k
  end.
Definition on_init (i : Z) (b : outbuf) (k : prog) : prog :=
  rd (fun s => Ok (os_init (ss_op s))) (fun j => if (j =? i)%Z then k else Ret (fail b CKR_OPERATION_NOT_INITIALIZED)).
Definition start (b : outbuf) (f : nat -> mech -> prog) : prog :=
  rd (fun s => Ok (os_curr (ss_op s))) (fun c =>
    match c with
    | None => Ret (fail b CKR_OPERATION_NOT_INITIALIZED)
    | Some o => rd (fun s => Ok (os_mech (ss_op s))) (f o)
    end).
Definition done (out : list N) : prog := Ret (mkOut CKR_OK (zlen out) out).
Definition key (o : nat) (k : keyobj -> prog) : prog := rd (fun _ => deref objs o) k.
Definition failed (b : outbuf) : prog := Ret (fail b CKR_FUNCTION_FAILED).

(** C_EncryptUpdate: crypto.c 1507-1606; WP11_AesGcm_EncryptUpdate: internal.c 8106-8142. *)
Definition p_EncryptUpdate (data : list N) (b : outbuf) : prog :=
  let cbc i :=
    on_init i b (rd_cbc WP11_AesCbc_PartLen (fun z =>
      sized_p (align16 (u32 (zlen data + z))) b (enc_up (buf_in b) done (failed b) (trunc32 data)))) in
  start b (fun o m =>
    match m with
    | M_AES_CBC => cbc INIT_AES_CBC_ENC
    | M_AES_CBC_PAD => cbc INIT_AES_CBC_PAD_ENC
    | M_AES_GCM =>
        on_init INIT_AES_GCM_ENC b (sized_p (u32 (zlen data)) b (
          rd_gcm (fun g => g) (fun g => key o (fun ko =>
            match gcm_call_enc ev g ko (trunc32 data) with
            | Ok (c, t) =>
                wr_gcm (fun g => mkGcm (g_iv g) (g_aad g) (g_aadSz g) (g_tagBits g) (blit (g_authTag g) 0 t) (g_enc g))
                  (wr_gcm drop_aad (done c))
            | Err _ => wr_gcm drop_aad (failed b)
            | Undef u => Act (fun _ => Undef u)
            end))))
    | _ => Ret (fail b CKR_MECHANISM_INVALID)
    end).

(** WP11_AesCbc_EncryptFinal, DecryptFinal: internal.c 7672-7682, 7778-7788. *)
Definition cbc_fin (k : prog) : prog := wr_psz 0 (wr_init0 k).

(** C_EncryptFinal: crypto.c 1627-1718; WP11_AesCbcPad_EncryptFinal: internal.c 7853-7875;
    WP11_AesGcm_EncryptFinal: 8155-8170. *)
Definition p_EncryptFinal (b : outbuf) : prog :=
  start b (fun o m =>
    match m with
    | M_AES_CBC =>
        on_init INIT_AES_CBC_ENC b (rd_cbc WP11_AesCbc_PartLen (fun z =>
          if negb (z =? 0)%Z then cbc_fin (Ret (fail b CKR_DATA_LEN_RANGE))
          else match b with
               | Query => Ret (mkOut CKR_OK 0 [])
               | Buf _ => cbc_fin (Ret (mkOut CKR_OK 0 []))
               end))
    | M_AES_CBC_PAD =>
        on_init INIT_AES_CBC_PAD_ENC b (sized_p 16 b (
          rd_cbc cb_psz (fun z =>                                                    (* 7858 *)
            wr_cbc (fun p => Ok (mkCbc (cb_aes p) (pad_block (cb_partial p) z) (cb_psz p)))   (* 7861-7865 *)
              (crypt_to (wc_AesCbcEncrypt ci) cb_partial (buf_in b) 0 []                (* 7866 *)
                (fun out => cbc_fin (Ret (mkOut CKR_OK (buf_in b) out)))
                (cbc_fin (failed b))))))
    | M_AES_GCM =>
        on_init INIT_AES_GCM_ENC b (rd_gcm (fun g => u32 (tag_bytes g)) (fun t =>
          sized_p t b (rd_gcm (fun g => g) (fun g =>
            let t2 := u32 (tag_bytes g) in
            if (t <? t2)%Z then failed b                                             (* 8162 *)
            else if (16 <? t2)%Z then Act (fun _ => Undef UB_read_overflow)
            else Ret (mkOut CKR_OK t2 (firstn (Z.to_nat t2) (g_authTag g)))))))
    | _ => Ret (fail b CKR_MECHANISM_INVALID)
    end).

(** XREALLOC, XFREE of a block of the session.  A block that is not live is freed twice. *)
Definition resize (l : list N) (n : nat) : list N := firstn n (l ++ repeat 0%N n).
Definition realloc (s : sst) (p : option nat) (n : Z) : res (sst * option nat) :=
  match p with
  | Some q =>
      match ss_mem s q with
      | None => Undef UB_use_after_free
      | Some l =>
          if andb rz (n =? 0)%Z then
            Ok (mkSs (ss_op s) (ss_enc s) (ss_encSz s) (upd (ss_mem s) q None) (ss_next s), None)
          else
            Ok (mkSs (ss_op s) (ss_enc s) (ss_encSz s)
                  (upd (upd (ss_mem s) q None) (ss_next s) (Some (resize l (Z.to_nat n)))) (S (ss_next s)),
                Some (ss_next s))
      end
  | None => Ok (mkSs (ss_op s) (ss_enc s) (ss_encSz s) (upd (ss_mem s) (ss_next s) (Some (resize [] (Z.to_nat n)))) (S (ss_next s)),
                Some (ss_next s))
  end.
Definition free_blk (s : sst) (p : option nat) : res sst :=
  match p with
  | None => Ok s
  | Some q => match ss_mem s q with
              | None => Undef UB_use_after_free
              | Some _ => Ok (mkSs (ss_op s) (ss_enc s) (ss_encSz s) (upd (ss_mem s) q None) (ss_next s))
              end
  end.
(** The first [n] bytes at [p]. *)
Definition load (s : sst) (p : option nat) (n : Z) : res (list N) :=
  match p with
  | None => if (n =? 0)%Z then Ok [] else Undef UB_null_deref
  | Some q => match ss_mem s q with
              | None => Undef UB_use_after_free
              | Some l => if (zlen l <? n)%Z then Undef UB_read_overflow else Ok (firstn (Z.to_nat n) l)
              end
  end.
Definition store (s : sst) (p : option nat) (off : Z) (d : list N) : res sst :=
  match p with
  | None => Undef UB_null_deref
  | Some q => match ss_mem s q with
              | None => Undef UB_use_after_free
              | Some l => if (zlen l <? off + zlen d)%Z then Undef UB_write_overflow
                          else Ok (mkSs (ss_op s) (ss_enc s) (ss_encSz s)
                                     (upd (ss_mem s) q (Some (blit l (Z.to_nat off) d))) (ss_next s))
              end
  end.
(** The union holds the GCM member. *)
Definition in_gcm {A} (s : sst) (r : res A) : res A := g <- get_gcm (ss_op s) ;; r.

(** C_DecryptUpdate: crypto.c 2079-2179; WP11_AesGcm_DecryptUpdate: internal.c 8242-8275. *)
Definition p_DecryptUpdate (data : list N) (b : outbuf) : prog :=
  start b (fun o m =>
    match m with
    | M_AES_CBC =>
        on_init INIT_AES_CBC_DEC b (rd_cbc WP11_AesCbc_PartLen (fun z =>
          sized_p (align16 (u32 (zlen data + z))) b (dec_up (buf_in b) done (failed b) (trunc32 data))))
    | M_AES_CBC_PAD =>
        on_init INIT_AES_CBC_PAD_DEC b (rd_cbc WP11_AesCbc_PartLen (fun z =>
          sized_p (pad_dec_need (u32 (zlen data + z))) b (pad_dec_up (buf_in b) done (failed b) (trunc32 data))))
    | M_AES_GCM =>
        on_init INIT_AES_GCM_DEC b (
          match b with
          | Query => Ret (mkOut CKR_OK 0 [])
          | Buf _ =>
              let d := trunc32 data in
              rd (fun s => in_gcm s (Ok (ss_enc s, ss_encSz s))) (fun pz =>           (* 8249-8250 *)
                if (2^31 <=? snd pz + zlen d)%Z then Act (fun _ => Undef UB_write_overflow)
                else Act (fun s =>                                                   (* 8249 *)
                  '(s', q) <- realloc s (fst pz) (snd pz + zlen d) ;;
                  Ok (s', match q with
                          | None => failed (Buf 0)                                   (* 8251-8252 *)
                          | Some _ =>
                              wr (fun s => in_gcm s (Ok (with_enc s q)))             (* 8254 *)
                                (wr (fun s => in_gcm s (store s (ss_enc s) (ss_encSz s) d))   (* 8255 *)
                                  (wr (fun s => in_gcm s (Ok (with_encSz s (ss_encSz s + zlen d))))  (* 8256 *)
                                    (Ret (mkOut CKR_OK 0 []))))
                          end)))
          end)
    | _ => Ret (fail b CKR_MECHANISM_INVALID)
    end).

(** C_DecryptFinal: crypto.c 2200-2292; WP11_AesCbcPad_DecryptFinal: internal.c 7977-8009;
    WP11_AesGcm_DecryptFinal: 8289-8303 and WP11_AesGcm_Decrypt: 8186-8228. *)
Definition p_DecryptFinal (b : outbuf) : prog :=
  start b (fun o m =>
    match m with
    | M_AES_CBC =>
        on_init INIT_AES_CBC_DEC b (rd_cbc WP11_AesCbc_PartLen (fun z =>
          if negb (z =? 0)%Z then cbc_fin (Ret (fail b CKR_DATA_LEN_RANGE))
          else match b with
               | Query => Ret (mkOut CKR_OK 0 [])
               | Buf _ => cbc_fin (Ret (mkOut CKR_OK 0 []))
               end))
    | M_AES_CBC_PAD =>
        on_init INIT_AES_CBC_PAD_DEC b (rd_cbc WP11_AesCbc_PartLen (fun z =>
          if negb (z =? 16)%Z then cbc_fin (Ret (fail b CKR_DATA_LEN_RANGE))
          else match b with
               | Query => Ret (mkOut CKR_OK 15 [])
               | Buf _ =>
                   Act (fun s =>                                                     (* 7989 *)
                     p <- get_cbc (ss_op s) ;;
                     if BLK <? cb_psz p then Undef UB_write_overflow
                     else match wc_AesCbcDecrypt ci (cb_aes p) (firstn (cb_psz p) (cb_partial p)) with
                     | Ok (q, a) =>
                         Ok (with_op s (put_cbc (ss_op s) (mkCbc a (blit (cb_partial p) 0 q) (cb_psz p))),
                             rd_cbc cb_partial (fun part =>                           (* 7992-8001: no size check *)
                               let padCnt := nth (BLK - 1) part 0%N in
                               let outSz := BLK - (if (padCnt <=? 16)%N then N.to_nat padCnt else 0) in
                               cbc_fin (done (firstn outSz part))))
                     | Err _ => Ok (s, cbc_fin (failed (Buf 15)))
                     | Undef u => Undef u
                     end)
               end))
    | M_AES_GCM =>
        on_init INIT_AES_GCM_DEC b (
          rd (fun s => g <- get_gcm (ss_op s) ;; Ok (u32 (ss_encSz s - tag_bytes g))) (fun need =>
            sized_p need b (
              rd (fun s => in_gcm s (Ok (ss_enc s, ss_encSz s))) (fun pz =>           (* 8296 *)
                key o (fun ko =>
                  rd (fun s => g <- get_gcm (ss_op s) ;; d <- load s (fst pz) (snd pz) ;; Ok (g, d)) (fun gd =>
                    let t := u32 (tag_bytes (fst gd)) in
                    let fin k :=
                      wr_gcm drop_aad                                                (* 8219-8222 *)
                        (wr (fun s => in_gcm s (free_blk s (ss_enc s)))              (* 8298 *)
                          (wr (fun s => in_gcm s (Ok (with_enc s None)))             (* 8299 *)
                            (wr (fun s => in_gcm s (Ok (with_encSz s 0))) k))) in    (* 8300 *)
                    if andb (t <=? 16)%Z (buf_in b <? snd pz - t)%Z then Act (fun _ => Undef UB_write_overflow)
                    else match gcm_call_dec ev (fst gd) ko (snd gd) with
                    | Ok p => fin (done p)
                    | Err _ => fin (failed b)
                    | Undef u => Act (fun _ => Undef u)
                    end))))))
    | _ => Ret (fail b CKR_MECHANISM_INVALID)
    end).

Inductive part_call := EncUp (d : list N) (b : outbuf) | EncFin (b : outbuf) | DecUp (d : list N) (b : outbuf) | DecFin (b : outbuf).
Definition code (c : part_call) : prog :=
  match c with
  | EncUp d b => p_EncryptUpdate d b
  | EncFin b => p_EncryptFinal b
  | DecUp d b => p_DecryptUpdate d b
  | DecFin b => p_DecryptFinal b
  end.

(** A call from beginning to end without interruption. *)
Fixpoint run (p : prog) (s : sst) : res (sst * outc) :=
  match p with
  | Ret o => Ok (s, o)
  | Act f => match f s with Ok (s', p') => run p' s' | Err e => Err e | Undef u => Undef u end
  end.

(** Threads: each is between calls or in a call on a session.  Finished calls are noted, the last
    one first.  [mv_ub]: the step is undefined; nothing is said about what follows. *)
Inductive thr := Idle | Inside (h : nat) (c : part_call) (p : prog).
Record gst := mkG { g_sess : nat -> sst; g_thr : nat -> thr; g_log : list (nat * part_call * outc); g_ub : bool }.
Inductive ev_t := Begin (i h : nat) (c : part_call) | Go (i : nat).
Definition move (g : gst) (e : ev_t) : gst :=
  if g_ub g then g else
  match e with
  | Begin i h c => match g_thr g i with Idle => mkG (g_sess g) (upd (g_thr g) i (Inside h c (code c))) (g_log g) false | _ => g end
  | Go i =>
      match g_thr g i with
      | Idle => g
      | Inside h c (Ret o) => mkG (g_sess g) (upd (g_thr g) i Idle) ((h, c, o) :: g_log g) false
      | Inside h c (Act f) =>
          match f (g_sess g h) with
          | Ok (s', p') => mkG (upd (g_sess g) h s') (upd (g_thr g) i (Inside h c p')) (g_log g) false
          | _ => mkG (g_sess g) (g_thr g) (g_log g) true
          end
      end
  end.
Definition moves (g : gst) (l : list ev_t) : gst := fold_left move l g.
Definition begin (f : nat -> sst) : gst := mkG f (fun _ => Idle) [] false.
End WithEnv.
