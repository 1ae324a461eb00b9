(** AES-CBC and AES-CBC-PAD streaming: internal.c 7562-8010.

    The block cipher is a parameter ([E], [D]: key and block to block); the
    CBC chaining done inside wolfCrypt (wc_AesCbcEncrypt / wc_AesCbcDecrypt on
    an [Aes] object that carries key and chaining register) is modelled as
    textbook CBC over complete blocks.  [lenchk_enc]/[lenchk_dec] say whether
    the wolfCrypt build rejects lengths that are no block multiple (build
    option WOLFSSL_AES_CBC_LENGTH_CHECKS and version dependent); otherwise only
    the complete blocks are processed.  wolfCrypt calls do not fail otherwise. *)
From Verif Require Import Base.

Definition BLK : nat := 16.                     (* AES_BLOCK_SIZE *)
Definition BAD_LENGTH_E : Z := -279.

Fixpoint xorb_list (a b : list N) : list N :=
  match a, b with
  | x :: a', y :: b' => N.lxor x y :: xorb_list a' b'
  | _, _ => []
  end.

Record cipher := mkCipher {
  ci_E : list N -> list N -> list N;            (* key -> block -> block *)
  ci_D : list N -> list N -> list N;
  ci_lenchk_enc : bool;
  ci_lenchk_dec : bool
}.

(** struct Aes as far as CBC uses it: key and chaining register. *)
Record aes := mkAes { aes_key : list N; aes_reg : list N }.

(** struct WP11_CbcParams: internal.c 236-242 ([iv] is never used). *)
Record cbc := mkCbc {
  cb_aes : aes;
  cb_partial : list N;                          (* unsigned char partial[16] *)
  cb_psz : nat                                  (* byte partialSz *)
}.

Section WithCipher.
Variable ci : cipher.

(** [n] blocks of CBC encryption; returns output and next register. *)
Fixpoint cbc_enc_blocks (n : nat) (key reg data : list N) : list N * list N :=
  match n with
  | O => ([], reg)
  | S n' =>
      let c := ci_E ci key (xorb_list (firstn BLK data) reg) in
      let '(out, reg') := cbc_enc_blocks n' key c (skipn BLK data) in
      (c ++ out, reg')
  end.

Fixpoint cbc_dec_blocks (n : nat) (key reg data : list N) : list N * list N :=
  match n with
  | O => ([], reg)
  | S n' =>
      let c := firstn BLK data in
      let p := xorb_list (ci_D ci key c) reg in
      let '(out, reg') := cbc_dec_blocks n' key c (skipn BLK data) in
      (p ++ out, reg')
  end.

(** wc_AesCbcEncrypt (wolfCrypt, external). *)
Definition wc_AesCbcEncrypt (a : aes) (data : list N) : res (list N * aes) :=
  if andb (ci_lenchk_enc ci) (negb (length data mod BLK =? 0)) then
    Err BAD_LENGTH_E
  else
    let '(out, reg') :=
      cbc_enc_blocks (length data / BLK) (aes_key a) (aes_reg a) data in
    Ok (out, mkAes (aes_key a) reg').

(** wc_AesCbcDecrypt (wolfCrypt, external). *)
Definition wc_AesCbcDecrypt (a : aes) (data : list N) : res (list N * aes) :=
  if andb (ci_lenchk_dec ci) (negb (length data mod BLK =? 0)) then
    Err BAD_LENGTH_E
  else
    let '(out, reg') :=
      cbc_dec_blocks (length data / BLK) (aes_key a) (aes_reg a) data in
    Ok (out, mkAes (aes_key a) reg').

(** WP11_AesCbc_PartLen: internal.c 7569-7574. *)
Definition WP11_AesCbc_PartLen (p : cbc) : Z := Z.of_nat (cb_psz p).

(** WP11_AesCbc_Encrypt: internal.c 7590-7605.  Result: bytes written, value
    stored in *encSz, params.  ([session->init = 0] is in Ops.v.) *)
Definition WP11_AesCbc_Encrypt (p : cbc) (plain : list N)
  : res (list N * Z * cbc) :=
  '(out, a) <- wc_AesCbcEncrypt (cb_aes p) plain ;;
  Ok (out, zlen plain, mkCbc a (cb_partial p) (cb_psz p)).

(** WP11_AesCbc_Decrypt: internal.c 7698-7712. *)
Definition WP11_AesCbc_Decrypt (p : cbc) (enc : list N)
  : res (list N * Z * cbc) :=
  '(out, a) <- wc_AesCbcDecrypt (cb_aes p) enc ;;
  Ok (out, zlen enc, mkCbc a (cb_partial p) (cb_psz p)).

(** memcpy of [src] into the 16-byte array [dst] at offset [off]. *)
Definition blit (dst : list N) (off : nat) (src : list N) : list N :=
  firstn off dst ++ src ++ skipn (off + length src) dst.

Definition zero_block : list N := repeat 0%N BLK.

(** Common part of WP11_AesCbc_EncryptUpdate (internal.c 7629-7659, where the
    partial block is cleared after use: [after] = 16 zero bytes) and
    WP11_AesCbc_DecryptUpdate (7736-7766, [after] = identity).
    Lengths of 2^31 and more make [(int)plainSz] negative and the memcpy
    lengths huge: undefined behaviour. partialSz > 16 likewise (7630-7633). *)
Definition cbc_update
    (crypt : aes -> list N -> res (list N * aes))
    (after : list N -> list N)
    (p : cbc) (data : list N) : res (list N * cbc) :=
  if (2^31 <=? zlen data)%Z then Undef UB_write_overflow
  else if BLK <? cb_psz p then Undef UB_write_overflow
  else
    '(out1, a1, part1, psz1, data1) <-
       (if 0 <? cb_psz p then                                   (* 7629 *)
          let sz := Nat.min (BLK - cb_psz p) (length data) in   (* 7630-7632 *)
          let part := blit (cb_partial p) (cb_psz p) (firstn sz data) in
          let psz := cb_psz p + sz in                           (* 7634 *)
          let rest := skipn sz data in                          (* 7635-7636 *)
          if psz =? BLK then                                    (* 7637 *)
            '(o, a) <- crypt (cb_aes p) part ;;                 (* 7638 *)
            Ok (o, a, after part, 0, rest)                      (* 7640-7643 *)
          else Ok ([], cb_aes p, part, psz, rest)
        else Ok ([], cb_aes p, cb_partial p, cb_psz p, data)) ;;
    '(out2, a2, data2) <-
       (let sz := (length data1 / BLK) * BLK in                 (* 7647 *)
        if 0 <? sz then
          '(o, a) <- crypt a1 (firstn sz data1) ;;              (* 7649 *)
          Ok (o, a, skipn sz data1)
        else Ok ([], a1, data1)) ;;
    Ok (out1 ++ out2,
        if 0 <? length data2                                    (* 7655 *)
        then mkCbc a2 (blit part1 0 data2) (length data2)
        else mkCbc a2 part1 psz1).

(** WP11_AesCbc_EncryptUpdate: internal.c 7620-7663. *)
Definition WP11_AesCbc_EncryptUpdate :=
  cbc_update wc_AesCbcEncrypt (fun _ => zero_block).

(** WP11_AesCbc_DecryptUpdate: internal.c 7727-7769. *)
Definition WP11_AesCbc_DecryptUpdate :=
  cbc_update wc_AesCbcDecrypt (fun part => part).

(** WP11_AesCbc_EncryptFinal / DecryptFinal: internal.c 7672-7682, 7778-7788:
    only forget the partial block. *)
Definition WP11_AesCbc_Final (p : cbc) : cbc := mkCbc (cb_aes p) (cb_partial p) 0.

(** WP11_AesCbcPad_EncryptUpdate: internal.c 7836-7841. *)
Definition WP11_AesCbcPad_EncryptUpdate := WP11_AesCbc_EncryptUpdate.

(** The mask loop of WP11_AesCbcPad_EncryptFinal: internal.c 7861-7865. *)
Definition pad_block (part : list N) (psz : nat) : list N :=
  let padCnt := BLK - psz in
  map (fun ib => if BLK - padCnt <=? fst ib then N.of_nat padCnt else snd ib)
      (combine (seq 0 BLK) part).

(** WP11_AesCbcPad_EncryptFinal: internal.c 7853-7875. *)
Definition WP11_AesCbcPad_EncryptFinal (p : cbc) : res (list N * cbc) :=
  let part := pad_block (cb_partial p) (cb_psz p) in
  '(o, a) <- wc_AesCbcEncrypt (cb_aes p) part ;;
  Ok (o, mkCbc a part 0).

(** WP11_AesCbcPad_Encrypt: internal.c 7803-7821. *)
Definition WP11_AesCbcPad_Encrypt (p : cbc) (plain : list N)
  : res (list N * cbc) :=
  '(o1, p1) <- WP11_AesCbcPad_EncryptUpdate p plain ;;
  '(o2, p2) <- WP11_AesCbcPad_EncryptFinal p1 ;;
  Ok (o1 ++ o2, p2).

(** WP11_AesCbcPad_DecryptUpdate: internal.c 7923-7965. The last complete
    block is kept back. *)
Definition WP11_AesCbcPad_DecryptUpdate (p : cbc) (data : list N)
  : res (list N * cbc) :=
  if (2^31 <=? zlen data)%Z then Undef UB_write_overflow
  else if BLK <? cb_psz p then Undef UB_write_overflow
  else
    '(out1, a1, part1, psz1, data1) <-
       (if 0 <? cb_psz p then                                   (* 7932 *)
          let sz := Nat.min (BLK - cb_psz p) (length data) in
          let part := blit (cb_partial p) (cb_psz p) (firstn sz data) in
          let psz := cb_psz p + sz in
          let rest := skipn sz data in
          if andb (psz =? BLK) (0 <? length rest) then          (* 7940 *)
            '(o, a) <- wc_AesCbcDecrypt (cb_aes p) part ;;
            Ok (o, a, part, 0, rest)
          else Ok ([], cb_aes p, part, psz, rest)
        else Ok ([], cb_aes p, cb_partial p, cb_psz p, data)) ;;
    '(out2, a2, data2) <-
       (if BLK <? length data1 then                             (* 7948 *)
          let sz0 := length data1 - length data1 mod BLK in     (* 7949 *)
          let sz := if sz0 =? length data1 then sz0 - BLK else sz0 in
          '(o, a) <- wc_AesCbcDecrypt a1 (firstn sz data1) ;;
          Ok (o, a, skipn sz data1)
        else Ok ([], a1, data1)) ;;
    Ok (out1 ++ out2,
        if 0 <? length data2                                    (* 7957 *)
        then mkCbc a2 (blit part1 0 data2) (length data2)
        else mkCbc a2 part1 psz1).

(** WP11_AesCbcPad_DecryptFinal: internal.c 7977-8009.  The partial block is
    decrypted in place (over its partialSz bytes), the last byte of the array
    is taken as padding count, counts above 16 are treated as 0, and
    16 - count bytes are written to the output. *)
Definition WP11_AesCbcPad_DecryptFinal (p : cbc) : res (list N * cbc) :=
  '(o, a) <- wc_AesCbcDecrypt (cb_aes p) (firstn (cb_psz p) (cb_partial p)) ;;
  let part := blit (cb_partial p) 0 o in                        (* 7989 *)
  let padCnt := nth (BLK - 1) part 0%N in                       (* 7992 *)
  let outSz := BLK - (if (padCnt <=? 16)%N then N.to_nat padCnt else 0) in
  Ok (firstn outSz part, mkCbc a part 0).

(** WP11_AesCbcPad_Decrypt: internal.c 7891-7908. *)
Definition WP11_AesCbcPad_Decrypt (p : cbc) (enc : list N)
  : res (list N * cbc) :=
  '(o1, p1) <- WP11_AesCbcPad_DecryptUpdate p enc ;;
  '(o2, p2) <- WP11_AesCbcPad_DecryptFinal p1 ;;
  Ok (o1 ++ o2, p2).

(** A sequence of Update calls, outputs concatenated. *)
Fixpoint run_updates {P} (f : P -> list N -> res (list N * P))
    (p : P) (chunks : list (list N)) : res (list N * P) :=
  match chunks with
  | [] => Ok ([], p)
  | c :: cs =>
      '(o1, p1) <- f p c ;;
      '(o2, p2) <- run_updates f p1 cs ;;
      Ok (o1 ++ o2, p2)
  end.

End WithCipher.
