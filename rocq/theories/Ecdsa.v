(** ECDSA signature conversion between fixed-width r||s and DER:
    internal.c 7177-7318. *)
From Verif Require Import Base Cbc.

Definition ASN_PARSE_E : Z := -140.

(** "while (sig[rStart] == 0x00 && rStart < sz - 1) rStart++" (7196-7199):
    leading zeros dropped, at least one byte kept. *)
Fixpoint strip (l : list N) : list N :=
  match l with
  | 0%N :: (_ :: _) as t => strip t
  | _ => l
  end.

(** INTEGER header, optional zero byte, magnitude (7200-7208, 7226-7235). The
    length is stored in a byte. *)
Definition enc_int (x : list N) : list N :=
  let hi := (128 <=? hd 0 x)%N in
  [2%N; ((if hi then 1 else 0) + N.of_nat (length x)) mod 256]%N ++
  (if hi then [0%N] else []) ++ x.

(** Pkcs11ECDSASig_Encode: 7185-7237 (sz >= 1). *)
Definition ECDSASig_Encode (sz : nat) (sig : list N) : list N :=
  let r := enc_int (strip (firstn sz sig)) in
  let s := enc_int (strip (firstn sz (skipn sz sig))) in
  let sigSz := length r + length s in
  [48%N] ++ (if 128 <=? sigSz then [129%N] else []) ++ [(N.of_nat sigSz mod 256)%N] ++ r ++ s.

(** Read of in[i]: beyond inSz is undefined. *)
Definition rd (inp : list N) (i : nat) : res N :=
  match nth_error inp i with Some b => Ok b | None => Undef UB_read_overflow end.

(** memcpy into sig at off: before the start of sig is undefined. *)
Definition put (sig : list N) (off : Z) (src : list N) : res (list N) :=
  if orb (off <? 0)%Z (Z.of_nat (length sig) <? off + zlen src)%Z then Undef UB_write_overflow
  else Ok (blit sig (Z.to_nat off) src).

(** One INTEGER (7279-7296, 7302-7315); [base] is where its ordinate ends in
    sig: sz for r, 2*sz for s. Result: sig and the index after it. *)
Definition dec_int (inp sig : list N) (i sz base : nat) : res (list N * nat) :=
  t <- rd inp i ;;
  if negb (t =? 2)%N then Err ASN_PARSE_E
  else
    l <- rd inp (i + 1) ;;
    let len := N.to_nat l in
    if sz + 1 <? len then Err ASN_PARSE_E
    else if length inp <? i + 2 + len then Err ASN_PARSE_E
    else
      b <- rd inp (i + 2) ;;
      if (b =? 0)%N then
        match len with
        | O => Undef UB_write_overflow                    (* memcpy of (size_t)-1 bytes *)
        | S n =>
            sig' <- put sig (Z.of_nat base - Z.of_nat n) (firstn n (skipn (i + 3) inp)) ;;
            Ok (sig', i + 3 + n)
        end
      else
        sig' <- put sig (Z.of_nat base - Z.of_nat len) (firstn len (skipn (i + 2) inp)) ;;
        Ok (sig', i + 2 + len).

(** Pkcs11ECDSASig_Decode: 7249-7318. [length inp] is inSz. *)
Definition ECDSASig_Decode (inp : list N) (sz : nat) : res (list N) :=
  let sig0 := repeat 0%N (sz * 2) in
  if length inp <? 5 then Err ASN_PARSE_E
  else
    b0 <- rd inp 0 ;;
    if negb (b0 =? 48)%N then Err ASN_PARSE_E
    else
      b1 <- rd inp 1 ;;
      if andb (128 <=? b1)%N (negb (b1 =? 129)%N) then Err ASN_PARSE_E
      else
        let i := if (128 <=? b1)%N then 2 else 1 in
        let seqLen := if (128 <=? b1)%N then 3 else 2 in
        bl <- rd inp i ;;
        if negb (N.to_nat bl =? length inp - seqLen) then Err ASN_PARSE_E
        else
          '(sig1, j) <- dec_int inp sig0 (i + 1) sz sz ;;
          if length inp <? j + 2 then Err ASN_PARSE_E
          else
            '(sig2, _) <- dec_int inp sig1 j sz (2 * sz) ;;
            Ok sig2.
