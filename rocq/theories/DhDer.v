(** DER encoding of Diffie-Hellman parameters: internal.c 2231-2366. Compiled when
    wolfSSL has no wc_DhParamsToDer of its own (2231); wp11_Object_Store_DhKey
    (2385-2437) calls it twice, first for the length of the buffer.

    The functions of mp_int are taken from their documentation: mp_unsigned_bin_size
    is the number of bytes of the number (0 for zero), mp_to_unsigned_bin writes
    that many bytes, most significant first, and does not fail; mp_leading_bit tells
    whether the top bit of the first of these bytes is set. *)
From Verif Require Import Base Object.

Definition bin_size (n : N) : Z := Z.of_N ((N.size n + 7) / 8).
Definition leading_bit (n : N) : bool := andb (0 <? n)%N (N.size n mod 8 =? 0)%N.

(** wp11_BytePrecision: 2237-2245. *)
Fixpoint prec_from (i : nat) (v : Z) : nat :=
  match i with O => O | S j => if (v / 2 ^ (8 * Z.of_nat j) =? 0)%Z then prec_from j v else i end.
Definition BytePrecision (v : Z) : nat := prec_from 4 v.
(** wp11_SetLength: 2253-2291. The bytes it writes; their number is what it returns. *)
Fixpoint len_bytes (j : nat) (v : Z) : list N :=
  match j with O => [] | S k => Z.to_N ((v / 2 ^ (8 * Z.of_nat k)) mod 256) :: len_bytes k v end.
Definition SetLength (v : Z) : list N :=
  if (v <? 128)%Z then [Z.to_N v] else N.lor (N.of_nat (BytePrecision v)) 128 :: len_bytes (BytePrecision v) v.

(** Writing [d] at [output + i]. *)
Definition write (buf : list N) (i : Z) (d : list N) : res (list N) :=
  if orb (i <? 0)%Z (zlen buf <? i + zlen d)%Z then Undef UB_write_overflow
  else Ok (firstn (Z.to_nat i) buf ++ d ++ skipn (Z.to_nat (i + zlen d)) buf).

(** One INTEGER, written from its end: 2325-2337 for the base, 2339-2352 for the prime.
    [idx] is a word32. *)
Definition put_int (n : N) (buf : list N) (idx : Z) : res (list N * Z) :=
  let len2 := bin_size n in
  let idx := u32 (idx - len2) in
  buf <- write buf idx (be_of n) ;;
  '(buf, idx, len2) <- (if leading_bit n then let i := u32 (idx - 1) in b <- write buf i [0%N] ;; Ok (b, i, u32 (len2 + 1)) else Ok (buf, idx, len2)) ;;
  let idx := u32 (idx - zlen (SetLength len2)) in
  buf <- write buf idx (SetLength len2) ;;
  let idx := u32 (idx - 1) in
  buf <- write buf idx [2%N] ;;
  Ok (buf, idx).

(** wp11_DhParamsToDer: 2310-2363. [None]: only the length (the call returns
    LENGTH_ONLY_E). With a buffer: what it holds afterwards and the length. *)
Definition DhDerLen (p g : N) : Z :=
  u32 (5 + (1 + 4) + (if leading_bit p then 1 else 0) + bin_size p + (1 + 4) + (if leading_bit g then 1 else 0) + bin_size g).
Definition DhParamsToDer (p g : N) (output : list N) : res (list N * Z) :=
  let len := DhDerLen p g in
  '(buf, idx) <- put_int g output len ;;
  '(buf, idx) <- put_int p buf idx ;;
  let len2 := u32 (len - idx) in
  let idx := u32 (idx - zlen (SetLength len2)) in
  let idx := u32 (idx - 1) in
  buf <- write buf idx [48%N] ;;
  buf <- write buf (u32 (idx + 1)) (SetLength len2) ;;
  (** XMEMMOVE 2358 *)
  let n := u32 (len - idx) in
  if (zlen buf <? idx + n)%Z then Undef UB_read_overflow
  else buf <- write buf 0 (firstn (Z.to_nat n) (skipn (Z.to_nat idx) buf)) ;; Ok (buf, n).
(** The bytes wp11_Object_Store_DhKey writes to the file: 2405-2429. [junk] is what
    the allocated buffer holds. *)
Definition dh_der (p g : N) (junk : list N) : res (list N) :=
  '(buf, n) <- DhParamsToDer p g junk ;; Ok (firstn (Z.to_nat n) buf).
