(** Raw RSA (CKM_RSA_X_509) and RSA public exponent: internal.c 6501-6564,
    6859-6942. *)
From Verif Require Import Base.

(** The key as the wrapper functions see it: wc_RsaEncryptSize and the two
    directions of wc_RsaDirect ([None]: negative return code). Trusted. *)
Record rsa := mkRsa {
  rk_size : nat;                                   (* modulus size in bytes *)
  rk_priv : list N -> option (list N);             (* RSA_PRIVATE_ENCRYPT *)
  rk_pub : list N -> option (list N)               (* RSA_PUBLIC_DECRYPT *)
}.

(** "bits |= decSigLen" repeated n times while bits == 0 (6928-6930). *)
Fixpoint pad_loop (n : nat) (decSigLen bits : N) : N :=
  match n with
  | O => bits
  | S m => if (bits =? 0)%N then pad_loop m decSigLen (N.lor bits (decSigLen mod 256))%N else bits
  end.

(** "bits |= in[j] ^ decSig[i]" while bits == 0 (6932-6934), over the n bytes
    both loops visit. *)
Fixpoint cmp_loop (inp dec : list N) (bits : N) : N :=
  match inp, dec with
  | a :: inp', b :: dec' => if (bits =? 0)%N then cmp_loop inp' dec' (N.lor bits (N.lxor a b)) else bits
  | _, _ => bits
  end.

(** WP11_Rsa_Verify: 6905-6942. The start index decSigLen - inLen is a word32;
    when it wraps it is not below decSigLen and the comparison loop is empty.
    [Ok b]: return 0 with stat = b. *)
Definition Rsa_Verify (k : rsa) (sig inp : list N) : res bool :=
  match rk_pub k sig with
  | None => Err (-1)
  | Some dec =>
      let decSigLen := zlen dec in
      let inLen := u32 (zlen inp) in
      let bits1 := if (inLen <? decSigLen)%Z
                   then pad_loop (Z.to_nat (decSigLen - inLen)) (Z.to_N decSigLen) 0%N else 0%N in
      let i := u32 (decSigLen - inLen) in
      let bits2 := if (i <? decSigLen)%Z
                   then cmp_loop inp (skipn (Z.to_nat i) dec) bits1 else bits1 in
      Ok (bits2 =? 0)%N
  end.

(** WP11_Rsa_Sign: 6859-6891. *)
Definition Rsa_Sign (k : rsa) (inp : list N) : res (list N) :=
  let inp' := if length inp <? rk_size k
              then repeat 0%N (rk_size k - length inp) ++ inp else inp in
  match rk_priv k inp' with None => Err (-1) | Some s => Ok s end.

(** ** Public exponent *)

(** mp_to_unsigned_bin: big-endian, no leading zeros; fuel 9 is enough to
    produce more than sizeof(long) bytes. *)
Fixpoint le_bytes (fuel : nat) (n : N) : list N :=
  match fuel with
  | O => []
  | S f => if (n =? 0)%N then [] else (n mod 256)%N :: le_bytes f (n / 256)%N
  end.
Definition mp_bin (n : N) : list N := rev (le_bytes 9 n).

(** The conversion loop 6521-6524: index sizeof(long)-1 down to 0. *)
Definition conv_loop (eData : list N) : N := fold_left (fun e b => e * 256 + b)%N (rev eData) 0%N.

(** WP11_Rsa_GenerateKeyPair 6509-6530: the exponent given to wc_MakeRsaKey for
    the requested [e]; 65537 when none is set. "e" is a signed long: a value
    from 2^63 on becomes negative, which wc_MakeRsaKey refuses (e < 3). *)
Definition gen_exponent (e : N) : res N :=
  if (e =? 0)%N then Ok 65537%N
  else
    let b := mp_bin e in
    if 8 <? length b then Err BAD_FUNC_ARG
    else
      let v := conv_loop (b ++ repeat 0%N (8 - length b)) in
      if (v <? 2^63)%N then Ok v else Err BAD_FUNC_ARG.
