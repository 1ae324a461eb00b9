(** DER encoding of an ECDSA signature (X.690 8.1.3, 8.3, 10.1; RFC 3279),
    independent of the model. *)
From Verif Require Import Base.

(** Value of a big-endian byte string. *)
Definition be_val (l : list N) : N := fold_left (fun a b => a * 256 + b)%N l 0%N.

(** INTEGER content octets of a non-negative number: not empty, sign bit
    clear, as short as possible. *)
Definition der_content (n : N) (c : list N) : Prop :=
  bytes_ok c /\ be_val c = n /\
  match c with
  | [] => False
  | [b] => (b < 128)%N
  | a :: b :: _ => (a < 128)%N /\ (a = 0%N -> (128 <= b)%N)
  end.

Definition der_len (n : nat) : list N :=
  if n <? 128 then [N.of_nat n] else [129%N; N.of_nat n].

(** SEQUENCE { INTEGER r, INTEGER s }, total content below 256 bytes and each
    INTEGER below 128 bytes. *)
Definition der_sig (r s : N) (d : list N) : Prop :=
  exists cr cs,
    der_content r cr /\ der_content s cs /\
    length cr < 128 /\ length cs < 128 /\ length cr + length cs + 4 < 256 /\
    let body := (2%N :: N.of_nat (length cr) :: cr) ++ (2%N :: N.of_nat (length cs) :: cs) in
    d = 48%N :: der_len (length body) ++ body.
