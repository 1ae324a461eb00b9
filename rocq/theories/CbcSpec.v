(** Specification of CBC and PKCS#7 padding, independent of the model:
    over lists of 16-byte blocks, as in NIST SP 800-38A section 6.2 and
    RFC 5652 section 6.3. *)
From Verif Require Import Base.

Definition xor16 (a b : list N) : list N := map (fun p => N.lxor (fst p) (snd p)) (combine a b).

(** C_i = E(P_i xor C_{i-1}), C_0 = IV. *)
Fixpoint spec_cbc_enc (E : list N -> list N) (prev : list N) (blocks : list (list N)) : list (list N) :=
  match blocks with
  | [] => []
  | p :: ps => let c := E (xor16 p prev) in c :: spec_cbc_enc E c ps
  end.

(** P_i = D(C_i) xor C_{i-1}. *)
Fixpoint spec_cbc_dec (D : list N -> list N) (prev : list N) (blocks : list (list N)) : list (list N) :=
  match blocks with
  | [] => []
  | c :: cs => xor16 (D c) prev :: spec_cbc_dec D c cs
  end.

Definition are_blocks (bs : list (list N)) : Prop := Forall (fun b => length b = 16) bs.

(** [padded m p]: p is m followed by k bytes of value k, 1 <= k <= 16, total
    length a multiple of 16. *)
Definition pkcs7 (m p : list N) : Prop :=
  exists k, 1 <= k <= 16 /\ p = m ++ repeat (N.of_nat k) k /\ length p mod 16 = 0.

(** Every message has exactly one padding. *)
Lemma pkcs7_total m : exists p, pkcs7 m p.
Proof.
  exists (m ++ repeat (N.of_nat (16 - length m mod 16)) (16 - length m mod 16)).
  exists (16 - length m mod 16).
  pose proof (Nat.mod_upper_bound (length m) 16 ltac:(lia)).
  pose proof (Nat.div_mod (length m) 16 ltac:(lia)).
  split; [lia|]. split; [reflexivity|].
  rewrite app_length, repeat_length.
  replace (length m + (16 - length m mod 16)) with ((length m / 16 + 1) * 16) by lia.
  apply Nat.mod_mul. lia.
Qed.
