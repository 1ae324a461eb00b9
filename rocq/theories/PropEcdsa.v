(** Properties C42-C45, C66: raw RSA, ECDSA signature formats, RSA exponent.
    Models: RsaRaw.v, Ecdsa.v; DER specification: EcdsaSpec.v. *)
From Verif Require Import Base Ecdsa EcdsaSpec EcdsaProofs RsaRaw RsaRawProofs.

(** ** C42 *)
(** The result of the public operation is the data, left padded with zeros to
    the modulus size. *)
Definition true_signature (k : rsa) (sig data : list N) : Prop :=
  exists dec, rk_pub k sig = Some dec /\ length data <= rk_size k /\
              dec = repeat 0%N (rk_size k - length data) ++ data.
Definition rsa_sizes (k : rsa) : Prop :=
  0 < rk_size k /\ (Z.of_nat (rk_size k) < 2^31)%Z /\
  forall s d, rk_pub k s = Some d -> length d = rk_size k.
Definition C42_claim : Prop := forall k sig data,
  rsa_sizes k -> (zlen data < 2^32)%Z -> Rsa_Verify k sig data = Ok true -> true_signature k sig data.

(** A key whose public operation is the identity on 256-byte strings. *)
Definition id_rsa (n : nat) : rsa :=
  mkRsa n (fun m => if length m =? n then Some m else None)
          (fun s => if length s =? n then Some s else None).
Lemma id_rsa_sizes n : 0 < n -> (Z.of_nat n < 2^31)%Z -> rsa_sizes (id_rsa n).
Proof.
  intros A B. split; [exact A|]. split; [exact B|]. intros s d. cbn.
  destruct (Nat.eqb_spec (length s) n); [|discriminate]. intros E. injection E as <-. assumption.
Qed.

(** A 2048-bit key: the bytes above short data are not compared. *)
Theorem C42_refuted : ~ C42_claim.
Proof.
  intros H. destruct (H (id_rsa 256) (1%N :: repeat 0%N 254 ++ [7%N]) [7%N]) as (d & E & _ & D).
  - apply id_rsa_sizes; [lia|reflexivity].
  - reflexivity.
  - vm_compute. reflexivity.
  - vm_compute in E. injection E as <-. vm_compute in D. discriminate D.
Qed.
Print Assumptions C42_refuted.

(** For every key and every signature value the key accepts at all, all data
    longer than the modulus verifies. *)
Theorem C42_longer_data_accepted k sig dec data :
  rsa_sizes k -> rk_pub k sig = Some dec -> (zlen data < 2^32)%Z -> rk_size k < length data ->
  Rsa_Verify k sig data = Ok true.
Proof.
  intros (A & B & C) P D L. pose proof (C _ _ P) as E.
  apply (proj2 (verify_iff k sig data dec P ltac:(lia) D ltac:(unfold zlen; lia))). left. lia.
Qed.
Print Assumptions C42_longer_data_accepted.

(** Missing from C42: data shorter or longer than the modulus. *)
Theorem C42_partial k sig data :
  rsa_sizes k -> length data = rk_size k ->
  (Rsa_Verify k sig data = Ok true <-> true_signature k sig data).
Proof.
  intros (A & B & C) L. unfold true_signature. rewrite L, Nat.sub_diag. cbn [repeat app].
  destruct (rk_pub k sig) as [dec|] eqn:P.
  - pose proof (C _ _ P) as E.
    rewrite (verify_iff k sig data dec P ltac:(lia) ltac:(unfold zlen; lia) ltac:(unfold zlen; lia)).
    split.
    + intros [|[(_ & ->)|]]; [lia| |lia]. exists dec. auto.
    + intros (d & Ed & _ & ->). injection Ed as ->. right. left. auto.
  - unfold Rsa_Verify. rewrite P. split; [discriminate|]. intros (d & Ed & _). discriminate.
Qed.
Print Assumptions C42_partial.
Example C42_case : Rsa_Verify (id_rsa 3) [1;2;3]%N [1;2;3]%N = Ok true /\
                   Rsa_Verify (id_rsa 3) [1;2;3]%N [1;2;4]%N = Ok false.
Proof. split; reflexivity. Qed.

(** ** C66 *)
Definition rsa_inverse (k : rsa) : Prop :=
  forall m s, length m = rk_size k -> rk_priv k m = Some s -> rk_pub k s = Some m.
Definition C66_claim : Prop := forall k data s,
  rsa_sizes k -> rsa_inverse k -> length data <= rk_size k ->
  Rsa_Sign k data = Ok s -> Rsa_Verify k s data = Ok true.

(** A 1024-bit key and data shorter than the modulus. *)
Theorem C66_refuted : ~ C66_claim.
Proof.
  intros H. specialize (H (id_rsa 128) [7%N] (repeat 0%N 127 ++ [7%N])).
  assert (E : Rsa_Verify (id_rsa 128) (repeat 0%N 127 ++ [7%N]) [7%N] = Ok false) by (vm_compute; reflexivity).
  rewrite E in H. assert (Ok false = Ok true) as X; [|discriminate X]. apply H.
  - apply id_rsa_sizes; [lia|reflexivity].
  - intros m s L. cbn. destruct (Nat.eqb_spec (length m) 128); [|discriminate]. intros F. injection F as <-.
    destruct (Nat.eqb_spec (length m) 128); [reflexivity|contradiction].
  - cbn. lia.
  - vm_compute. reflexivity.
Qed.
Print Assumptions C66_refuted.

(** Missing from C66: shorter data for keys whose size is not a multiple of
    2048 bits; such a signature is never accepted. *)
Theorem C66_partial k data s :
  rsa_sizes k -> rsa_inverse k -> length data <= rk_size k ->
  length data = rk_size k \/ rk_size k mod 256 = 0 ->
  Rsa_Sign k data = Ok s -> Rsa_Verify k s data = Ok true.
Proof.
  intros (A & B & C) I L M S. unfold Rsa_Sign in S.
  set (m := if length data <? rk_size k then repeat 0%N (rk_size k - length data) ++ data else data) in *.
  assert (Lm : length m = rk_size k).
  { unfold m. destruct (Nat.ltb_spec (length data) (rk_size k)); [rewrite app_length, repeat_length; lia|lia]. }
  destruct (rk_priv k m) as [s'|] eqn:P; [|discriminate]. injection S as ->.
  pose proof (I m s Lm P) as Q.
  apply (proj2 (verify_iff k s data m Q ltac:(lia) ltac:(unfold zlen; lia) ltac:(unfold zlen; lia))).
  rewrite Lm. right. destruct (Nat.ltb_spec (length data) (rk_size k)).
  - right. split; [assumption|]. split; [destruct M; [lia|assumption]|].
    unfold m. replace (rk_size k - length data) with (length (repeat 0%N (rk_size k - length data)) + 0) at 1
      by (rewrite repeat_length; lia).
    rewrite skipn_len_app. reflexivity.
  - left. split; [lia|reflexivity].
Qed.
Print Assumptions C66_partial.
Theorem C66_short_rejected k data s :
  rsa_sizes k -> length data < rk_size k -> rk_size k mod 256 <> 0 ->
  Rsa_Verify k s data <> Ok true.
Proof.
  intros (A & B & C) L M V. destruct (rk_pub k s) as [dec|] eqn:P.
  - pose proof (C _ _ P).
    apply (proj1 (verify_iff k s data dec P ltac:(lia) ltac:(unfold zlen; lia) ltac:(unfold zlen; lia))) in V.
    rewrite H in V. destruct V as [|[|]]; [lia|lia|]. lia.
  - unfold Rsa_Verify in V. rewrite P in V. discriminate.
Qed.
Print Assumptions C66_short_rejected.
Example C66_case : Rsa_Sign (id_rsa 256) [7%N] = Ok (repeat 0%N 255 ++ [7%N]).
Proof. vm_compute. reflexivity. Qed.

(** ** C43 *)
Theorem C43_roundtrip sz sig : 1 <= sz <= 66 -> length sig = 2 * sz -> bytes_ok sig ->
  ECDSASig_Decode (ECDSASig_Encode sz sig) sz = Ok sig.
Proof. exact (encode_decode sz sig). Qed.
Print Assumptions C43_roundtrip.

Theorem C43_encode sz sig : 1 <= sz <= 66 -> length sig = 2 * sz -> bytes_ok sig ->
  der_sig (be_val (firstn sz sig)) (be_val (skipn sz sig)) (ECDSASig_Encode sz sig).
Proof. exact (encode_der sz sig). Qed.
Print Assumptions C43_encode.

Theorem C43_decode sz r s d : 1 <= sz <= 66 ->
  der_sig r s d -> (r < 256 ^ N.of_nat sz)%N -> (s < 256 ^ N.of_nat sz)%N ->
  exists R S, ECDSASig_Decode d sz = Ok (R ++ S) /\
    bytes_ok R /\ bytes_ok S /\ length R = sz /\ length S = sz /\ be_val R = r /\ be_val S = s.
Proof. exact (decode_der sz r s d). Qed.
Print Assumptions C43_decode.

(** High bit in r, leading zeros in s; and a 66-byte field (long form). *)
Example C43_case : ECDSASig_Encode 3 [200;1;2;0;0;5]%N = [48;9;2;4;0;200;1;2;2;1;5]%N.
Proof. reflexivity. Qed.
Example C43_case66 : firstn 5 (ECDSASig_Encode 66 (repeat 255%N 132)) = [48;129;138;2;67]%N /\
  ECDSASig_Decode (ECDSASig_Encode 66 (repeat 255%N 132)) 66 = Ok (repeat 255%N 132).
Proof. split; vm_compute; reflexivity. Qed.

(** ** C44 *)
Definition C44_claim : Prop := forall inp sz u, bytes_ok inp -> 1 <= sz <= 66 -> length inp <= 141 ->
  ECDSASig_Decode inp sz <> Undef u.

Definition bad_der : list N := ([48; 38; 2; 33] ++ repeat 1 33 ++ [2; 1; 1])%N.
Theorem C44_refuted : ~ C44_claim.
Proof.
  intros H. apply (H bad_der 32 UB_write_overflow); [|lia|cbn; lia|vm_compute; reflexivity].
  apply bytes_okb_spec. vm_compute. reflexivity.
Qed.
Print Assumptions C44_refuted.
(** The other defect: an empty INTEGER followed by a zero byte. *)
Theorem C44_refuted_empty : ECDSASig_Decode [48; 3; 2; 0; 0]%N 32 = Undef UB_write_overflow.
Proof. reflexivity. Qed.
Print Assumptions C44_refuted_empty.

(** Missing from C44: exactly the inputs with an INTEGER of length 0, or of
    length sz+1 not starting with a zero byte. *)
Theorem C44_partial inp sz :
  (forall i, nth_error inp i = Some 2%N -> nth_error inp (i + 1) <> Some 0%N) ->
  (forall i b, nth_error inp i = Some 2%N -> nth_error inp (i + 1) = Some (N.of_nat (sz + 1)) ->
               nth_error inp (i + 2) = Some b -> b = 0%N) ->
  forall u, ECDSASig_Decode inp sz <> Undef u.
Proof.
  intros A B u D. destruct (decode_ub inp sz u D) as (i & T & [Z|(b & L & E & N)]).
  - exact (A i T Z).
  - exact (N (B i b T L E)).
Qed.
Print Assumptions C44_partial.
Theorem C44_canonical_partial sz r s d u : 1 <= sz <= 66 ->
  der_sig r s d -> (r < 256 ^ N.of_nat sz)%N -> (s < 256 ^ N.of_nat sz)%N ->
  ECDSASig_Decode d sz <> Undef u.
Proof. intros A B C D E. destruct (decode_der sz r s d A B C D) as (R & S & F & _). congruence. Qed.
Print Assumptions C44_canonical_partial.
Example C44_case : ECDSASig_Decode [48;6;2;1;5;2;1;6]%N 3 = Ok [0;0;5;0;0;6]%N.
Proof. reflexivity. Qed.

(** ** C45 *)
Definition C45_claim : Prop := forall l, bytes_ok l -> hd 0%N l <> 0%N -> length l <= 7 ->
  gen_exponent (be_val l) = Ok (be_val l).
Theorem C45_refuted : ~ C45_claim.
Proof.
  intros H. assert (E : gen_exponent (be_val [1; 0; 3]%N) = Ok (be_val [1;0;3]%N)).
  { apply H; [apply bytes_okb_spec; reflexivity|discriminate|cbn; lia]. }
  vm_compute in E. discriminate E.
Qed.
Print Assumptions C45_refuted.
(** What the code uses instead, and when it is right. *)
Theorem C45_reversed l : bytes_ok l -> hd 0%N l <> 0%N -> length l <= 7 ->
  gen_exponent (be_val l) = Ok (be_val (rev l)).
Proof. exact (gen_exponent_rev l). Qed.
Print Assumptions C45_reversed.
(** Missing from C45: exponents whose bytes are not a palindrome. *)
Theorem C45_partial l : bytes_ok l -> hd 0%N l <> 0%N -> length l <= 7 ->
  (gen_exponent (be_val l) = Ok (be_val l) <-> rev l = l).
Proof.
  intros A B C. rewrite (gen_exponent_rev l A B C). split.
  - intros E. injection E as E. apply be_val_inj; [apply Forall_rev; exact A|exact A|apply rev_length|exact E].
  - intros ->. reflexivity.
Qed.
Print Assumptions C45_partial.
Example C45_case : gen_exponent 65537 = Ok 65537%N /\ gen_exponent 65539 = Ok 196609%N /\ gen_exponent 3 = Ok 3%N.
Proof. repeat split; reflexivity. Qed.
