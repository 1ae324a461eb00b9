(** C87: the DER encoding of Diffie-Hellman parameters. *)
From Verif Require Import Base Object DhDer PropImport.

(** ** Specification: DER of SEQUENCE { INTEGER p, INTEGER g } (X.690 8.1.3, 8.3, 10.1) *)
Inductive der_len : Z -> list N -> Prop :=
  | len_short l : (0 <= l < 128)%Z -> der_len l [Z.to_N l]
  | len_long l body : (128 <= l)%Z -> bytes_ok body -> length body < 127 -> hd 0%N body <> 0%N -> Z.of_N (value body) = l -> der_len l ((128 + N.of_nat (length body))%N :: body).
Definition tlv (tag : N) (content out : list N) : Prop := exists lb, der_len (zlen content) lb /\ out = tag :: lb ++ content.
(** At least one byte, the first below 128 (the number is not negative), and no zero byte in front that is not needed for that. *)
Definition int_body (n : N) (c : list N) : Prop := bytes_ok c /\ value c = n /\ c <> [] /\ (hd 0 c < 128)%N /\ (hd 0%N c = 0%N -> tl c = [] \/ (128 <= hd 0 (tl c))%N).
Definition der_int (n : N) (out : list N) : Prop := exists c, int_body n c /\ tlv 2 c out.
Definition der_dh (p g : N) (out : list N) : Prop := exists a b, der_int p a /\ der_int g b /\ tlv 48 (a ++ b) out.

(** The numbers wolfCrypt can hold are far smaller than this. *)
Definition holdable (n : N) : Prop := (n < 2 ^ (8 * 2 ^ 22))%N.
Definition C87_claim : Prop := forall p g junk, holdable p -> holdable g -> zlen junk = DhDerLen p g -> exists out, dh_der p g junk = Ok out /\ der_dh p g out.

(** A key without parameters: the integers have no contents. *)
Theorem C87_refuted : ~ C87_claim.
Proof.
  intros C. destruct (C 0%N 0%N (repeat 0%N 15)) as (out & E & a & b & (c & (_ & _ & Nc & _) & (lb & Lb & ->)) & _ & (lb2 & Lb2 & O)); [reflexivity..|].
  vm_compute in E. injection E as <-. destruct c as [|x c]; [destruct (Nc eq_refl)|]. pose proof (zlen_nonneg _ c) as Zc.
  inversion Lb2 as [l L0 L1 L2|l body L0 _ _ _ _ L2]; subst lb2 l; inversion Lb as [l Q0 Q1 Q2|l bd Q0 _ _ _ _ Q2]; subst lb l; cbn [app] in O; injection O; intros; try lia.
Qed.
Print Assumptions C87_refuted.

(** ** The specification is unambiguous *)
Lemma value_zlen_inj a b : bytes_ok a -> bytes_ok b -> length a = length b -> value a = value b -> a = b.
Proof.
  revert b. induction a as [|x a IH]; intros [|y b] A B L V; try discriminate L; [reflexivity|]. injection L as L. inversion A as [|? ? A1 A2]; inversion B as [|? ? B1 B2]; subst. cbn [value] in V. rewrite L in V.
  pose proof (value_bound a A2) as Va. pose proof (value_bound b B2) as Vb. rewrite L in Va. set (P := (256 ^ N.of_nat (length b))%N) in *. clearbody P.
  assert (x = y).
  { destruct (N.lt_trichotomy x y) as [X|[X|X]]; [exfalso|exact X|exfalso].
    - assert ((x + 1) * P <= y * P)%N by (apply N.mul_le_mono_r; lia). lia.
    - assert ((y + 1) * P <= x * P)%N by (apply N.mul_le_mono_r; lia). lia. }
  subst y. f_equal. apply IH; try assumption. lia.
Qed.
Lemma der_len_prefix l1 l2 b1 b2 r1 r2 : der_len l1 b1 -> der_len l2 b2 -> b1 ++ r1 = b2 ++ r2 -> l1 = l2 /\ r1 = r2.
Proof.
  intros D1 D2 E. inversion D1 as [l R1|l body R1 B1 S1 H1 V1]; inversion D2 as [l' R2|l' body' R2 B2 S2 H2 V2]; subst; cbn [app] in E; injection E as E1 E2.
  - split; [lia|exact E2].
  - lia.
  - lia.
  - assert (L : length body = length body') by lia. assert (body = body' /\ r1 = r2) as [-> ->]; [|auto].
    clear - L E2. revert body' L E2. induction body as [|x b IH]; intros [|y b'] L E; try discriminate L; [auto|]. injection L as L. cbn [app] in E. injection E as -> E. destruct (IH b' L E) as [-> ->]. auto.
Qed.
Lemma tlv_prefix t c1 c2 o1 o2 r1 r2 : tlv t c1 o1 -> tlv t c2 o2 -> o1 ++ r1 = o2 ++ r2 -> c1 = c2 /\ r1 = r2.
Proof.
  intros (b1 & D1 & ->) (b2 & D2 & ->) E. cbn [app] in E. injection E as E. rewrite <- !app_assoc in E. destruct (der_len_prefix _ _ _ _ _ _ D1 D2 E) as [L E2].
  assert (L' : length c1 = length c2) by (unfold zlen in L; lia). clear - L' E2. revert c2 L' E2. induction c1 as [|x c IH]; intros [|y c'] L E; try discriminate L; [auto|]. injection L as L. cbn [app] in E. injection E as -> E. destruct (IH c' L E) as [-> ->]. auto.
Qed.
Theorem C87_unambiguous p g p' g' out : der_dh p g out -> der_dh p' g' out -> p = p' /\ g = g'.
Proof.
  intros (a & b & A & B & T) (a' & b' & A' & B' & T'). destruct (tlv_prefix _ _ _ _ _ [] [] T T' eq_refl) as [E _].
  destruct A as (c & (_ & V & _) & Tc), A' as (c' & (_ & V' & _) & Tc'). destruct (tlv_prefix _ _ _ _ _ _ _ Tc Tc' E) as [-> Eb].
  destruct B as (e & (_ & W & _) & Te), B' as (e' & (_ & W' & _) & Te'). destruct (tlv_prefix _ _ _ _ _ [] [] Te Te') as [-> _]; [rewrite !app_nil_r; exact Eb|]. split; congruence.
Qed.
Print Assumptions C87_unambiguous.

(** ** Numbers *)
Lemma be_fuel_bytes f : forall n acc, bytes_ok acc -> bytes_ok (be_of_fuel f n acc).
Proof. induction f as [|f IH]; intros n acc A; cbn [be_of_fuel]; [exact A|]. destruct (n =? 0)%N; [exact A|]. apply IH. constructor; [|exact A]. unfold byte_ok. apply N.mod_lt. lia. Qed.
Lemma be_of_bytes n : bytes_ok (be_of n).
Proof. apply be_fuel_bytes. constructor. Qed.
(** The first byte is not zero. *)
Lemma be_fuel_hd f : forall n acc, (n < 2 ^ N.of_nat f)%N -> n <> 0%N -> hd 0%N (be_of_fuel f n acc) <> 0%N.
Proof.
  induction f as [|f IH]; intros n acc L Nz; [cbn in L; lia|]. cbn [be_of_fuel]. destruct (N.eqb_spec n 0); [contradiction|].
  destruct (N.eq_dec (n / 256) 0) as [Z|Z].
  - rewrite Z. destruct f; cbn [be_of_fuel]; (cbn [N.eqb hd]; rewrite N.mod_small; [exact Nz|apply N.div_small_iff in Z; lia]).
  - apply IH; [|exact Z]. rewrite Nat2N.inj_succ, N.pow_succ_r' in L. apply N.div_lt_upper_bound; lia.
Qed.
Lemma be_of_hd n : n <> 0%N -> hd 0%N (be_of n) <> 0%N.
Proof. intros Nz. apply be_fuel_hd; [|exact Nz]. rewrite N2Nat.id. apply N.size_gt. Qed.
Lemma size_of x r : (0 < x < 256)%N -> bytes_ok r -> N.size (value (x :: r)) = (8 * N.of_nat (length r) + N.log2 x + 1)%N.
Proof.
  intros X R. assert (V : (0 < value (x :: r))%N).
  { cbn [value]. assert (256 ^ N.of_nat (length r) <> 0)%N by (apply N.pow_nonzero; lia). nia. }
  rewrite N.size_log2 by lia. rewrite <- N.add_1_r. f_equal. apply N.log2_unique; [lia|]. cbn [value]. pose proof (value_bound r R) as B. pose proof (N.log2_spec x ltac:(lia)) as [L1 L2].
  change 256%N with (2 ^ 8)%N in *. rewrite <- N.pow_mul_r in *. rewrite <- N.add_succ_r, !N.pow_add_r. set (P := (2 ^ (8 * N.of_nat (length r)))%N) in *. set (A := (2 ^ N.log2 x)%N) in *. set (B2 := (2 ^ N.succ (N.log2 x))%N) in *. clearbody P A B2. split.
  - rewrite (N.mul_comm x). assert (P * A <= P * x)%N by (apply N.mul_le_mono_l; exact L1). lia.
  - rewrite (N.mul_comm x). assert (P * (x + 1) <= P * B2)%N by (apply N.mul_le_mono_l; lia). lia.
Qed.
Lemma bin_size_len n : bin_size n = zlen (be_of n).
Proof.
  destruct (N.eq_dec n 0) as [->|Nz]; [reflexivity|]. pose proof (be_of_hd n Nz) as Hd. pose proof (be_of_bytes n) as B. pose proof (be_of_value n) as V. destruct (be_of n) as [|x r]; [cbn in V; lia|]. cbn [hd] in Hd. inversion B as [|? ? B1 B2]; subst. unfold byte_ok in B1.
  unfold bin_size. rewrite size_of by (lia || assumption). assert (N.log2 x <= 7)%N by (apply N.lt_succ_r; apply N.log2_lt_pow2; lia). rewrite zlen_cons. unfold zlen.
  replace (8 * N.of_nat (length r) + N.log2 x + 1 + 7)%N with ((N.of_nat (length r) + 1) * 8 + N.log2 x)%N by lia. rewrite N.div_add_l by lia. rewrite N.div_small by lia. lia.
Qed.
Lemma leading_hd n : leading_bit n = (128 <=? hd 0 (be_of n))%N.
Proof.
  destruct (N.eq_dec n 0) as [->|Nz]; [reflexivity|]. pose proof (be_of_hd n Nz) as Hd. pose proof (be_of_bytes n) as B. pose proof (be_of_value n) as V. destruct (be_of n) as [|x r]; [cbn in V; lia|]. cbn [hd] in *. inversion B as [|? ? B1 B2]; subst. unfold byte_ok in B1.
  unfold leading_bit. destruct (N.ltb_spec 0 (value (x :: r))); [|lia]. cbn [andb]. rewrite size_of by (lia || assumption). assert (L7 : (N.log2 x <= 7)%N) by (apply N.lt_succ_r; apply N.log2_lt_pow2; lia).
  replace (8 * N.of_nat (length r) + N.log2 x + 1)%N with ((N.log2 x + 1) + N.of_nat (length r) * 8)%N by lia. rewrite N.mod_add by lia.
  destruct (N.leb_spec 128 x) as [X|X].
  - assert (7 <= N.log2 x)%N by (apply N.log2_le_pow2; lia). assert (N.log2 x = 7)%N by lia. rewrite H1. reflexivity.
  - assert (N.log2 x < 7)%N by (apply N.log2_lt_pow2; lia). rewrite N.mod_small by lia. lia.
Qed.
Lemma holdable_size n : holdable n -> (bin_size n <= 2 ^ 22)%Z.
Proof.
  intros H. rewrite bin_size_len. pose proof (be_fuel_len (N.to_nat (N.size n)) n [] (N.to_nat (2 ^ 22))) as L. fold (be_of n) in L. unfold zlen. cbn [length] in L. rewrite N2Nat.id in L. change 256%N with (2 ^ 8)%N in L. rewrite <- N.pow_mul_r in L.
  specialize (L H). rewrite Nat.add_0_r in L. rewrite <- (Nat2Z.id (length _)) in L. lia.
Qed.

(** ** Lengths *)
Lemma len_bytes_value j : forall v, (0 <= v < 256 ^ Z.of_nat j)%Z -> length (len_bytes j v) = j /\ bytes_ok (len_bytes j v) /\ Z.of_N (value (len_bytes j v)) = v.
Proof.
  assert (G : forall j v, length (len_bytes j v) = j /\ bytes_ok (len_bytes j v) /\ Z.of_N (value (len_bytes j v)) = (v mod 256 ^ Z.of_nat j)%Z).
  { clear. induction j as [|j IH]; intros v; cbn [len_bytes value length]; [split; [reflexivity|]; split; [constructor|]; rewrite Z.mod_1_r; reflexivity|]. destruct (IH v) as (L & B & V). split; [f_equal; exact L|].
    assert (M : (0 <= v / 2 ^ (8 * Z.of_nat j) mod 256 < 256)%Z) by (apply Z.mod_pos_bound; lia). split; [constructor; [unfold byte_ok; lia|exact B]|]. rewrite L, N2Z.inj_add, N2Z.inj_mul, V, Z2N.id by lia. rewrite N2Z.inj_pow, nat_N_Z. change (Z.of_N 256) with 256%Z.
    rewrite Nat2Z.inj_succ, Z.pow_succ_r by lia. change (2 ^ (8 * Z.of_nat j))%Z with (2 ^ (8 * Z.of_nat j))%Z. rewrite Z.pow_mul_r by lia. change (2 ^ 8)%Z with 256%Z. rewrite (Z.mul_comm 256). rewrite Z.rem_mul_r by lia. lia. }
  intros v R. destruct (G j v) as (A & B & C). rewrite Z.mod_small in C by lia. auto.
Qed.
Lemma SetLength_ok v : (0 <= v < 2 ^ 32)%Z -> der_len v (SetLength v).
Proof.
  intros R. unfold SetLength. destruct (Z.ltb_spec v 128); [constructor; lia|]. assert (P : exists j, BytePrecision v = S j /\ j < 4 /\ (256 ^ Z.of_nat j <= v < 256 ^ Z.of_nat (S j))%Z).
  { unfold BytePrecision. cbn [prec_from]. change (8 * Z.of_nat 3)%Z with 24%Z. change (8 * Z.of_nat 2)%Z with 16%Z. change (8 * Z.of_nat 1)%Z with 8%Z. change (8 * Z.of_nat 0)%Z with 0%Z.
    assert (Q : forall k, (0 <= k)%Z -> ((v / 2 ^ k =? 0) = (v <? 2 ^ k))%Z). { intros k K. assert (0 < 2 ^ k)%Z by (apply Z.pow_pos_nonneg; lia). destruct (Z.ltb_spec v (2 ^ k)); [rewrite Z.div_small by lia; reflexivity|]. assert (1 <= v / 2 ^ k)%Z by (apply Z.div_le_lower_bound; lia). destruct (Z.eqb_spec (v / 2 ^ k) 0); lia. }
    rewrite !Q by lia. destruct (Z.ltb_spec v (2 ^ 24)); [|exists 3; repeat split; try lia; cbn; lia]. destruct (Z.ltb_spec v (2 ^ 16)); [|exists 2; repeat split; try lia; cbn; lia]. destruct (Z.ltb_spec v (2 ^ 8)); [|exists 1; repeat split; try lia; cbn; lia].
    destruct (Z.ltb_spec v (2 ^ 0)); [lia|]. exists 0. repeat split; try lia; cbn; lia. }
  destruct P as (j & -> & J & B). destruct (len_bytes_value (S j) v ltac:(lia)) as (L & By & V).
  replace (N.lor (N.of_nat (S j)) 128) with (128 + N.of_nat (length (len_bytes (S j) v)))%N by (rewrite L; destruct j as [|[|[|[|]]]]; [reflexivity..|lia]).
  constructor; [lia|exact By|rewrite L; lia| |exact V].
  cbn [len_bytes hd]. rewrite Z.pow_mul_r by lia. change (2 ^ 8)%Z with 256%Z. intros E. apply (f_equal Z.of_N) in E. assert (M := Z.mod_pos_bound (v / 256 ^ Z.of_nat j) 256 ltac:(lia)). rewrite Z2N.id in E by lia.
  rewrite Nat2Z.inj_succ, Z.pow_succ_r in B by lia. assert (0 < 256 ^ Z.of_nat j)%Z by (apply Z.pow_pos_nonneg; lia). rewrite Z.mod_small in E.
  - assert (1 <= v / 256 ^ Z.of_nat j)%Z by (apply Z.div_le_lower_bound; lia). cbn in E. lia.
  - split; [apply Z.div_pos; lia|]. apply Z.div_lt_upper_bound; lia.
Qed.
Lemma SetLength_zlen v : (0 <= v < 2 ^ 24)%Z -> (1 <= zlen (SetLength v) <= 4)%Z.
Proof.
  intros R. unfold SetLength. destruct (Z.ltb_spec v 128); [unfold zlen; cbn [length]; lia|]. unfold BytePrecision. cbn [prec_from]. change (8 * Z.of_nat 3)%Z with 24%Z. rewrite (Z.div_small v (2 ^ 24)) by lia. change (0 =? 0)%Z with true. cbv iota.
  repeat match goal with |- context [if ?b then _ else _] => destruct b end; unfold zlen; cbn [len_bytes length]; lia.
Qed.

(** ** The buffer, filled from its end *)
Lemma write_front pre acc d : (zlen d <= zlen pre)%Z -> write (pre ++ acc) (zlen pre - zlen d) d = Ok (firstn (length pre - length d) pre ++ d ++ acc).
Proof.
  intros L. unfold write. rewrite zlen_app. pose proof (zlen_nonneg _ acc). pose proof (zlen_nonneg _ d). destruct (Z.ltb_spec (zlen pre - zlen d) 0); [lia|]. destruct (Z.ltb_spec (zlen pre + zlen acc) (zlen pre - zlen d + zlen d)); [lia|]. cbn [orb].
  replace (Z.to_nat (zlen pre - zlen d)) with (length pre - length d) by (unfold zlen in *; lia). replace (Z.to_nat (zlen pre - zlen d + zlen d)) with (length pre) by (unfold zlen in *; lia).
  rewrite firstn_app. replace (length pre - length d - length pre) with 0 by lia. rewrite firstn_O, app_nil_r. rewrite skipn_app, skipn_all, Nat.sub_diag. reflexivity.
Qed.
Lemma front_len (pre d : list N) : (zlen d <= zlen pre)%Z -> zlen (firstn (length pre - length d) pre) = (zlen pre - zlen d)%Z.
Proof. intros L. unfold zlen in *. rewrite firstn_length. lia. Qed.
Lemma u32_id v : (0 <= v < 2 ^ 32)%Z -> u32 v = v.
Proof. intros. unfold u32. apply Z.mod_small. lia. Qed.

(** The contents octets of an integer as put_int writes them. *)
Definition body_of (n : N) : list N := if leading_bit n then 0%N :: be_of n else be_of n.
Lemma body_ok n : n <> 0%N -> int_body n (body_of n).
Proof.
  intros Nz. unfold body_of. rewrite leading_hd. pose proof (be_of_hd n Nz) as Hd. pose proof (be_of_bytes n) as B. pose proof (be_of_value n) as V. destruct (N.leb_spec 128 (hd 0%N (be_of n))) as [L|L].
  - split; [constructor; [reflexivity|exact B]|]. split; [cbn [value]; rewrite V; lia|]. split; [discriminate|]. split; [reflexivity|]. intros _. right. exact L.
  - split; [exact B|]. split; [exact V|]. split; [intros E; rewrite E in Hd; apply Hd; reflexivity|]. split; [exact L|]. intros E. contradiction.
Qed.
Definition int_der (n : N) : list N := 2%N :: SetLength (zlen (body_of n)) ++ body_of n.
Lemma body_zlen n : zlen (body_of n) = (bin_size n + (if leading_bit n then 1 else 0))%Z.
Proof. unfold body_of. rewrite bin_size_len. destruct (leading_bit n); [rewrite zlen_cons|]; lia. Qed.
Lemma int_der_zlen n : holdable n -> (zlen (int_der n) <= 5 + bin_size n + (if leading_bit n then 1 else 0))%Z /\ (2 + bin_size n <= zlen (int_der n))%Z.
Proof.
  intros H. apply holdable_size in H. unfold int_der. rewrite zlen_cons, zlen_app, body_zlen. pose proof (zlen_nonneg _ (be_of n)) as Z0. rewrite <- bin_size_len in Z0.
  assert (R : (0 <= bin_size n + (if leading_bit n then 1 else 0) < 2 ^ 24)%Z) by (destruct (leading_bit n); lia). pose proof (SetLength_zlen _ R). destruct (leading_bit n); lia.
Qed.
Lemma put_int_ok n pre acc : holdable n -> (zlen (int_der n) <= zlen pre)%Z -> (zlen pre < 2 ^ 32)%Z ->
  exists pre', put_int n (pre ++ acc) (zlen pre) = Ok (pre' ++ int_der n ++ acc, zlen pre') /\ (zlen pre' = zlen pre - zlen (int_der n))%Z.
Proof.
  intros H L U. pose proof (holdable_size n H) as Hs. unfold int_der in L. rewrite zlen_cons, zlen_app, body_zlen in L. pose proof (zlen_nonneg _ (be_of n)) as Z0. pose proof (bin_size_len n) as Bl.
  set (ld := (if leading_bit n then 1 else 0)%Z) in *. assert (Ld : (0 <= ld <= 1)%Z) by (unfold ld; destruct (leading_bit n); lia). pose proof (zlen_nonneg _ (SetLength (bin_size n + ld))) as Z1.
  unfold put_int. cbv zeta. rewrite (u32_id (zlen pre - bin_size n)) by lia. rewrite Bl. rewrite write_front by lia. cbn [bind]. pose proof (front_len pre (be_of n) ltac:(lia)) as L1. set (p1 := firstn (length pre - length (be_of n)) pre) in *. clearbody p1.
  assert (S2 : exists p2, (if leading_bit n then b <- write (p1 ++ be_of n ++ acc) (u32 (zlen pre - zlen (be_of n) - 1)) [0%N] ;; Ok (b, u32 (zlen pre - zlen (be_of n) - 1), u32 (zlen (be_of n) + 1)) else Ok (p1 ++ be_of n ++ acc, (zlen pre - zlen (be_of n))%Z, zlen (be_of n))) =
     Ok (p2 ++ body_of n ++ acc, zlen p2, (bin_size n + ld)%Z) /\ (zlen p2 = zlen pre - zlen (be_of n) - ld)%Z).
  { unfold body_of. unfold ld in *. destruct (leading_bit n).
    - rewrite (u32_id (zlen pre - zlen (be_of n) - 1)) by lia. replace (zlen pre - zlen (be_of n) - 1)%Z with (zlen p1 - zlen [0%N])%Z by (rewrite zlen_cons, zlen_nil; lia). rewrite write_front by (rewrite zlen_cons, zlen_nil; lia). cbn [bind]. exists (firstn (length p1 - length [0%N]) p1). rewrite front_len by (rewrite zlen_cons, zlen_nil; lia).
      rewrite u32_id by lia. rewrite Bl. split; [reflexivity|]. rewrite zlen_cons, zlen_nil. lia.
    - exists p1. rewrite Bl. split; [do 3 f_equal; lia|lia]. }
  destruct S2 as (p2 & -> & L2). cbn [bind]. rewrite (u32_id (zlen p2 - _)) by lia. rewrite write_front by lia. cbn [bind].
  pose proof (front_len p2 (SetLength (bin_size n + ld)) ltac:(lia)) as L3. set (p3 := firstn (length p2 - length (SetLength (bin_size n + ld))) p2) in *. clearbody p3. rewrite <- L3.
  rewrite (u32_id (zlen p3 - 1)) by lia. replace (zlen p3 - 1)%Z with (zlen p3 - zlen [2%N])%Z by (rewrite zlen_cons, zlen_nil; lia). rewrite write_front by (rewrite zlen_cons, zlen_nil; lia). cbn [bind].
  exists (firstn (length p3 - length [2%N]) p3). rewrite front_len by (rewrite zlen_cons, zlen_nil; lia). split.
  - do 3 f_equal. unfold int_der. rewrite body_zlen. fold ld. cbn [app]. rewrite <- app_assoc. reflexivity.
  - unfold int_der. rewrite !zlen_cons, zlen_app, body_zlen, zlen_nil. fold ld. lia.
Qed.

(** For parameters that are not zero, the whole buffer written to is allocated and the bytes stored are the DER encoding. *)
Theorem C87_partial p g junk : (0 < p)%N -> (0 < g)%N -> holdable p -> holdable g -> zlen junk = DhDerLen p g -> exists out, dh_der p g junk = Ok out /\ der_dh p g out.
Proof.
  intros Pz Gz Hp Hg J. pose proof (holdable_size p Hp) as Sp. pose proof (holdable_size g Hg) as Sg. pose proof (int_der_zlen p Hp) as [Ip1 Ip2]. pose proof (int_der_zlen g Hg) as [Ig1 Ig2].
  pose proof (zlen_nonneg _ (be_of p)) as Z0. rewrite <- bin_size_len in Z0. pose proof (zlen_nonneg _ (be_of g)) as Z1. rewrite <- bin_size_len in Z1.
  assert (Ld : DhDerLen p g = (15 + (bin_size p + if leading_bit p then 1 else 0) + (bin_size g + if leading_bit g then 1 else 0))%Z).
  { unfold DhDerLen. rewrite u32_id; [lia|]. destruct (leading_bit p), (leading_bit g); lia. }
  set (lp := (if leading_bit p then 1 else 0)%Z) in *. set (lg := (if leading_bit g then 1 else 0)%Z) in *. assert (Lp : (0 <= lp <= 1)%Z) by (unfold lp; destruct (leading_bit p); lia). assert (Lg : (0 <= lg <= 1)%Z) by (unfold lg; destruct (leading_bit g); lia).
  unfold dh_der, DhParamsToDer. cbv zeta. rewrite <- J. destruct (put_int_ok g junk [] Hg) as (p1 & E1 & L1); [lia..|]. rewrite app_nil_r in E1. rewrite E1. cbn [bind]. rewrite app_nil_r.
  destruct (put_int_ok p p1 (int_der g) Hp) as (p2 & E2 & L2); [lia..|]. rewrite E2. cbn [bind]. clear E1 E2.
  set (c := int_der p ++ int_der g) in *. assert (Lc : zlen c = (zlen (int_der p) + zlen (int_der g))%Z) by (unfold c; apply zlen_app). replace (u32 (zlen junk - zlen p2)) with (zlen c) by (rewrite u32_id; lia).
  pose proof (SetLength_zlen (zlen c) ltac:(lia)) as Ls. set (sl := SetLength (zlen c)) in *. rewrite (u32_id (zlen p2 - zlen sl)) by lia. rewrite (u32_id (zlen p2 - zlen sl - 1)) by lia.
  assert (W : write (p2 ++ c) (zlen p2 - zlen sl - 1) [48%N] = Ok (firstn (length p2 - length (48%N :: sl)) p2 ++ 48%N :: skipn (length p2 - length sl) p2 ++ c)).
  { unfold write. rewrite zlen_app. change (zlen [48%N]) with 1%Z. destruct (Z.ltb_spec (zlen p2 - zlen sl - 1) 0); [lia|]. destruct (Z.ltb_spec (zlen p2 + zlen c) (zlen p2 - zlen sl - 1 + 1)); [lia|]. cbn [orb]. f_equal.
    replace (Z.to_nat (zlen p2 - zlen sl - 1)) with (length p2 - length (48%N :: sl)) by (unfold zlen in *; cbn [length]; lia). replace (Z.to_nat (zlen p2 - zlen sl - 1 + 1)) with (length p2 - length sl) by (unfold zlen in *; lia).
    rewrite firstn_app, skipn_app. replace (length p2 - length (48%N :: sl) - length p2) with 0 by lia. replace (length p2 - length sl - length p2) with 0 by lia. rewrite firstn_O, app_nil_r. reflexivity. }
  rewrite W. cbn [bind]. clear W. rewrite (u32_id (zlen p2 - zlen sl - 1 + 1)) by lia.
  pose proof (front_len p2 (48%N :: sl)) as L3. rewrite zlen_cons in L3. specialize (L3 ltac:(lia)). set (p3 := firstn (length p2 - length (48%N :: sl)) p2) in *. assert (L4 : length (skipn (length p2 - length sl) p2) = length sl) by (rewrite skipn_length; unfold zlen in *; lia). set (h := skipn (length p2 - length sl) p2) in *. clearbody p3 h.
  assert (W : write (p3 ++ 48%N :: h ++ c) (zlen p2 - zlen sl - 1 + 1) sl = Ok (p3 ++ (48%N :: sl ++ c))).
  { replace (p3 ++ 48%N :: h ++ c) with (((p3 ++ [48%N]) ++ h) ++ c) by (rewrite <- !app_assoc; reflexivity). replace (zlen p2 - zlen sl - 1 + 1)%Z with (zlen ((p3 ++ [48%N]) ++ h) - zlen sl)%Z by (rewrite !zlen_app, zlen_cons, zlen_nil; unfold zlen in *; lia).
    rewrite write_front by (rewrite !zlen_app; unfold zlen in *; rewrite L4; lia). f_equal. rewrite app_length, L4. replace (length (p3 ++ [48%N]) + length sl - length sl) with (length (p3 ++ [48%N]) + 0) by lia. rewrite firstn_app_2, firstn_O, app_nil_r, <- app_assoc. reflexivity. }
  rewrite W. cbn [bind]. clear W. set (out := 48%N :: sl ++ c). assert (Lo : zlen out = (1 + zlen sl + zlen c)%Z) by (unfold out; rewrite zlen_cons, zlen_app; lia).
  rewrite (u32_id (zlen junk - (zlen p2 - zlen sl - 1))) by lia. replace (zlen junk - (zlen p2 - zlen sl - 1))%Z with (zlen out) by lia. replace (zlen p2 - zlen sl - 1)%Z with (zlen p3) by lia.
  rewrite zlen_app. destruct (Z.ltb_spec (zlen p3 + zlen out) (zlen p3 + zlen out)); [lia|]. replace (Z.to_nat (zlen p3)) with (length p3) by (unfold zlen; lia). rewrite skipn_app, skipn_all, Nat.sub_diag. cbn [app skipn]. replace (Z.to_nat (zlen out)) with (length out) by (unfold zlen; lia). rewrite firstn_all.
  unfold write. rewrite zlen_app. pose proof (zlen_nonneg _ p3). destruct (Z.ltb_spec 0 0); [lia|]. destruct (Z.ltb_spec (zlen p3 + zlen out) (0 + zlen out)); [lia|]. cbn [orb bind]. change (Z.to_nat 0) with 0. rewrite firstn_O. cbn [app].
  exists out. split.
  { f_equal. replace (Z.to_nat (zlen out)) with (length out) by (unfold zlen; lia). rewrite firstn_app, Nat.sub_diag, firstn_all; apply app_nil_r. }
  exists (int_der p), (int_der g). assert (Di : forall n, (0 < n)%N -> holdable n -> der_int n (int_der n)).
  { intros n Nz Hn. exists (body_of n). split; [apply body_ok; lia|]. exists (SetLength (zlen (body_of n))). split; [|reflexivity]. apply SetLength_ok. rewrite body_zlen. apply holdable_size in Hn. pose proof (zlen_nonneg _ (be_of n)) as Zn. rewrite <- bin_size_len in Zn. destruct (leading_bit n); lia. }
  split; [apply Di; assumption|]. split; [apply Di; assumption|]. fold c. exists sl. split; [apply SetLength_ok; lia|reflexivity].
Qed.
Print Assumptions C87_partial.
Example C87_case : dh_der 0xFFEE 5 (repeat 7%N 19) = Ok [48; 8; 2; 3; 0; 255; 238; 2; 1; 5]%N /\ DhDerLen 0xFFEE 5 = 19%Z /\ dh_der 0 0 (repeat 7%N 15) = Ok [48; 4; 2; 0; 2; 0]%N.
Proof. repeat split; vm_compute; reflexivity. Qed.
Example C87_long : match dh_der (2 ^ 2047 + 9) 2 (repeat 0%N (Z.to_nat (DhDerLen (2 ^ 2047 + 9) 2))) with Ok out => (firstn 9 out, zlen out) | _ => ([], 0%Z) end = ([48; 130; 1; 8; 2; 130; 1; 1; 0]%N, 268%Z).
Proof. vm_compute. reflexivity. Qed.
