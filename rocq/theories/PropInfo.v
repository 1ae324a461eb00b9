(** C88, C89, C116: what the information structures say. *)
From Verif Require Import Base Ops Object Store Sys Info ToyEnv ToySys PropSys1.
From Coq Require Import List.
Import ListNotations.
Open Scope nat_scope.
Open Scope list_scope.

(** ** Specification *)
(** PKCS #11: text fields are padded with blanks and are not ended by a zero byte. *)
Definition padded (n : nat) (f : list N) : Prop := exists text k, f = text ++ repeat 32%N k /\ length f = n /\ Forall (fun b => b <> 0%N) text.
Definition reads_as (n : nat) (f : list N) (text : string) : Prop := exists pad, f = str text ++ pad /\ length f = n /\ (Forall (fun b => b = 0%N) pad \/ Forall (fun b => b = 32%N) pad).
(** A decimal number in ASCII digits. *)
Definition digit (b : N) : Prop := (48 <= b <= 57)%N.
Definition decimal (l : list N) : Z := fold_left (fun a b => 10 * a + (Z.of_N b - 48))%Z l 0%Z.
(** YYYYMMDDhhmmss00. *)
Definition is_utc (y mo d h mi s : Z) (f : list N) : Prop :=
  length f = 16 /\ Forall digit f /\ decimal (firstn 4 f) = y /\ decimal (firstn 2 (skipn 4 f)) = mo /\ decimal (firstn 2 (skipn 6 f)) = d /\
  decimal (firstn 2 (skipn 8 f)) = h /\ decimal (firstn 2 (skipn 10 f)) = mi /\ decimal (firstn 2 (skipn 12 f)) = s /\ skipn 14 f = [48; 48]%N.

(** ** C88: text fields *)
Definition C88_claim : Prop := forall t slot now g,
  padded 32 (i_manufacturer GetInfo) /\ padded 32 (i_description GetInfo) /\ padded 64 (sl_description (GetSlotInfo slot)) /\ padded 32 (sl_manufacturer (GetSlotInfo slot)) /\
  padded 32 (ti_manufacturer (GetTokenInfo t slot now g)) /\ padded 16 (ti_model (GetTokenInfo t slot now g)).
Theorem C88_refuted : ~ C88_claim.
Proof.
  intros C. destruct (C tok_fresh 1%Z 0%Z None) as [(text & k & E & _ & T) _].
  assert (Z : In 0%N (text ++ repeat 32%N k)) by (rewrite <- E; vm_compute; tauto). apply in_app_or in Z as [Z|Z]; [|apply repeat_spec in Z; discriminate]. rewrite Forall_forall in T. destruct (T _ Z eq_refl).
Qed.
Print Assumptions C88_refuted.

Lemma dig_small x : (0 <= x < 10)%Z -> dig x 1 = Z.to_N (x + 48).
Proof. intros R. unfold dig. rewrite Z.quot_1_r, Z.rem_small, Z.mod_small by lia. reflexivity. Qed.
Lemma dig_eq x d : (0 <= x)%Z -> (0 < d)%Z -> dig x d = Z.to_N ((x / d) mod 10 + 48).
Proof.
  intros X D. unfold dig. rewrite Z.quot_div_nonneg by lia. rewrite Z.rem_mod_nonneg by (try apply Z.div_pos; lia). pose proof (Z.mod_pos_bound (x / d) 10 ltac:(lia)). rewrite (Z.mod_small _ 256) by lia. reflexivity.
Qed.
Lemma dig_digit x d : (0 <= x)%Z -> (0 < d)%Z -> digit (dig x d).
Proof. intros X D. rewrite dig_eq by assumption. pose proof (Z.mod_pos_bound (x / d) 10 ltac:(lia)). unfold digit. lia. Qed.
Lemma dig_val x d : (0 <= x)%Z -> (0 < d)%Z -> (Z.of_N (dig x d) - 48 = (x / d) mod 10)%Z.
Proof. intros X D. rewrite dig_eq by assumption. pose proof (Z.mod_pos_bound (x / d) 10 ltac:(lia)). rewrite Z2N.id by lia. lia. Qed.

Lemma slot_text slot : sl_description (GetSlotInfo slot) = str "wolfSSL HSM slot ID " ++ [dig slot 10; dig slot 1] ++ repeat 0%N 42.
Proof. reflexivity. Qed.
Lemma serial_text t slot now g : ti_serial (GetTokenInfo t slot now g) = repeat 48%N 14 ++ [dig slot 10; dig slot 1].
Proof. reflexivity. Qed.
Lemma two_digits slot : (0 <= slot)%Z -> Forall digit [dig slot 10; dig slot 1] /\ decimal [dig slot 10; dig slot 1] = (slot mod 100)%Z.
Proof.
  intros P. split; [repeat constructor; apply dig_digit; lia|]. unfold decimal. cbn [fold_left]. pose proof (dig_val slot 10 P ltac:(lia)). pose proof (dig_val slot 1 P ltac:(lia)). rewrite Z.div_1_r in *.
  change 100%Z with (10 * 10)%Z. rewrite Z.rem_mul_r by lia. lia.
Qed.

(** The text is right and fills the field together with zero bytes; the slot's
    description ends in its number; serial numbers are digits and tell slots apart. *)
Theorem C88_partial t slot now g : (0 <= slot)%Z ->
  reads_as 32 (i_manufacturer GetInfo) "wolfpkcs11" /\ reads_as 32 (i_description GetInfo) "Implementation using wolfCrypt" /\
  (exists number, firstn 22 (sl_description (GetSlotInfo slot)) = str "wolfSSL HSM slot ID " ++ number /\ Forall digit number /\ decimal number = (slot mod 100)%Z) /\
  length (sl_description (GetSlotInfo slot)) = 64 /\ Forall (fun b => b = 0%N) (skipn 22 (sl_description (GetSlotInfo slot))) /\
  reads_as 32 (sl_manufacturer (GetSlotInfo slot)) "wolfpkcs11" /\
  reads_as 32 (ti_manufacturer (GetTokenInfo t slot now g)) "wolfpkcs11" /\ reads_as 16 (ti_model (GetTokenInfo t slot now g)) "wolfpkcs11" /\
  length (ti_serial (GetTokenInfo t slot now g)) = 16 /\ Forall digit (ti_serial (GetTokenInfo t slot now g)) /\ decimal (ti_serial (GetTokenInfo t slot now g)) = (slot mod 100)%Z.
Proof.
  intros P. destruct (two_digits slot P) as [D V].
  assert (Rd : forall n (f : list N) text, (exists k, f = str text ++ repeat 0%N k) -> length f = n -> reads_as n f text).
  { intros n f text [k E] L. exists (repeat 0%N k). split; [exact E|]. split; [exact L|]. left. apply Forall_forall. intros x I. apply repeat_spec in I. exact I. }
  split; [apply Rd; [exists 22; reflexivity|reflexivity]|]. split; [apply Rd; [exists 2; reflexivity|reflexivity]|].
  split; [exists [dig slot 10; dig slot 1]; split; [reflexivity|split; assumption]|]. split; [reflexivity|].
  split; [rewrite slot_text; change (skipn 22 _) with (repeat 0%N 42); apply Forall_forall; intros x I; exact (repeat_spec _ _ _ I)|].
  split; [apply Rd; [exists 22; reflexivity|reflexivity]|]. split; [apply Rd; [exists 22; reflexivity|reflexivity]|]. split; [apply Rd; [exists 6; reflexivity|reflexivity]|].
  split; [reflexivity|]. rewrite serial_text. split.
  - apply Forall_app. split; [|exact D]. apply Forall_forall. intros x I. apply repeat_spec in I. subst x. unfold digit. lia.
  - unfold decimal. rewrite fold_left_app. exact V.
Qed.
Print Assumptions C88_partial.
Corollary serial_distinct t t' now now' g g' a b : (0 <= a < 100)%Z -> (0 <= b < 100)%Z -> a <> b -> ti_serial (GetTokenInfo t a now g) <> ti_serial (GetTokenInfo t' b now' g').
Proof.
  intros A B Ne E. destruct (C88_partial t a now g ltac:(lia)) as (_ & _ & _ & _ & _ & _ & _ & _ & _ & _ & Va). destruct (C88_partial t' b now' g' ltac:(lia)) as (_ & _ & _ & _ & _ & _ & _ & _ & _ & _ & Vb).
  rewrite E, Vb, !Z.mod_small in Va by lia. lia.
Qed.

(** ** C89: the token's clock, limits and flags *)
(** The slot's flags: a token is present (bit 0); the slot is not removable (bit 1)
    and no hardware slot (bit 2). *)
Theorem C89_slot slot i : (0 <= i)%Z -> Z.testbit (sl_flags (GetSlotInfo slot)) i = (i =? 0)%Z.
Proof. intros I. cbn [GetSlotInfo sl_flags]. change CKF_TOKEN_PRESENT with (2 ^ 0)%Z. rewrite Z.pow2_bits_eqb by lia. apply Z.eqb_sym. Qed.
Print Assumptions C89_slot.
(** C_GetInfo: every flag is reserved and off (PKCS #11, CK_INFO), the interface is
    2.40, the library is of the version the slot and its firmware give. *)
Theorem C89_info slot i : Z.testbit (i_flags GetInfo) i = false /\ i_cryptoki GetInfo = (2, 40)%N /\
  i_version GetInfo = sl_hw (GetSlotInfo slot) /\ i_version GetInfo = sl_fw (GetSlotInfo slot).
Proof. split; [apply Z.bits_0|]. repeat split. Qed.
Print Assumptions C89_info.
(** ** C116 The library gives its version
    The package is 1.3.0 (configure.ac 10). *)
Definition C116_claim : Prop := forall major minor, (major < 100)%N -> (minor < 1000)%N ->
  VERSION_BYTES (HEX_VERSION major minor) = (major, minor mod 256)%N.
(** The version the code gives is 1.0, in every structure that has one. *)
Theorem C116_refuted : ~ C116_claim /\ i_version GetInfo = (1, 0)%N /\
  (forall slot, sl_hw (GetSlotInfo slot) = (1, 0)%N /\ sl_fw (GetSlotInfo slot) = (1, 0)%N) /\
  (forall t slot now g, ti_hw (GetTokenInfo t slot now g) = (1, 0)%N /\ ti_fw (GetTokenInfo t slot now g) = (1, 0)%N).
Proof.
  split; [|split; [reflexivity|split; intros; split; reflexivity]]. intro C. specialize (C 1 3)%N.
  assert (E : VERSION_BYTES (HEX_VERSION 1 3) = (1, 0)%N) by reflexivity. rewrite E in C. specialize (C eq_refl eq_refl). discriminate C.
Qed.
Print Assumptions C116_refuted.
(** For every version: the digits are put in hexadecimal, and the field of the minor number has the first two of
    its three digits.  The version is right only while the minor number is 0 and the major one has one digit. *)
Theorem C116_partial : forall major minor, (major < 100)%N -> (minor < 1000)%N ->
  VERSION_BYTES (HEX_VERSION major minor) = (16 * (major / 10) + major mod 10, 16 * (minor / 100) + (minor / 10) mod 10)%N /\
  (VERSION_BYTES (HEX_VERSION major minor) = (major, minor) <-> (major < 10 /\ minor = 0))%N.
Proof.
  intros a b A B.
  assert (E : VERSION_BYTES (HEX_VERSION a b) = (16 * (a / 10) + a mod 10, 16 * (b / 100) + (b / 10) mod 10)%N).
  { unfold VERSION_BYTES, HEX_VERSION, digits. cbn [digits_rev rev app fold_left].
    change (0 mod 10)%N with 0%N. change (0 / 10)%N with 0%N. change (0 mod 10)%N with 0%N. change (0 / 10)%N with 0%N. change (0 mod 10)%N with 0%N.
    rewrite (N.div_div b 10 10) by discriminate. change (10 * 10)%N with 100%N.
    change (2 ^ 24)%N with 16777216%N. change (2 ^ 16)%N with 65536%N.
    assert (a / 10 < 10)%N by (apply N.div_lt_upper_bound; lia). assert (b / 100 < 10)%N by (apply N.div_lt_upper_bound; lia).
    rewrite (N.mod_small (a / 10) 10) by assumption. rewrite (N.mod_small (b / 100) 10) by assumption.
    pose proof (N.mod_lt a 10 ltac:(discriminate)). pose proof (N.mod_lt b 10 ltac:(discriminate)). pose proof (N.mod_lt (b / 10) 10 ltac:(discriminate)).
    set (x := (a / 10)%N) in *. set (y := (a mod 10)%N) in *. set (u := (b / 100)%N) in *. set (v := ((b / 10) mod 10)%N) in *. set (w := (b mod 10)%N) in *.
    clearbody x y u v w. f_equal; lia. }
  split; [exact E|]. rewrite E. split.
  - intro Q. injection Q as Q1 Q2. lia.
  - intros [Q1 ->]. f_equal. rewrite N.div_small, N.mod_small by exact Q1. lia.
Qed.
Print Assumptions C116_partial.
(** What each flag means, bit by bit (PKCS #11, CK_TOKEN_INFO). *)
Definition locked (p : pin) (now : Z) : bool := andb (p_fail p =? 3)%Z (now <? p_last p + p_tmo p)%Z.
Definition flag_meaning (t : token) (now : Z) (i : Z) : bool :=
  if (i =? 0)%Z then true                                   (* CKF_RNG *)
  else if (i =? 2)%Z then true                              (* CKF_LOGIN_REQUIRED *)
  else if (i =? 3)%Z then (0 <? p_len (t_user t))%Z         (* CKF_USER_PIN_INITIALIZED *)
  else if (i =? 6)%Z then true                              (* CKF_CLOCK_ON_TOKEN *)
  else if (i =? 10)%Z then t_init t                         (* CKF_TOKEN_INITIALIZED *)
  else if (i =? 16)%Z then (0 <? p_fail (t_user t))%Z       (* CKF_USER_PIN_COUNT_LOW *)
  else if (i =? 17)%Z then (p_fail (t_user t) =? 2)%Z       (* CKF_USER_PIN_FINAL_TRY *)
  else if (i =? 18)%Z then locked (t_user t) now            (* CKF_USER_PIN_LOCKED *)
  else if (i =? 20)%Z then (0 <? p_fail (t_so t))%Z         (* CKF_SO_PIN_COUNT_LOW *)
  else if (i =? 21)%Z then (p_fail (t_so t) =? 2)%Z         (* CKF_SO_PIN_FINAL_TRY *)
  else if (i =? 22)%Z then locked (t_so t) now              (* CKF_SO_PIN_LOCKED *)
  else false.
Theorem C89_flags t slot now g i : (0 <= i)%Z -> Z.testbit (ti_flags (GetTokenInfo t slot now g)) i = flag_meaning t now i.
Proof.
  intros I. unfold GetTokenInfo. cbn [ti_flags]. unfold role_flags. change (MAX_FAILS - 1)%Z with 2%Z. change MAX_FAILS with 3%Z. unfold flag_meaning, locked.
  set (u0 := (0 <? p_fail (t_user t))%Z). set (u2 := (p_fail (t_user t) =? 2)%Z). set (s0 := (0 <? p_fail (t_so t))%Z). set (s2 := (p_fail (t_so t) =? 2)%Z).
  set (u3 := (p_fail (t_user t) =? 3)%Z && (now <? p_last (t_user t) + p_tmo (t_user t))%Z). set (s3 := (p_fail (t_so t) =? 3)%Z && (now <? p_last (t_so t) + p_tmo (t_so t))%Z).
  assert (U : u2 = true -> u3 = false). { unfold u2, u3. intros E. apply Z.eqb_eq in E. rewrite E. reflexivity. }
  assert (S : s2 = true -> s3 = false). { unfold s2, s3. intros E. apply Z.eqb_eq in E. rewrite E. reflexivity. }
  set (up := (0 <? p_len (t_user t))%Z). set (ti := t_init t). clearbody u0 u2 s0 s2 u3 s3 up ti.
  assert (R : (i < 23 \/ 23 <= i)%Z) by lia. destruct R as [R|R].
  - assert (J : In i (map Z.of_nat (seq 0 23))). { rewrite <- (Z2Nat.id i I). apply in_map. apply in_seq. lia. }
    clear I R. revert i J. apply Forall_forall. destruct u2; [rewrite (U eq_refl)|]; (destruct s2; [rewrite (S eq_refl)|]); destruct u0, s0, up, ti; try destruct u3; try destruct s3; cbn -[Z.testbit Z.lor Z.of_nat]; repeat constructor.
  - replace (if (i =? 0)%Z then _ else _) with false by (repeat match goal with |- context[Z.eqb i ?k] => destruct (Z.eqb_spec i k); [lia|] end; reflexivity).
    assert (T : forall a b, Z.testbit a i = false -> Z.testbit b i = false -> Z.testbit (Z.lor a b) i = false). { intros a b A B. rewrite Z.lor_spec, A, B. reflexivity. }
    assert (K : forall k, (0 <= k < 2 ^ 23)%Z -> Z.testbit k i = false). { intros k [K0 K1]. destruct (Z.eq_dec k 0) as [->|Nz]; [apply Z.testbit_0_l|]. apply Z.bits_above_log2; [lia|]. assert (Z.log2 k < 23)%Z by (apply Z.log2_lt_pow2; lia). lia. }
    assert (O : forall b f a, Z.testbit a i = false -> (0 <= f < 2 ^ 23)%Z -> Z.testbit (on b f a) i = false). { intros [] f a A F; unfold on; [apply T; [exact A|apply K; exact F]|exact A]. }
    apply O; [|cbv; split; congruence]. apply O; [|cbv; split; congruence].
    assert (G : forall a, Z.testbit a i = false -> Z.testbit (let acc := on s0 CKF_SO_PIN_COUNT_LOW a in if s2 then Z.lor acc CKF_SO_PIN_FINAL_TRY else on s3 CKF_SO_PIN_LOCKED acc) i = false).
    { intros a A. cbv zeta. destruct s2; [apply T; [|apply K; cbv; split; congruence]|apply O; [|cbv; split; congruence]]; apply O; try exact A; cbv; split; congruence. }
    assert (G2 : forall a, Z.testbit a i = false -> Z.testbit (let acc := on u0 CKF_USER_PIN_COUNT_LOW a in if u2 then Z.lor acc CKF_USER_PIN_FINAL_TRY else on u3 CKF_USER_PIN_LOCKED acc) i = false).
    { intros a A. cbv zeta. destruct u2; [apply T; [|apply K; cbv; split; congruence]|apply O; [|cbv; split; congruence]]; apply O; try exact A; cbv; split; congruence. }
    apply G2, G, K. cbv; split; congruence.
Qed.
Print Assumptions C89_flags.

(** The clock, for the years four digits can hold. *)
Definition real_time (t : tm) : Prop :=
  (0 <= 1900 + tm_year t <= 9999 /\ 0 <= tm_mon t <= 11 /\ 1 <= tm_mday t <= 31 /\ 0 <= tm_hour t <= 23 /\ 0 <= tm_min t <= 59 /\ 0 <= tm_sec t <= 60)%Z.
Lemma two x : (0 <= x < 100)%Z -> Forall digit [dig x 10; dig x 1] /\ decimal [dig x 10; dig x 1] = x.
Proof. intros R. destruct (two_digits x ltac:(lia)) as [D V]. rewrite Z.mod_small in V by lia. auto. Qed.
Theorem C89_clock t slot now g : real_time g ->
  is_utc (1900 + tm_year g) (tm_mon g + 1) (tm_mday g) (tm_hour g) (tm_min g) (tm_sec g) (ti_utc (GetTokenInfo t slot now (Some g))).
Proof.
  intros (Y & Mo & D & H & Mi & S). unfold GetTokenInfo. cbn [ti_utc]. unfold utc_digits. rewrite (Z.add_comm 1 (tm_mon g)).
  destruct (two (tm_mon g + 1) ltac:(lia)) as [A1 B1]. destruct (two (tm_mday g) ltac:(lia)) as [A2 B2]. destruct (two (tm_hour g) ltac:(lia)) as [A3 B3]. destruct (two (tm_min g) ltac:(lia)) as [A4 B4]. destruct (two (tm_sec g) ltac:(lia)) as [A5 B5].
  change (str "00") with [48; 48]%N. cbn [app]. unfold is_utc. cbn [length firstn skipn].
  split; [reflexivity|]. split.
  { inversion_clear A1 as [|? ? ? A1']; inversion_clear A1'; inversion_clear A2 as [|? ? ? A2']; inversion_clear A2'; inversion_clear A3 as [|? ? ? A3']; inversion_clear A3'; inversion_clear A4 as [|? ? ? A4']; inversion_clear A4'; inversion_clear A5 as [|? ? ? A5']; inversion_clear A5'.
    repeat (constructor; [first [assumption|apply dig_digit; lia|unfold digit; lia]|]). constructor. }
  split; [|repeat split; assumption]. set (y := (1900 + tm_year g)%Z) in *. unfold decimal. cbn [fold_left]. rewrite !dig_val by lia. rewrite Z.div_1_r.
  assert (E1 : ((y / 1000) mod 10 = y / 1000)%Z) by (apply Z.mod_small; split; [apply Z.div_pos; lia|apply Z.div_lt_upper_bound; lia]). rewrite E1.
  change 1000%Z with (10 * 10 * 10)%Z. change 100%Z with (10 * 10)%Z. rewrite <- !Z.div_div by lia. set (q := (y / 10)%Z). set (r := (q / 10)%Z). set (z := (r / 10)%Z).
  pose proof (Z.div_mod y 10 ltac:(lia)). pose proof (Z.div_mod q 10 ltac:(lia)). pose proof (Z.div_mod r 10 ltac:(lia)). fold q in H0. fold r in H1. fold z in H2. lia.
Qed.
Print Assumptions C89_clock.
(** When gmtime fails the date is all zeros. *)
Theorem C89_no_clock t slot now : ti_utc (GetTokenInfo t slot now None) = repeat 48%N 16.
Proof. reflexivity. Qed.
Print Assumptions C89_no_clock.

(** The largest number of sessions is the one reported. *)
Theorem C89_sessions w d s rnd fl s' o t slot now g : reach w (sys0 d) s -> (0 < s_count s)%Z ->
  step w rnd s (OOpenSession 1 fl) = Ok (s', o) -> wants_serial fl = true -> wants_rw fl = true \/ t_login (s_tok s) <> RW_SO ->
  let most := Z.to_nat (if wants_rw fl then ti_max_rw (GetTokenInfo t slot now g) else ti_max_sess (GetTokenInfo t slot now g)) in
  (at_least w s most -> o = OutRv CKR_SESSION_COUNT) /\ (~ at_least w s most -> exists h, o = OutH CKR_OK h).
Proof.
  intros R C St W L most. destruct (C01_session_count w d s rnd fl s' o R C St) as [_ K]. specialize (K W L). replace most with 70; [exact K|]. unfold most. destruct (wants_rw fl); reflexivity.
Qed.
Print Assumptions C89_sessions.

(** The lengths of PINs. [sets c] is the PIN a call would set. *)
Definition sets (c : op) : option (list N) :=
  match c with OInitToken _ pin _ => Some pin | OInitPIN _ pin => Some pin | OSetPIN _ _ new => Some new | _ => None end.
Definition CKR_PIN_LEN_RANGE : Z := 0xA2.
Definition in_range (i : token_info) (pin : list N) : Prop := (ti_min_pin i <= zlen pin <= ti_max_pin i)%Z.
(** The SO sets the user's PIN: a PIN outside the limits is refused as such. *)
Definition C89_pin_claim : Prop := forall w d s rnd h pin s' o t slot now g fl, reach w (sys0 d) s -> info w s h = Some (OutInfo CKR_OK RW_SO fl) ->
  ~ in_range (GetTokenInfo t slot now g) pin -> step w rnd s (OInitPIN h pin) = Ok (s', o) -> out_rv o = CKR_PIN_LEN_RANGE.
Definition so_in : list op := setup ++ [OOpenSession 1 RW; OLogin H2 CKU_SO sopin (Some 0%Z)].
Theorem C89_refuted : ~ C89_pin_claim.
Proof.
  intros C. assert (E : step tw (rnd 9) (after so_in) (OInitPIN H2 [49; 50]%N) = Ok (after so_in, OutRv CKR_PIN_INCORRECT)) by (vm_compute; reflexivity).
  specialize (C tw nofiles (after so_in) (rnd 9) H2 [49; 50]%N (after so_in) (OutRv CKR_PIN_INCORRECT) tok_fresh 1%Z 0%Z None 6%Z (after_reach so_in ltac:(vm_compute; exact I))).
  discriminate C; [vm_compute; reflexivity| |exact E]. unfold in_range. cbn. unfold zlen. cbn. lia.
Qed.
Print Assumptions C89_refuted.
(** No PIN outside the reported limits is ever set; the SO can set any user PIN within them. *)
Theorem C89_partial w s rnd c pin s' o t slot now g : sets c = Some pin -> step w rnd s c = Ok (s', o) ->
  (~ in_range (GetTokenInfo t slot now g) pin -> s' = s /\ out_rv o <> CKR_OK) /\
  (forall h fl, c = OInitPIN h pin -> in_range (GetTokenInfo t slot now g) pin -> info w s h = Some (OutInfo CKR_OK RW_SO fl) -> out_rv o <> CKR_OK -> out_rv o = CKR_FUNCTION_FAILED).
Proof.
  assert (Q : pin_len_ok pin = true <-> in_range (GetTokenInfo t slot now g) pin). { unfold pin_len_ok, in_range. cbn [ti_min_pin ti_max_pin GetTokenInfo]. rewrite andb_true_iff, !Z.leb_le. reflexivity. }
  intros St E. split.
  - intros Out. assert (F : pin_len_ok pin = false) by (destruct (pin_len_ok pin); [destruct Out; apply Q; reflexivity|reflexivity]).
    destruct c; try discriminate St; injection St as ->; cbn [step] in E; unfold with_slot, with_sess, need_lib, rv_ in E; (destruct (0 <? s_count s)%Z; [|injection E as <- <-; split; [reflexivity|discriminate]]).
    + destruct (slot_ok slot0); [|injection E as <- <-; split; [reflexivity|discriminate]]. unfold InitToken in E. rewrite F in E. cbn in E. injection E as <- <-. split; [reflexivity|discriminate].
    + destruct (sess_get s h) as [x|]; [|injection E as <- <-; split; [reflexivity|discriminate]]. unfold InitPIN in E. rewrite F in E. destruct (GetState _ _ =? _)%Z; cbn in E; injection E as <- <-; (split; [reflexivity|discriminate]).
    + destruct (sess_get s h) as [x|]; [|injection E as <- <-; split; [reflexivity|discriminate]]. unfold SetPIN in E. rewrite F in E. destruct (pin_len_ok old); cbn in E; injection E as <- <-; (split; [reflexivity|discriminate]).
  - intros h fl -> Rg I Nok. rewrite info_eq in I. cbn [step] in E. unfold with_sess, need_lib, rv_ in E. destruct (0 <? s_count s)%Z; [|discriminate I]. destruct (sess_get s h) as [x|]; [|discriminate I]. injection I as I _.
    unfold InitPIN in E. rewrite I in E. cbn [negb] in E. change (RW_SO =? RW_SO)%Z with true in E. cbn [negb] in E. rewrite (proj2 Q Rg) in E. cbn [negb] in E.
    destruct (SetUserPin w rnd s pin) as [[c s1]|?|?]; cbn [bind] in E; try discriminate E. unfold rv_ in E. injection E as <- <-. cbn [out_rv] in *. destruct (c =? 0)%Z; [destruct (Nok eq_refl)|reflexivity].
Qed.
Print Assumptions C89_partial.
Example C89_case : exists s' o, step tw (rnd 9) (after so_in) (OInitPIN H2 (repeat 49%N 32)) = Ok (s', o) /\ out_rv o = CKR_OK /\ in_range (GetTokenInfo tok_fresh 1 0 None) (repeat 49%N 32).
Proof. eexists. eexists. split; [vm_compute; reflexivity|]. split; [reflexivity|]. unfold in_range. cbn. unfold zlen. cbn. lia. Qed.
Example C89_clock_case : ti_utc (GetTokenInfo tok_fresh 1 0 (Some (mkTm 126 10 17 14 5 9))) = str "2026111714050900" /\ ti_flags (GetTokenInfo (s_tok (after so_in)) 1 0 None) = 0x44D%Z /\ ti_serial (GetTokenInfo tok_fresh 1 0 None) = str "0000000000000001".
Proof. vm_compute. auto. Qed.

