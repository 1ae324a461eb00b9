(** Proofs about the storage primitives. *)
From Verif Require Import Base Codec.

Lemma st_read_app (d t : list N) : st_read (zlen d) (d ++ t) = Ok (d, t).
Proof.
  unfold st_read. rewrite zlen_app.
  pose proof (zlen_nonneg _ d). pose proof (zlen_nonneg _ t).
  replace (zlen d <? 0)%Z with false by lia.
  replace (zlen d + zlen t <? zlen d)%Z with false by lia.
  unfold zlen. rewrite Nat2Z.id.
  rewrite firstn_app, skipn_app, Nat.sub_diag, firstn_all, skipn_all.
  cbn. now rewrite app_nil_r.
Qed.

Lemma st_read_short (n : Z) (f : list N) : (zlen f < n)%Z -> st_read n f = Err BUFFER_E.
Proof.
  intros H. unfold st_read. destruct (n <? 0)%Z; auto.
  now replace (zlen f <? n)%Z with true by lia.
Qed.

Lemma st_read_ok n f d r : st_read n f = Ok (d, r) -> f = d ++ r /\ zlen d = n.
Proof.
  unfold st_read. destruct (n <? 0)%Z eqn:E1; [discriminate|].
  destruct (zlen f <? n)%Z eqn:E2; [discriminate|]. intros H; inversion H; subst.
  split; [now rewrite firstn_skipn|].
  unfold zlen in *. rewrite firstn_length. lia.
Qed.

Lemma st_read_res n f : (exists d r, st_read n f = Ok (d, r)) \/ st_read n f = Err BUFFER_E.
Proof.
  unfold st_read. destruct (n <? 0)%Z; auto. destruct (zlen f <? n)%Z; eauto.
Qed.

Lemma st_write_all (d : list N) : st_write d (zlen d) = Ok d.
Proof.
  unfold st_write. pose proof (zlen_nonneg _ d).
  replace (zlen d <? 0)%Z with false by lia.
  replace (zlen d <? zlen d)%Z with false by lia.
  unfold zlen. now rewrite Nat2Z.id, firstn_all.
Qed.

Lemma w_be_length n v : length (w_be n v) = n.
Proof. induction n; cbn; auto. Qed.

Lemma w_be_ok n v : bytes_ok (w_be n v).
Proof.
  induction n as [|n IH]; cbn [w_be]; constructor; auto.
  unfold byte_ok. pose proof (Z.mod_pos_bound (Z.shiftr v (8 * Z.of_nat n)) 256). lia.
Qed.

(** The value denoted by big-endian bytes. *)
Fixpoint be (l : list N) : Z :=
  match l with
  | [] => 0
  | b :: t => Z.of_N b * 2 ^ (8 * zlen t) + be t
  end%Z.

Lemma be_bounds l : bytes_ok l -> (0 <= be l < 2 ^ (8 * zlen l))%Z.
Proof.
  induction 1 as [|b t Hb Ht IH]; cbn [be]; [change (2 ^ (8 * @zlen N []))%Z with 1%Z; lia|].
  unfold byte_ok in Hb. rewrite zlen_cons.
  replace (8 * (1 + zlen t))%Z with (8 + 8 * zlen t)%Z by lia.
  pose proof (zlen_nonneg _ t).
  rewrite Z.pow_add_r by lia. change (2 ^ 8)%Z with 256%Z.
  set (P := (2 ^ (8 * zlen t))%Z) in *.
  assert (Z.of_N b * P <= 255 * P)%Z by (apply Z.mul_le_mono_nonneg_r; lia).
  assert (0 <= Z.of_N b * P)%Z by (apply Z.mul_nonneg_nonneg; lia). lia.
Qed.

Lemma be_w_be n v : be (w_be n v) = (v mod 2 ^ (8 * Z.of_nat n))%Z.
Proof.
  induction n as [|n IH]; [cbn [w_be be]; change (2 ^ (8 * Z.of_nat 0))%Z with 1%Z; now rewrite Z.mod_1_r|].
  cbn [w_be be]. rewrite IH.
  unfold zlen. rewrite w_be_length.
  rewrite Z2N.id by (apply Z.mod_pos_bound; lia).
  rewrite Z.shiftr_div_pow2 by lia.
  replace (8 * Z.of_nat (S n))%Z with (8 * Z.of_nat n + 8)%Z by lia.
  rewrite Z.pow_add_r by lia. change (2 ^ 8)%Z with 256%Z.
  rewrite Z.rem_mul_r by (try apply Z.pow_nonzero; lia). lia.
Qed.

(** Accumulating with a conversion that is the identity modulo [m]. *)
Lemma fold_conv (conv : Z -> Z) (m : Z) :
  (0 < m)%Z ->
  (forall z, (conv z mod m = z mod m)%Z) ->
  forall t a, (fold_left (fun acc x => conv (conv (acc * 256) + Z.of_N x)) t a mod m =
          (a * 2 ^ (8 * zlen t) + be t) mod m)%Z.
Proof.
  intros Hm Hc. induction t as [|b t IH]; intros a; cbn [fold_left be].
  - unfold zlen; cbn. now rewrite Z.mul_1_r, Z.add_0_r.
  - rewrite IH, zlen_cons. pose proof (zlen_nonneg _ t).
    replace (8 * (1 + zlen t))%Z with (8 + 8 * zlen t)%Z by lia.
    rewrite Z.pow_add_r by lia. change (2 ^ 8)%Z with 256%Z.
    set (P := (2 ^ (8 * zlen t))%Z).
    assert (Hk : forall z, exists k, (conv z = z + k * m)%Z).
    { intros z. exists (conv z / m - z / m)%Z.
      pose proof (Z.div_mod (conv z) m ltac:(lia)). pose proof (Z.div_mod z m ltac:(lia)).
      specialize (Hc z). lia. }
    destruct (Hk (a * 256)%Z) as [k1 E1]. rewrite E1.
    destruct (Hk (a * 256 + k1 * m + Z.of_N b)%Z) as [k2 E2]. rewrite E2.
    replace ((a * 256 + k1 * m + Z.of_N b + k2 * m) * P + be t)%Z
      with (a * (256 * P) + (Z.of_N b * P + be t) + ((k1 + k2) * P) * m)%Z by ring.
    apply Z.mod_add. lia.
Qed.

Lemma i32_mod z : (i32 z mod 2 ^ 32 = z mod 2 ^ 32)%Z.
Proof.
  unfold i32. pose proof (Z.mod_pos_bound z (2^32) ltac:(lia)).
  destruct (z mod 2 ^ 32 <? 2 ^ 31)%Z.
  - apply Z.mod_mod. lia.
  - replace (z mod 2^32 - 2^32)%Z with (z mod 2^32 + (-1) * 2^32)%Z by lia.
    rewrite Z.mod_add by lia. apply Z.mod_mod. lia.
Qed.
Lemma i64_mod z : (i64 z mod 2 ^ 64 = z mod 2 ^ 64)%Z.
Proof.
  unfold i64. pose proof (Z.mod_pos_bound z (2^64) ltac:(lia)).
  destruct (z mod 2 ^ 64 <? 2 ^ 63)%Z.
  - apply Z.mod_mod. lia.
  - replace (z mod 2^64 - 2^64)%Z with (z mod 2^64 + (-1) * 2^64)%Z by lia.
    rewrite Z.mod_add by lia. apply Z.mod_mod. lia.
Qed.
Lemma u64_mod z : (u64 z mod 2 ^ 64 = z mod 2 ^ 64)%Z.
Proof. unfold u64. apply Z.mod_mod. lia. Qed.

Lemma i32_id z : (- 2^31 <= z < 2^31)%Z -> i32 z = z.
Proof.
  intros H. unfold i32.
  destruct (Z_lt_ge_dec z 0).
  - assert (E : (z mod 2^32 = z + 2^32)%Z).
    { symmetry. apply Z.mod_unique with (-1)%Z; lia. }
    rewrite E. now replace (z + 2^32 <? 2^31)%Z with false by lia; lia.
  - rewrite Z.mod_small by lia. now replace (z <? 2^31)%Z with true by lia.
Qed.
Lemma i64_id z : (- 2^63 <= z < 2^63)%Z -> i64 z = z.
Proof.
  intros H. unfold i64.
  destruct (Z_lt_ge_dec z 0).
  - assert (E : (z mod 2^64 = z + 2^64)%Z).
    { symmetry. apply Z.mod_unique with (-1)%Z; lia. }
    rewrite E. now replace (z + 2^64 <? 2^63)%Z with false by lia; lia.
  - rewrite Z.mod_small by lia. now replace (z <? 2^63)%Z with true by lia.
Qed.
Lemma u32_id z : (0 <= z < 2^32)%Z -> u32 z = z.
Proof. intros. unfold u32. now apply Z.mod_small. Qed.
Lemma u64_id z : (0 <= z < 2^64)%Z -> u64 z = z.
Proof. intros. unfold u64. now apply Z.mod_small. Qed.

Lemma i32_range z : (- 2^31 <= i32 z < 2^31)%Z.
Proof.
  unfold i32. pose proof (Z.mod_pos_bound z (2^32) ltac:(lia)).
  destruct (z mod 2 ^ 32 <? 2 ^ 31)%Z eqn:E; lia.
Qed.
Lemma i64_range z : (- 2^63 <= i64 z < 2^63)%Z.
Proof.
  unfold i64. pose proof (Z.mod_pos_bound z (2^64) ltac:(lia)).
  destruct (z mod 2 ^ 64 <? 2 ^ 63)%Z eqn:E; lia.
Qed.
Lemma i32_congr a b : (a mod 2^32 = b mod 2^32)%Z -> i32 a = i32 b.
Proof. unfold i32. now intros ->. Qed.
Lemma i64_congr a b : (a mod 2^64 = b mod 2^64)%Z -> i64 a = i64 b.
Proof. unfold i64. now intros ->. Qed.

Lemma r_be_mod conv m l :
  (0 < m)%Z -> (forall z, (conv z mod m = z mod m)%Z) ->
  (r_be conv l mod m = be l mod m)%Z.
Proof.
  intros Hm Hc. destruct l as [|b t]; [reflexivity|]. cbn [r_be be].
  now rewrite (fold_conv conv m Hm Hc).
Qed.

(** The converted accumulator is already in the range of the type, if it has at
    least two bytes. *)
Lemma fold_conv_range (conv : Z -> Z) (P : Z -> Prop) :
  (forall z, P (conv z)) -> forall t a, P a ->
  P (fold_left (fun acc x => conv (conv (acc * 256) + Z.of_N x))%Z t a).
Proof. intros Hc t. induction t; cbn; auto. Qed.

Lemma r_int_w v t : (- 2^31 <= v < 2^31)%Z -> r_int (w_int v ++ t) = Ok (v, t).
Proof.
  intros H. unfold r_int, w_int.
  change 4%Z with (Z.of_nat 4). rewrite <- (w_be_length 4 v) at 1.
  fold (zlen (w_be 4 v)). rewrite st_read_app. cbn [bind]. repeat f_equal.
  assert (R : (- 2^31 <= r_be i32 (w_be 4 v) < 2^31)%Z).
  { cbn [w_be r_be]. apply fold_conv_range with (P := fun z => (- 2^31 <= z < 2^31)%Z).
    - apply i32_range.
    - pose proof (Z.mod_pos_bound (Z.shiftr v (8 * Z.of_nat 3)) 256 ltac:(lia)). lia. }
  rewrite <- (i32_id (r_be _ _)) by exact R. rewrite <- (i32_id v) by exact H.
  rewrite (i32_id v) at 1 by exact H.
  apply i32_congr. rewrite (r_be_mod i32 (2^32)); [|lia|apply i32_mod].
  rewrite be_w_be. change (8 * Z.of_nat 4)%Z with 32%Z. apply Z.mod_mod; lia.
Qed.

Lemma r_time_w v t : (- 2^63 <= v < 2^63)%Z -> r_time (w_time v ++ t) = Ok (v, t).
Proof.
  intros H. unfold r_time, w_time.
  change 8%Z with (Z.of_nat 8) at 1. rewrite <- (w_be_length 8 v) at 1.
  fold (zlen (w_be 8 v)). rewrite st_read_app. cbn [bind]. repeat f_equal.
  assert (R : (- 2^63 <= r_be i64 (w_be 8 v) < 2^63)%Z).
  { cbn [w_be r_be]. apply fold_conv_range with (P := fun z => (- 2^63 <= z < 2^63)%Z).
    - apply i64_range.
    - pose proof (Z.mod_pos_bound (Z.shiftr v (8 * Z.of_nat 7)) 256 ltac:(lia)). lia. }
  rewrite <- (i64_id (r_be _ _)) by exact R. rewrite <- (i64_id v) by exact H.
  rewrite (i64_id v) at 1 by exact H.
  apply i64_congr. rewrite (r_be_mod i64 (2^64)); [|lia|apply i64_mod].
  rewrite be_w_be. change (8 * Z.of_nat 8)%Z with 64%Z. apply Z.mod_mod; lia.
Qed.

Lemma r_ulong_w v t : (0 <= v < 2^64)%Z -> r_ulong (w_ulong v ++ t) = Ok (v, t).
Proof.
  intros H. unfold r_ulong, w_ulong.
  change 8%Z with (Z.of_nat 8) at 1. rewrite <- (w_be_length 8 v) at 1.
  fold (zlen (w_be 8 v)). rewrite st_read_app. cbn [bind]. repeat f_equal.
  assert (R : (0 <= r_be u64 (w_be 8 v) < 2^64)%Z).
  { cbn [w_be r_be]. apply fold_conv_range with (P := fun z => (0 <= z < 2^64)%Z).
    - intros z. unfold u64. apply Z.mod_pos_bound; lia.
    - pose proof (Z.mod_pos_bound (Z.shiftr v (8 * Z.of_nat 7)) 256 ltac:(lia)). lia. }
  rewrite <- (Z.mod_small (r_be _ _) (2^64)) by exact R.
  rewrite (r_be_mod u64 (2^64)); [|lia|apply u64_mod].
  rewrite be_w_be. change (8 * Z.of_nat 8)%Z with 64%Z. rewrite Z.mod_mod by lia.
  now apply Z.mod_small.
Qed.

(** Or-ing shifted bytes is adding them. *)
Lemma lor_add a b k : (0 <= k)%Z -> (0 <= b < 2^k)%Z -> Z.lor (a * 2^k) b = (a * 2^k + b)%Z.
Proof.
  intros Hk Hb. symmetry.
  assert (D : Z.land (a * 2^k) b = 0%Z).
  { apply Z.bits_inj'. intros n Hn. rewrite Z.land_spec, Z.bits_0.
    destruct (Z_lt_ge_dec n k).
    - rewrite Z.mul_pow2_bits_low by lia. reflexivity.
    - rewrite <- (Z.mod_small b (2^k)) by lia.
      rewrite Z.mod_pow2_bits_high by lia. apply andb_false_r. }
  rewrite Z.add_nocarry_lxor by exact D. now apply Z.lxor_lor.
Qed.

Lemma or4 a b c d : (a < 256 -> b < 256 -> c < 256 -> d < 256 ->
  u32 (Z.lor (Z.lor (i32 (Z.of_N a * 2^24)) (Z.of_N b * 2^16))
             (Z.lor (Z.of_N c * 2^8) (Z.of_N d))) = be [a; b; c; d])%N.
Proof.
  intros Ha Hb Hc Hd. unfold be, zlen. cbn [length].
  change (8 * Z.of_nat 3)%Z with 24%Z. change (8 * Z.of_nat 2)%Z with 16%Z.
  change (8 * Z.of_nat 1)%Z with 8%Z. change (8 * Z.of_nat 0)%Z with 0%Z.
  change (2^0)%Z with 1%Z.
  rewrite (lor_add (Z.of_N c) (Z.of_N d) 8) by (change (2^8)%Z with 256%Z; lia).
  assert (exists q, i32 (Z.of_N a * 2^24) = (q * 2^24)%Z /\ ((q - Z.of_N a) mod 256 = 0)%Z) as [q [-> Hq]].
  { unfold i32. rewrite (Z.mod_small (Z.of_N a * 2^24)) by lia.
    destruct (_ <? _)%Z; [exists (Z.of_N a)|exists (Z.of_N a - 256)%Z]; (split; [lia|]).
    - now rewrite Z.sub_diag.
    - replace (Z.of_N a - 256 - Z.of_N a)%Z with ((-1) * 256)%Z by lia. apply Z.mod_mul; lia. }
  rewrite (lor_add q (Z.of_N b * 2^16) 24) by lia.
  replace (q * 2^24 + Z.of_N b * 2^16)%Z with ((q * 2^8 + Z.of_N b) * 2^16)%Z by lia.
  rewrite lor_add by lia.
  unfold u32.
  apply Z.mod_divide in Hq; [|lia]. destruct Hq as [k Hk].
  symmetry. apply Z.mod_unique with k; [lia|].
  assert (q = k * 256 + Z.of_N a)%Z as -> by lia. lia.
Qed.

Lemma r_word32_w v t : (0 <= v < 2^32)%Z -> r_word32 (w_word32 v ++ t) = Ok (v, t).
Proof.
  intros H. unfold r_word32, w_word32.
  change 4%Z with (Z.of_nat 4) at 1. rewrite <- (w_be_length 4 v) at 1.
  fold (zlen (w_be 4 v)). rewrite st_read_app. cbn [bind].
  pose proof (w_be_ok 4 v) as Hok. pose proof (be_w_be 4 v) as Hbe.
  remember (w_be 4 v) as l eqn:El. pose proof (w_be_length 4 v) as Hl. rewrite <- El in Hl.
  destruct l as [|a [|b [|c [|d [|]]]]]; try discriminate Hl.
  unfold bytes_ok in Hok. rewrite !Forall_cons_iff in Hok. unfold byte_ok in Hok.
  cbn [nth]. rewrite or4 by tauto. rewrite Hbe.
  change (8 * Z.of_nat 4)%Z with 32%Z. now rewrite Z.mod_small by lia.
Qed.

Lemma r_word32_range f v r : r_word32 f = Ok (v, r) -> (0 <= v < 2^32)%Z.
Proof.
  unfold r_word32. destruct (st_read 4 f) as [[n r']| |]; cbn; try discriminate.
  intros H; inversion H. unfold u32. apply Z.mod_pos_bound; lia.
Qed.

Lemma w_array_all d : (zlen d < 2^31)%Z -> w_array d (zlen d) = Ok (w_word32 (zlen d) ++ d).
Proof.
  intros H. pose proof (zlen_nonneg _ d). unfold w_array.
  rewrite u32_id, i32_id by lia. now rewrite st_write_all.
Qed.

Lemma r_array_w max d t :
  (zlen d <= max)%Z -> (zlen d < 2^31)%Z ->
  r_array max ((w_word32 (zlen d) ++ d) ++ t) = Ok (d, t).
Proof.
  intros Hm H. pose proof (zlen_nonneg _ d). unfold r_array.
  rewrite <- app_assoc, r_word32_w by lia. cbn [bind].
  replace (max <? zlen d)%Z with false by lia. rewrite i32_id by lia. apply st_read_app.
Qed.

Lemma r_alloc_w d t :
  (zlen d < 2^31)%Z -> r_alloc ((w_word32 (zlen d) ++ d) ++ t) = Ok (d, t).
Proof.
  intros H. pose proof (zlen_nonneg _ d). unfold r_alloc.
  rewrite <- app_assoc. change (w_word32 (zlen d)) with (w_int (zlen d)).
  rewrite r_int_w by lia. cbn [bind].
  replace (zlen d <? 0)%Z with false by lia. apply st_read_app.
Qed.

Lemma r_bool_w b t : r_bool (w_bool b ++ t) = Ok (b, t).
Proof.
  unfold r_bool, w_bool. change 1%Z with (zlen [b]) at 1. now rewrite st_read_app.
Qed.

(** * Prefix behaviour: a reader that succeeded on a file gives the same answer
    with more bytes behind it, and fails on every strict prefix of what it
    consumed. *)
Definition stable {A} (rd : list N -> res (A * list N)) : Prop :=
  forall f v r, rd f = Ok (v, r) ->
    (exists d, f = d ++ r) /\ forall t, rd (f ++ t) = Ok (v, r ++ t).

Definition clean {A} (rd : list N -> res (A * list N)) : Prop :=
  forall f, match rd f with Undef _ => False | _ => True end.

(** A reader is [pfx_fail] if it succeeds on [f] consuming everything, it fails on
    every strict prefix. *)
Lemma stable_prefix_fails {A} (rd : list N -> res (A * list N)) f v :
  stable rd -> clean rd -> rd f = Ok (v, []) ->
  forall p q, f = p ++ q -> q <> [] -> exists e, rd p = Err e.
Proof.
  intros Hs Hc Hf p q -> Hq. specialize (Hc p).
  destruct (rd p) as [[v' r]|e|u] eqn:E; [|eauto|contradiction].
  destruct (Hs _ _ _ E) as [_ Ht]. specialize (Ht q). rewrite Hf in Ht.
  injection Ht as _ E2. symmetry in E2. apply app_eq_nil in E2. tauto.
Qed.

Lemma st_read_stable n : stable (st_read n).
Proof.
  intros f v r H. pose proof (st_read_ok _ _ _ _ H) as [-> <-]. split; [eauto|].
  intros t. rewrite <- app_assoc. apply st_read_app.
Qed.
Lemma st_read_clean n : clean (st_read n).
Proof. intros f. destruct (st_read_res n f) as [(d & r & ->)| ->]; exact I. Qed.

Lemma map_stable {A B} (rd : list N -> res (A * list N)) (g : A -> B) :
  stable rd -> stable (fun f => '(v, r) <- rd f ;; Ok (g v, r)).
Proof.
  intros H f v r. destruct (rd f) as [[a r']| |] eqn:E; cbn; try discriminate.
  intros E2; inversion E2; subst. destruct (H _ _ _ E) as [Hd Ht]. split; [exact Hd|].
  intros t. now rewrite Ht.
Qed.
Lemma map_clean {A B} (rd : list N -> res (A * list N)) (g : A -> B) :
  clean rd -> clean (fun f => '(v, r) <- rd f ;; Ok (g v, r)).
Proof. intros H f. specialize (H f). destruct (rd f) as [[a r']| |]; cbn; auto. Qed.

Lemma bind_stable {A B} (rd : list N -> res (A * list N)) (k : A -> list N -> res (B * list N)) :
  stable rd -> (forall a, stable (k a)) ->
  stable (fun f => '(v, r) <- rd f ;; k v r).
Proof.
  intros H Hk f v r. destruct (rd f) as [[a r']| |] eqn:E; cbn; try discriminate.
  intros E2. destruct (H _ _ _ E) as [[d Hd] Ht]. destruct (Hk a _ _ _ E2) as [[d2 Hd2] Ht2].
  split.
  - exists (d ++ d2). now rewrite <- app_assoc, <- Hd2.
  - intros t. rewrite Ht. cbn. apply Ht2.
Qed.
Lemma bind_clean {A B} (rd : list N -> res (A * list N)) (k : A -> list N -> res (B * list N)) :
  clean rd -> (forall a, clean (k a)) ->
  clean (fun f => '(v, r) <- rd f ;; k v r).
Proof. intros H Hk f. specialize (H f). destruct (rd f) as [[a r']| |]; cbn; auto. apply Hk. Qed.

Lemma ret_stable {A} (a : A) : stable (fun f => Ok (a, f)).
Proof. intros f v r H; inversion H; subst. split; [now exists []|reflexivity]. Qed.
Lemma ret_clean {A} (a : A) : clean (fun f => Ok (a, f)).
Proof. intros f; exact I. Qed.
Lemma err_stable {A} e : stable (fun _ => @Err (A * list N) e).
Proof. intros f v r H; discriminate. Qed.
Lemma err_clean {A} e : clean (fun _ => @Err (A * list N) e).
Proof. intros f; exact I. Qed.
Lemma if_stable {A} (b : bool) (x y : list N -> res (A * list N)) :
  stable x -> stable y -> stable (fun f => if b then x f else y f).
Proof. now destruct b. Qed.
Lemma if_clean {A} (b : bool) (x y : list N -> res (A * list N)) :
  clean x -> clean y -> clean (fun f => if b then x f else y f).
Proof. now destruct b. Qed.

Lemma r_int_stable : stable r_int.
Proof. exact (map_stable _ _ (st_read_stable 4)). Qed.
Lemma r_int_clean : clean r_int.
Proof. exact (map_clean _ _ (st_read_clean 4)). Qed.
Lemma r_bool_stable : stable r_bool.
Proof. exact (map_stable _ (fun b => nth 0 b 0%N) (st_read_stable 1)). Qed.
Lemma r_bool_clean : clean r_bool.
Proof. exact (map_clean _ (fun b => nth 0 b 0%N) (st_read_clean 1)). Qed.
Lemma r_word32_stable : stable r_word32.
Proof.
  intros f v r H. unfold r_word32 in *.
  destruct (st_read 4 f) as [[a r']| |] eqn:E; cbn [bind] in H; try discriminate.
  destruct (st_read_stable 4 _ _ _ E) as [Hd Ht]. injection H as <- <-. split; [exact Hd|].
  intros t. rewrite Ht. reflexivity.
Qed.
Lemma r_word32_clean : clean r_word32.
Proof.
  intros f. unfold r_word32. pose proof (st_read_clean 4 f).
  destruct (st_read 4 f) as [[a r']| |]; cbn [bind]; auto.
Qed.
Lemma r_ulong_stable : stable r_ulong.
Proof. exact (map_stable _ _ (st_read_stable 8)). Qed.
Lemma r_ulong_clean : clean r_ulong.
Proof. exact (map_clean _ _ (st_read_clean 8)). Qed.
Lemma r_time_stable : stable r_time.
Proof. exact (map_stable _ _ (st_read_stable 8)). Qed.
Lemma r_time_clean : clean r_time.
Proof. exact (map_clean _ _ (st_read_clean 8)). Qed.
Lemma r_array_stable max : stable (r_array max).
Proof.
  apply (bind_stable r_word32 (fun len f1 => if (max <? len)%Z then Err BUFFER_E else st_read (i32 len) f1)).
  - apply r_word32_stable.
  - intros a. apply if_stable; [apply err_stable|apply st_read_stable].
Qed.
Lemma r_array_clean max : clean (r_array max).
Proof.
  apply (bind_clean r_word32 (fun len f1 => if (max <? len)%Z then Err BUFFER_E else st_read (i32 len) f1)).
  - apply r_word32_clean.
  - intros a. apply if_clean; [apply err_clean|apply st_read_clean].
Qed.
Lemma r_alloc_stable : stable r_alloc.
Proof.
  apply (bind_stable r_int (fun len f1 => if (len <? 0)%Z then Err MEMORY_E else st_read len f1)).
  - apply r_int_stable.
  - intros a. apply if_stable; [apply err_stable|apply st_read_stable].
Qed.
Lemma r_alloc_clean : clean r_alloc.
Proof.
  apply (bind_clean r_int (fun len f1 => if (len <? 0)%Z then Err MEMORY_E else st_read len f1)).
  - apply r_int_clean.
  - intros a. apply if_clean; [apply err_clean|apply st_read_clean].
Qed.
