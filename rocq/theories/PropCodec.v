(** Property C48: the storage encoding round-trips. *)
From Verif Require Import Base Codec CodecProofs.

(** Reading back what was written gives the value and leaves exactly the bytes
    that followed. *)
Definition reads_back {A} (rd : list N -> res (A * list N)) (w : list N) (v : A) : Prop :=
  forall t, rd (w ++ t) = Ok (v, t).

Theorem C48_int : forall v, (- 2^31 <= v < 2^31)%Z -> reads_back r_int (w_int v) v.
Proof. intros v H t. now apply r_int_w. Qed.
Print Assumptions C48_int.
Theorem C48_word32 : forall v, (0 <= v < 2^32)%Z -> reads_back r_word32 (w_word32 v) v.
Proof. intros v H t. now apply r_word32_w. Qed.
Print Assumptions C48_word32.
Theorem C48_ulong : forall v, (0 <= v < 2^64)%Z -> reads_back r_ulong (w_ulong v) v.
Proof. intros v H t. now apply r_ulong_w. Qed.
Print Assumptions C48_ulong.
Theorem C48_time : forall v, (- 2^63 <= v < 2^63)%Z -> reads_back r_time (w_time v) v.
Proof. intros v H t. now apply r_time_w. Qed.
Print Assumptions C48_time.
Theorem C48_boolean : forall v, reads_back r_bool (w_bool v) v.
Proof. intros v t. apply r_bool_w. Qed.
Print Assumptions C48_boolean.
Theorem C48_fixed : forall d, exists w,
  w_fixed d (zlen d) = Ok w /\ length w = length d /\ reads_back (r_fixed (zlen d)) w d.
Proof.
  intros d. exists d. split; [apply st_write_all|split; [reflexivity|]]. intros t. apply st_read_app.
Qed.
Print Assumptions C48_fixed.
(** Both readers of length-prefixed arrays: into a buffer of [max] bytes and into
    fresh memory. *)
Theorem C48_array : forall d max, (zlen d < 2^31)%Z -> (zlen d <= max)%Z -> exists w,
  w_array d (zlen d) = Ok w /\ length w = 4 + length d /\
  reads_back (r_array max) w d /\ reads_back r_alloc w d.
Proof.
  intros d max H Hm. exists (w_word32 (zlen d) ++ d). split; [now apply w_array_all|].
  split; [rewrite app_length; unfold w_word32; now rewrite w_be_length|].
  split; intros t; [now apply r_array_w|now apply r_alloc_w].
Qed.
Print Assumptions C48_array.

(** The array reader never hands out more than the buffer holds, whatever the
    file says. *)
Theorem C48_array_bounded : forall max f d r,
  r_array max f = Ok (d, r) -> (zlen d <= max)%Z /\ exists h, f = h ++ d ++ r /\ length h = 4.
Proof.
  intros max f d r. unfold r_array.
  destruct (r_word32 f) as [[n f1]| |] eqn:E; cbn [bind]; try discriminate.
  pose proof (r_word32_range _ _ _ E) as Hr.
  destruct (max <? n)%Z eqn:Em; [discriminate|]. intros H.
  destruct (st_read_ok _ _ _ _ H) as [-> Hl].
  unfold r_word32 in E. destruct (st_read 4 f) as [[b f2]| |] eqn:E4; cbn [bind] in E; try discriminate.
  injection E as _ ->. destruct (st_read_ok _ _ _ _ E4) as [-> Hb]. split.
  - rewrite Hl. unfold i32, zlen in *. rewrite Z.mod_small in * by lia.
    pose proof (Nat2Z.is_nonneg (length d)).
    destruct (n <? 2^31)%Z eqn:?; lia.
  - exists b. split; [reflexivity|]. unfold zlen in Hb. lia.
Qed.
Print Assumptions C48_array_bounded.

(** The stored form is big-endian. *)
Theorem C48_big_endian : forall v, (0 <= v < 2^64)%Z ->
  length (w_ulong v) = 8 /\ bytes_ok (w_ulong v) /\ be (w_ulong v) = v.
Proof.
  intros v H. split; [apply w_be_length|split; [apply w_be_ok|]]. unfold w_ulong. rewrite be_w_be.
  change (8 * Z.of_nat 8)%Z with 64%Z. now apply Z.mod_small.
Qed.
Print Assumptions C48_big_endian.

Example C48_ex : r_int (w_int (-2) ++ [7%N]) = Ok ((-2)%Z, [7%N]) /\
  r_time (w_time (- 2^63)) = Ok ((- 2^63)%Z, []) /\
  r_array 32 [0; 0; 0; 2; 8; 9; 5]%N = Ok ([8; 9], [5])%N /\
  r_array 32 [255; 255; 255; 255; 8; 9; 5]%N = Err BUFFER_E.
Proof. vm_compute. auto. Qed.
