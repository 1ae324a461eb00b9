From Verif Require Import Base RsaRaw EcdsaSpec EcdsaProofs.

Lemma pad_loop_nz n d b : b <> 0%N -> pad_loop n d b = b.
Proof. intros H. destruct n; cbn [pad_loop]; [reflexivity|]. destruct (N.eqb_spec b 0); congruence. Qed.
Lemma pad_loop_spec n d : 0 < n -> (pad_loop n d 0 = 0 <-> d mod 256 = 0)%N.
Proof.
  intros H. destruct n as [|n]; [lia|]. cbn [pad_loop]. rewrite N.eqb_refl, N.lor_0_l.
  destruct (N.eq_dec (d mod 256) 0) as [E|E].
  - rewrite E. split; [reflexivity|intros _]. clear H. induction n as [|n IH]; [reflexivity|].
    cbn [pad_loop]. rewrite N.eqb_refl, E. exact IH.
  - rewrite pad_loop_nz by exact E. tauto.
Qed.

Lemma cmp_loop_nz a b x : x <> 0%N -> cmp_loop a b x = x.
Proof.
  intros H. destruct a, b; cbn [cmp_loop]; try reflexivity. destruct (N.eqb_spec x 0); congruence.
Qed.
Lemma cmp_loop_spec a b : length a = length b -> (cmp_loop a b 0 = 0%N <-> a = b).
Proof.
  revert b. induction a as [|x a IH]; intros [|y b] L; try discriminate L; cbn [cmp_loop].
  - tauto.
  - rewrite N.eqb_refl, N.lor_0_l. destruct (N.eq_dec x y) as [->|E].
    + rewrite N.lxor_nilpotent. injection L as L. rewrite IH by exact L. split; congruence.
    + rewrite cmp_loop_nz by (rewrite N.lxor_eq_0_iff; exact E). rewrite N.lxor_eq_0_iff. split; congruence.
Qed.

(** What the code accepts, for every modulus size and data below 4 GiB. *)
Lemma verify_iff k sig inp dec :
  rk_pub k sig = Some dec -> 0 < length dec -> (zlen inp < 2^32)%Z -> (zlen dec < 2^31)%Z ->
  (Rsa_Verify k sig inp = Ok true <->
   (length dec < length inp \/
    (length inp = length dec /\ inp = dec) \/
    (length inp < length dec /\ length dec mod 256 = 0 /\ inp = skipn (length dec - length inp) dec))).
Proof.
  intros P Hp Hi Hd. unfold Rsa_Verify. rewrite P. unfold zlen in *.
  assert (U : u32 (Z.of_nat (length inp)) = Z.of_nat (length inp)) by (unfold u32; apply Z.mod_small; lia).
  rewrite U.
  destruct (Z.ltb_spec (Z.of_nat (length inp)) (Z.of_nat (length dec))).
  - assert (U2 : u32 (Z.of_nat (length dec) - Z.of_nat (length inp)) = (Z.of_nat (length dec) - Z.of_nat (length inp))%Z)
      by (unfold u32; apply Z.mod_small; lia).
    rewrite U2.
    replace (Z.to_nat (Z.of_nat (length dec) - Z.of_nat (length inp))) with (length dec - length inp) by lia.
    set (p := pad_loop _ _ _).
    assert (Hpp : p = 0%N <-> length dec mod 256 = 0).
    { unfold p. rewrite pad_loop_spec by lia. 
      replace (Z.to_N (Z.of_nat (length dec))) with (N.of_nat (length dec)) by lia. lia. }
    assert (Ls : length (skipn (length dec - length inp) dec) = length inp) by (rewrite skipn_length; lia).
    destruct (Z.ltb_spec (Z.of_nat (length dec) - Z.of_nat (length inp)) (Z.of_nat (length dec))).
    + split.
      * intros E. injection E as E. apply N.eqb_eq in E. right. right.
        destruct (N.eq_dec p 0) as [Ep|Ep].
        -- rewrite Ep in E. apply cmp_loop_spec in E; [|lia]. split; [lia|tauto].
        -- rewrite cmp_loop_nz in E by exact Ep. congruence.
      * intros [|[|(_ & M & E)]]; [lia|lia|]. f_equal. apply N.eqb_eq.
        apply Hpp in M. rewrite M. apply cmp_loop_spec; [lia|exact E].
    + assert (length inp = 0) by lia. destruct inp; [|discriminate]. cbn [length] in *.
      split.
      * intros E. injection E as E. apply N.eqb_eq in E. right. right. split; [lia|]. split; [tauto|].
        rewrite Nat.sub_0_r, skipn_all. reflexivity.
      * intros [|[|(_ & M & E)]]; [lia|lia|]. f_equal. apply N.eqb_eq. tauto.
  - destruct (Nat.eq_dec (length inp) (length dec)) as [L|L].
    + rewrite L, Z.sub_diag. change (u32 0) with 0%Z.
      destruct (Z.ltb_spec 0 (Z.of_nat (length dec))); [|lia]. change (Z.to_nat 0) with 0. cbn [skipn].
      split.
      * intros E. injection E as E. apply N.eqb_eq in E. apply cmp_loop_spec in E; [|exact L]. right. left. auto.
      * intros [|[(_ & E)|]]; [lia| |lia]. f_equal. apply N.eqb_eq. apply cmp_loop_spec; assumption.
    + assert (U2 : (u32 (Z.of_nat (length dec) - Z.of_nat (length inp)) = 2^32 + (Z.of_nat (length dec) - Z.of_nat (length inp)))%Z).
      { unfold u32. rewrite <- (Z_mod_plus_full _ 1). rewrite Z.mod_small; lia. }
      rewrite U2. destruct (Z.ltb_spec (2^32 + (Z.of_nat (length dec) - Z.of_nat (length inp)))%Z (Z.of_nat (length dec))); [lia|].
      split; [intros _; left; lia|reflexivity].
Qed.

Lemma sign_verify k data s :
  rk_size k = length data -> 0 < length data -> (zlen data < 2^31)%Z ->
  rk_pub k s = Some data ->
  rk_priv k data = Some s ->
  exists sg, Rsa_Sign k data = Ok sg /\ Rsa_Verify k sg data = Ok true.
Proof.
  intros L P B A C. exists s. unfold Rsa_Sign. rewrite L.
  destruct (Nat.ltb_spec (length data) (length data)); [lia|]. rewrite C. split; [reflexivity|].
  apply (verify_iff k s data data A P); unfold zlen in *; [lia|lia|]. right. left. auto.
Qed.

(** ** Exponent *)
Lemma le_bytes_val l fuel : bytes_ok l -> last l 0%N <> 0%N \/ l = [] -> length l < fuel ->
  le_bytes fuel (be_val (rev l)) = l.
Proof.
  intros Hb. revert fuel. induction Hb as [|b l Hb Hl IH]; intros fuel Hlast Hf.
  - destruct fuel; reflexivity.
  - destruct fuel as [|fuel]; [cbn in Hf; lia|]. cbn [length] in Hf.
    cbn [rev]. assert (E : (be_val (rev l ++ [b]) = be_val (rev l) * 256 + b)%N).
    { unfold be_val. rewrite fold_left_app. reflexivity. }
    cbn [le_bytes]. rewrite E. unfold byte_ok in Hb.
    assert (Q : ((be_val (rev l) * 256 + b) mod 256 = b)%N).
    { rewrite N.add_comm, N.mod_add by lia. apply N.mod_small. exact Hb. }
    assert (D : ((be_val (rev l) * 256 + b) / 256 = be_val (rev l))%N).
    { rewrite N.add_comm, N.div_add by lia. rewrite N.div_small by exact Hb. reflexivity. }
    assert (NZ : (be_val (rev l) * 256 + b <> 0)%N).
    { intros Z. destruct Hlast as [Hlast|]; [|discriminate]. destruct l as [|c l].
      - cbn in Hlast. lia.
      - apply Hlast. assert (be_val (rev (c :: l)) = 0%N) by lia.
        assert (Hz : exists x y, c :: l = x ++ [y]) by (exists (removelast (c :: l)), (last (c :: l) 0%N); apply app_removelast_last; discriminate).
        destruct Hz as (x & y & Ez). rewrite Ez in *. rewrite rev_app_distr in H. cbn [rev app] in H.
        rewrite be_val_cons in H.
        assert (y = 0%N) by (pose proof (N.pow_nonzero 256 (N.of_nat (length (rev x))) ltac:(lia)); nia).
        subst y. rewrite app_comm_cons. apply last_last. }
    destruct (N.eqb_spec (be_val (rev l) * 256 + b) 0); [congruence|].
    rewrite Q, D. f_equal. apply IH; [|lia]. destruct l; [right; reflexivity|left].
    destruct Hlast as [Hlast|]; [exact Hlast|discriminate].
Qed.

Lemma mp_bin_val l : bytes_ok l -> hd 0%N l <> 0%N -> length l <= 8 -> mp_bin (be_val l) = l.
Proof.
  intros Hb Hh Hl. unfold mp_bin. rewrite <- (rev_involutive l) at 1.
  rewrite le_bytes_val; [apply rev_involutive|apply Forall_rev; exact Hb| |rewrite rev_length; lia].
  left. destruct l as [|a l]; [contradiction|]. cbn [rev]. rewrite last_last. exact Hh.
Qed.

Lemma gen_exponent_rev l : bytes_ok l -> hd 0%N l <> 0%N -> length l <= 7 ->
  gen_exponent (be_val l) = Ok (be_val (rev l)).
Proof.
  intros Hb Hh Hl. unfold gen_exponent. rewrite mp_bin_val by (assumption || lia).
  destruct (N.eqb_spec (be_val l) 0) as [Z|_].
  { exfalso. destruct l as [|a l]; [contradiction|]. cbn [hd] in Hh. rewrite be_val_cons in Z.
    pose proof (N.pow_nonzero 256 (N.of_nat (length l)) ltac:(lia)). nia. }
  destruct (Nat.ltb_spec 8 (length l)); [lia|].
  assert (E : conv_loop (l ++ repeat 0%N (8 - length l)) = be_val (rev l)).
  { unfold conv_loop. rewrite rev_app_distr.
    assert (R : forall n, rev (repeat 0%N n) = repeat 0%N n).
    { induction n; [reflexivity|]. cbn [repeat rev]. rewrite IHn. clear. induction n; [reflexivity|]. cbn. congruence. }
    rewrite R. apply (be_val_zeros (8 - length l) (rev l)). }
  rewrite E. assert (be_val (rev l) < 256 ^ N.of_nat (length (rev l)))%N by (apply be_val_bound, Forall_rev, Hb).
  rewrite rev_length in H0.
  assert (256 ^ N.of_nat (length l) <= 256 ^ 7)%N by (apply N.pow_le_mono_r; lia).
  change (256 ^ 7)%N with 72057594037927936%N in *. change (2 ^ 63)%N with 9223372036854775808%N.
  destruct (N.ltb_spec (be_val (rev l)) 9223372036854775808%N); [reflexivity|lia].
Qed.
