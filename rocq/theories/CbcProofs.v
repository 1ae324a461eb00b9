(** Proofs about the CBC streaming model (Cbc.v). *)
From Verif Require Import Base Cbc.

Lemma BLK_pos : BLK <> 0. Proof. discriminate. Qed.
Local Ltac Zify.zify_post_hook ::= Z.div_mod_to_equations.
#[local] Opaque BLK.

Lemma blit_length dst off src :
  off + length src <= length dst -> length (blit dst off src) = length dst.
Proof.
  intros H. unfold blit. rewrite !app_length, firstn_length, skipn_length. lia.
Qed.

Lemma blit_firstn dst off src :
  off + length src <= length dst ->
  firstn (off + length src) (blit dst off src) = firstn off dst ++ src.
Proof.
  intros H. unfold blit. rewrite app_assoc.
  rewrite firstn_app.
  rewrite app_length, firstn_length.
  replace (off + length src - (Nat.min off (length dst) + length src)) with 0 by lia.
  rewrite firstn_O, app_nil_r. apply firstn_all2.
  rewrite app_length, firstn_length. lia.
Qed.

Lemma skipn_skipn A (l : list A) a b : skipn a (skipn b l) = skipn (b + a) l.
Proof.
  revert l; induction b as [|b IH]; intros l; [reflexivity|].
  destruct l as [|x l]; cbn; [apply skipn_nil|apply IH].
Qed.

Lemma app_skipn_le A (l m : list A) n : n <= length l -> skipn n l ++ m = skipn n (l ++ m).
Proof.
  intros H. rewrite skipn_app. replace (n - length l) with 0 by lia. reflexivity.
Qed.

(** ** Generic block processing *)
Section Generic.
Variable bl : nat -> list N -> list N -> list N -> list N * list N.
Hypothesis bl_0 : forall k r d, bl 0 k r d = ([], r).
Hypothesis bl_add : forall n m k r d,
  bl (n + m) k r d =
  (fst (bl n k r d) ++ fst (bl m k (snd (bl n k r d)) (skipn (n * BLK) d)),
   snd (bl m k (snd (bl n k r d)) (skipn (n * BLK) d))).
Hypothesis bl_ext : forall n k r d d',
  firstn (n * BLK) d = firstn (n * BLK) d' -> bl n k r d = bl n k r d'.
Variable chk : bool.
Definition gcrypt (a : aes) (data : list N) : res (list N * aes) :=
  if andb chk (negb (length data mod BLK =? 0)) then Err BAD_LENGTH_E
  else let '(o, r) := bl (length data / BLK) (aes_key a) (aes_reg a) data in
       Ok (o, mkAes (aes_key a) r).

Lemma gcrypt_mult a data n :
  length data = n * BLK ->
  gcrypt a data = Ok (fst (bl n (aes_key a) (aes_reg a) data),
                      mkAes (aes_key a) (snd (bl n (aes_key a) (aes_reg a) data))).
Proof.
  intros H. unfold gcrypt.
  rewrite H, Nat.mod_mul, Nat.div_mul by apply BLK_pos.
  cbn. rewrite andb_false_r.
  destruct (bl n _ _ data) as [o r]; reflexivity.
Qed.

Definition ok_part (p : cbc) : Prop := length (cb_partial p) = BLK /\ cb_psz p < BLK.
Definition pend (p : cbc) : list N := firstn (cb_psz p) (cb_partial p).

Lemma pend_length p : length (cb_partial p) = BLK -> cb_psz p <= BLK -> length (pend p) = cb_psz p.
Proof. intros H1 H2. unfold pend. rewrite firstn_length. lia. Qed.

Lemma update_spec after p data :
  (forall x, length x = BLK -> length (after x) = BLK) ->
  ok_part p -> (zlen data < 2^31)%Z ->
  let all := pend p ++ data in
  let n := length all / BLK in
  exists p',
    cbc_update gcrypt after p data =
      Ok (fst (bl n (aes_key (cb_aes p)) (aes_reg (cb_aes p)) all), p') /\
    ok_part p' /\ pend p' = skipn (n * BLK) all /\
    aes_key (cb_aes p') = aes_key (cb_aes p) /\
    aes_reg (cb_aes p') = snd (bl n (aes_key (cb_aes p)) (aes_reg (cb_aes p)) all).
Proof.
  intros Hafter [Hlen Hpsz] Hsz all n.
  assert (Hall : length all = cb_psz p + length data).
  { unfold all. rewrite app_length, pend_length; lia. }
  unfold cbc_update.
  destruct (Z.leb_spec (2^31) (zlen data)) as [Hbad|_]; [lia|].
  destruct (Nat.ltb_spec BLK (cb_psz p)) as [Hbad|_]; [lia|].
  destruct (Nat.ltb_spec 0 (cb_psz p)) as [Hpos|Hz].
  - set (sz := Nat.min (BLK - cb_psz p) (length data)).
    assert (Hszle : sz <= BLK - cb_psz p) by (unfold sz; lia).
    assert (Hfl : length (firstn sz data) = sz) by (rewrite firstn_length; lia).
    set (part := blit (cb_partial p) (cb_psz p) (firstn sz data)).
    assert (Hpl : length part = BLK).
    { unfold part. rewrite blit_length; [exact Hlen|lia]. }
    assert (Hpf : firstn (cb_psz p + sz) part = pend p ++ firstn sz data).
    { unfold part. rewrite <- Hfl at 1. rewrite blit_firstn; [reflexivity|lia]. }
    destruct (Nat.eqb_spec (cb_psz p + sz) BLK) as [Hfull|Hnot].
    + (* the partial block is completed *)
      assert (Hpart : part = firstn BLK all).
      { rewrite Hfull in Hpf. rewrite firstn_all2 in Hpf by lia.
        rewrite Hpf. unfold all. rewrite firstn_app.
        rewrite pend_length by lia.
        rewrite (firstn_all2 (pend p)) by (rewrite pend_length; lia).
        f_equal. f_equal. lia. }
      rewrite (gcrypt_mult _ part 1) by lia.
      cbn [bind].
      assert (Hrest : skipn sz data = skipn BLK all).
      { unfold all. rewrite skipn_app. rewrite pend_length by lia.
        rewrite (skipn_all2 (pend p)) by (rewrite pend_length; lia).
        cbn [app]. f_equal. lia. }
      rewrite Hrest.
      assert (Hlr : length (skipn BLK all) = length all - BLK) by apply skipn_length.
      assert (Hge : BLK <= length all) by lia.
      set (m := (length all - BLK) / BLK).
      assert (Hn : n = 1 + m).
      { unfold n, m. replace (length all) with (1 * BLK + (length all - BLK)) at 1 by lia.
        rewrite Nat.div_add_l by apply BLK_pos. reflexivity. }
      assert (Hb1 : bl 1 (aes_key (cb_aes p)) (aes_reg (cb_aes p)) part
                    = bl 1 (aes_key (cb_aes p)) (aes_reg (cb_aes p)) all).
      { apply bl_ext. rewrite Hpart, Nat.mul_1_l, firstn_firstn, Nat.min_id. reflexivity. }
      rewrite Hb1.
      assert (Hmod : m * BLK <= length all - BLK).
      { unfold m. pose proof (Nat.mul_div_le (length all - BLK) BLK BLK_pos). lia. }
      assert (Hmod2 : length all - BLK - m * BLK < BLK).
      { unfold m. pose proof (Nat.div_mod (length all - BLK) BLK BLK_pos).
        pose proof (Nat.mod_upper_bound (length all - BLK) BLK BLK_pos). lia. }
      rewrite Hlr. fold m.
      rewrite (Hn), bl_add, Nat.mul_1_l. cbn [fst snd].
      replace ((1 + m) * BLK) with (BLK + m * BLK) by lia.
      assert (Hfin : forall a2 part1,
        length part1 = BLK ->
        let d2 := skipn (BLK + m * BLK) all in
        let p' := (if 0 <? length d2 then mkCbc a2 (blit part1 0 d2) (length d2)
                   else mkCbc a2 part1 0) in
        ok_part p' /\ pend p' = d2 /\ cb_aes p' = a2).
      { intros a2 part1 Hp1 d2 p'.
        assert (Hd2 : length d2 = length all - BLK - m * BLK).
        { unfold d2. rewrite skipn_length. lia. }
        unfold p'. destruct (Nat.ltb_spec 0 (length d2)) as [Hp|Hp].
        - split; [split; cbn [cb_partial cb_psz]; [rewrite blit_length; lia|lia]|]. split; [|reflexivity].
          unfold pend; cbn [cb_psz cb_partial].
          change (length d2) with (0 + length d2).
          rewrite blit_firstn by lia. rewrite firstn_O. reflexivity.
        - split; [split; cbn [cb_partial cb_psz]; lia|]. split; [|reflexivity].
          unfold pend; cbn [cb_psz cb_partial]. rewrite firstn_O.
          destruct d2; [reflexivity|cbn in Hp; lia]. }
      destruct (Nat.ltb_spec 0 (m * BLK)) as [Hm|Hm].
      * rewrite (gcrypt_mult _ _ m) by (rewrite firstn_length, Hlr; lia).
        cbn [bind aes_key aes_reg].
        rewrite (bl_ext m _ _ (firstn (m * BLK) (skipn BLK all)) (skipn BLK all))
          by (rewrite firstn_firstn, Nat.min_id; reflexivity).
        rewrite skipn_skipn.
        eexists. split; [reflexivity|].
        specialize (Hfin (mkAes (aes_key (cb_aes p))
          (snd (bl m (aes_key (cb_aes p))
             (snd (bl 1 (aes_key (cb_aes p)) (aes_reg (cb_aes p)) all)) (skipn BLK all))))
          (after part) (Hafter _ Hpl)).
        cbv zeta in Hfin. destruct Hfin as (H1 & H2 & H3).
        repeat split; auto; try (rewrite H3; reflexivity); apply H1.
      * assert (m = 0) as Hm0 by (pose proof BLK_pos; nia).
        cbn [bind]. rewrite Hm0, bl_0. cbn [fst snd]. rewrite !app_nil_r, Nat.mul_0_l, Nat.add_0_r.
        eexists. split; [reflexivity|].
        specialize (Hfin (mkAes (aes_key (cb_aes p))
          (snd (bl 1 (aes_key (cb_aes p)) (aes_reg (cb_aes p)) all)))
          (after part) (Hafter _ Hpl)).
        rewrite Hm0, Nat.mul_0_l, Nat.add_0_r in Hfin.
        cbv zeta in Hfin. destruct Hfin as (H1 & H2 & H3).
        repeat split; auto; try (rewrite H3; reflexivity); apply H1.
    + (* the partial block is not completed: all data consumed *)
      assert (Hsz2 : sz = length data) by lia.
      cbn [bind]. rewrite Hsz2, skipn_all. cbn [length].
      rewrite Nat.div_0_l by apply BLK_pos. cbn [Nat.mul Nat.ltb Nat.leb bind app].
      assert (Hn0 : n = 0).
      { unfold n. apply Nat.div_small. lia. }
      rewrite Hn0, bl_0. cbn [fst snd].
      eexists. split; [reflexivity|]. cbn [cb_aes cb_partial cb_psz].
      cbn [length]. split; [split; cbn [cb_partial cb_psz]; [lia|]; lia|].
      split; [|split; reflexivity].
      unfold pend at 1; cbn [cb_partial cb_psz].
      rewrite <- Hsz2, Hpf, Nat.mul_0_l. cbn [skipn].
      unfold all. rewrite Hsz2, firstn_all. reflexivity.
  - assert (Hp0 : cb_psz p = 0) by lia.
    assert (Hall2 : all = data).
    { unfold all, pend. rewrite Hp0, firstn_O. reflexivity. }
    cbn [bind]. rewrite <- Hall2 in *. fold n.
    assert (Hmod : n * BLK <= length all).
    { unfold n. pose proof (Nat.mul_div_le (length all) BLK BLK_pos). lia. }
    assert (Hmod2 : length all - n * BLK < BLK).
    { unfold n. pose proof (Nat.div_mod (length all) BLK BLK_pos).
      pose proof (Nat.mod_upper_bound (length all) BLK BLK_pos). lia. }
    assert (Hfin : forall a2,
      let d2 := skipn (n * BLK) all in
      let p' := (if 0 <? length d2 then mkCbc a2 (blit (cb_partial p) 0 d2) (length d2)
                 else mkCbc a2 (cb_partial p) (cb_psz p)) in
      ok_part p' /\ pend p' = d2 /\ cb_aes p' = a2).
    { intros a2 d2 p'.
      assert (Hd2 : length d2 = length all - n * BLK).
      { unfold d2. rewrite skipn_length. lia. }
      unfold p'. destruct (Nat.ltb_spec 0 (length d2)) as [Hp|Hp].
      - split; [split; cbn [cb_partial cb_psz]; [rewrite blit_length; lia|lia]|]. split; [|reflexivity].
        unfold pend; cbn [cb_psz cb_partial].
        change (length d2) with (0 + length d2).
        rewrite blit_firstn by lia. rewrite firstn_O. reflexivity.
      - split; [split; cbn [cb_partial cb_psz]; lia|]. split; [|reflexivity].
        unfold pend; cbn [cb_psz cb_partial]. rewrite Hp0, firstn_O.
        destruct d2; [reflexivity|cbn in Hp; lia]. }
    destruct (Nat.ltb_spec 0 (n * BLK)) as [Hm|Hm].
    + rewrite (gcrypt_mult _ _ n) by (rewrite firstn_length; lia).
      cbn [bind app].
      rewrite (bl_ext n _ _ (firstn (n * BLK) all) all)
        by (rewrite firstn_firstn, Nat.min_id; reflexivity).
      eexists. split; [reflexivity|].
      specialize (Hfin (mkAes (aes_key (cb_aes p))
          (snd (bl n (aes_key (cb_aes p)) (aes_reg (cb_aes p)) all)))).
      cbv zeta in Hfin. destruct Hfin as (H1 & H2 & H3).
      repeat split; auto; try (rewrite H3; reflexivity); apply H1.
    + assert (n = 0) as Hn0 by (pose proof BLK_pos; nia).
      cbn [bind app]. rewrite Hn0 in *. rewrite bl_0. cbn [fst snd].
      eexists. split; [reflexivity|].
      specialize (Hfin (cb_aes p)). rewrite Nat.mul_0_l in Hfin. cbn [skipn] in Hfin.
      cbv zeta in Hfin. destruct Hfin as (H1 & H2 & H3).
      rewrite Nat.mul_0_l. cbn [skipn].
      repeat split; auto; try (rewrite H3; reflexivity); apply H1.
Qed.


(** All Update calls together. *)
Lemma updates_spec after chunks p :
  (forall x, length x = BLK -> length (after x) = BLK) ->
  ok_part p -> Forall (fun c => (zlen c < 2^31)%Z) chunks ->
  let all := pend p ++ concat chunks in
  let n := length all / BLK in
  exists p',
    run_updates (cbc_update gcrypt after) p chunks =
      Ok (fst (bl n (aes_key (cb_aes p)) (aes_reg (cb_aes p)) all), p') /\
    ok_part p' /\ pend p' = skipn (n * BLK) all /\
    aes_key (cb_aes p') = aes_key (cb_aes p) /\
    aes_reg (cb_aes p') = snd (bl n (aes_key (cb_aes p)) (aes_reg (cb_aes p)) all).
Proof.
  intros Hafter. revert p.
  induction chunks as [|c cs IH]; intros p Hp Hc; cbn [concat run_updates].
  - cbv zeta. rewrite app_nil_r.
    assert (Hl : length (pend p) = cb_psz p) by (destruct Hp; apply pend_length; lia).
    rewrite Nat.div_small by (destruct Hp; lia). rewrite bl_0. cbn [fst snd skipn Nat.mul].
    exists p. auto.
  - cbv zeta. inversion_clear Hc.
    destruct (update_spec after p c Hafter Hp H) as (p1 & E1 & Hp1 & Hpend & Hk & Hr).
    rewrite E1. cbn [bind].
    destruct (IH p1 Hp1 H0) as (p2 & E2 & Hp2 & Hpend2 & Hk2 & Hr2).
    rewrite E2. cbn [bind].
    set (all1 := pend p ++ c) in *. set (n1 := length all1 / BLK) in *.
    rewrite Hk, Hr, Hpend in *.
    assert (Hn1 : n1 * BLK <= length all1).
    { unfold n1. pose proof (Nat.mul_div_le (length all1) BLK BLK_pos). lia. }
    rewrite app_skipn_le in * by exact Hn1.
    rewrite app_assoc. fold all1.
    set (all := all1 ++ concat cs) in *.
    rewrite skipn_length in *.
    set (n2 := (length all - n1 * BLK) / BLK) in *.
    assert (Hn : length all / BLK = n1 + n2).
    { unfold n2.
      assert (n1 * BLK <= length all) by (unfold all; rewrite app_length; lia).
      replace (length all) with (n1 * BLK + (length all - n1 * BLK)) at 1 by lia.
      rewrite Nat.div_add_l by apply BLK_pos. reflexivity. }
    rewrite Hn, bl_add.
    assert (Hb : forall k r, bl n1 k r all1 = bl n1 k r all).
    { intros k r. apply bl_ext. unfold all. rewrite firstn_app.
      replace (n1 * BLK - length all1) with 0 by lia.
      rewrite firstn_O, app_nil_r. reflexivity. }
    rewrite Hb in *.
    exists p2. split; [reflexivity|]. split; [exact Hp2|]. cbn [fst snd].
    split; [|split; congruence].
    rewrite Hpend2. rewrite skipn_skipn. f_equal. lia.
Qed.

End Generic.

(** ** Instances *)
Section Inst.
Variable ci : cipher.

Lemma enc_blocks_add n m k r d :
  cbc_enc_blocks ci (n + m) k r d =
  (fst (cbc_enc_blocks ci n k r d) ++
     fst (cbc_enc_blocks ci m k (snd (cbc_enc_blocks ci n k r d)) (skipn (n * BLK) d)),
   snd (cbc_enc_blocks ci m k (snd (cbc_enc_blocks ci n k r d)) (skipn (n * BLK) d))).
Proof.
  revert r d; induction n as [|n IH]; intros r d; cbn [Nat.add cbc_enc_blocks Nat.mul].
  - cbn [fst snd app skipn]. apply surjective_pairing.
  - rewrite IH. rewrite skipn_skipn.
    destruct (cbc_enc_blocks ci n k _ (skipn BLK d)) as [o1 r1]. cbn [fst snd].
    rewrite app_assoc. reflexivity.
Qed.

Lemma dec_blocks_add n m k r d :
  cbc_dec_blocks ci (n + m) k r d =
  (fst (cbc_dec_blocks ci n k r d) ++
     fst (cbc_dec_blocks ci m k (snd (cbc_dec_blocks ci n k r d)) (skipn (n * BLK) d)),
   snd (cbc_dec_blocks ci m k (snd (cbc_dec_blocks ci n k r d)) (skipn (n * BLK) d))).
Proof.
  revert r d; induction n as [|n IH]; intros r d; cbn [Nat.add cbc_dec_blocks Nat.mul].
  - cbn [fst snd app skipn]. apply surjective_pairing.
  - rewrite IH. rewrite skipn_skipn.
    destruct (cbc_dec_blocks ci n k _ (skipn BLK d)) as [o1 r1]. cbn [fst snd].
    rewrite app_assoc. reflexivity.
Qed.

Lemma firstn_skipn_ext (d d' : list N) a b :
  firstn (a + b) d = firstn (a + b) d' ->
  firstn a d = firstn a d' /\ firstn b (skipn a d) = firstn b (skipn a d').
Proof.
  intros H. split.
  - rewrite <- (firstn_firstn d a (a + b)) at 1 || idtac.
    assert (forall l : list N, firstn a l = firstn a (firstn (a + b) l)) as X.
    { intros l. rewrite firstn_firstn. f_equal. lia. }
    rewrite (X d), (X d'), H. reflexivity.
  - rewrite !firstn_skipn_comm. rewrite H. reflexivity.
Qed.

Lemma enc_blocks_ext n k r d d' :
  firstn (n * BLK) d = firstn (n * BLK) d' ->
  cbc_enc_blocks ci n k r d = cbc_enc_blocks ci n k r d'.
Proof.
  revert r d d'; induction n as [|n IH]; intros r d d' H; cbn [cbc_enc_blocks]; [reflexivity|].
  cbn [Nat.mul] in H. apply firstn_skipn_ext in H. destruct H as [H1 H2].
  rewrite H1. rewrite (IH _ (skipn BLK d) (skipn BLK d')) by exact H2. reflexivity.
Qed.

Lemma dec_blocks_ext n k r d d' :
  firstn (n * BLK) d = firstn (n * BLK) d' ->
  cbc_dec_blocks ci n k r d = cbc_dec_blocks ci n k r d'.
Proof.
  revert r d d'; induction n as [|n IH]; intros r d d' H; cbn [cbc_dec_blocks]; [reflexivity|].
  cbn [Nat.mul] in H. apply firstn_skipn_ext in H. destruct H as [H1 H2].
  rewrite H1. rewrite (IH _ (skipn BLK d) (skipn BLK d')) by exact H2. reflexivity.
Qed.

Lemma enc_is_gcrypt : wc_AesCbcEncrypt ci = gcrypt (cbc_enc_blocks ci) (ci_lenchk_enc ci).
Proof. reflexivity. Qed.
Lemma dec_is_gcrypt : wc_AesCbcDecrypt ci = gcrypt (cbc_dec_blocks ci) (ci_lenchk_dec ci).
Proof. reflexivity. Qed.

Lemma zero_block_length : length zero_block = BLK.
Proof. apply repeat_length. Qed.

Lemma enc_updates_spec chunks p :
  ok_part p -> Forall (fun c => (zlen c < 2^31)%Z) chunks ->
  let all := pend p ++ concat chunks in
  let n := length all / BLK in
  exists p',
    run_updates (WP11_AesCbc_EncryptUpdate ci) p chunks =
      Ok (fst (cbc_enc_blocks ci n (aes_key (cb_aes p)) (aes_reg (cb_aes p)) all), p') /\
    ok_part p' /\ pend p' = skipn (n * BLK) all /\
    aes_key (cb_aes p') = aes_key (cb_aes p) /\
    aes_reg (cb_aes p') = snd (cbc_enc_blocks ci n (aes_key (cb_aes p)) (aes_reg (cb_aes p)) all).
Proof.
  intros. apply (updates_spec (cbc_enc_blocks ci)); auto.
  - intros; apply enc_blocks_add.
  - intros; apply enc_blocks_ext; assumption.
Qed.

Lemma dec_updates_spec chunks p :
  ok_part p -> Forall (fun c => (zlen c < 2^31)%Z) chunks ->
  let all := pend p ++ concat chunks in
  let n := length all / BLK in
  exists p',
    run_updates (WP11_AesCbc_DecryptUpdate ci) p chunks =
      Ok (fst (cbc_dec_blocks ci n (aes_key (cb_aes p)) (aes_reg (cb_aes p)) all), p') /\
    ok_part p' /\ pend p' = skipn (n * BLK) all /\
    aes_key (cb_aes p') = aes_key (cb_aes p) /\
    aes_reg (cb_aes p') = snd (cbc_dec_blocks ci n (aes_key (cb_aes p)) (aes_reg (cb_aes p)) all).
Proof.
  intros. apply (updates_spec (cbc_dec_blocks ci)); auto.
  - intros; apply dec_blocks_add.
  - intros; apply dec_blocks_ext; assumption.
Qed.

(** ** Padding *)

Lemma pad_block_eq part psz :
  length part = BLK -> psz <= BLK ->
  pad_block part psz = firstn psz part ++ repeat (N.of_nat (BLK - psz)) (BLK - psz).
Proof.
  intros Hl Hp. unfold pad_block.
  assert (G : forall (l : list N) s,
    map (fun ib => if BLK - (BLK - psz) <=? fst ib then N.of_nat (BLK - psz) else snd ib)
        (combine (seq s (length l)) l) =
    firstn (psz - s) l ++ repeat (N.of_nat (BLK - psz)) (length l - (psz - s))).
  { induction l as [|x l IH]; intros s; cbn [length seq combine map].
    - rewrite firstn_nil. reflexivity.
    - rewrite IH. cbn [fst snd].
      replace (BLK - (BLK - psz)) with psz by lia.
      destruct (Nat.leb_spec psz s) as [Hle|Hgt].
      + replace (psz - s) with 0 by lia. replace (psz - S s) with 0 by lia.
        rewrite !Nat.sub_0_r. reflexivity.
      + replace (psz - s) with (S (psz - S s)) by lia. reflexivity. }
  specialize (G part 0). rewrite Hl, Nat.sub_0_r in G. exact G.
Qed.

Lemma pad_block_length part psz :
  length part = BLK -> psz <= BLK -> length (pad_block part psz) = BLK.
Proof.
  intros. rewrite pad_block_eq by assumption.
  rewrite app_length, firstn_length, repeat_length. lia.
Qed.

(** CBC-PAD encryption: any chunking gives the blocks of the padded data. *)
Lemma pad_enc_spec chunks p :
  ok_part p -> Forall (fun c => (zlen c < 2^31)%Z) chunks ->
  let all := pend p ++ concat chunks in
  let padded := all ++ repeat (N.of_nat (BLK - length all mod BLK)) (BLK - length all mod BLK) in
  exists o1 p1 o2 p2,
    run_updates (WP11_AesCbcPad_EncryptUpdate ci) p chunks = Ok (o1, p1) /\
    WP11_AesCbcPad_EncryptFinal ci p1 = Ok (o2, p2) /\
    o1 ++ o2 = fst (cbc_enc_blocks ci (length padded / BLK) (aes_key (cb_aes p)) (aes_reg (cb_aes p)) padded) /\
    cb_psz p2 = 0 /\ length (cb_partial p2) = BLK.
Proof.
  intros Hp Hc all padded.
  destruct (enc_updates_spec chunks p Hp Hc) as (p1 & E1 & Hp1 & Hpend & Hk & Hr).
  fold all in E1, Hpend, Hr. set (n := length all / BLK) in *.
  set (m := length all mod BLK) in *.
  assert (Hdm : length all = n * BLK + m).
  { unfold n, m. rewrite (Nat.div_mod (length all) BLK BLK_pos) at 1. lia. }
  assert (Hm : m < BLK) by (apply Nat.mod_upper_bound; apply BLK_pos).
  assert (Hpl : cb_psz p1 = m).
  { destruct Hp1 as [H1 H2]. rewrite <- (pend_length p1) by lia.
    rewrite Hpend, skipn_length. lia. }
  assert (Hpb : pad_block (cb_partial p1) (cb_psz p1) =
                skipn (n * BLK) padded).
  { destruct Hp1 as [H1 H2]. rewrite pad_block_eq by lia.
    change (firstn (cb_psz p1) (cb_partial p1)) with (pend p1). rewrite Hpend.
    unfold padded. rewrite skipn_app.
    replace (n * BLK - length all) with 0 by lia. cbn [skipn]. rewrite Hpl. reflexivity. }
  assert (Hpadl : length padded = (n + 1) * BLK).
  { unfold padded. rewrite app_length, repeat_length. lia. }
  exists (fst (cbc_enc_blocks ci n (aes_key (cb_aes p)) (aes_reg (cb_aes p)) all)), p1.
  unfold WP11_AesCbcPad_EncryptFinal. rewrite Hpb.
  rewrite enc_is_gcrypt.
  rewrite (gcrypt_mult _ _ _ _ 1) by (rewrite skipn_length, Hpadl; lia).
  cbn [bind].
  eexists _, _. split; [exact E1|]. split; [reflexivity|]. split.
  - rewrite Hpadl, Nat.div_mul by apply BLK_pos.
    rewrite (enc_blocks_add n 1). cbn [fst].
    rewrite Hk, Hr.
    assert (Hx : forall k r, cbc_enc_blocks ci n k r all = cbc_enc_blocks ci n k r padded).
    { intros k r. apply enc_blocks_ext. unfold padded. rewrite firstn_app.
      replace (n * BLK - length all) with 0 by lia. rewrite firstn_O, app_nil_r. reflexivity. }
    rewrite Hx. reflexivity.
  - split; [reflexivity|]. cbn [cb_partial]. rewrite skipn_length. lia.
Qed.

(** One-shot CBC-PAD encryption is the one-chunk case. *)
Lemma pad_enc_oneshot p plain :
  WP11_AesCbcPad_Encrypt ci p plain =
  ('(o1, p1) <- run_updates (WP11_AesCbcPad_EncryptUpdate ci) p [plain] ;;
   '(o2, p2) <- WP11_AesCbcPad_EncryptFinal ci p1 ;; Ok (o1 ++ o2, p2)).
Proof.
  unfold WP11_AesCbcPad_Encrypt. cbn [run_updates].
  destruct (WP11_AesCbcPad_EncryptUpdate ci p plain) as [[o1 p1]|e|u]; cbn [bind]; try reflexivity.
  destruct (WP11_AesCbcPad_EncryptFinal ci p1) as [[o2 p2]|e|u]; cbn [bind]; try reflexivity.
  rewrite app_nil_r. reflexivity.
Qed.

(** ** CBC-PAD decryption *)

Definition ok_dpart (p : cbc) : Prop := length (cb_partial p) = BLK /\ cb_psz p <= BLK.

(** Number of blocks that can be released while one (possibly full) block is
    held back. *)
Definition rel (len : nat) : nat := (len - 1) / BLK.

Lemma rel_bounds len : 0 < len -> rel len * BLK < len /\ len <= rel len * BLK + BLK.
Proof.
  intros H. unfold rel.
  pose proof (Nat.div_mod (len - 1) BLK BLK_pos).
  pose proof (Nat.mod_upper_bound (len - 1) BLK BLK_pos). lia.
Qed.

Lemma rel_unique len n : n * BLK < len -> len <= n * BLK + BLK -> rel len = n.
Proof.
  intros H1 H2. unfold rel.
  replace (len - 1) with (n * BLK + (len - 1 - n * BLK)) by lia.
  rewrite Nat.div_add_l by apply BLK_pos. rewrite Nat.div_small by lia. lia.
Qed.

Lemma pad_dec_update_spec p data :
  ok_dpart p -> (zlen data < 2^31)%Z ->
  let all := pend p ++ data in
  let n := rel (length all) in
  exists p',
    WP11_AesCbcPad_DecryptUpdate ci p data =
      Ok (fst (cbc_dec_blocks ci n (aes_key (cb_aes p)) (aes_reg (cb_aes p)) all), p') /\
    ok_dpart p' /\ pend p' = skipn (n * BLK) all /\
    aes_key (cb_aes p') = aes_key (cb_aes p) /\
    aes_reg (cb_aes p') = snd (cbc_dec_blocks ci n (aes_key (cb_aes p)) (aes_reg (cb_aes p)) all).
Proof.
  intros [Hlen Hpsz] Hsz all n.
  assert (Hall : length all = cb_psz p + length data).
  { unfold all. rewrite app_length, pend_length; lia. }
  unfold WP11_AesCbcPad_DecryptUpdate.
  destruct (Z.leb_spec (2^31) (zlen data)) as [Hbad|_]; [lia|].
  destruct (Nat.ltb_spec BLK (cb_psz p)) as [Hbad|_]; [lia|].
  pose proof BLK_pos as HB.
  (* second stage: decrypt all but the last block of [d1] *)
  assert (Stage2 : forall a1 d1, 0 < length d1 ->
    (if BLK <? length d1 then
       let sz0 := length d1 - length d1 mod BLK in
       let sz := if sz0 =? length d1 then sz0 - BLK else sz0 in
       '(o, a) <- wc_AesCbcDecrypt ci a1 (firstn sz d1) ;; Ok (o, a, skipn sz d1)
     else Ok ([], a1, d1)) =
    Ok (fst (cbc_dec_blocks ci (rel (length d1)) (aes_key a1) (aes_reg a1) d1),
        mkAes (aes_key a1) (snd (cbc_dec_blocks ci (rel (length d1)) (aes_key a1) (aes_reg a1) d1)),
        skipn (rel (length d1) * BLK) d1)).
  { intros a1 d1 Hd1. destruct (Nat.ltb_spec BLK (length d1)) as [Hgt|Hle].
    - assert (Hs : (let sz0 := length d1 - length d1 mod BLK in
                    if sz0 =? length d1 then sz0 - BLK else sz0) = rel (length d1) * BLK).
      { cbv zeta. pose proof (Nat.div_mod (length d1) BLK HB) as Hdm.
        pose proof (Nat.mod_upper_bound (length d1) BLK HB) as Hmu.
        destruct (Nat.eqb_spec (length d1 - length d1 mod BLK) (length d1)) as [He|He].
        - assert (length d1 mod BLK = 0) as Hz by lia.
          rewrite (rel_unique (length d1) (length d1 / BLK - 1)); nia.
        - rewrite (rel_unique (length d1) (length d1 / BLK)); lia. }
      cbv zeta in Hs |- *. rewrite Hs.
      pose proof (rel_bounds (length d1) Hd1) as [Hb1 Hb2].
      rewrite dec_is_gcrypt.
      rewrite (gcrypt_mult _ _ _ _ (rel (length d1))) by (rewrite firstn_length; lia).
      cbn [bind].
      rewrite (dec_blocks_ext _ _ _ (firstn (rel (length d1) * BLK) d1) d1)
        by (rewrite firstn_firstn, Nat.min_id; reflexivity).
      reflexivity.
    - rewrite (rel_unique (length d1) 0) by lia. cbn [cbc_dec_blocks fst snd Nat.mul skipn].
      destruct a1; reflexivity. }
  assert (Fin : forall a2 part1 psz1 d2,
     length part1 = BLK -> 0 < length d2 <= BLK ->
     let p' := (if 0 <? length d2 then mkCbc a2 (blit part1 0 d2) (length d2)
                else mkCbc a2 part1 psz1) in
     ok_dpart p' /\ pend p' = d2 /\ cb_aes p' = a2).
  { intros a2 part1 psz1 d2 Hp1 Hd2 p'. unfold p'.
    destruct (Nat.ltb_spec 0 (length d2)) as [Hp|Hp]; [|lia].
    split; [split; cbn [cb_partial cb_psz]; [rewrite blit_length; lia|lia]|].
    split; [|reflexivity].
    unfold pend; cbn [cb_psz cb_partial].
    change (length d2) with (0 + length d2).
    rewrite blit_firstn by lia. rewrite firstn_O. reflexivity. }
  destruct (Nat.ltb_spec 0 (cb_psz p)) as [Hpos|Hz].
  - set (sz := Nat.min (BLK - cb_psz p) (length data)).
    assert (Hszle : sz <= BLK - cb_psz p) by (unfold sz; lia).
    assert (Hszle2 : sz <= length data) by (unfold sz; lia).
    assert (Hfl : length (firstn sz data) = sz) by (rewrite firstn_length; lia).
    set (part := blit (cb_partial p) (cb_psz p) (firstn sz data)).
    assert (Hpl : length part = BLK).
    { unfold part. rewrite blit_length; [exact Hlen|lia]. }
    assert (Hpf : firstn (cb_psz p + sz) part = pend p ++ firstn sz data).
    { unfold part. rewrite <- Hfl at 1. rewrite blit_firstn; [reflexivity|lia]. }
    assert (Hrl : length (skipn sz data) = length data - sz) by apply skipn_length.
    destruct (Nat.eqb_spec (cb_psz p + sz) BLK) as [Hfull|Hnot];
      [destruct (Nat.ltb_spec 0 (length (skipn sz data))) as [Hmore|Hno]|]; cbn [andb].
    + assert (Hpart : part = firstn BLK all).
      { rewrite Hfull in Hpf. rewrite firstn_all2 in Hpf by lia.
        rewrite Hpf. unfold all. rewrite firstn_app.
        rewrite pend_length by lia.
        rewrite (firstn_all2 (pend p)) by (rewrite pend_length; lia).
        f_equal. f_equal. lia. }
      rewrite dec_is_gcrypt.
      rewrite (gcrypt_mult _ _ _ part 1) by lia. rewrite <- dec_is_gcrypt.
      cbn [bind].
      assert (Hrest : skipn sz data = skipn BLK all).
      { unfold all. rewrite skipn_app. rewrite pend_length by lia.
        rewrite (skipn_all2 (pend p)) by (rewrite pend_length; lia).
        cbn [app]. f_equal. lia. }
      rewrite (dec_blocks_ext 1 _ _ part all)
        by (rewrite Hpart, Nat.mul_1_l, firstn_firstn, Nat.min_id; reflexivity).
      rewrite Hrest in *. rewrite Stage2 by lia. cbn [bind aes_key aes_reg].
      set (m := rel (length (skipn BLK all))) in *.
      pose proof (rel_bounds _ Hmore) as [Hb1 Hb2]. fold m in Hb1, Hb2.
      assert (Hn : n = 1 + m).
      { unfold n. apply rel_unique; lia. }
      rewrite Hn, dec_blocks_add. cbn [fst snd]. rewrite Nat.mul_1_l.
      rewrite skipn_skipn. replace ((1 + m) * BLK) with (BLK + m * BLK) by lia.
      eexists. split; [reflexivity|].
      edestruct Fin as (H1 & H2 & H3); cycle 2.
      { split; [exact H1|]. split; [exact H2|]. rewrite H3. split; reflexivity. }
      * exact Hpl.
      * rewrite skipn_length in *. lia.
    + (* exactly one full block, nothing more: keep it *)
      cbn [bind].
      assert (Hd : skipn sz data = []) by (destruct (skipn sz data); [reflexivity|cbn in Hno; lia]).
      rewrite Hd. cbn [length].
      destruct (Nat.ltb_spec BLK 0) as [?|_]; [lia|]. cbn [bind app].
      assert (Hn0 : n = 0) by (unfold n; apply rel_unique; lia).
      rewrite Hn0. cbn [cbc_dec_blocks fst snd Nat.mul skipn Nat.ltb Nat.leb length].
      eexists. split; [reflexivity|].
      split; [split; cbn [cb_partial cb_psz]; lia|].
      split; [|split; reflexivity].
      unfold pend at 1; cbn [cb_partial cb_psz]. rewrite Hpf. unfold all.
      f_equal. apply firstn_all2. lia.
    + assert (Hsz2 : sz = length data) by (unfold sz in *; lia).
      cbn [bind].
      assert (Hd : skipn sz data = []) by (rewrite Hsz2; apply skipn_all).
      rewrite Hd. cbn [length].
      destruct (Nat.ltb_spec BLK 0) as [?|_]; [lia|]. cbn [bind app].
      assert (Hn0 : n = 0) by (unfold n; apply rel_unique; lia).
      rewrite Hn0. cbn [cbc_dec_blocks fst snd Nat.mul skipn Nat.ltb Nat.leb length].
      eexists. split; [reflexivity|].
      split; [split; cbn [cb_partial cb_psz]; lia|].
      split; [|split; reflexivity].
      unfold pend at 1; cbn [cb_partial cb_psz]. rewrite Hpf. unfold all.
      f_equal. apply firstn_all2. lia.
  - assert (Hp0 : cb_psz p = 0) by lia.
    assert (Hall2 : all = data).
    { unfold all, pend. rewrite Hp0, firstn_O. reflexivity. }
    cbn [bind]. rewrite <- Hall2 in *.
    destruct (Nat.eq_dec (length all) 0) as [H0|Hne].
    + assert (Hn0 : n = 0) by (unfold n, rel; rewrite H0; apply Nat.div_0_l; exact HB).
      destruct all as [|? ?] eqn:Eall; [|discriminate H0].
      cbn [length]. destruct (Nat.ltb_spec BLK 0) as [?|_]; [lia|]. cbn [bind app].
      rewrite Hn0. cbn [cbc_dec_blocks fst snd Nat.mul skipn Nat.ltb Nat.leb].
      eexists. split; [reflexivity|].
      split; [split; cbn [cb_partial cb_psz]; [exact Hlen|rewrite Hp0; apply Nat.le_0_l]|].
      split; [|split; reflexivity].
      unfold pend; cbn [cb_psz cb_partial]. rewrite Hp0. reflexivity.
    + rewrite Stage2 by lia. cbn [bind app]. fold n.
      pose proof (rel_bounds (length all)) as Hb. fold n in Hb.
      eexists. split; [reflexivity|].
      edestruct Fin as (H1 & H2 & H3); cycle 2.
      { split; [exact H1|]. split; [exact H2|]. rewrite H3. split; reflexivity. }
      * exact Hlen.
      * rewrite skipn_length. lia.
Qed.

Lemma pad_dec_updates_spec chunks p :
  ok_dpart p -> Forall (fun c => (zlen c < 2^31)%Z) chunks ->
  let all := pend p ++ concat chunks in
  let n := rel (length all) in
  exists p',
    run_updates (WP11_AesCbcPad_DecryptUpdate ci) p chunks =
      Ok (fst (cbc_dec_blocks ci n (aes_key (cb_aes p)) (aes_reg (cb_aes p)) all), p') /\
    ok_dpart p' /\ pend p' = skipn (n * BLK) all /\
    aes_key (cb_aes p') = aes_key (cb_aes p) /\
    aes_reg (cb_aes p') = snd (cbc_dec_blocks ci n (aes_key (cb_aes p)) (aes_reg (cb_aes p)) all).
Proof.
  revert p. induction chunks as [|c cs IH]; intros p Hp Hc; cbn [concat run_updates].
  - cbv zeta. rewrite app_nil_r.
    assert (Hl : length (pend p) = cb_psz p) by (destruct Hp; apply pend_length; lia).
    assert (Hr0 : rel (length (pend p)) = 0).
    { unfold rel. apply Nat.div_small. destruct Hp. pose proof BLK_pos. lia. }
    rewrite Hr0. cbn [cbc_dec_blocks fst snd skipn Nat.mul].
    exists p. auto.
  - cbv zeta. inversion_clear Hc.
    destruct (pad_dec_update_spec p c Hp H) as (p1 & E1 & Hp1 & Hpend & Hk & Hr).
    rewrite E1. cbn [bind].
    destruct (IH p1 Hp1 H0) as (p2 & E2 & Hp2 & Hpend2 & Hk2 & Hr2).
    rewrite E2. cbn [bind].
    set (all1 := pend p ++ c) in *. set (n1 := rel (length all1)) in *.
    rewrite Hk, Hr, Hpend in *.
    assert (Hn1 : n1 * BLK <= length all1).
    { unfold n1, rel. pose proof (Nat.mul_div_le (length all1 - 1) BLK BLK_pos). lia. }
    rewrite app_skipn_le in * by exact Hn1.
    rewrite app_assoc. fold all1.
    set (all := all1 ++ concat cs) in *.
    assert (Hla : length all1 <= length all) by (unfold all; rewrite app_length; lia).
    rewrite skipn_length in *.
    set (n2 := rel (length all - n1 * BLK)) in *.
    assert (Hn : rel (length all) = n1 + n2).
    { unfold n2. destruct (Nat.eq_dec (length all1) 0) as [Hz|Hz].
      - assert (n1 = 0) as -> by (unfold n1, rel; rewrite Hz; apply Nat.div_0_l, BLK_pos).
        cbn. rewrite Nat.sub_0_r. reflexivity.
      - pose proof (rel_bounds (length all1)) as Hb. fold n1 in Hb.
        pose proof (rel_bounds (length all - n1 * BLK)) as Hb2.
        apply rel_unique; lia. }
    rewrite Hn, dec_blocks_add.
    assert (Hb : forall k r, cbc_dec_blocks ci n1 k r all1 = cbc_dec_blocks ci n1 k r all).
    { intros k r. apply dec_blocks_ext. unfold all. rewrite firstn_app.
      replace (n1 * BLK - length all1) with 0 by lia.
      rewrite firstn_O, app_nil_r. reflexivity. }
    rewrite Hb in *.
    exists p2. split; [reflexivity|]. split; [exact Hp2|]. cbn [fst snd].
    split; [|split; congruence].
    rewrite Hpend2. rewrite skipn_skipn. f_equal. lia.
Qed.

(** ** CBC is invertible when the block cipher is *)
Definition cipher_ok : Prop :=
  (forall k b, length b = BLK -> length (ci_E ci k b) = BLK) /\
  (forall k b, length b = BLK -> ci_D ci k (ci_E ci k b) = b).

Lemma xor_length a b : length a = length b -> length (xorb_list a b) = length a.
Proof.
  revert b; induction a as [|x a IH]; intros [|y b] H; cbn in *; try discriminate; auto.
Qed.

Lemma xor_invol a b : length a = length b -> xorb_list (xorb_list a b) b = a.
Proof.
  revert b; induction a as [|x a IH]; intros [|y b] H; cbn in *; try discriminate; auto.
  rewrite N.lxor_assoc, N.lxor_nilpotent, N.lxor_0_r, IH by lia. reflexivity.
Qed.

Lemma enc_blocks_length n k r d :
  cipher_ok -> length r = BLK -> n * BLK <= length d ->
  length (fst (cbc_enc_blocks ci n k r d)) = n * BLK /\
  length (snd (cbc_enc_blocks ci n k r d)) = BLK.
Proof.
  intros [HE _]. revert r d; induction n as [|n IH]; intros r d Hr Hd; cbn [cbc_enc_blocks].
  - cbn. auto.
  - assert (Hc : length (ci_E ci k (xorb_list (firstn BLK d) r)) = BLK).
    { apply HE. rewrite xor_length; rewrite firstn_length; lia. }
    specialize (IH _ (skipn BLK d) Hc). rewrite skipn_length in IH.
    destruct (cbc_enc_blocks ci n k _ (skipn BLK d)) as [o r'] eqn:Eo. cbn [fst snd] in *.
    rewrite app_length, Hc. destruct IH; [lia|]. lia.
Qed.

Lemma dec_enc_blocks n k r d :
  cipher_ok -> length r = BLK -> n * BLK <= length d ->
  fst (cbc_dec_blocks ci n k r (fst (cbc_enc_blocks ci n k r d))) = firstn (n * BLK) d.
Proof.
  intros Hok. revert r d; induction n as [|n IH]; intros r d Hr Hd; cbn [cbc_enc_blocks].
  - reflexivity.
  - assert (Hf : length (firstn BLK d) = BLK) by (rewrite firstn_length; lia).
    set (c := ci_E ci k (xorb_list (firstn BLK d) r)).
    assert (Hc : length c = BLK).
    { apply (proj1 Hok). rewrite xor_length; lia. }
    specialize (IH c (skipn BLK d) Hc). rewrite skipn_length in IH.
    destruct (cbc_enc_blocks ci n k c (skipn BLK d)) as [o r'] eqn:Eo. cbn [fst snd] in *.
    cbn [cbc_dec_blocks].
    rewrite firstn_app, Hc, Nat.sub_diag, firstn_O, app_nil_r.
    rewrite (firstn_all2 c) by lia.
    rewrite skipn_app, Hc, Nat.sub_diag. rewrite skipn_all2 by lia. cbn [skipn app].
    destruct (cbc_dec_blocks ci n k c o) as [o2 r2] eqn:Ed. cbn [fst] in *.
    rewrite IH by lia. unfold c. rewrite (proj2 Hok) by (rewrite xor_length; lia).
    rewrite xor_invol by lia.
    cbn [Nat.mul].
    rewrite <- (firstn_skipn BLK d) at 3.
    rewrite firstn_app, Hf.
    replace (BLK + n * BLK - BLK) with (n * BLK) by lia.
    rewrite (firstn_all2 (firstn BLK d)) by lia. reflexivity.
Qed.

(** Final step of CBC-PAD decryption on a valid stream. *)
Lemma pad_dec_final_spec p msg k pad :
  ok_dpart p -> cb_psz p = BLK -> 0 < k <= BLK ->
  fst (cbc_dec_blocks ci 1 (aes_key (cb_aes p)) (aes_reg (cb_aes p)) (pend p)) =
    msg ++ pad ++ [N.of_nat k] ->
  length pad = k - 1 -> length msg = BLK - k ->
  exists p', WP11_AesCbcPad_DecryptFinal ci p = Ok (msg, p') /\ cb_psz p' = 0.
Proof.
  intros [Hl Hp] Hfull Hk Hd Hpad Hmsg.
  assert (Hpendl : length (pend p) = BLK) by (rewrite pend_length; lia).
  unfold WP11_AesCbcPad_DecryptFinal.
  change (firstn (cb_psz p) (cb_partial p)) with (pend p).
  rewrite dec_is_gcrypt, (gcrypt_mult _ _ _ (pend p) 1) by lia.
  cbn [bind]. rewrite Hd.
  assert (Hol : length (msg ++ pad ++ [N.of_nat k]) = BLK).
  { rewrite !app_length. cbn [length]. lia. }
  assert (Hb : blit (cb_partial p) 0 (msg ++ pad ++ [N.of_nat k]) = msg ++ pad ++ [N.of_nat k]).
  { unfold blit. cbn [Nat.add]. rewrite firstn_O. cbn [app].
    rewrite skipn_all2 by lia. apply app_nil_r. }
  rewrite Hb.
  assert (Hnth : nth (BLK - 1) (msg ++ pad ++ [N.of_nat k]) 0%N = N.of_nat k).
  { rewrite app_assoc. rewrite app_nth2 by (rewrite app_length; lia).
    rewrite app_length. replace (BLK - 1 - (length msg + length pad)) with 0 by lia. reflexivity. }
  rewrite Hnth. rewrite Nnat.Nat2N.id.
  assert (HBLK : BLK = 16) by reflexivity.
  destruct (N.leb_spec (N.of_nat k) 16) as [_|Hgt]; [|lia].
  eexists (mkCbc _ _ 0). split; [|reflexivity]. f_equal. f_equal.
  rewrite firstn_app. replace (BLK - k - length msg) with 0 by lia.
  rewrite firstn_O, app_nil_r. apply firstn_all2. lia.
Qed.

End Inst.
