(** AES-CBC and AES-CBC-PAD at the C_* level (proofs). *)
From Verif Require Import Base Cbc CbcProofs CbcSpec Ops.

Local Ltac Zify.zify_post_hook ::= Z.div_mod_to_equations.

Lemma BLK16 : BLK = 16. Proof. reflexivity. Qed.

(** ** The model's block functions against the specification *)
Lemma xor16_eq a b : xorb_list a b = xor16 a b.
Proof.
  unfold xor16. revert b; induction a as [|x a IH]; intros [|y b]; cbn; auto.
  rewrite IH. reflexivity.
Qed.

Lemma firstn_app_len A (l m : list A) n : length l = n -> firstn n (l ++ m) = l.
Proof.
  intros <-. rewrite firstn_app, Nat.sub_diag, firstn_all. cbn. apply app_nil_r.
Qed.
Lemma skipn_app_len A (l m : list A) n : length l = n -> skipn n (l ++ m) = m.
Proof. intros <-. rewrite skipn_app, Nat.sub_diag, skipn_all. reflexivity. Qed.

Lemma enc_blocks_spec ci bs key reg :
  are_blocks bs ->
  fst (cbc_enc_blocks ci (length bs) key reg (concat bs)) =
  concat (spec_cbc_enc (ci_E ci key) reg bs).
Proof.
  revert reg; induction bs as [|b bs IH]; intros reg H; [reflexivity|].
  inversion_clear H as [|? ? Hb Hbs].
  cbn [length cbc_enc_blocks concat spec_cbc_enc].
  change BLK with 16. rewrite firstn_app_len, skipn_app_len, xor16_eq by exact Hb.
  specialize (IH (ci_E ci key (xor16 b reg)) Hbs).
  destruct (cbc_enc_blocks ci (length bs) key _ (concat bs)) as [o r].
  cbn [fst] in *. rewrite IH. reflexivity.
Qed.

Lemma dec_blocks_spec ci bs key reg :
  are_blocks bs ->
  fst (cbc_dec_blocks ci (length bs) key reg (concat bs)) =
  concat (spec_cbc_dec (ci_D ci key) reg bs).
Proof.
  revert reg; induction bs as [|b bs IH]; intros reg H; [reflexivity|].
  inversion_clear H as [|? ? Hb Hbs].
  cbn [length cbc_dec_blocks concat spec_cbc_dec].
  change BLK with 16. rewrite firstn_app_len, skipn_app_len, xor16_eq by exact Hb.
  specialize (IH b Hbs).
  destruct (cbc_dec_blocks ci (length bs) key _ (concat bs)) as [o r].
  cbn [fst] in *. rewrite IH. reflexivity.
Qed.

Lemma blocks_len bs : are_blocks bs -> length (concat bs) = length bs * 16.
Proof.
  induction 1 as [|b bs Hb Hbs IH]; [reflexivity|].
  cbn [concat length]. rewrite app_length, IH, Hb. lia.
Qed.

Lemma xor16_length a b : length a = 16 -> length b = 16 -> length (xor16 a b) = 16.
Proof. intros Ha Hb. unfold xor16. rewrite map_length, combine_length. lia. Qed.

Lemma spec_enc_blocks E reg bs :
  (forall b, length b = 16 -> length (E b) = 16) ->
  length reg = 16 -> are_blocks bs ->
  are_blocks (spec_cbc_enc E reg bs) /\ length (spec_cbc_enc E reg bs) = length bs.
Proof.
  intros HE. revert reg. induction bs as [|b bs IH]; intros reg Hr Hb; cbn.
  - split; [constructor|reflexivity].
  - inversion_clear Hb as [|? ? H1 H2].
    assert (Hc : length (E (xor16 b reg)) = 16) by (apply HE, xor16_length; assumption).
    destruct (IH _ Hc H2) as [I1 I2].
    split; [constructor; assumption|]. rewrite I2. reflexivity.
Qed.

Lemma spec_dec_blocks D reg bs :
  (forall b, length b = 16 -> length (D b) = 16) ->
  length reg = 16 -> are_blocks bs ->
  are_blocks (spec_cbc_dec D reg bs) /\ length (spec_cbc_dec D reg bs) = length bs.
Proof.
  intros HD. revert reg. induction bs as [|b bs IH]; intros reg Hr Hb; cbn.
  - split; [constructor|reflexivity].
  - inversion_clear Hb as [|? ? H1 H2].
    destruct (IH _ H1 H2) as [I1 I2].
    split; [constructor; [apply xor16_length; auto|assumption]|]. rewrite I2. reflexivity.
Qed.

Lemma split_blocks (p : list N) : length p mod 16 = 0 -> exists bs, are_blocks bs /\ concat bs = p.
Proof.
  intros H. assert (Hk : exists k, length p = k * 16).
  { exists (length p / 16). pose proof (Nat.div_mod (length p) 16 ltac:(lia)). lia. }
  destruct Hk as [k Hk]. clear H. revert p Hk. induction k as [|k IH]; intros p Hk.
  - exists []. split; [constructor|]. destruct p; [reflexivity|cbn in Hk; lia].
  - destruct (IH (skipn 16 p)) as (bs & Hb & Hc); [rewrite skipn_length; lia|].
    exists (firstn 16 p :: bs). split.
    + constructor; [rewrite firstn_length; lia|assumption].
    + cbn [concat]. rewrite Hc. apply firstn_skipn.
Qed.

(** ** API level *)
Lemma trunc32_small d : (zlen d < 2^32)%Z -> trunc32 d = d.
Proof.
  intros H. unfold trunc32, u32. rewrite Z.mod_small by (pose proof (zlen_nonneg _ d); lia).
  unfold zlen. rewrite Nat2Z.id. apply firstn_all.
Qed.

Lemma u32_small z : (0 <= z < 2^32)%Z -> u32 z = z.
Proof. intros H. apply Z.mod_small. exact H. Qed.

Section Api.
Variable ev : env.
Variable objs : nat -> option keyobj.
Notation step := (step ev objs).
Notation run := (run ev objs).
Notation ci := (e_ci ev).

Lemma run_app st cs1 cs2 :
  run st (cs1 ++ cs2) =
  ('(st1, o1) <- run st cs1 ;; '(st2, o2) <- run st1 cs2 ;; Ok (st2, o1 ++ o2)).
Proof.
  revert st; induction cs1 as [|c cs1 IH]; intros st; cbn [run app].
  - cbn [bind]. destruct (run st cs2) as [[st2 o2]|e|u]; reflexivity.
  - cbn [bind]. destruct (step st c) as [[st1 o]|e|u]; cbn [bind]; try reflexivity.
    rewrite IH. destruct (run st1 cs1) as [[st2 o2]|e|u]; cbn [bind]; try reflexivity.
    destruct (run st2 cs2) as [[st3 o3]|e|u]; reflexivity.
Qed.

Definition active (st : opst) (m : mech) (i : Z) (k : nat) : Prop :=
  os_mech st = m /\ os_init st = i /\ os_curr st = Some k.

Definition cbc_of (st : opst) (a : aes) : cbc := mkCbc a (fst (os_part st)) (snd (os_part st)).

Definition good (o : outc) : Prop := o_rv o = CKR_OK /\ o_len o = zlen (o_out o).

(** The four Update calls of the CBC mechanisms reduce to the internal
    functions when the buffer has room for 15 bytes more than the input. *)
Lemma need_ok len psz : (0 <= len < 2^31)%Z -> (0 <= psz <= 16)%Z ->
  (align16 (u32 (len + psz)) <= len + psz)%Z /\
  (psz < 16 -> align16 (u32 (len + psz)) <= len + 15)%Z.
Proof.
  intros Hl Hp. rewrite u32_small by lia. unfold align16. lia.
Qed.

Lemma step_cbc_enc st a c n k :
  active st M_AES_CBC INIT_AES_CBC_ENC k -> os_params st = PCbc a ->
  snd (os_part st) < 16 -> (zlen c < 2^31)%Z -> (zlen c + 15 <= n < 2^32)%Z ->
  step st (KEncryptUpdate c (Buf n)) =
  conclude (Buf n) st ('(o, p') <- WP11_AesCbc_EncryptUpdate ci (cbc_of st a) c ;;
                       Ok (put_cbc st p', zlen o, o)).
Proof.
  intros (Hm & Hi & Hk) Hp Hs Hc Hn. pose proof (zlen_nonneg _ c).
  cbn [Ops.step]. unfold C_EncryptUpdate, with_obj, need_init, get_cbc.
  rewrite Hk, Hm, Hi, Hp. cbn [bind Z.eqb INIT_AES_CBC_ENC Pos.eqb].
  fold (cbc_of st a). unfold sized.
  replace (u32 n <? _)%Z with false.
  - rewrite trunc32_small by lia. reflexivity.
  - symmetry. apply Z.ltb_ge. rewrite (u32_small n) by lia.
    unfold WP11_AesCbc_PartLen, cbc_of. cbn [cb_psz].
    pose proof (need_ok (zlen c) (Z.of_nat (snd (os_part st)))) as X. lia.
Qed.

Lemma step_pad_enc st a c n k :
  active st M_AES_CBC_PAD INIT_AES_CBC_PAD_ENC k -> os_params st = PCbc a ->
  snd (os_part st) < 16 -> (zlen c < 2^31)%Z -> (zlen c + 15 <= n < 2^32)%Z ->
  step st (KEncryptUpdate c (Buf n)) =
  conclude (Buf n) st ('(o, p') <- WP11_AesCbcPad_EncryptUpdate ci (cbc_of st a) c ;;
                       Ok (put_cbc st p', zlen o, o)).
Proof.
  intros (Hm & Hi & Hk) Hp Hs Hc Hn. pose proof (zlen_nonneg _ c).
  cbn [Ops.step]. unfold C_EncryptUpdate, with_obj, need_init, get_cbc.
  rewrite Hk, Hm, Hi, Hp. cbn [bind Z.eqb INIT_AES_CBC_PAD_ENC Pos.eqb].
  fold (cbc_of st a). unfold sized.
  replace (u32 n <? _)%Z with false.
  - rewrite trunc32_small by lia. reflexivity.
  - symmetry. apply Z.ltb_ge. rewrite (u32_small n) by lia.
    unfold WP11_AesCbc_PartLen, cbc_of. cbn [cb_psz].
    pose proof (need_ok (zlen c) (Z.of_nat (snd (os_part st)))) as X. lia.
Qed.

Lemma step_cbc_dec st a c n k :
  active st M_AES_CBC INIT_AES_CBC_DEC k -> os_params st = PCbc a ->
  snd (os_part st) < 16 -> (zlen c < 2^31)%Z -> (zlen c + 15 <= n < 2^32)%Z ->
  step st (KDecryptUpdate c (Buf n)) =
  conclude (Buf n) st ('(o, p') <- WP11_AesCbc_DecryptUpdate ci (cbc_of st a) c ;;
                       Ok (put_cbc st p', zlen o, o)).
Proof.
  intros (Hm & Hi & Hk) Hp Hs Hc Hn. pose proof (zlen_nonneg _ c).
  cbn [Ops.step]. unfold C_DecryptUpdate, with_obj, need_init, get_cbc.
  rewrite Hk, Hm, Hi, Hp. cbn [bind Z.eqb INIT_AES_CBC_DEC Pos.eqb].
  fold (cbc_of st a). unfold sized.
  replace (u32 n <? _)%Z with false.
  - rewrite trunc32_small by lia. reflexivity.
  - symmetry. apply Z.ltb_ge. rewrite (u32_small n) by lia.
    unfold WP11_AesCbc_PartLen, cbc_of. cbn [cb_psz].
    pose proof (need_ok (zlen c) (Z.of_nat (snd (os_part st)))) as X. lia.
Qed.

Lemma pad_need_ok len psz : (0 <= len < 2^31)%Z -> (0 <= psz <= 16)%Z ->
  (pad_dec_need (u32 (len + psz)) <= len + 15)%Z.
Proof.
  intros Hl Hp. rewrite u32_small by lia. unfold pad_dec_need, align16.
  destruct (Z.eqb_spec ((len + psz) mod 16) 0); cbn [negb]; [|lia].
  destruct (Z.ltb_spec 0 (len + psz)); lia.
Qed.

Lemma step_pad_dec st a c n k :
  active st M_AES_CBC_PAD INIT_AES_CBC_PAD_DEC k -> os_params st = PCbc a ->
  snd (os_part st) <= 16 -> (zlen c < 2^31)%Z -> (zlen c + 15 <= n < 2^32)%Z ->
  step st (KDecryptUpdate c (Buf n)) =
  conclude (Buf n) st ('(o, p') <- WP11_AesCbcPad_DecryptUpdate ci (cbc_of st a) c ;;
                       Ok (put_cbc st p', zlen o, o)).
Proof.
  intros (Hm & Hi & Hk) Hp Hs Hc Hn. pose proof (zlen_nonneg _ c).
  cbn [Ops.step]. unfold C_DecryptUpdate, with_obj, need_init, get_cbc.
  rewrite Hk, Hm, Hi, Hp. cbn [bind Z.eqb INIT_AES_CBC_PAD_DEC Pos.eqb].
  fold (cbc_of st a). unfold sized.
  replace (u32 n <? _)%Z with false.
  - rewrite trunc32_small by lia. reflexivity.
  - symmetry. apply Z.ltb_ge. rewrite (u32_small n) by lia.
    unfold WP11_AesCbc_PartLen, cbc_of. cbn [cb_psz].
    pose proof (pad_need_ok (zlen c) (Z.of_nat (snd (os_part st)))) as X. lia.
Qed.

Section Updates.
Variable K : list N -> outbuf -> call.
Variable fup : cbc -> list N -> res (list N * cbc).
Variable m : mech.
Variable i : Z.
Variable pinv : cbc -> Prop.
Hypothesis Hstep : forall st a c n k,
  active st m i k -> os_params st = PCbc a -> pinv (cbc_of st a) ->
  (zlen c < 2^31)%Z -> (zlen c + 15 <= n < 2^32)%Z ->
  step st (K c (Buf n)) =
  conclude (Buf n) st ('(o, p') <- fup (cbc_of st a) c ;; Ok (put_cbc st p', zlen o, o)).
Hypothesis Hpres : forall p c o p', pinv p -> (zlen c < 2^31)%Z -> fup p c = Ok (o, p') -> pinv p'.

Lemma put_put st p p' : put_cbc (put_cbc st p) p' = put_cbc st p'.
Proof. reflexivity. Qed.

Lemma api_updates cbs : forall st a k o p',
  active st m i k -> os_params st = PCbc a -> pinv (cbc_of st a) ->
  Forall (fun cb => (zlen (fst cb) < 2^31)%Z /\ (zlen (fst cb) + 15 <= snd cb < 2^32)%Z) cbs ->
  run_updates fup (cbc_of st a) (map fst cbs) = Ok (o, p') ->
  exists outs,
    run st (map (fun cb => K (fst cb) (Buf (snd cb))) cbs) = Ok (put_cbc st p', outs) /\
    concat (map o_out outs) = o /\ Forall good outs /\ length outs = length cbs.
Proof.
  induction cbs as [|cb cbs IH]; intros st a k o p' Ha Hp Hinv HF Hr.
  - cbn in Hr. injection Hr as <- <-. exists []. cbn. repeat split; try constructor.
    destruct st as [x1 x2 x3 x4 [x5 x6]]; cbn in *. subst x4. reflexivity.
  - inversion_clear HF as [|? ? [H1 H2] HF']. cbn [map run_updates] in Hr.
    destruct (fup (cbc_of st a) (fst cb)) as [[o1 p1]|e|u] eqn:E1; cbn [bind] in Hr; try discriminate.
    destruct (run_updates fup p1 (map fst cbs)) as [[o2 p2]|e|u] eqn:E2; cbn [bind] in Hr; try discriminate.
    injection Hr as <- <-.
    cbn [map Ops.run]. rewrite (Hstep st a (fst cb) (snd cb) k Ha Hp Hinv H1 H2).
    rewrite E1. cbn [bind conclude].
    destruct (IH (put_cbc st p1) (cb_aes p1) k o2 p2) as (outs & R & C & G & L).
    + destruct Ha as (? & ? & ?). repeat split; assumption.
    + reflexivity.
    + unfold cbc_of. cbn. destruct p1; cbn. exact (Hpres _ _ _ _ Hinv H1 E1).
    + exact HF'.
    + unfold cbc_of. cbn. destruct p1; cbn in *. exact E2.
    + rewrite R. cbn [bind]. rewrite put_put.
      exists (mkOut CKR_OK (zlen o1) o1 :: outs). split; [reflexivity|].
      split; [cbn; rewrite C; reflexivity|]. split; [constructor; [split; reflexivity|assumption]|].
      cbn. lia.
Qed.
End Updates.

(** ** Init of a CBC mechanism *)
Definition fresh (st : opst) : Prop :=
  length (fst (os_part st)) = 16 /\ snd (os_part st) = 0.

Lemma cbc_init_ok st m k ko iv i :
  ko_type ko = CKK_AES -> e_aes_ok ev (ko_data ko) = true -> length iv = 16 ->
  cbc_init ev st m k ko (MPraw iv) i =
  (init_done st m k i (PCbc (mkAes (ko_data ko) iv)), CKR_OK).
Proof.
  intros Ht Ha Hl. unfold cbc_init. rewrite Ht. cbn [Z.eqb CKK_AES Pos.eqb negb].
  unfold zlen. rewrite Hl. cbn [Z.of_nat Pos.of_succ_nat Z.eqb Pos.eqb Pos.succ negb].
  change (Z.of_nat 16 =? 16)%Z with true. cbn [negb].
  unfold SetCbcParams. rewrite Ha. reflexivity.
Qed.

Definition ok0 : outc := mkOut CKR_OK 0 [].

Lemma enc_update_pres p c o p' :
  ok_part p -> (zlen c < 2^31)%Z -> WP11_AesCbc_EncryptUpdate ci p c = Ok (o, p') -> ok_part p'.
Proof.
  intros Hp Hc E.
  destruct (enc_updates_spec ci [c] p Hp) as (q & E2 & Hq & _).
  { constructor; [exact Hc|constructor]. }
  cbn [run_updates] in E2. rewrite E in E2. cbn [bind] in E2. injection E2 as _ ->. exact Hq.
Qed.
Lemma dec_update_pres p c o p' :
  ok_part p -> (zlen c < 2^31)%Z -> WP11_AesCbc_DecryptUpdate ci p c = Ok (o, p') -> ok_part p'.
Proof.
  intros Hp Hc E.
  destruct (dec_updates_spec ci [c] p Hp) as (q & E2 & Hq & _).
  { constructor; [exact Hc|constructor]. }
  cbn [run_updates] in E2. rewrite E in E2. cbn [bind] in E2. injection E2 as _ ->. exact Hq.
Qed.
Lemma pad_dec_update_pres p c o p' :
  ok_dpart p -> (zlen c < 2^31)%Z -> WP11_AesCbcPad_DecryptUpdate ci p c = Ok (o, p') -> ok_dpart p'.
Proof.
  intros Hp Hc E.
  destruct (pad_dec_update_spec ci p c Hp Hc) as (q & E2 & Hq & _).
  rewrite E in E2. injection E2 as _ ->. exact Hq.
Qed.

Lemma pend_nil p : cb_psz p = 0 -> pend p = [].
Proof. intros H. unfold pend. rewrite H. reflexivity. Qed.

Definition fits (cbs : list (list N * Z)) : Prop :=
  Forall (fun cb => (zlen (fst cb) < 2^31)%Z /\ (zlen (fst cb) + 15 <= snd cb < 2^32)%Z) cbs.

Lemma fits_chunks cbs : fits cbs -> Forall (fun c => (zlen c < 2^31)%Z) (map fst cbs).
Proof.
  intros H. rewrite Forall_map. eapply Forall_impl; [|exact H]. cbn. tauto.
Qed.

Definition enc_upds (cbs : list (list N * Z)) := map (fun cb => KEncryptUpdate (fst cb) (Buf (snd cb))) cbs.
Definition dec_upds (cbs : list (list N * Z)) := map (fun cb => KDecryptUpdate (fst cb) (Buf (snd cb))) cbs.

Lemma step_init_enc m st k ko iv i :
  (m = M_AES_CBC /\ i = INIT_AES_CBC_ENC) \/ (m = M_AES_CBC_PAD /\ i = INIT_AES_CBC_PAD_ENC) ->
  objs k = Some ko -> ko_type ko = CKK_AES -> e_aes_ok ev (ko_data ko) = true -> length iv = 16 ->
  step st (KEncryptInit m (MPraw iv) k) =
  Ok (init_done st m k i (PCbc (mkAes (ko_data ko) iv)), ok0).
Proof.
  intros [[-> ->]|[-> ->]] Hk Ht Ha Hl; cbn [Ops.step]; unfold init_call, C_EncryptInit;
    rewrite Hk, cbc_init_ok by assumption; reflexivity.
Qed.
Lemma step_init_dec m st k ko iv i :
  (m = M_AES_CBC /\ i = INIT_AES_CBC_DEC) \/ (m = M_AES_CBC_PAD /\ i = INIT_AES_CBC_PAD_DEC) ->
  objs k = Some ko -> ko_type ko = CKK_AES -> e_aes_ok ev (ko_data ko) = true -> length iv = 16 ->
  step st (KDecryptInit m (MPraw iv) k) =
  Ok (init_done st m k i (PCbc (mkAes (ko_data ko) iv)), ok0).
Proof.
  intros [[-> ->]|[-> ->]] Hk Ht Ha Hl; cbn [Ops.step]; unfold init_call, C_DecryptInit;
    rewrite Hk, cbc_init_ok by assumption; reflexivity.
Qed.

Lemma good_ok0 : good ok0.
Proof. split; reflexivity. Qed.

(** *** C31, encryption *)
Lemma cbc_stream_encrypt st k ko iv blks cbs nf :
  objs k = Some ko -> ko_type ko = CKK_AES -> e_aes_ok ev (ko_data ko) = true ->
  length iv = 16 -> fresh st ->
  are_blocks blks -> concat (map fst cbs) = concat blks -> fits cbs ->
  exists st' outs,
    run st (KEncryptInit M_AES_CBC (MPraw iv) k :: enc_upds cbs ++ [KEncryptFinal (Buf nf)])
      = Ok (st', outs) /\
    Forall good outs /\ length outs = length cbs + 2 /\
    concat (map o_out outs) = concat (spec_cbc_enc (ci_E ci (ko_data ko)) iv blks).
Proof.
  intros Hk Ht Ha Hl [Hf1 Hf2] Hb Hc Hfit.
  cbn [Ops.run].
  rewrite (step_init_enc M_AES_CBC st k ko iv INIT_AES_CBC_ENC) by auto. cbn [bind].
  set (st1 := init_done _ _ _ _ _).
  set (a := mkAes (ko_data ko) iv).
  assert (Hact : active st1 M_AES_CBC INIT_AES_CBC_ENC k) by (repeat split).
  assert (Hpar : os_params st1 = PCbc a) by reflexivity.
  assert (Hpart : ok_part (cbc_of st1 a)).
  { split; cbn; [exact Hf1|rewrite Hf2; change BLK with 16; lia]. }
  destruct (enc_updates_spec ci (map fst cbs) (cbc_of st1 a) Hpart (fits_chunks _ Hfit))
    as (p' & E & Hp' & Hpend & Hkey & Hreg).
  assert (Hpn : pend (cbc_of st1 a) = []) by (apply pend_nil; exact Hf2).
  rewrite Hpn in *. cbn [app] in *. rewrite Hc in *.
  rewrite blocks_len in * by exact Hb. change BLK with 16 in *. rewrite Nat.div_mul in * by lia.
  rewrite run_app.
  destruct (api_updates (fun c b => KEncryptUpdate c b) (WP11_AesCbc_EncryptUpdate ci)
              M_AES_CBC INIT_AES_CBC_ENC ok_part) with (cbs := cbs) (st := st1) (a := a) (k := k)
              (o := fst (cbc_enc_blocks ci (length blks) (ko_data ko) iv (concat blks))) (p' := p')
    as (outs & R & C & G & L); try assumption.
  { intros. eapply step_cbc_enc; try eassumption. destruct H1 as [_ X]. exact X. }
  { exact enc_update_pres. }
  unfold enc_upds. rewrite R. cbn [bind Ops.run Ops.step].
  unfold C_EncryptFinal, with_obj, need_init.
  cbn [put_cbc set_part set_params os_curr os_mech os_init st1 init_done].
  cbn [Z.eqb INIT_AES_CBC_ENC Pos.eqb].
  assert (Hz : cb_psz p' = 0).
  { destruct Hp' as [H1 H2]. rewrite <- (pend_length p') by (change BLK with 16 in *; lia).
    rewrite Hpend, skipn_length, blocks_len by exact Hb. lia. }
  unfold get_cbc, put_cbc, set_part, set_params. cbn [os_params os_part fst snd bind].
  unfold WP11_AesCbc_PartLen. cbn [cb_psz]. rewrite Hz.
  change (Z.of_nat 0 =? 0)%Z with true. cbn [negb bind].
  eexists _, _. split; [reflexivity|]. split; [|split].
  - constructor; [apply good_ok0|]. apply Forall_app. split; [exact G|].
    constructor; [apply good_ok0|constructor].
  - cbn. rewrite app_length. cbn. lia.
  - cbn [map concat o_out ok0 app]. rewrite map_app, concat_app, C. cbn. rewrite app_nil_r.
    apply enc_blocks_spec. exact Hb.
Qed.

Lemma cbc_oneshot_encrypt st k ko iv blks n :
  objs k = Some ko -> ko_type ko = CKK_AES -> e_aes_ok ev (ko_data ko) = true ->
  length iv = 16 ->
  (forall b, length b = 16 -> length (ci_E ci (ko_data ko) b) = 16) ->
  are_blocks blks -> (zlen (concat blks) <= n < 2^32)%Z ->
  exists st',
    run st [KEncryptInit M_AES_CBC (MPraw iv) k; KEncrypt [] (concat blks) (Buf n)] =
    Ok (st', [ok0; mkOut CKR_OK (zlen (concat (spec_cbc_enc (ci_E ci (ko_data ko)) iv blks)))
                         (concat (spec_cbc_enc (ci_E ci (ko_data ko)) iv blks))]).
Proof.
  intros Hk Ht Ha Hl HE Hb Hn. pose proof (zlen_nonneg _ (concat blks)).
  cbn [Ops.run].
  rewrite (step_init_enc M_AES_CBC st k ko iv INIT_AES_CBC_ENC) by auto. cbn [bind].
  cbn [Ops.step]. unfold C_Encrypt, with_obj, need_init.
  cbn [init_done os_curr os_mech os_init Z.eqb INIT_AES_CBC_ENC Pos.eqb].
  unfold sized. replace (u32 n <? _)%Z with false.
  2:{ symmetry. apply Z.ltb_ge. rewrite !u32_small by lia. lia. }
  unfold get_cbc. cbn [os_params init_done bind os_part].
  rewrite trunc32_small by lia. unfold WP11_AesCbc_Encrypt.
  rewrite enc_is_gcrypt. cbn [cb_aes].
  rewrite (gcrypt_mult _ _ _ _ (length blks)) by (rewrite blocks_len by exact Hb; reflexivity).
  cbn [bind conclude aes_key aes_reg].
  rewrite enc_blocks_spec by exact Hb.
  replace (zlen (concat blks)) with (zlen (concat (spec_cbc_enc (ci_E ci (ko_data ko)) iv blks))).
  - eexists. reflexivity.
  - destruct (spec_enc_blocks _ _ _ HE Hl Hb) as [B L]. unfold zlen.
    rewrite !blocks_len by assumption. rewrite L. reflexivity.
Qed.

(** *** C31, decryption *)
Lemma cbc_stream_decrypt st k ko iv blks cbs nf :
  objs k = Some ko -> ko_type ko = CKK_AES -> e_aes_ok ev (ko_data ko) = true ->
  length iv = 16 -> fresh st ->
  are_blocks blks -> concat (map fst cbs) = concat blks -> fits cbs ->
  exists st' outs,
    run st (KDecryptInit M_AES_CBC (MPraw iv) k :: dec_upds cbs ++ [KDecryptFinal (Buf nf)])
      = Ok (st', outs) /\
    Forall good outs /\ length outs = length cbs + 2 /\
    concat (map o_out outs) = concat (spec_cbc_dec (ci_D ci (ko_data ko)) iv blks).
Proof.
  intros Hk Ht Ha Hl [Hf1 Hf2] Hb Hc Hfit.
  cbn [Ops.run].
  rewrite (step_init_dec M_AES_CBC st k ko iv INIT_AES_CBC_DEC) by auto. cbn [bind].
  set (st1 := init_done _ _ _ _ _).
  set (a := mkAes (ko_data ko) iv).
  assert (Hact : active st1 M_AES_CBC INIT_AES_CBC_DEC k) by (repeat split).
  assert (Hpar : os_params st1 = PCbc a) by reflexivity.
  assert (Hpart : ok_part (cbc_of st1 a)).
  { split; cbn; [exact Hf1|rewrite Hf2; change BLK with 16; lia]. }
  destruct (dec_updates_spec ci (map fst cbs) (cbc_of st1 a) Hpart (fits_chunks _ Hfit))
    as (p' & E & Hp' & Hpend & Hkey & Hreg).
  assert (Hpn : pend (cbc_of st1 a) = []) by (apply pend_nil; exact Hf2).
  rewrite Hpn in *. cbn [app] in *. rewrite Hc in *.
  rewrite blocks_len in * by exact Hb. change BLK with 16 in *. rewrite Nat.div_mul in * by lia.
  rewrite run_app.
  destruct (api_updates (fun c b => KDecryptUpdate c b) (WP11_AesCbc_DecryptUpdate ci)
              M_AES_CBC INIT_AES_CBC_DEC ok_part) with (cbs := cbs) (st := st1) (a := a) (k := k)
              (o := fst (cbc_dec_blocks ci (length blks) (ko_data ko) iv (concat blks))) (p' := p')
    as (outs & R & C & G & L); try assumption.
  { intros. eapply step_cbc_dec; try eassumption. destruct H1 as [_ X]. exact X. }
  { exact dec_update_pres. }
  unfold dec_upds. rewrite R. cbn [bind Ops.run Ops.step].
  unfold C_DecryptFinal, with_obj, need_init.
  cbn [put_cbc set_part set_params os_curr os_mech os_init st1 init_done].
  cbn [Z.eqb INIT_AES_CBC_DEC Pos.eqb].
  assert (Hz : cb_psz p' = 0).
  { destruct Hp' as [H1 H2]. rewrite <- (pend_length p') by (change BLK with 16 in *; lia).
    rewrite Hpend, skipn_length, blocks_len by exact Hb. lia. }
  unfold get_cbc, put_cbc, set_part, set_params. cbn [os_params os_part fst snd bind].
  unfold WP11_AesCbc_PartLen. cbn [cb_psz]. rewrite Hz.
  change (Z.of_nat 0 =? 0)%Z with true. cbn [negb bind].
  eexists _, _. split; [reflexivity|]. split; [|split].
  - constructor; [apply good_ok0|]. apply Forall_app. split; [exact G|].
    constructor; [apply good_ok0|constructor].
  - cbn. rewrite app_length. cbn. lia.
  - cbn [map concat o_out ok0 app]. rewrite map_app, concat_app, C. cbn. rewrite app_nil_r.
    apply dec_blocks_spec. exact Hb.
Qed.

Lemma cbc_oneshot_decrypt st k ko iv blks n :
  objs k = Some ko -> ko_type ko = CKK_AES -> e_aes_ok ev (ko_data ko) = true ->
  length iv = 16 ->
  (forall b, length b = 16 -> length (ci_D ci (ko_data ko) b) = 16) ->
  are_blocks blks -> (zlen (concat blks) <= n < 2^32)%Z ->
  exists st',
    run st [KDecryptInit M_AES_CBC (MPraw iv) k; KDecrypt [] (concat blks) (Buf n)] =
    Ok (st', [ok0; mkOut CKR_OK (zlen (concat (spec_cbc_dec (ci_D ci (ko_data ko)) iv blks)))
                         (concat (spec_cbc_dec (ci_D ci (ko_data ko)) iv blks))]).
Proof.
  intros Hk Ht Ha Hl HE Hb Hn. pose proof (zlen_nonneg _ (concat blks)).
  cbn [Ops.run].
  rewrite (step_init_dec M_AES_CBC st k ko iv INIT_AES_CBC_DEC) by auto. cbn [bind].
  cbn [Ops.step]. unfold C_Decrypt, with_obj, need_init.
  cbn [init_done os_curr os_mech os_init Z.eqb INIT_AES_CBC_DEC Pos.eqb].
  unfold sized. replace (u32 n <? _)%Z with false.
  2:{ symmetry. apply Z.ltb_ge. rewrite !u32_small by lia. lia. }
  unfold get_cbc. cbn [os_params init_done bind os_part].
  rewrite trunc32_small by lia. unfold WP11_AesCbc_Decrypt.
  rewrite dec_is_gcrypt. cbn [cb_aes].
  rewrite (gcrypt_mult _ _ _ _ (length blks)) by (rewrite blocks_len by exact Hb; reflexivity).
  cbn [bind conclude aes_key aes_reg].
  rewrite dec_blocks_spec by exact Hb.
  replace (zlen (concat blks)) with (zlen (concat (spec_cbc_dec (ci_D ci (ko_data ko)) iv blks))).
  - eexists. reflexivity.
  - destruct (spec_dec_blocks _ _ _ HE Hl Hb) as [B L]. unfold zlen.
    rewrite !blocks_len by assumption. rewrite L. reflexivity.
Qed.

(** *** C32 *)
Definition okrv (o : outc) : Prop := o_rv o = CKR_OK.

Definition pad16 (m : list N) : list N :=
  m ++ repeat (N.of_nat (16 - length m mod 16)) (16 - length m mod 16).

Lemma pad16_len m : length (pad16 m) = (length m / 16 + 1) * 16.
Proof.
  unfold pad16. rewrite app_length, repeat_length.
  pose proof (Nat.mod_upper_bound (length m) 16 ltac:(lia)).
  pose proof (Nat.div_mod (length m) 16 ltac:(lia)). lia.
Qed.

Lemma pad16_pkcs7 m : pkcs7 m (pad16 m).
Proof.
  exists (16 - length m mod 16).
  pose proof (Nat.mod_upper_bound (length m) 16 ltac:(lia)).
  split; [lia|]. split; [reflexivity|]. rewrite pad16_len. apply Nat.mod_mul. lia.
Qed.

Lemma pad_stream_encrypt st k ko iv cbs nf :
  objs k = Some ko -> ko_type ko = CKK_AES -> e_aes_ok ev (ko_data ko) = true ->
  length iv = 16 -> fresh st -> fits cbs -> (16 <= nf < 2^32)%Z ->
  let msg := concat (map fst cbs) in
  exists st' outs,
    run st (KEncryptInit M_AES_CBC_PAD (MPraw iv) k :: enc_upds cbs ++ [KEncryptFinal (Buf nf)])
      = Ok (st', outs) /\
    Forall okrv outs /\ length outs = length cbs + 2 /\
    concat (map o_out outs) =
      fst (cbc_enc_blocks ci (length (pad16 msg) / 16) (ko_data ko) iv (pad16 msg)).
Proof.
  intros Hk Ht Ha Hl [Hf1 Hf2] Hfit Hnf msg.
  cbn [Ops.run].
  rewrite (step_init_enc M_AES_CBC_PAD st k ko iv INIT_AES_CBC_PAD_ENC) by auto. cbn [bind].
  set (st1 := init_done _ _ _ _ _).
  set (a := mkAes (ko_data ko) iv).
  assert (Hact : active st1 M_AES_CBC_PAD INIT_AES_CBC_PAD_ENC k) by (repeat split).
  assert (Hpar : os_params st1 = PCbc a) by reflexivity.
  assert (Hpart : ok_part (cbc_of st1 a)).
  { split; cbn; [exact Hf1|rewrite Hf2; change BLK with 16; lia]. }
  destruct (pad_enc_spec ci (map fst cbs) (cbc_of st1 a) Hpart (fits_chunks _ Hfit))
    as (o1 & p1 & o2 & p2 & E1 & E2 & E3 & Hz & _).
  assert (Hpn : pend (cbc_of st1 a) = []) by (apply pend_nil; exact Hf2).
  rewrite Hpn in *. cbn [app] in *. fold msg in E3. change BLK with 16 in E3.
  fold (pad16 msg) in E3.
  rewrite run_app.
  destruct (api_updates (fun c b => KEncryptUpdate c b) (WP11_AesCbcPad_EncryptUpdate ci)
              M_AES_CBC_PAD INIT_AES_CBC_PAD_ENC ok_part) with (cbs := cbs) (st := st1) (a := a) (k := k)
              (o := o1) (p' := p1)
    as (outs & R & C & G & L); try assumption.
  { intros. eapply step_pad_enc; try eassumption. destruct H1 as [_ X]. exact X. }
  { exact enc_update_pres. }
  unfold enc_upds. rewrite R. cbn [bind Ops.run Ops.step].
  unfold C_EncryptFinal, with_obj, need_init.
  cbn [put_cbc set_part set_params os_curr os_mech os_init st1 init_done].
  cbn [Z.eqb INIT_AES_CBC_PAD_ENC Pos.eqb].
  unfold sized. replace (u32 nf <? 16)%Z with false.
  2:{ symmetry. apply Z.ltb_ge. rewrite u32_small by lia. lia. }
  unfold get_cbc, put_cbc, set_part, set_params. cbn [os_params os_part fst snd bind].
  replace (mkCbc (cb_aes p1) (cb_partial p1) (cb_psz p1)) with p1 by (destruct p1; reflexivity).
  rewrite E2. cbn [bind conclude].
  eexists _, _. split; [reflexivity|]. split; [|split].
  - constructor; [reflexivity|]. apply Forall_app. split.
    + eapply Forall_impl; [|exact G]. intros o [X _]. exact X.
    + constructor; [reflexivity|constructor].
  - cbn. rewrite app_length. cbn. lia.
  - cbn [map concat o_out ok0 app]. rewrite map_app, concat_app, C. cbn [map concat o_out].
    rewrite app_nil_r. exact E3.
Qed.

Lemma pad_stream_decrypt st k ko iv cbs nf msg :
  cipher_ok ci ->
  objs k = Some ko -> ko_type ko = CKK_AES -> e_aes_ok ev (ko_data ko) = true ->
  length iv = 16 -> fresh st -> fits cbs ->
  concat (map fst cbs) =
    fst (cbc_enc_blocks ci (length (pad16 msg) / 16) (ko_data ko) iv (pad16 msg)) ->
  exists st' outs,
    run st (KDecryptInit M_AES_CBC_PAD (MPraw iv) k :: dec_upds cbs ++ [KDecryptFinal (Buf nf)])
      = Ok (st', outs) /\
    Forall good outs /\ length outs = length cbs + 2 /\
    concat (map o_out outs) = msg.
Proof.
  intros Hci Hk Ht Ha Hl [Hf1 Hf2] Hfit Hct.
  set (n := length msg / 16).
  assert (Hpl : length (pad16 msg) = (n + 1) * 16) by apply pad16_len.
  rewrite Hpl, Nat.div_mul in Hct by lia.
  set (ct := fst (cbc_enc_blocks ci (n + 1) (ko_data ko) iv (pad16 msg))) in *.
  assert (Hctl : length ct = (n + 1) * 16).
  { apply (enc_blocks_length ci (n + 1) (ko_data ko) iv (pad16 msg) Hci);
      change BLK with 16; lia. }
  assert (Hdec : fst (cbc_dec_blocks ci (n + 1) (ko_data ko) iv ct) = pad16 msg).
  { unfold ct. rewrite dec_enc_blocks by (try exact Hci; change BLK with 16; lia).
    change BLK with 16. rewrite <- Hpl. apply firstn_all. }
  cbn [Ops.run].
  rewrite (step_init_dec M_AES_CBC_PAD st k ko iv INIT_AES_CBC_PAD_DEC) by auto. cbn [bind].
  set (st1 := init_done _ _ _ _ _).
  set (a := mkAes (ko_data ko) iv).
  assert (Hact : active st1 M_AES_CBC_PAD INIT_AES_CBC_PAD_DEC k) by (repeat split).
  assert (Hpar : os_params st1 = PCbc a) by reflexivity.
  assert (Hpart : ok_dpart (cbc_of st1 a)).
  { split; cbn; [exact Hf1|rewrite Hf2; change BLK with 16; lia]. }
  destruct (pad_dec_updates_spec ci (map fst cbs) (cbc_of st1 a) Hpart (fits_chunks _ Hfit))
    as (p1 & E1 & Hp1 & Hpend & Hkey & Hreg).
  assert (Hpn : pend (cbc_of st1 a) = []) by (apply pend_nil; exact Hf2).
  rewrite Hpn in *. cbn [app] in *. rewrite Hct in *. rewrite Hctl in *.
  rewrite (rel_unique _ n) in * by (change BLK with 16; lia).
  cbn [cbc_of cb_aes a aes_key aes_reg] in E1, Hkey, Hreg.
  rewrite run_app.
  destruct (api_updates (fun c b => KDecryptUpdate c b) (WP11_AesCbcPad_DecryptUpdate ci)
              M_AES_CBC_PAD INIT_AES_CBC_PAD_DEC ok_dpart) with (cbs := cbs) (st := st1) (a := a) (k := k)
              (o := fst (cbc_dec_blocks ci n (ko_data ko) iv ct)) (p' := p1)
    as (outs & R & C & G & L); try assumption.
  { intros. eapply step_pad_dec; try eassumption. destruct H1 as [_ X]. exact X. }
  { exact pad_dec_update_pres. }
  assert (Hfull : cb_psz p1 = 16).
  { destruct Hp1 as [H1 H2]. rewrite <- (pend_length p1) by lia.
    rewrite Hpend, skipn_length. change BLK with 16. lia. }
  (* the last block *)
  rewrite dec_blocks_add in Hdec. cbn [fst] in Hdec. change BLK with 16 in Hdec, Hpend.
  rewrite <- Hreg, <- Hkey in Hdec. rewrite <- Hpend in Hdec.
  set (o1 := fst (cbc_dec_blocks ci n (aes_key (cb_aes p1)) iv ct)) in Hdec.
  set (lb := fst (cbc_dec_blocks ci 1 (aes_key (cb_aes p1)) (aes_reg (cb_aes p1)) (pend p1))) in Hdec.
  assert (Ho1 : o1 = fst (cbc_dec_blocks ci n (ko_data ko) iv ct)).
  { unfold o1. rewrite Hkey. reflexivity. }
  assert (Ho1l : length o1 = n * 16).
  { assert (X : firstn (n * BLK) (pad16 msg) =
       fst (cbc_dec_blocks ci n (ko_data ko) iv (fst (cbc_enc_blocks ci n (ko_data ko) iv (pad16 msg))))).
    { rewrite dec_enc_blocks; [reflexivity|exact Hci|exact Hl|change BLK with 16; lia]. }
    rewrite Ho1.
    replace (cbc_dec_blocks ci n (ko_data ko) iv ct) with
      (cbc_dec_blocks ci n (ko_data ko) iv (fst (cbc_enc_blocks ci n (ko_data ko) iv (pad16 msg)))).
    - rewrite <- X. rewrite firstn_length. change BLK with 16. lia.
    - apply dec_blocks_ext. unfold ct. rewrite enc_blocks_add. cbn [fst].
      destruct (enc_blocks_length ci n (ko_data ko) iv (pad16 msg) Hci) as [Y _];
        [exact Hl|change BLK with 16; lia|].
      rewrite firstn_app, Y, Nat.sub_diag. cbn. rewrite app_nil_r. reflexivity. }
  pose proof (Nat.mod_upper_bound (length msg) 16 ltac:(lia)) as Hmu.
  pose proof (Nat.div_mod (length msg) 16 ltac:(lia)) as Hdm. fold n in Hdm.
  set (kk := 16 - length msg mod 16) in *.
  assert (Hlb : lb = skipn (n * 16) msg ++ repeat (N.of_nat kk) (kk - 1) ++ [N.of_nat kk]).
  { assert (X : lb = skipn (n * 16) (pad16 msg)).
    { rewrite <- Hdec. rewrite skipn_app_len by exact Ho1l. reflexivity. }
    rewrite X. unfold pad16. fold kk. rewrite <- app_skipn_le by lia. f_equal.
    replace kk with (kk - 1 + 1) at 2 by lia. rewrite repeat_app. reflexivity. }
  assert (Hmsg : firstn (n * 16) msg = o1).
  { assert (X : firstn (n * 16) (pad16 msg) = o1).
    { rewrite <- Hdec. apply firstn_app_len. exact Ho1l. }
    rewrite <- X. unfold pad16. rewrite firstn_app.
    replace (n * 16 - length msg) with 0 by lia. cbn. rewrite app_nil_r. reflexivity. }
  destruct (pad_dec_final_spec ci p1 (skipn (n * 16) msg) kk (repeat (N.of_nat kk) (kk - 1)))
    as (p2 & E2 & Hz2).
  { exact Hp1. }
  { exact Hfull. }
  { change BLK with 16. lia. }
  { fold lb. exact Hlb. }
  { apply repeat_length. }
  { rewrite skipn_length. change BLK with 16. lia. }
  unfold dec_upds. rewrite R. cbn [bind Ops.run Ops.step].
  unfold C_DecryptFinal, with_obj, need_init.
  cbn [put_cbc set_part set_params os_curr os_mech os_init st1 init_done].
  cbn [Z.eqb INIT_AES_CBC_PAD_DEC Pos.eqb].
  unfold get_cbc, put_cbc, set_part, set_params. cbn [os_params os_part fst snd bind].
  replace (mkCbc (cb_aes p1) (cb_partial p1) (cb_psz p1)) with p1 by (destruct p1; reflexivity).
  unfold WP11_AesCbc_PartLen. rewrite Hfull. change (Z.of_nat 16 =? 16)%Z with true.
  cbn [negb]. rewrite E2. cbn [bind conclude].
  eexists _, _. split; [reflexivity|]. split; [|split].
  - constructor; [apply good_ok0|]. apply Forall_app. split; [exact G|].
    constructor; [split; reflexivity|constructor].
  - cbn. rewrite app_length. cbn. lia.
  - cbn [map concat o_out ok0 app]. rewrite map_app, concat_app, C. cbn [map concat o_out].
    rewrite app_nil_r. rewrite <- Ho1, <- Hmsg. apply firstn_skipn.
Qed.

End Api.
