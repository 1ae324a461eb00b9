(** What CBC-PAD decryption delivers, whatever the padding (C33): the plain
    text of CBC without as many bytes as its last byte says, and without none
    if that byte is above 16. *)
From Verif Require Import Base Cbc CbcProofs CbcSpec Ops OpsSpec OpsCbcProofs OpsProofs OpsProofs2 OpsProofs4.

Local Ltac Zify.zify_post_hook ::= Z.div_mod_to_equations.

(** The rule, by itself: [stripped pt out] says that [out] is [pt] without its
    last k bytes, where k is the last byte if this is at most 16 and else 0. *)
Definition stripped (pt out : list N) : Prop :=
  exists x cut, last pt 0%N = x /\ pt = out ++ cut /\
    (((x <= 16)%N /\ N.of_nat (length cut) = x) \/ ((16 < x)%N /\ cut = [])).

Lemma stripped_unique pt a b : stripped pt a -> stripped pt b -> a = b.
Proof.
  intros (x & u & X1 & X2 & X3) (y & v & Y1 & Y2 & Y3).
  assert (length u = length v).
  { destruct X3 as [[? ?]|[? ->]], Y3 as [[? ?]|[? ->]]; cbn; lia. }
  assert (length a = length b).
  { apply (f_equal (@length N)) in X2, Y2. rewrite app_length in X2, Y2. lia. }
  assert (E : a ++ u = b ++ v) by congruence.
  apply (f_equal (firstn (length a))) in E.
  rewrite firstn_app_len in E by reflexivity. rewrite firstn_app_len in E by lia. exact E.
Qed.

Lemma last_nth (A : Type) (l : list A) d : last l d = nth (length l - 1) l d.
Proof.
  induction l as [|x [|y l] IH]; try reflexivity.
  change (last (x :: y :: l) d) with (last (y :: l) d). rewrite IH.
  cbn [length Nat.sub]. rewrite ?Nat.sub_0_r. reflexivity.
Qed.
Lemma last_app_r (A : Type) (l m : list A) d : m <> [] -> last (l ++ m) d = last m d.
Proof.
  intros H. induction l as [|x l IH]; [reflexivity|].
  cbn [app]. rewrite <- IH. destruct (l ++ m) eqn:E; [|reflexivity].
  apply app_eq_nil in E. destruct E as [_ E]. contradiction.
Qed.

(** The final step on any full block. *)
Lemma pad_dec_final_any ci p lb :
  ok_dpart p -> cb_psz p = 16 ->
  fst (cbc_dec_blocks ci 1 (aes_key (cb_aes p)) (aes_reg (cb_aes p)) (pend p)) = lb ->
  length lb = 16 ->
  exists out p', WP11_AesCbcPad_DecryptFinal ci p = Ok (out, p') /\ stripped lb out.
Proof.
  intros [Hl Hp] Hfull Hd Hlb.
  assert (Hpendl : length (pend p) = BLK) by (rewrite pend_length; change BLK with 16 in *; lia).
  unfold WP11_AesCbcPad_DecryptFinal.
  change (firstn (cb_psz p) (cb_partial p)) with (pend p).
  rewrite dec_is_gcrypt, (gcrypt_mult _ _ _ (pend p) 1) by (change BLK with 16 in *; lia).
  cbn [bind]. rewrite Hd.
  assert (Hb : blit (cb_partial p) 0 lb = lb).
  { unfold blit. cbn [Nat.add]. rewrite firstn_O. cbn [app].
    rewrite skipn_all2 by (change BLK with 16 in *; lia). apply app_nil_r. }
  rewrite Hb. change (BLK - 1) with 15.
  eexists _, _. split; [reflexivity|].
  change BLK with 16.
  exists (nth 15 lb 0%N). eexists. split; [rewrite last_nth, Hlb; reflexivity|].
  split; [symmetry; apply firstn_skipn|]. rewrite skipn_length, Hlb.
  destruct (N.leb_spec (nth 15 lb 0%N) 16) as [L|L].
  - left. split; [exact L|]. lia.
  - right. split; [exact L|]. apply skipn_all2. lia.
Qed.

Lemma stripped_app a lb out : lb <> [] -> stripped lb out -> stripped (a ++ lb) (a ++ out).
Proof.
  intros N (x & cut & H1 & H2 & H3). exists x, cut. split; [|split; [|exact H3]].
  - rewrite last_app_r by exact N. exact H1.
  - rewrite <- app_assoc, <- H2. reflexivity.
Qed.

(** On well-padded text the rule gives the message. *)
Lemma stripped_pkcs7 m p : pkcs7 m p -> stripped p m.
Proof.
  intros (k & H1 & -> & _). exists (N.of_nat k), (repeat (N.of_nat k) k).
  split; [|split; [reflexivity|left; rewrite repeat_length; lia]].
  destruct k as [|k]; [lia|]. rewrite last_app_r by discriminate.
  clear H1. generalize (N.of_nat (S k)). intros x.
  induction k as [|k IH]; [reflexivity|]. exact IH.
Qed.

Section P.
Variable ev : env.
Variable objs : nat -> option keyobj.
Notation step := (step ev objs).
Notation run := (run ev objs).
Notation ci := (e_ci ev).

Lemma pad_stream_any st k ko iv bs b cbs nf :
  (forall x, length x = 16 -> length (ci_D ci (ko_data ko) x) = 16) ->
  objs k = Some ko -> ko_type ko = CKK_AES -> e_aes_ok ev (ko_data ko) = true ->
  length iv = 16 -> fresh st -> fits cbs ->
  are_blocks (bs ++ [b]) -> concat (map fst cbs) = concat (bs ++ [b]) ->
  exists st' outs,
    run st (KDecryptInit M_AES_CBC_PAD (MPraw iv) k :: dec_upds cbs ++ [KDecryptFinal (Buf nf)])
      = Ok (st', outs) /\
    Forall good outs /\
    stripped (concat (spec_cbc_dec (ci_D ci (ko_data ko)) iv (bs ++ [b]))) (concat (map o_out outs)).
Proof.
  intros HD Hk Ht Ha Hl [Hf1 Hf2] Hfit Hb Hct.
  set (n := length bs).
  set (ct := concat (bs ++ [b])) in *.
  assert (Hctl : length ct = (n + 1) * 16).
  { unfold ct. rewrite blocks_len by exact Hb. rewrite app_length. reflexivity. }
  assert (Hdec : fst (cbc_dec_blocks ci (n + 1) (ko_data ko) iv ct) =
                 concat (spec_cbc_dec (ci_D ci (ko_data ko)) iv (bs ++ [b]))).
  { replace (n + 1) with (length (bs ++ [b])) by (rewrite app_length; reflexivity).
    apply dec_blocks_spec. exact Hb. }
  destruct (spec_dec_blocks _ _ _ HD Hl Hb) as [SB SL].
  cbn [Ops.run].
  rewrite (step_init_dec ev objs M_AES_CBC_PAD st k ko iv INIT_AES_CBC_PAD_DEC) by auto. cbn [bind].
  set (st1 := init_done _ _ _ _ _).
  set (a := mkAes (ko_data ko) iv).
  assert (Hact : active st1 M_AES_CBC_PAD INIT_AES_CBC_PAD_DEC k) by (repeat split).
  assert (Hpar : os_params st1 = PCbc a) by reflexivity.
  assert (Hpart : ok_dpart (cbc_of st1 a)).
  { split; cbn; [exact Hf1|rewrite Hf2; change BLK with 16; lia]. }
  destruct (pad_dec_updates_spec ci (map fst cbs) (cbc_of st1 a) Hpart (fits_chunks _ Hfit))
    as (p1 & E1 & Hp1 & Hpend & Hkey & Hreg).
  assert (Hpn : pend (cbc_of st1 a) = []) by (apply pend_nil; exact Hf2).
  rewrite Hpn in *. cbn [app] in *. rewrite Hct in *. rewrite Hctl in *.
  rewrite (rel_unique _ n) in * by (change BLK with 16; lia).
  cbn [cbc_of cb_aes a aes_key aes_reg] in E1, Hkey, Hreg.
  rewrite run_app.
  destruct (api_updates ev objs (fun c b => KDecryptUpdate c b) (WP11_AesCbcPad_DecryptUpdate ci)
              M_AES_CBC_PAD INIT_AES_CBC_PAD_DEC ok_dpart) with (cbs := cbs) (st := st1) (a := a) (k := k)
              (o := fst (cbc_dec_blocks ci n (ko_data ko) iv ct)) (p' := p1)
    as (outs & R & C & G & L); try assumption.
  { intros. eapply step_pad_dec; try eassumption. destruct H1 as [_ X]. exact X. }
  { apply pad_dec_update_pres. }
  assert (Hfull : cb_psz p1 = 16).
  { destruct Hp1 as [H1 H2]. rewrite <- (pend_length p1) by lia.
    rewrite Hpend, skipn_length. change BLK with 16. lia. }
  rewrite dec_blocks_add in Hdec. cbn [fst] in Hdec. change BLK with 16 in Hdec, Hpend.
  rewrite <- Hreg, <- Hpend in Hdec.
  set (o1 := fst (cbc_dec_blocks ci n (ko_data ko) iv ct)) in *.
  set (lb := fst (cbc_dec_blocks ci 1 (ko_data ko) (aes_reg (cb_aes p1)) (pend p1))) in *.
  assert (Hlb : length lb = 16).
  { unfold lb. cbn [cbc_dec_blocks fst]. rewrite xor16_eq, app_nil_r.
    assert (Q : length (pend p1) = 16) by (destruct Hp1; rewrite pend_length; [exact Hfull|lia|lia]).
    apply xor16_length.
    - apply HD. rewrite firstn_length. change BLK with 16. lia.
    - rewrite Hreg. clear -Hl Hctl Hb. unfold n.
      assert (G : forall m r d, length r = 16 -> m * 16 <= length d ->
                length (snd (cbc_dec_blocks ci m (ko_data ko) r d)) = 16).
      { induction m as [|m IH]; intros r d Hr Hd; [exact Hr|]. cbn [cbc_dec_blocks].
        specialize (IH (firstn BLK d) (skipn BLK d)). change BLK with 16 in *.
        destruct (cbc_dec_blocks ci m (ko_data ko) (firstn 16 d) (skipn 16 d)) as [u v].
        cbn [snd] in *. apply IH; [rewrite firstn_length; lia|rewrite skipn_length; lia]. }
      apply G; [exact Hl|]. unfold n in Hctl. lia. }
  destruct (pad_dec_final_any ci p1 lb Hp1 Hfull) as (o2 & p2 & E2 & S2).
  { rewrite Hkey. reflexivity. }
  { exact Hlb. }
  unfold dec_upds. rewrite R. cbn [bind Ops.run Ops.step].
  unfold C_DecryptFinal, with_obj, need_init.
  cbn [put_cbc set_part set_params os_curr os_mech os_init st1 init_done].
  cbn [Z.eqb INIT_AES_CBC_PAD_DEC Pos.eqb].
  unfold get_cbc, put_cbc, set_part, set_params. cbn [os_params os_part fst snd bind].
  replace (mkCbc (cb_aes p1) (cb_partial p1) (cb_psz p1)) with p1 by (destruct p1; reflexivity).
  unfold WP11_AesCbc_PartLen. rewrite Hfull. change (Z.of_nat 16 =? 16)%Z with true.
  cbn [negb]. rewrite E2. cbn [bind conclude].
  eexists _, _. split; [reflexivity|]. split.
  - constructor; [apply good_ok0|]. apply Forall_app. split; [exact G|].
    constructor; [split; reflexivity|constructor].
  - cbn [map concat o_out ok0 app]. rewrite map_app, concat_app, C. cbn [map concat o_out].
    rewrite app_nil_r. rewrite <- Hdec. apply stripped_app; [|exact S2].
    intros X. rewrite X in Hlb. discriminate Hlb.
Qed.

Local Ltac badgood R G :=
  injection R as _ <-;
  repeat match type of G with Forall _ (_ :: _) => apply Forall_cons_iff in G;
    let X := fresh in destruct G as [X G]; destruct X as [X _]; try discriminate X end.

Lemma pad_oneshot_any st k ko iv bs b n rnd :
  (forall x, length x = 16 -> length (ci_D ci (ko_data ko) x) = 16) ->
  objs k = Some ko -> ko_type ko = CKK_AES -> e_aes_ok ev (ko_data ko) = true ->
  length iv = 16 -> fresh st ->
  are_blocks (bs ++ [b]) ->
  let ct := concat (bs ++ [b]) in
  (zlen ct < 2^31)%Z ->
  exists st' out,
    run st [KDecryptInit M_AES_CBC_PAD (MPraw iv) k; KDecrypt rnd ct (Buf n)] =
    Ok (st', [ok0; mkOut CKR_OK (zlen out) out]) /\
    stripped (concat (spec_cbc_dec (ci_D ci (ko_data ko)) iv (bs ++ [b]))) out.
Proof.
  intros Hci Hk Ht Ha Hl [Hf1 Hf2] Hb ct Hct. pose proof (zlen_nonneg _ ct).
  assert (Hfit : fits [(ct, zlen ct + 15)%Z]).
  { constructor; [cbn [fst snd]; lia|constructor]. }
  destruct (pad_stream_any st k ko iv bs b [(ct, zlen ct + 15)%Z] 16 Hci Hk Ht Ha Hl (conj Hf1 Hf2) Hfit Hb)
    as (st' & outs & R & G & C).
  { cbn [map fst concat]. apply app_nil_r. }
  cbn [dec_upds map fst snd app Ops.run] in R. cbn [Ops.run].
  rewrite (step_init_dec ev objs M_AES_CBC_PAD st k ko iv INIT_AES_CBC_PAD_DEC) in * by auto. cbn [bind] in *.
  set (st1 := init_done _ _ _ _ _) in *. set (a := mkAes (ko_data ko) iv) in *.
  assert (Hact : active st1 M_AES_CBC_PAD INIT_AES_CBC_PAD_DEC k) by (repeat split).
  assert (Hpar : os_params st1 = PCbc a) by reflexivity.
  rewrite (step_pad_dec ev objs st1 a ct (zlen ct + 15) k Hact Hpar) in R; try lia.
  2:{ cbn. rewrite Hf2. lia. }
  cbn [Ops.step]. unfold C_Decrypt, with_obj, need_init.
  cbn [st1 init_done os_curr os_mech os_init Z.eqb INIT_AES_CBC_PAD_DEC Pos.eqb].
  unfold get_cbc. cbn [os_params os_part bind]. rewrite trunc32_small by lia.
  change (os_params st1) with (PCbc a). cbn [bind]. fold (cbc_of st1 a).
  unfold WP11_AesCbcPad_Decrypt.
  destruct (WP11_AesCbcPad_DecryptUpdate ci (cbc_of st1 a) ct) as [[o1 p1]|e|u]; cbn [bind conclude] in R.
  2:{ match type of R with bind (bind ?x _) _ = _ => destruct x as [[? ?]|?|?]; cbn [bind] in R; try discriminate end.
      badgood R G. }
  2:{ discriminate. }
  cbn [Ops.run Ops.step] in R. unfold C_DecryptFinal, with_obj, need_init in R.
  cbn [put_cbc set_part set_params os_curr os_mech os_init st1 init_done] in R.
  cbn [Z.eqb INIT_AES_CBC_PAD_DEC Pos.eqb] in R.
  unfold get_cbc, put_cbc, set_part, set_params in R. cbn [os_params os_part fst snd bind] in R.
  replace (mkCbc (cb_aes p1) (cb_partial p1) (cb_psz p1)) with p1 in R by (destruct p1; reflexivity).
  destruct (negb _).
  { cbn [bind] in R. badgood R G. }
  cbn [bind]. destruct (WP11_AesCbcPad_DecryptFinal ci p1) as [[o2 p2]|e|u]; cbn [bind conclude] in R.
  2:{ badgood R G. }
  2:{ discriminate. }
  injection R as _ <-. cbn [map o_out concat app ok0] in C. rewrite app_nil_r in C.
  cbn [bind conclude]. eexists _, (o1 ++ o2). split; [reflexivity|exact C].
Qed.


End P.
