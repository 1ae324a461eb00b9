(** A call by itself does what Ops.v says: C_EncryptFinal, C_DecryptUpdate, C_DecryptFinal. *)
From Verif Require Import Base Cbc Ops SessRace SessRaceProofs SessRaceProofs2 CbcProofs OpsSpec OpsProofs3 AnswersProofs2.
Local Ltac Zify.zify_post_hook ::= Z.div_mod_to_equations.

Section WithEnv.
Variable ev : env.
Variable objs : nat -> option keyobj.
Variable rz : bool.
Hypothesis ES : env_sizes ev.

Lemma run_wr f k s : run (wr f k) s = match f s with Ok s' => run k s' | Err e => Err e | Undef u => Undef u end.
Proof. cbn [run wr]. destruct (f s); reflexivity. Qed.
Lemma wf_fin s p : length (cb_partial p) = 16 ->
  wf (with_op s (set_init (put_cbc (ss_op s) (mkCbc (cb_aes p) (cb_partial p) 0)) 0)).
Proof. intro L. split; [exact L|]. split; [apply Nat.le_0_l|]. intros g G. discriminate G. Qed.

Lemma cbc_final_agree s i b : wf s ->
  agree (need_init (view s) i b
           (p <- get_cbc (view s) ;;
            (let st' := set_init (put_cbc (view s) (WP11_AesCbc_Final p)) 0 in
             if negb (WP11_AesCbc_PartLen p =? 0)%Z then Ok (st', fail b CKR_DATA_LEN_RANGE)
             else match b with Query => Ok (view s, mkOut CKR_OK 0 []) | Buf _ => Ok (st', mkOut CKR_OK 0 []) end)))
        (run (on_init i b (rd_cbc WP11_AesCbc_PartLen (fun z =>
           if negb (z =? 0)%Z then cbc_fin (Ret (fail b CKR_DATA_LEN_RANGE))
           else match b with Query => Ret (mkOut CKR_OK 0 []) | Buf _ => cbc_fin (Ret (mkOut CKR_OK 0 [])) end))) s).
Proof.
  intro W. apply agree_init; [exact W|]. apply agree_cbc; [exact W|]. intros p G SE L Z. cbv zeta.
  rewrite (view_cbc s p G). destruct (negb (WP11_AesCbc_PartLen p =? 0)%Z).
  - rewrite run_cbc_fin. cbn [run]. split; [reflexivity|]. split; [reflexivity|]. apply wf_fin. exact L.
  - destruct b as [|n].
    + cbn [run]. rewrite SE. split; [reflexivity|]. split; [exact (view_cbc s p G)|exact W].
    + rewrite run_cbc_fin. cbn [run]. split; [reflexivity|]. split; [reflexivity|]. apply wf_fin. exact L.
Qed.

Lemma EncryptFinal_agree s b : wf s -> buf_ok b ->
  agree (C_EncryptFinal ev (view s) b) (run (p_EncryptFinal ev b) s).
Proof.
  intros W B. unfold C_EncryptFinal, p_EncryptFinal, with_obj. rewrite run_start, view_curr, view_mech.
  destruct (os_curr (ss_op s)) as [o|]; [|apply agree_same; exact W].
  destruct (os_mech (ss_op s)); try (apply agree_same; exact W).
  - apply cbc_final_agree. exact W.
  - apply agree_init; [exact W|]. apply agree_sized; [exact W|]. intros n -> NL.
    apply agree_cbc; [exact W|]. intros p G SE L Z. rewrite (view_cbc s p G).
    rewrite run_wr_cbc, run_crypt_to. cbn [cb_aes cb_partial cb_psz].
    unfold WP11_AesCbcPad_EncryptFinal. cbv zeta.
    assert (LP : length (pad_block (cb_partial p) (cb_psz p)) = 16) by (apply pad_block_length; [exact L|exact Z]).
    assert (PM : length (pad_block (cb_partial p) (cb_psz p)) mod 16 = 0) by (rewrite LP; reflexivity).
    destruct (enc_ok ev (cb_aes p) (pad_block (cb_partial p) (cb_psz p)) PM) as [out [a E]]. rewrite E. cbn [bind conclude].
    assert (RM : (16 <= n)%Z) by (pose proof (Z.mod_le n (2^32) B eq_refl); unfold u32 in NL; lia).
    replace (zlen (pad_block (cb_partial p) (cb_psz p))) with 16%Z by (unfold zlen; rewrite LP; reflexivity).
    cbn [buf_in]. destruct (Z.ltb_spec n (0 + 16)); [lia|]. rewrite run_cbc_fin. cbn [run cb_aes cb_partial].
    split; [reflexivity|]. split; [reflexivity|].
    apply (wf_fin s (mkCbc a (pad_block (cb_partial p) (cb_psz p)) 0)). exact LP.
  - apply agree_init; [exact W|]. rewrite view_get_gcm. cbn [run rd_gcm rd].
    destruct (get_gcm_cases s) as [[g G]|G]; rewrite G; cbn [bind]; [|exact I]. cbv zeta.
    change (tag_bytes (with_content g (content s))) with (tag_bytes g).
    apply agree_sized; [exact W|]. intros n -> NL. cbn [run rd_gcm rd]. rewrite G. cbn [bind]. rewrite Z.ltb_irrefl.
    destruct (16 <? u32 (tag_bytes g))%Z; [exact I|]. apply agree_same. exact W.
Qed.

Lemma DecryptUpdate_agree s d b : wf s -> buf_ok b -> (rz = false \/ 0 < length (trunc32 d) \/ os_mech (ss_op s) <> M_AES_GCM \/ ss_enc s = None \/ ss_encSz s <> 0%Z) ->
  agree (C_DecryptUpdate ev (view s) d b) (run (p_DecryptUpdate ev rz d b) s).
Proof.
  intros W B RZ. unfold C_DecryptUpdate, p_DecryptUpdate, with_obj. rewrite run_start, view_curr, view_mech.
  destruct (os_curr (ss_op s)) as [o|]; [|apply agree_same; exact W].
  destruct (os_mech (ss_op s)) eqn:ME; try (apply agree_same; exact W).
  - apply agree_init; [exact W|]. apply agree_cbc; [exact W|]. intros p G SE L Z. rewrite SE.
    apply agree_sized; [exact W|]. intros n -> NL. rewrite <- SE at 2. unfold WP11_AesCbc_PartLen in NL.
    apply (agree_up objs (WP11_AesCbc_DecryptUpdate (e_ci ev)) (wc_AesCbcDecrypt (e_ci ev)) false fulle blk0 s p (trunc32 d) n (align16 (u32 (zlen d + Z.of_nat (cb_psz p))))); try assumption.
    + exact (dec_ok ev).
    + exact blk0_mod.
    + exact blk0_le.
    + exact blk0_rest.
    + intro S. exact (dec_useq ev objs p (trunc32 d) S Z).
    + exact (dec_big ev p (trunc32 d)).
    + intro S. rewrite u32_len by (try exact S; lia). apply bytes0; assumption.
  - apply agree_init; [exact W|]. apply agree_cbc; [exact W|]. intros p G SE L Z. rewrite SE.
    apply agree_sized; [exact W|]. intros n -> NL. rewrite <- SE at 2. unfold WP11_AesCbc_PartLen in NL.
    apply (agree_up objs (WP11_AesCbcPad_DecryptUpdate (e_ci ev)) (wc_AesCbcDecrypt (e_ci ev)) false fullp blkp s p (trunc32 d) n (pad_dec_need (u32 (zlen d + Z.of_nat (cb_psz p))))); try assumption.
    + exact (dec_ok ev).
    + exact blkp_mod.
    + exact blkp_le.
    + exact blkp_rest.
    + intro S. exact (pad_useq ev objs p (trunc32 d) S Z).
    + exact (pad_big ev p (trunc32 d)).
    + intro S. rewrite u32_len by (try exact S; lia). apply bytesp; assumption.
  - apply agree_init; [exact W|]. destruct b as [|n]; [apply agree_same; exact W|].
    rewrite view_get_gcm. cbv zeta. cbn [run rd]. unfold in_gcm.
    destruct (get_gcm_cases s) as [[g G]|G]; rewrite G; cbn [bind]; [|exact I]. cbn [fst snd with_content g_enc].
    destruct (wf_gcm s g W G) as [GE [ZC [_ [_ M]]]]. rewrite ZC.
    destruct (Z.leb_spec (2^31) (ss_encSz s + zlen (trunc32 d))) as [BG|BG]; [exact I|]. cbn [run].
    assert (NZ : ss_enc s = None \/ (andb rz (ss_encSz s + zlen (trunc32 d) =? 0)%Z) = false).
    { destruct RZ as [->|[LT|[NE|[NE|NE]]]]; [right; reflexivity| |congruence|left; exact NE|]; right; destruct (Z.eqb_spec (ss_encSz s + zlen (trunc32 d)) 0) as [Q|Q]; try apply andb_false_r;
      exfalso; pose proof (zlen_nonneg _ (content s)); unfold zlen in *; lia. }
    set (t := trunc32 d) in *. set (nx := ss_next s).
    assert (RA : exists l m, zlen l = ss_encSz s /\ content s = l /\
      realloc rz s (ss_enc s) (ss_encSz s + zlen t) =
      Ok (mkSs (ss_op s) (ss_enc s) (ss_encSz s) (upd m nx (Some (resize l (Z.to_nat (ss_encSz s + zlen t))))) (S nx), Some nx)).
    { unfold realloc, content. destruct (ss_enc s) as [q|].
      - destruct M as [l [ML ZL]]. rewrite ML. destruct NZ as [NZ|NZ]; [discriminate NZ|]. rewrite NZ. exists l, (upd (ss_mem s) q None). split; [exact ZL|]. split; [|reflexivity].
        rewrite <- ZL. unfold zlen. rewrite Nat2Z.id. apply firstn_all.
      - exists [], (ss_mem s). rewrite M. split; [reflexivity|]. split; reflexivity. }
    destruct RA as [l [m [ZL [CL RA]]]]. rewrite RA. cbn [bind]. cbn beta iota. rewrite run_wr. cbn [ss_op]. rewrite G. cbn [bind]. unfold with_enc. cbn [ss_op ss_enc ss_encSz ss_mem ss_next].
    rewrite run_wr. cbn [ss_op]. rewrite G. cbn [bind]. unfold store. cbn [ss_op ss_enc ss_encSz ss_mem ss_next]. rewrite upd_eq.
    set (r := resize l (Z.to_nat (ss_encSz s + zlen t))).
    assert (LR : zlen r = (ss_encSz s + zlen t)%Z).
    { unfold r, resize, zlen. rewrite firstn_length, app_length, repeat_length. rewrite <- ZL. unfold zlen. lia. }
    rewrite LR, Z.ltb_irrefl. rewrite run_wr. cbn [ss_op]. rewrite G. cbn [bind]. unfold with_encSz. cbn [ss_op ss_enc ss_encSz ss_mem ss_next run].
    assert (BL : blit r (Z.to_nat (ss_encSz s)) t = l ++ t).
    { unfold blit, r, resize. rewrite <- ZL. unfold zlen. rewrite Nat2Z.id, <- Nat2Z.inj_add, Nat2Z.id.
      rewrite firstn_firstn, Nat.min_l by lia. rewrite firstn_app, firstn_all, Nat.sub_diag, firstn_O, app_nil_r.
      rewrite skipn_all2 by (rewrite firstn_length; lia). rewrite app_nil_r. reflexivity. }
    rewrite BL. split; [reflexivity|]. split.
    + unfold view at 1. cbn [ss_op]. rewrite (get_gcm_params s g G). unfold content. cbn [ss_enc ss_mem ss_encSz]. rewrite upd_eq.
      rewrite set_params_view. fold (content s). rewrite CL.
      rewrite firstn_all2 by (rewrite app_length; unfold zlen in *; lia). reflexivity.
    + destruct W as [W1 [W2 W3]]. split; [exact W1|]. split; [exact W2|]. cbn [ss_op ss_enc ss_mem ss_encSz]. intros g' G'.
      split; [exact (proj1 (W3 g' G'))|]. split; [exact BG|]. rewrite upd_eq. exists (l ++ t). split; [reflexivity|]. rewrite zlen_app, ZL. reflexivity.
Qed.

Lemma xorb_len a : forall b, length (xorb_list a b) = Nat.min (length a) (length b).
Proof. induction a as [|x a IH]; intro b; [reflexivity|]. destruct b as [|y b]; [reflexivity|]. cbn [xorb_list length Nat.min]. rewrite IH. reflexivity. Qed.
Lemma dec_one a d o a' : length d = 16 -> wc_AesCbcDecrypt (e_ci ev) a d = Ok (o, a') -> length o <= 16.
Proof.
  intros L E. unfold wc_AesCbcDecrypt in E. rewrite L in E. change (16 mod BLK =? 0) with true in E. change (16 / BLK) with 1 in E.
  cbn [negb] in E. rewrite andb_false_r in E. assert (Q : o = xorb_list (ci_D (e_ci ev) (aes_key a) (firstn BLK d)) (aes_reg a) ++ []) by (cbn [cbc_dec_blocks] in E; congruence).
  rewrite Q, app_nil_r, xorb_len. rewrite (es_D ev ES); [apply Nat.le_min_l|]. rewrite firstn_length, L. reflexivity.
Qed.

Lemma DecryptFinal_agree s b : wf s -> buf_ok b ->
  agree (C_DecryptFinal ev objs (view s) b) (run (p_DecryptFinal ev objs b) s).
Proof.
  intros W B. unfold C_DecryptFinal, p_DecryptFinal, with_obj. rewrite run_start, view_curr, view_mech.
  destruct (os_curr (ss_op s)) as [o|]; [|apply agree_same; exact W].
  destruct (os_mech (ss_op s)); try (apply agree_same; exact W).
  - apply cbc_final_agree. exact W.
  - apply agree_init; [exact W|]. apply agree_cbc; [exact W|]. intros p G SE L Z. rewrite (view_cbc s p G).
    unfold WP11_AesCbc_PartLen. destruct (Z.eqb_spec (Z.of_nat (cb_psz p)) 16) as [Q|Q]; cbn [negb].
    + destruct b as [|n].
      * cbn [run]. rewrite SE. split; [reflexivity|]. split; [exact (view_cbc s p G)|exact W].
      * cbn [run]. rewrite get_at. cbn [bind]. unfold WP11_AesCbcPad_DecryptFinal.
        assert (P16 : cb_psz p = 16) by lia. rewrite P16. change (BLK <? 16) with false. cbn beta iota.
        assert (LF : length (firstn 16 (cb_partial p)) = 16) by (rewrite firstn_length, L; reflexivity).
        assert (MF : length (firstn 16 (cb_partial p)) mod 16 = 0) by (rewrite LF; reflexivity).
        destruct (dec_ok ev (cb_aes p) (firstn 16 (cb_partial p)) MF) as [q [a E]]. rewrite E. cbn [bind conclude].
        pose proof (dec_one _ _ _ _ LF E) as LQ. cbv zeta.
        change (with_op (at_ s p) (put_cbc (ss_op (at_ s p)) (mkCbc a (blit (cb_partial p) 0 q) 16))) with (at_ s (mkCbc a (blit (cb_partial p) 0 q) 16)).
        rewrite run_rd_cbc. cbv zeta. rewrite run_cbc_fin. cbn [run done cb_aes cb_partial].
        split; [reflexivity|]. split; [reflexivity|].
        apply (wf_fin s (mkCbc a (blit (cb_partial p) 0 q) 16)). cbn [cb_partial]. rewrite blit_length; [exact L|]. rewrite L. exact LQ.
    + rewrite run_cbc_fin. cbn [run]. split; [reflexivity|]. split; [reflexivity|]. apply wf_fin. exact L.
  - apply agree_init; [exact W|]. rewrite view_get_gcm. cbn [run rd].
    destruct (get_gcm_cases s) as [[g G]|G]; rewrite G; cbn [bind]; [|exact I]. cbn [g_enc with_content]. cbv zeta.
    destruct (wf_gcm s g W G) as [GE [ZC [LD [SB M]]]]. rewrite ZC.
    change (tag_bytes (with_content g (content s))) with (tag_bytes g).
    apply agree_sized; [exact W|]. intros n -> NL. cbn [run rd]. unfold in_gcm. rewrite G. cbn [bind].
    cbn [run key rd]. unfold deref. destruct (objs o) as [ko|]; cbn [bind]; [|exact I].
    cbn [run rd fst snd]. rewrite G. cbn [bind]. rewrite LD. cbn [bind fst snd].
    assert (FIN : forall k, run (wr_gcm drop_aad
         (wr (fun s0 => _ <- get_gcm (ss_op s0);; free_blk s0 (ss_enc s0))
            (wr (fun s0 => _ <- get_gcm (ss_op s0);; Ok (with_enc s0 None))
               (wr (fun s0 => _ <- get_gcm (ss_op s0);; Ok (with_encSz s0 0)) k)))) s =
       run k (mkSs (set_params (ss_op s) (PGcm (drop_aad g))) None 0
                (match ss_enc s with Some q => upd (ss_mem s) q None | None => ss_mem s end) (ss_next s))).
    { intro k. rewrite (run_wr_gcm _ _ s g G). rewrite run_wr. rewrite get_at_g. cbn [bind].
      unfold free_blk. cbn [at_g with_op ss_enc]. destruct (ss_enc s) as [q|].
      - destruct M as [l [ML _]]. cbn [at_g with_op ss_mem ss_op ss_encSz ss_next]. rewrite ML. rewrite run_wr. cbn [ss_op set_params get_gcm os_params bind].
        rewrite run_wr. reflexivity.
      - rewrite run_wr. cbn [at_g with_op ss_op set_params get_gcm os_params bind]. rewrite run_wr. reflexivity. }
    assert (AG : forall out, agree (Ok (set_params (view s) (PGcm (mkGcm (g_iv g) None (g_aadSz g) (g_tagBits g) (g_authTag g) [])), out))
       (Ok (mkSs (set_params (ss_op s) (PGcm (drop_aad g))) None 0
                (match ss_enc s with Some q => upd (ss_mem s) q None | None => ss_mem s end) (ss_next s), out))).
    { intro out. split; [reflexivity|]. split; [rewrite set_params_view; reflexivity|].
      destruct W as [W1 [W2 _]]. split; [exact W1|]. split; [exact W2|]. intros h H. cbn [ss_op set_params os_params] in H. injection H as <-.
      split; [exact GE|]. split; reflexivity. }
    assert (RM : andb (u32 (tag_bytes g) <=? 16)%Z (n <? ss_encSz s - u32 (tag_bytes g))%Z = false).
    { destruct (Z.leb_spec (u32 (tag_bytes g)) 16) as [T|T]; [|reflexivity]. cbn [andb]. apply Z.ltb_ge.
      pose proof (Z.mod_le n (2^32) B eq_refl) as ML. fold (u32 n) in ML.
      assert (SM : (u32 (ss_encSz s - u32 (tag_bytes g)) = u32 (ss_encSz s - tag_bytes g))%Z).
      { unfold u32. apply Zminus_mod_idemp_r. }
      destruct (Z.le_gt_cases (ss_encSz s) (u32 (tag_bytes g))) as [Q|Q]; [cbn [buf_ok] in B; lia|].
      rewrite <- SM in NL. unfold u32 at 1 in NL. rewrite Z.mod_small in NL; [lia|].
      assert (T0 : (0 <= u32 (tag_bytes g))%Z) by (unfold u32; apply Z.mod_pos_bound; reflexivity). lia. }
    cbn [buf_in]. rewrite RM.
    change (gcm_call_dec ev (with_content g (content s)) ko (content s)) with (gcm_call_dec ev g ko (content s)).
    destruct (gcm_call_dec ev g ko (content s)) as [p|e|u]; cbn [bind conclude].
    + rewrite FIN. apply AG.
    + rewrite FIN. apply AG.
    + exact I.
Qed.
End WithEnv.
