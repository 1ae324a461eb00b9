(** C37, what holds: every encryption a GCM operation makes, and under which nonce and additional data. *)
From Verif Require Import Base Cbc CbcProofs Ops OpsSpec OpsCbcProofs OpsProofs OpsClaims OpsRefute ToyEnv.

(** The answers of the data calls after C_EncryptInit with nonce [iv], [asz] bytes of additional data and a tag
    of [tb] bytes: each C_Encrypt or C_EncryptUpdate that gets as far as wolfCrypt is one encryption of its own
    under [iv], the first of them with the additional data, the others without (but with its length); all other
    calls encrypt nothing. *)
Fixpoint story (ev : env) (key iv : list N) (asz tb : Z) (aad : option (list N)) (cs : list call) (os : list outc) : Prop :=
  match cs, os with
  | [], [] => True
  | c :: cs, o :: os =>
      let sealed d f := (exists e t, e_gcm_enc ev key iv aad asz (trunc32 d) tb = Ok (e, t) /\ o_rv o = CKR_OK /\ o_out o = f e t) \/
                        (o_rv o = CKR_FUNCTION_FAILED /\ o_out o = []) in
      match c with
      | KEncrypt _ d (Buf _) => (o_rv o = CKR_BUFFER_TOO_SMALL /\ o_out o = [] /\ story ev key iv asz tb aad cs os) \/
                                (sealed d (fun e t => e ++ t) /\ story ev key iv asz tb None cs os)
      | KEncryptUpdate d (Buf _) => (o_rv o = CKR_BUFFER_TOO_SMALL /\ o_out o = [] /\ story ev key iv asz tb aad cs os) \/
                                (sealed d (fun e _ => e) /\ story ev key iv asz tb None cs os)
      | KEncryptFinal (Buf _) => length (o_out o) <= 16 /\ story ev key iv asz tb aad cs os
      | _ => o_out o = [] /\ story ev key iv asz tb aad cs os
      end
  | _, _ => False
  end.

Section E.
Variable ev : env.
Variable objs : nat -> option keyobj.
Variable k : nat.
Variable ko : keyobj.
Hypothesis OB : objs k = Some ko.
Definition in_gcm_enc (st : opst) (g : gcm) : Prop :=
  os_init st = INIT_AES_GCM_ENC /\ os_mech st = M_AES_GCM /\ os_curr st = Some k /\ os_params st = PGcm g /\ length (g_authTag g) = 16.
Lemma story_run iv asz tb cs : forall st g st' os, in_gcm_enc st g -> g_iv g = iv -> g_aadSz g = asz -> u32 (tag_bytes g) = tb ->
  (forall a d e t, e_gcm_enc ev (ko_data ko) iv a asz d tb = Ok (e, t) -> length t <= 16) ->
  Forall (fun c => data_kind c <> None) cs -> run ev objs st cs = Ok (st', os) -> story ev (ko_data ko) iv asz tb (g_aad g) cs os.
Proof.
  intros st g st' os I V S T TL F R. revert st g st' os I V S T F R. induction cs as [|c cs IH]; intros st g st' os I V S T F R.
  - cbn in R. injection R as _ <-. exact Logic.I.
  - cbn [run] in R. destruct (step ev objs st c) as [[st1 o]|?|?] eqn:E; cbn [bind] in R; try discriminate R.
    destruct (run ev objs st1 cs) as [[st2 os2]|?|?] eqn:R2; cbn [bind] in R; try discriminate R. injection R as _ <-.
    inversion F as [|? ? Fc Fs]. subst x l. specialize (IH st1).
    destruct I as (I1 & I2 & I3 & I4 & I5).
    assert (SAME : st1 = st -> story ev (ko_data ko) iv asz tb (g_aad g) cs os2) by (intros ->; apply (IH g st2 os2); try assumption; repeat split; assumption).
    assert (GG : get_gcm st = Ok g) by (unfold get_gcm; rewrite I4; reflexivity).
    destruct c; try (exfalso; apply Fc; reflexivity); cbn [step story] in E |- *;
      unfold C_Encrypt, C_EncryptUpdate, C_EncryptFinal, C_Decrypt, C_DecryptUpdate, C_DecryptFinal, C_Sign, C_SignUpdate, C_SignFinal, C_Verify, C_VerifyUpdate, C_VerifyFinal, with_obj in E;
      rewrite I3, I2 in E; unfold need_init in E; try rewrite I1 in E.
    + (* C_Encrypt *)
      change (INIT_AES_GCM_ENC =? INIT_AES_GCM_ENC)%Z with true in E. cbv iota in E. rewrite GG in E. cbn [bind] in E. unfold sized in E.
      destruct b as [|n].
      * injection E as <- <-. split; [reflexivity|]. apply SAME. reflexivity.
      * destruct (u32 n <? _)%Z; [injection E as <- <-; left; split; [reflexivity|]; split; [reflexivity|]; apply SAME; reflexivity|].
        unfold deref in E. rewrite OB in E. cbn [bind] in E. right.
        assert (NX : st1 = set_params st (PGcm (drop_aad g)) -> story ev (ko_data ko) iv asz tb None cs os2).
        { intros ->. apply (IH (drop_aad g) st2 os2); try assumption. destruct st; unfold in_gcm_enc; cbn in *; repeat split; assumption. }
        unfold gcm_call_enc in E. destruct (e_gcm_ok ev (ko_data ko)); cbn [bind conclude] in E.
        -- rewrite V, S, T in E.
           destruct (e_gcm_enc ev (ko_data ko) iv (g_aad g) asz (trunc32 data) tb) as [[e t]|?|?] eqn:Q; cbn [bind conclude] in E; try discriminate E; injection E as <- <-.
           ++ split; [left; exists e, t; repeat split; reflexivity|apply NX; reflexivity].
           ++ split; [right; split; reflexivity|apply NX; reflexivity].
        -- injection E as <- <-. split; [right; split; reflexivity|apply NX; reflexivity].
    + (* C_EncryptUpdate *)
      change (INIT_AES_GCM_ENC =? INIT_AES_GCM_ENC)%Z with true in E. cbv iota in E. unfold sized in E.
      destruct b as [|n].
      * injection E as <- <-. split; [reflexivity|]. apply SAME. reflexivity.
      * destruct (u32 n <? _)%Z; [injection E as <- <-; left; split; [reflexivity|]; split; [reflexivity|]; apply SAME; reflexivity|].
        rewrite GG in E. cbn [bind] in E. unfold deref in E. rewrite OB in E. cbn [bind] in E. right.
        assert (NX : forall a, length a = 16 -> st1 = set_params st (PGcm (mkGcm (g_iv g) None (g_aadSz g) (g_tagBits g) a (g_enc g))) -> story ev (ko_data ko) iv asz tb None cs os2).
        { intros a La ->. apply (IH (mkGcm (g_iv g) None (g_aadSz g) (g_tagBits g) a (g_enc g)) st2 os2); try assumption. destruct st; unfold in_gcm_enc; cbn in *; repeat split; assumption. }
        unfold gcm_call_enc in E. destruct (e_gcm_ok ev (ko_data ko)); cbn [bind conclude] in E.
        -- rewrite V, S, T in E.
           destruct (e_gcm_enc ev (ko_data ko) iv (g_aad g) asz (trunc32 data) tb) as [[e t]|?|?] eqn:Q; cbn [bind conclude] in E; try discriminate E; injection E as <- <-.
           ++ split; [left; exists e, t; repeat split; reflexivity|]. eapply NX; [|rewrite V, S; reflexivity]. specialize (TL _ _ _ _ Q).
              unfold blit. rewrite firstn_O. cbn [app]. rewrite app_length, skipn_length. lia.
           ++ split; [right; split; reflexivity|]. apply (NX (g_authTag g) I5). reflexivity.
        -- injection E as <- <-. split; [right; split; reflexivity|]. apply (NX (g_authTag g) I5). reflexivity.
    + (* C_EncryptFinal *)
      change (INIT_AES_GCM_ENC =? INIT_AES_GCM_ENC)%Z with true in E. cbv iota in E. rewrite GG in E. cbn [bind] in E. cbv zeta in E. unfold sized in E.
      destruct b as [|n].
      * injection E as <- <-. split; [reflexivity|apply SAME; reflexivity].
      * destruct (u32 n <? _)%Z; [injection E as <- <-; split; [cbn; lia|apply SAME; reflexivity]|].
        destruct (16 <? u32 (tag_bytes g))%Z; [discriminate E|]. injection E as <- <-. split; [|apply SAME; reflexivity].
        cbn [o_out]. rewrite firstn_length. lia.
    + change (INIT_AES_GCM_ENC =? INIT_AES_GCM_DEC)%Z with false in E. cbv iota in E. unfold not_init in E. injection E as <- <-. split; [reflexivity|apply SAME; reflexivity].
    + change (INIT_AES_GCM_ENC =? INIT_AES_GCM_DEC)%Z with false in E. cbv iota in E. unfold not_init in E. injection E as <- <-. split; [reflexivity|apply SAME; reflexivity].
    + change (INIT_AES_GCM_ENC =? INIT_AES_GCM_DEC)%Z with false in E. cbv iota in E. unfold not_init in E. injection E as <- <-. split; [reflexivity|apply SAME; reflexivity].
    + injection E as <- <-. split; [reflexivity|apply SAME; reflexivity].
    + injection E as <- <-. split; [reflexivity|apply SAME; reflexivity].
    + injection E as <- <-. split; [reflexivity|apply SAME; reflexivity].
    + injection E as <- <-. split; [reflexivity|apply SAME; reflexivity].
    + injection E as <- <-. split; [reflexivity|apply SAME; reflexivity].
    + injection E as <- <-. split; [reflexivity|apply SAME; reflexivity].
Qed.
End E.
(** For every sequence of data calls after one successful C_EncryptInit. *)
Theorem C37_partial ev objs st k ko iv aad tb cs st' os :
  objs k = Some ko -> (0 <= tb <= 128)%Z -> match aad with Some a => (zlen a < 2^31)%Z | None => True end ->
  (forall key iv a n d t e u, e_gcm_enc ev key iv a n d t = Ok (e, u) -> length u <= 16) ->
  run ev objs st (KEncryptInit M_AES_GCM (MPgcm iv aad tb) k :: cs) = Ok (st', ok0 :: os) ->
  Forall (fun c => data_kind c <> None) cs ->
  story ev (ko_data ko) iv (match aad with Some a => zlen a | None => 0%Z end) (tb / 8) aad cs os.
Proof.
  intros OB TB LA TL R F. cbn [run step] in R. unfold init_call in R. rewrite OB in R. unfold C_EncryptInit, gcm_init in R.
  destruct (negb (ko_type ko =? CKK_AES)%Z).
  { cbn [bind] in R. destruct (run ev objs st cs) as [[s2 os2]|?|?]; cbn [bind] in R; discriminate R. }
  assert (IT : i32 tb = tb) by (unfold i32; rewrite Z.mod_small by lia; destruct (Z.ltb_spec tb (2^31)); lia).
  unfold SetGcmParams in R. rewrite IT in R.
  destruct (orb (128 <? tb)%Z (16 <? i32 (zlen iv))%Z) eqn:BAD.
  { cbn [bind] in R. destruct (run ev objs (set_params st (os_params st)) cs) as [[s2 os2]|?|?]; cbn [bind] in R; discriminate R. }
  destruct (i32 (zlen iv) <? 0)%Z; [discriminate R|].
  assert (TBY : forall g, g_tagBits g = tb -> u32 (tag_bytes g) = (tb / 8)%Z).
  { intros g E. unfold tag_bytes. rewrite E. unfold u32. rewrite Z.quot_div_nonneg by lia. apply Z.mod_small. split; [apply Z.div_pos; lia|]. apply Z.div_lt_upper_bound; lia. }
  destruct aad as [a|].
  - assert (LAZ : (0 <= zlen a)%Z) by (unfold zlen; lia).
    assert (IA : i32 (zlen a) = zlen a) by (unfold i32; rewrite Z.mod_small by lia; destruct (Z.ltb_spec (zlen a) (2^31)); lia).
    rewrite IA in R. destruct (Z.ltb_spec (zlen a) 0); [lia|]. cbn [bind] in R.
    match goal with R : context [run ev objs ?s0 cs] |- _ => set (s1 := s0) in R end.
    destruct (run ev objs s1 cs) as [[s2 os2]|?|?] eqn:R2; cbn [bind] in R; try discriminate R. injection R as _ <-.
    apply (story_run ev objs k ko OB iv (zlen a) (tb / 8) cs s1 (mkGcm iv (Some a) (zlen a) tb zero_block []) s2 os2); try reflexivity; try assumption.
    + repeat split.
    + apply TBY. reflexivity.
    + intros ? ? ? ? Q. exact (TL _ _ _ _ _ _ _ _ Q).
  - cbn [bind] in R.
    match goal with R : context [run ev objs ?s0 cs] |- _ => set (s1 := s0) in R end.
    destruct (run ev objs s1 cs) as [[s2 os2]|?|?] eqn:R2; cbn [bind] in R; try discriminate R. injection R as _ <-.
    apply (story_run ev objs k ko OB iv 0%Z (tb / 8) cs s1 (mkGcm iv None 0 tb zero_block []) s2 os2); try reflexivity; try assumption.
    + repeat split.
    + apply TBY. reflexivity.
    + intros ? ? ? ? Q. exact (TL _ _ _ _ _ _ _ _ Q).
Qed.
Print Assumptions C37_partial.
(** Under the story the number of messages encrypted under the nonce is the number of calls that were answered
    CKR_OK with a buffer; the claim holds exactly of the sequences with at most one. *)
Example C37_case : exists st' o1 o2 o3,
  run toy toy_objs op_zero [KEncryptInit M_AES_GCM (MPgcm (repeat 3%N 12) (Some [9%N]) 128) 0; KEncrypt [] [1; 2]%N (Buf 3); KEncryptUpdate [1; 2]%N (Buf 2); KDecryptFinal (Buf 7); KEncrypt [] [1; 2]%N (Buf 18)] =
    Ok (st', [ok0; fail (Buf 3) CKR_BUFFER_TOO_SMALL; o1; o2; o3]) /\
  o_rv o1 = CKR_OK /\ length (o_out o1) = 2 /\ o_rv o2 = CKR_OPERATION_NOT_INITIALIZED /\ length (o_out o3) = 18 /\ firstn 2 (o_out o3) = o_out o1.
Proof. do 4 eexists. split; [vm_compute; reflexivity|]. repeat split; vm_compute; reflexivity. Qed.
