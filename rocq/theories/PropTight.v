(** Further theorems for C41 (C_Sign and C_Verify after update calls), C45 (the
    default exponent) and C82 (key sizes in the mechanism information). Models:
    Ops.v, RsaRaw.v, Mech.v. *)
From Verif Require Import Base Cbc Ops OpsSpec OpsCbcProofs OpsProofs OpsProofs2 ToyEnv OpsClaims OpsRefute
  RsaRaw Mech.

(** ** C41, data given partly through C_SignUpdate and partly to C_Sign *)
Theorem C41_sign_mixed ev objs st h k ko chunks data n rnd :
  objs k = Some ko -> ko_type ko = CKK_GENERIC_SECRET -> e_hmac_ok ev h (ko_data ko) = true ->
  Forall (fun c => (zlen c < 2^32)%Z) chunks -> (zlen data < 2^32)%Z -> (hmac_sz h <= n < 2^32)%Z ->
  exists st' outs,
    run ev objs st (KSignInit (M_HMAC h) MPnull k :: map KSignUpdate chunks ++ [KSign rnd data (Buf n)]) =
    Ok (st', outs ++ [mkOut CKR_OK (hmac_sz h) (e_hmac ev h (ko_data ko) (concat chunks ++ data))]) /\
    Forall (fun o => o = mkOut CKR_OK 0 []) outs.
Proof.
  intros Hk Ht Hok HF Hd Hn.
  destruct (hmac_init_ok ev st h k ko INIT_HMAC_SIGN Ht Hok) as [q E].
  cbn [Ops.run Ops.step]. unfold init_call, C_SignInit. rewrite Hk, E. cbn [bind].
  rewrite run_app.
  destruct (hmac_updates ev objs chunks h k (mkHm h (ko_data ko) [] (hmac_sz h)) INIT_HMAC_SIGN q true HF eq_refl)
    as (q' & outs & R & F & L).
  rewrite R. cbn [bind Ops.run Ops.step hm_hash hm_key hm_data hm_sz app].
  unfold C_Sign, with_obj, need_init. cbn [os_curr os_mech os_init].
  cbn [Z.eqb INIT_HMAC_SIGN Pos.eqb get_hmac os_params bind hm_sz].
  unfold sized. pose proof (hmac_sz_bound h).
  replace (u32 n <? hmac_sz h)%Z with false.
  2:{ symmetry. apply Z.ltb_ge. rewrite u32_small by lia. lia. }
  cbn [bind hm_hash hm_key hm_data]. rewrite trunc32_small by exact Hd.
  eexists _, (fail Query CKR_OK :: outs). split; [reflexivity|]. constructor; [reflexivity|exact F].
Qed.
Print Assumptions C41_sign_mixed.

Theorem C41_verify_mixed ev objs st h k ko chunks data sig :
  (forall d, zlen (e_hmac ev h (ko_data ko) d) = hmac_sz h) ->
  objs k = Some ko -> ko_type ko = CKK_GENERIC_SECRET -> e_hmac_ok ev h (ko_data ko) = true ->
  Forall (fun c => (zlen c < 2^32)%Z) chunks -> (zlen data < 2^32)%Z -> (zlen sig < 2^32)%Z ->
  exists st' outs rv,
    run ev objs st (KVerifyInit (M_HMAC h) MPnull k :: map KVerifyUpdate chunks ++ [KVerify data sig]) =
    Ok (st', outs ++ [mkOut rv 0 []]) /\
    Forall (fun o => o = mkOut CKR_OK 0 []) outs /\
    (rv = CKR_OK \/ rv = CKR_SIGNATURE_INVALID) /\
    (rv = CKR_OK <-> sig = e_hmac ev h (ko_data ko) (concat chunks ++ data)).
Proof.
  intros Hsz Hk Ht Hok HF Hd Hs.
  destruct (hmac_init_ok ev st h k ko INIT_HMAC_VERIFY Ht Hok) as [q E].
  cbn [Ops.run Ops.step]. unfold init_call, C_VerifyInit. rewrite Hk, E. cbn [bind].
  rewrite run_app.
  destruct (hmac_updates ev objs chunks h k (mkHm h (ko_data ko) [] (hmac_sz h)) INIT_HMAC_VERIFY q false HF eq_refl)
    as (q' & outs & R & F & L).
  rewrite R. cbn [bind Ops.run Ops.step hm_hash hm_key hm_data hm_sz app].
  unfold C_Verify, with_obj, need_init. cbn [os_curr os_mech os_init].
  cbn [Z.eqb INIT_HMAC_VERIFY Pos.eqb get_hmac os_params bind hm_hash hm_key hm_data hm_sz].
  rewrite trunc32_small by exact Hd.
  pose proof (hmac_sz_bound h) as Hb.
  pose proof (sig_match_spec sig (e_hmac ev h (ko_data ko) (concat chunks ++ data)) (hmac_sz h)
    (Hsz _) ltac:(lia) Hs) as SM.
  eexists _, (fail Query CKR_OK :: outs), _. split; [reflexivity|].
  split; [constructor; [reflexivity|exact F]|].
  destruct (sig_match _ _ _) eqn:Em; cbn [verdict].
  - split; [auto|]. split; intros _; [apply SM; reflexivity|reflexivity].
  - split; [auto|]. split; intros X; [discriminate|]. apply SM in X. discriminate.
Qed.
Print Assumptions C41_verify_mixed.

Example C41_mixed_case :
  exists st os, run toy toy_objs op_zero
    [KSignInit (M_HMAC H_SHA1) MPnull 1; KSignUpdate [1%N]; KSign [] [2%N] (Buf 20)] = Ok (st, os) /\
  exists st2 os2, run toy toy_objs op_zero
    [KSignInit (M_HMAC H_SHA1) MPnull 1; KSign [] [1%N; 2%N] (Buf 20)] = Ok (st2, os2) /\
  (exists o, last os o = last os2 o /\ o_rv (last os o) = CKR_OK /\ length (o_out (last os o)) = 20).
Proof. do 2 eexists. split; [reflexivity|]. do 2 eexists. split; [reflexivity|].
  exists (mkOut 1 0 []). repeat split; reflexivity. Qed.

(** ** C45, no exponent in the template *)
(** C_GenerateKeyPair leaves the exponent at 0 when the template has none; 65537
    is used. *)
Theorem C45_default : gen_exponent 0 = Ok 65537%N.
Proof. reflexivity. Qed.
Print Assumptions C45_default.

(** ** C82 *)
(** The kind of key a mechanism works with, from PKCS #11 (table of mechanisms
    against key types). *)
Inductive family := FRsa | FEc | FDh | FAes | FHmac (bytes : Z).
Definition families : list (Z * family) :=
  [ (CKM_RSA_PKCS_KEY_PAIR_GEN, FRsa); (CKM_RSA_X_509, FRsa); (CKM_RSA_PKCS, FRsa);
    (CKM_RSA_PKCS_OAEP, FRsa); (CKM_RSA_PKCS_PSS, FRsa);
    (CKM_EC_KEY_PAIR_GEN, FEc); (CKM_ECDSA, FEc); (CKM_ECDH1_DERIVE, FEc);
    (CKM_DH_PKCS_KEY_PAIR_GEN, FDh); (CKM_DH_PKCS_DERIVE, FDh);
    (CKM_AES_CBC, FAes); (CKM_AES_CBC_PAD, FAes); (CKM_AES_GCM, FAes);
    (CKM_MD5_HMAC, FHmac 16); (CKM_SHA1_HMAC, FHmac 20); (CKM_SHA224_HMAC, FHmac 28);
    (CKM_SHA256_HMAC, FHmac 32); (CKM_SHA384_HMAC, FHmac 48); (CKM_SHA512_HMAC, FHmac 64) ]%Z.
(** The sizes the keys of a family can have: bits for RSA, EC and DH, bytes for
    the others; an HMAC key is at least as long as the hash value. *)
Definition range_of (f : family) : Z * Z :=
  (match f with
   | FRsa => (1024, 4096) | FEc => (256, 521) | FDh => (1024, 4096)
   | FAes => (16, 32) | FHmac n => (n, 512)
   end)%Z.
Definition size_info (t : Z) (r : Z * Z) : Prop :=
  exists f, C_GetMechanismInfo t = (CKR_OK, Some (fst r, snd r, f)).

Definition C82_claim : Prop := forall t f, In (t, f) families -> size_info t (range_of f).
Theorem C82_refuted : ~ C82_claim.
Proof.
  intros H. destruct (H CKM_RSA_PKCS_PSS FRsa) as [f E].
  { cbn. tauto. }
  vm_compute in E. discriminate E.
Qed.
Print Assumptions C82_refuted.
(** Missing from C82: CKM_RSA_PKCS_PSS, which has the sizes of EC keys. *)
Theorem C82_partial t f : In (t, f) families -> t <> CKM_RSA_PKCS_PSS -> size_info t (range_of f).
Proof.
  intros H Hp. cbn [In families] in H.
  repeat (destruct H as [H|H]; [injection H as <- <-; first [contradiction|eexists; reflexivity]|]).
  destruct H.
Qed.
Print Assumptions C82_partial.
(** The listed mechanisms with information are those of the table, so C82 says
    something about each of them; the smallest size never exceeds the largest. *)
Theorem C82_ordered t lo hi f :
  C_GetMechanismInfo t = (CKR_OK, Some (lo, hi, f)) ->
  (0 < lo <= hi)%Z /\ exists fam, In (t, fam) families.
Proof.
  unfold C_GetMechanismInfo. intros H.
  repeat match type of H with
  | (if ?c then _ else _) = _ => destruct c eqn:?
  end; try discriminate H; injection H as <- <- <-; (split; [lia|]);
  repeat match goal with
  | E : orb _ _ = true |- _ => apply Bool.orb_true_iff in E; destruct E as [E|E]
  end;
  match goal with E : (t =? ?x)%Z = true |- _ => apply Z.eqb_eq in E; rewrite E end;
  eexists; cbn; tauto.
Qed.
Print Assumptions C82_ordered.
Example C82_case : In (CKM_AES_GCM, FAes) families /\ CKM_AES_GCM <> CKM_RSA_PKCS_PSS /\
  fst (C_GetMechanismInfo CKM_AES_GCM) = CKR_OK.
Proof. split; [cbn; tauto|]. split; [discriminate|reflexivity]. Qed.
