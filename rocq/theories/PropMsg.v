(** C117: a message in parts is encrypted and decrypted as one, whatever other calls are made meanwhile.
    The operation-level theorems C31, C32 and C35 carried to histories of the whole library by C113. *)
From Verif Require Import Base Cbc CbcProofs CbcSpec Ops OpsSpec OpsCbcProofs OpsProofs OpsProofs2 OpsProofs3 OpsProofs4 OpsClaims OpsFinal Object ObjectProofs Store Sys SysProofs SysProofs2 SysProofs3 SysProofs4 WfProofs ObjFrame ObjProofs HandleProofs FindState UseProofs
  KeyHeld ToyEnv ToySys PropObject PropSys1 PropSys2 PropKeys PropInUse PropFind PropOps PropHold.
From Coq Require Import List Bool.
Import ListNotations.
Open Scope nat_scope.
Open Scope list_scope.

(** Session [h] with key [ko] under handle [hk] in a state the library can be in. *)
Record ready (w : world) (s : sys) (h : Z) (x : session) (hk : Z) (o : obj) (ko : keyobj) : Prop := mkReady {
  rd_reach : exists d, reach w (sys0 d) s;
  rd_sess : sess_get s h = Some x;
  rd_find : find_obj s x hk = Some o;
  rd_view : view w o = Ok ko
}.
(** From [s] on session [h] makes the Init call [ini] and then, of operation calls, exactly [cs], which are
    answered [outs]; all other calls of the history [l] are of other sessions or of other kinds (but do not
    close the session). *)
Definition amid (w : world) (s : sys) (h : Z) (ini : call) (hk : Z) (cs : list call) (outs : list outc) : Prop :=
  exists rnd l s' r os, run w s ((OCrypto h ini hk, rnd) :: l) = Ok (s', r :: os) /\
    (forall c rn, In (c, rn) l -> goes_on h c) /\ mine h l os = combine cs outs /\ List.length cs = List.length outs.
(** The same where no call in between touches the key (C113). *)
Definition amid_spared (w : world) (s : sys) (h : Z) (ini : call) (hk : Z) (cs : list call) (outs : list outc) : Prop :=
  exists rnd l s' r os, run w s ((OCrypto h ini hk, rnd) :: l) = Ok (s', r :: os) /\
    (forall c rn, In (c, rn) l -> goes_on h c /\ spared hk c) /\ mine h l os = combine cs outs /\ List.length cs = List.length outs.

Lemma fst_combine A B (a : list A) : forall b : list B, List.length a = List.length b -> map fst (combine a b) = a /\ map snd (combine a b) = b.
Proof. induction a as [|x a IH]; intros [|y b] L; try discriminate L; [split; reflexivity|]. injection L as L. destruct (IH b L) as [E1 E2]. cbn. rewrite E1, E2. split; reflexivity. Qed.
Section W.
Variable w : world.
Lemma init_first s h x hk o ko ini ini' rnd l s' r os p o0 rest : ready w s h x hk o ko -> with_key ini (o_uid o) = Some ini' ->
  run w s ((OCrypto h ini hk, rnd) :: l) = Ok (s', r :: os) ->
  Ops.run (w_ev w) (only (o_uid o) ko) (ss_op x) (ini' :: rest) = Ok p -> nth_error (snd p) 0 = Some o0 -> out_rv r = o_rv o0.
Proof.
  intros [[d Re] G Fo V] K R Q N. apply run_split in R as (s1 & q & os' & S & R & E). injection E as <- <-.
  destruct (init_run w _ _ _ _ _ _ _ _ _ _ _ (reach_inv w d s Re) G Fo V K S) as (p1 & rc & E1 & -> & _).
  cbn [Ops.run] in Q. rewrite E1 in Q. cbn [bind] in Q. destruct (Ops.run (w_ev w) (only (o_uid o) ko) p1 rest) as [[p2 os2]| |]; cbn [bind] in Q; try discriminate Q.
  injection Q as <-. cbn in N. injection N as <-. reflexivity.
Qed.
Lemma lift_copied s h x hk o ko ini ini' m cs outs p o0 outs0 : ready w s h x hk o ko -> with_key ini (o_uid o) = Some ini' -> init_mech ini = Some m -> copied m = true ->
  amid w s h ini hk cs outs -> Ops.run (w_ev w) (only (o_uid o) ko) (ss_op x) (ini' :: cs) = Ok (p, o0 :: outs0) -> o_rv o0 = CKR_OK -> outs = outs0.
Proof.
  intros Rd K M C (rnd & l & s' & r & os & R & F & E & L) Q O. destruct (fst_combine _ _ cs outs L) as [L1 L2].
  assert (Rv : out_rv r = CKR_OK) by (rewrite <- O; exact (init_first s h x hk o ko ini ini' rnd l s' r os _ o0 cs Rd K R Q eq_refl)).
  destruct Rd as [[d Re] G Fo V].
  destruct (C113_copied_partial w d s h x ini ini' hk o ko m rnd l s' r os Re G Fo V K M C R Rv F) as (p' & Q2).
  rewrite E, L1, L2, Q in Q2. injection Q2 as _ _ Q2. symmetry. exact Q2.
Qed.
Lemma lift_spared s h x hk o ko ini ini' cs outs p o0 outs0 : ready w s h x hk o ko -> with_key ini (o_uid o) = Some ini' ->
  amid_spared w s h ini hk cs outs -> Ops.run (w_ev w) (only (o_uid o) ko) (ss_op x) (ini' :: cs) = Ok (p, o0 :: outs0) -> o_rv o0 = CKR_OK -> outs = outs0.
Proof.
  intros Rd K (rnd & l & s' & r & os & R & F & E & L) Q O. destruct (fst_combine _ _ cs outs L) as [L1 L2].
  assert (Rv : out_rv r = CKR_OK) by (rewrite <- O; exact (init_first s h x hk o ko ini ini' rnd l s' r os _ o0 cs Rd K R Q eq_refl)).
  destruct Rd as [[d Re] G Fo V].
  destruct (C113_partial w d s h x ini ini' hk o ko rnd l s' r os Re G Fo V K R Rv F) as (p' & Q2).
  rewrite E, L1, L2, Q in Q2. injection Q2 as _ _ Q2. symmetry. exact Q2.
Qed.
Lemma first_out st c cs objs p os : Ops.run (w_ev w) objs st (c :: cs) = Ok (p, os) -> exists o0 outs, os = o0 :: outs.
Proof. cbn [Ops.run]. destruct (Ops.step _ _ _ _) as [[q o]| |]; cbn [bind]; try discriminate. destruct (Ops.run _ _ q cs) as [[q2 os2]| |]; cbn [bind]; try discriminate. intros E. injection E as _ <-. eauto. Qed.
Lemma init_no_out st m i iv u ko objs p o0 outs : objs u = Some ko -> Ops.run (w_ev w) objs st (i m (MPraw iv) u :: outs) = Ok (p, o0) -> (i = KEncryptInit \/ i = KDecryptInit) -> exists y ys, o0 = y :: ys /\ o_out y = [].
Proof.
  intros Ob Q D. destruct (first_out _ _ _ _ _ _ Q) as (y & ys & ->). exists y, ys. split; [reflexivity|].
  cbn [Ops.run] in Q. destruct D as [-> | ->]; cbn [Ops.step] in Q; unfold init_call in Q; rewrite Ob in Q;
  [destruct (C_EncryptInit (w_ev w) st m (MPraw iv) u ko) as [[q v]| |]|destruct (C_DecryptInit (w_ev w) st m (MPraw iv) u ko) as [[q v]| |]]; cbn [bind] in Q; try discriminate Q;
  (destruct (Ops.run _ _ q outs) as [[q2 os2]| |]; cbn [bind] in Q; try discriminate Q; injection Q as _ <- _; reflexivity).
Qed.
End W.
Lemma only_self u ko : only u ko u = Some ko.
Proof. unfold only. rewrite Nat.eqb_refl. reflexivity. Qed.

(** AES-CBC: the outputs put together are the CBC encryption of the parts put together, under the key as it was at
    the Init call. *)
Theorem C117_cbc_encrypt w s h x hk o ko iv blks cbs nf outs :
  ready w s h x hk o ko -> cipher_ok (e_ci (w_ev w)) -> ko_type ko = CKK_AES -> e_aes_ok (w_ev w) (ko_data ko) = true ->
  List.length iv = 16 -> OpsCbcProofs.fresh (ss_op x) -> are_blocks blks -> concat (map fst cbs) = concat blks -> OpsCbcProofs.fits cbs -> (zlen (concat blks) < 2^32)%Z ->
  amid w s h (KEncryptInit M_AES_CBC (MPraw iv) 0) hk (enc_upds cbs ++ [KEncryptFinal (Buf nf)]) outs ->
  Forall OpsCbcProofs.good outs /\ concat (map o_out outs) = concat (spec_cbc_enc (ci_E (e_ci (w_ev w)) (ko_data ko)) iv blks).
Proof.
  intros Rd Ci T A Li Fr Bl Cc Fi Ln Am.
  destruct (C31_encrypt (w_ev w) (only (o_uid o) ko) (ss_op x) (o_uid o) ko iv blks cbs nf (zlen (concat blks)) Ci (only_self _ _) T A Li Fr Bl Cc Fi) as [(p & os & Q & Fg & Eo) _]; [lia|].
  destruct (init_no_out w _ _ KEncryptInit _ _ _ _ _ _ _ (only_self _ _) Q (or_introl eq_refl)) as (y & ys & -> & Y).
  inversion Fg as [|? ? Gy Fg']. subst.
  rewrite (lift_copied w s h x hk o ko (KEncryptInit M_AES_CBC (MPraw iv) 0) (KEncryptInit M_AES_CBC (MPraw iv) (o_uid o)) M_AES_CBC _ outs p y ys Rd eq_refl eq_refl eq_refl Am Q (proj1 Gy)).
  split; [exact Fg'|]. cbn [map concat] in Eo. rewrite Y in Eo. exact Eo.
Qed.
Print Assumptions C117_cbc_encrypt.
Theorem C117_cbc_decrypt w s h x hk o ko iv blks cbs nf outs :
  ready w s h x hk o ko -> (forall b, List.length b = 16 -> List.length (ci_D (e_ci (w_ev w)) (ko_data ko) b) = 16) -> ko_type ko = CKK_AES -> e_aes_ok (w_ev w) (ko_data ko) = true ->
  List.length iv = 16 -> OpsCbcProofs.fresh (ss_op x) -> are_blocks blks -> concat (map fst cbs) = concat blks -> OpsCbcProofs.fits cbs -> (zlen (concat blks) < 2^32)%Z ->
  amid w s h (KDecryptInit M_AES_CBC (MPraw iv) 0) hk (dec_upds cbs ++ [KDecryptFinal (Buf nf)]) outs ->
  Forall OpsCbcProofs.good outs /\ concat (map o_out outs) = concat (spec_cbc_dec (ci_D (e_ci (w_ev w)) (ko_data ko)) iv blks).
Proof.
  intros Rd Ci T A Li Fr Bl Cc Fi Ln Am.
  destruct (C31_decrypt (w_ev w) (only (o_uid o) ko) (ss_op x) (o_uid o) ko iv blks cbs nf (zlen (concat blks)) Ci (only_self _ _) T A Li Fr Bl Cc Fi) as [(p & os & Q & Fg & Eo) _]; [lia|].
  destruct (init_no_out w _ _ KDecryptInit _ _ _ _ _ _ _ (only_self _ _) Q (or_intror eq_refl)) as (y & ys & -> & Y).
  inversion Fg as [|? ? Gy Fg']. subst.
  rewrite (lift_copied w s h x hk o ko (KDecryptInit M_AES_CBC (MPraw iv) 0) (KDecryptInit M_AES_CBC (MPraw iv) (o_uid o)) M_AES_CBC _ outs p y ys Rd eq_refl eq_refl eq_refl Am Q (proj1 Gy)).
  split; [exact Fg'|]. cbn [map concat] in Eo. rewrite Y in Eo. exact Eo.
Qed.
Print Assumptions C117_cbc_decrypt.

(** AES-CBC-PAD. *)
Theorem C117_pad_encrypt w s h x hk o ko iv cbs nf ct outs :
  ready w s h x hk o ko -> ko_type ko = CKK_AES -> e_aes_ok (w_ev w) (ko_data ko) = true ->
  List.length iv = 16 -> OpsCbcProofs.fresh (ss_op x) -> OpsCbcProofs.fits cbs -> (16 <= nf < 2^32)%Z -> (zlen (concat (map fst cbs)) < 2^31)%Z ->
  cbcpad_spec (ci_E (e_ci (w_ev w)) (ko_data ko)) iv (concat (map fst cbs)) ct ->
  amid w s h (KEncryptInit M_AES_CBC_PAD (MPraw iv) 0) hk (enc_upds cbs ++ [KEncryptFinal (Buf nf)]) outs ->
  Forall okrv outs /\ concat (map o_out outs) = ct.
Proof.
  intros Rd T A Li Fr Fi Nf Ln Sp Am.
  destruct (C32_encrypt (w_ev w) (only (o_uid o) ko) (ss_op x) (o_uid o) ko iv cbs nf ct (zlen (concat (map fst cbs))) [] (only_self _ _) T A Li Fr Fi Nf Ln) as [(p & os & Q & Fg & Eo) _]; [lia|exact Sp|].
  destruct (init_no_out w _ _ KEncryptInit _ _ _ _ _ _ _ (only_self _ _) Q (or_introl eq_refl)) as (y & ys & -> & Y).
  inversion Fg as [|? ? Gy Fg']. subst.
  rewrite (lift_copied w s h x hk o ko (KEncryptInit M_AES_CBC_PAD (MPraw iv) 0) (KEncryptInit M_AES_CBC_PAD (MPraw iv) (o_uid o)) M_AES_CBC_PAD _ outs p y ys Rd eq_refl eq_refl eq_refl Am Q Gy).
  split; [exact Fg'|]. cbn [map concat] in *. rewrite Y. reflexivity.
Qed.
Print Assumptions C117_pad_encrypt.
Theorem C117_pad_decrypt w s h x hk o ko iv cbs nf msg outs :
  ready w s h x hk o ko -> cipher_ok (e_ci (w_ev w)) -> ko_type ko = CKK_AES -> e_aes_ok (w_ev w) (ko_data ko) = true ->
  List.length iv = 16 -> OpsCbcProofs.fresh (ss_op x) -> OpsCbcProofs.fits cbs -> (zlen (concat (map fst cbs)) < 2^31)%Z ->
  cbcpad_spec (ci_E (e_ci (w_ev w)) (ko_data ko)) iv msg (concat (map fst cbs)) ->
  amid w s h (KDecryptInit M_AES_CBC_PAD (MPraw iv) 0) hk (dec_upds cbs ++ [KDecryptFinal (Buf nf)]) outs ->
  Forall OpsCbcProofs.good outs /\ concat (map o_out outs) = msg.
Proof.
  intros Rd Ci T A Li Fr Fi Ln Sp Am.
  destruct (C32_decrypt (w_ev w) (only (o_uid o) ko) (ss_op x) (o_uid o) ko iv cbs nf msg 0 [] Ci (only_self _ _) T A Li Fr Fi Ln Sp) as [(p & os & Q & Fg & Eo) _].
  destruct (init_no_out w _ _ KDecryptInit _ _ _ _ _ _ _ (only_self _ _) Q (or_intror eq_refl)) as (y & ys & -> & Y).
  inversion Fg as [|? ? Gy Fg']. subst.
  rewrite (lift_copied w s h x hk o ko (KDecryptInit M_AES_CBC_PAD (MPraw iv) 0) (KDecryptInit M_AES_CBC_PAD (MPraw iv) (o_uid o)) M_AES_CBC_PAD _ outs p y ys Rd eq_refl eq_refl eq_refl Am Q (proj1 Gy)).
  split; [exact Fg'|]. cbn [map concat] in *. rewrite Y. reflexivity.
Qed.
Print Assumptions C117_pad_decrypt.
(** There and back: what one session encrypts in parts, any session (then or later, on this token or another, with
    this key or another with the same value) decrypts in any other parts to the message. *)
Theorem C117_roundtrip w iv cbs nf outs cbs2 nf2 outs2 s h x hk o ko s2 h2 x2 hk2 o2 ko2 :
  cipher_ok (e_ci (w_ev w)) ->
  ready w s h x hk o ko -> OpsCbcProofs.fresh (ss_op x) -> ko_type ko = CKK_AES -> e_aes_ok (w_ev w) (ko_data ko) = true ->
  ready w s2 h2 x2 hk2 o2 ko2 -> OpsCbcProofs.fresh (ss_op x2) -> ko_type ko2 = CKK_AES -> ko_data ko2 = ko_data ko ->
  List.length iv = 16 -> OpsCbcProofs.fits cbs -> (16 <= nf < 2^32)%Z -> (zlen (concat (map fst cbs)) < 2^31)%Z ->
  amid w s h (KEncryptInit M_AES_CBC_PAD (MPraw iv) 0) hk (enc_upds cbs ++ [KEncryptFinal (Buf nf)]) outs ->
  concat (map fst cbs2) = concat (map o_out outs) -> OpsCbcProofs.fits cbs2 -> (zlen (concat (map fst cbs2)) < 2^31)%Z ->
  amid w s2 h2 (KDecryptInit M_AES_CBC_PAD (MPraw iv) 0) hk2 (dec_upds cbs2 ++ [KDecryptFinal (Buf nf2)]) outs2 ->
  Forall OpsCbcProofs.good outs2 /\ concat (map o_out outs2) = concat (map fst cbs).
Proof.
  intros Ci Rd Fr T A Rd2 Fr2 T2 Kd Li Fi Nf Ln Am Ec Fi2 Ln2 Am2.
  destruct (C32_spec_total (w_ev w) (ko_data ko) iv (concat (map fst cbs))) as (ct & Sp).
  destruct (C117_pad_encrypt w s h x hk o ko iv cbs nf ct outs Rd T A Li Fr Fi Nf Ln Sp Am) as (_ & E).
  apply (C117_pad_decrypt w s2 h2 x2 hk2 o2 ko2 iv cbs2 nf2 (concat (map fst cbs)) outs2); try assumption.
  - rewrite Kd. exact A.
  - rewrite Kd, Ec, E. exact Sp.
Qed.
Print Assumptions C117_roundtrip.
(** AES-GCM, where the key is read anew in every call: if none of them touches it, a decryption in parts delivers
    nothing before C_DecryptFinal, and then the message if it is authentic. *)
Theorem C117_gcm_decrypt w s h x hk o ko iv aad tb cbs n outs :
  ready w s h x hk o ko -> ko_type ko = CKK_AES -> e_gcm_ok (w_ev w) (ko_data ko) = true ->
  (forall key iv aad asz c t u, e_gcm_dec (w_ev w) key iv aad asz c t <> Undef u) ->
  (zlen iv <= 16)%Z -> (0 <= tb <= 128)%Z -> match aad with Some a => (zlen a < 2^31)%Z | None => True end ->
  let data := concat (map fst cbs) in
  (zlen data < 2^31)%Z -> (tb / 8 <= zlen data)%Z -> (zlen data - tb / 8 <= n < 2^32)%Z ->
  amid_spared w s h (KDecryptInit M_AES_GCM (MPgcm iv aad tb) 0) hk (dec_upds cbs ++ [KDecryptFinal (Buf n)]) outs ->
  outs = repeat (mkOut CKR_OK 0 []) (List.length cbs) ++ [gcm_expect (gcm_open (w_ev w) (ko_data ko) iv aad tb data) n].
Proof.
  intros Rd T A Nu Li Tb Aa data Ln Lt Ln2 Am.
  destruct (C35_multipart (w_ev w) (only (o_uid o) ko) (ss_op x) (o_uid o) ko iv aad tb cbs n (only_self _ _) T A Nu Li Tb Aa Ln Lt Ln2) as (p & os & Q & Fg).
  assert (L : List.length os = S (List.length cbs)).
  { assert (G : forall c st q r, Ops.run (w_ev w) (only (o_uid o) ko) st c = Ok (q, r) -> List.length r = List.length c).
    { clear. induction c as [|c cs IH]; intros st q r E; cbn [Ops.run] in E; [injection E as _ <-; reflexivity|].
      destruct (Ops.step _ _ _ _) as [[q1 o1]| |]; cbn [bind] in E; try discriminate. destruct (Ops.run (w_ev w) (only (o_uid o) ko) q1 cs) as [[q2 o2]| |] eqn:R; cbn [bind] in E; try discriminate.
      injection E as _ <-. cbn [List.length]. rewrite (IH _ _ _ R). reflexivity. }
    apply G in Q. rewrite app_length in Q. cbn [List.length] in Q. unfold dec_upds in Q. rewrite app_length, map_length in Q. cbn [List.length] in Q. lia. }
  destruct os as [|y ys]; [discriminate L|]. injection L as L. inversion Fg as [|? ? Gy Fg']. subst y.
  rewrite (lift_spared w s h x hk o ko (KDecryptInit M_AES_GCM (MPgcm iv aad tb) 0) (KDecryptInit M_AES_GCM (MPgcm iv aad tb) (o_uid o)) _ outs p (mkOut CKR_OK 0 []) (ys ++ [gcm_expect (gcm_open (w_ev w) (ko_data ko) iv aad tb data) n]) Rd eq_refl Am Q eq_refl).
  f_equal. rewrite <- L. clear - Fg'. induction Fg' as [|z zs E F IH]; [reflexivity|]. cbn [List.length repeat]. rewrite E, <- IH. reflexivity.
Qed.
Print Assumptions C117_gcm_decrypt.

(** Non-trivial cases. A key on the token and one of a session with the same value; while session H2 encrypts in
    three parts, session H1 changes the value of the key, reads and makes objects, logs out and destroys the
    key; then H1 decrypts in two parts with its own key while H2 encrypts something else. *)
Lemma amid_by w s h ini hk l cs outs :
  match run w s (numb (OCrypto h ini hk :: l)) with Ok (_, r :: os) => mine h (numb l) os = combine cs outs | _ => False end ->
  (forall c rn, In (c, rn) (numb l) -> goes_on h c) -> List.length cs = List.length outs -> amid w s h ini hk cs outs.
Proof.
  intros M F L. change (numb (OCrypto h ini hk :: l)) with ((OCrypto h ini hk, rnd 0) :: numb l) in M.
  destruct (run w s ((OCrypto h ini hk, rnd 0) :: numb l)) as [[s' [|r os]]| |] eqn:R; try contradiction. exists (rnd 0), (numb l), s', r, os. auto.
Qed.
Lemma ready_by l h x hk o ko : rvs l = repeat CKR_OK (List.length l) -> reach tw (sys0 nofiles) (after l) ->
  sess_get (after l) h = Some x -> find_obj (after l) x hk = Some o -> view tw o = Ok ko -> ready tw (after l) h x hk o ko.
Proof. intros _ R G F V. split; [exists nofiles; exact R|exact G|exact F|exact V]. Qed.
Definition msg_open : list op := two_open ++ [OCreateObject H1 aes_tmpl; OSetAttributeValue H1 1 [mkA CKA_VALUE (AV (repeat 7%N 16))]].
Definition eupd (h : Z) (m : list N) (n : Z) : op := OCrypto h (KEncryptUpdate m (Buf n)) 0.
Definition dupd (h : Z) (m : list N) (n : Z) : op := OCrypto h (KDecryptUpdate m (Buf n)) 0.
Definition msg21 : list N := map N.of_nat (seq 100 21).
Definition iv16 : list N := repeat 5%N 16.
Definition parts1 : list (list N * Z) := [(firstn 3 msg21, 18%Z); (firstn 15 (skipn 3 msg21), 30%Z); (skipn 18 msg21, 18%Z)].
Definition enc_l : list op :=
  [eupd H2 (firstn 3 msg21) 18; OSetAttributeValue H1 KT new_value; OCreateObject H1 tok_aes; eupd H2 (firstn 15 (skipn 3 msg21)) 30; OLogout H1; OFindObjectsInit H2 [];
   OFindObjectsFinal H2; ODestroyObject H1 KT; eupd H2 (skipn 18 msg21) 18; OCrypto H2 (KEncryptFinal (Buf 16)) 0].
Definition enc_outs : list outc :=
  match run tw (after msg_open) (numb (OCrypto H2 (KEncryptInit M_AES_CBC_PAD (MPraw iv16) 0) KT :: enc_l)) with Ok (_, _ :: os) => map snd (mine H2 (numb enc_l) os) | _ => [] end.
Definition ct21 : list N := concat (map o_out enc_outs).
Definition parts2 : list (list N * Z) := [(firstn 20 ct21, 40%Z); (skipn 20 ct21, 40%Z)].
Definition dec_l : list op := [dupd H1 (firstn 20 ct21) 40; OCrypto H2 (KEncryptInit M_AES_CBC (MPraw iv16) 0) KT; dupd H1 (skipn 20 ct21) 40; ODestroyObject H1 1; eupd H2 (firstn 3 msg21) 18; OCrypto H1 (KDecryptFinal (Buf 16)) 0].
Definition dec_outs : list outc :=
  match run tw (after msg_open) (numb (OCrypto H1 (KDecryptInit M_AES_CBC_PAD (MPraw iv16) 0) 1 :: dec_l)) with Ok (_, _ :: os) => map snd (mine H1 (numb dec_l) os) | _ => [] end.
Lemma goes_by h l : forallb (fun c => match c with OCrypto h' k _ => if (h' =? h)%Z then match data_kind k with Some _ => true | None => false end else true
    | OSetAttributeValue _ _ _ | OLogout _ | OCreateObject _ _ | OFindObjectsInit _ _ | OFindObjectsFinal _ | ODestroyObject _ _ => true | _ => false end) l = true ->
  forall c rn, In (c, rn) (numb l) -> goes_on h c.
Proof.
  intros F c rn J. apply in_map_iff in J as (c0 & E & J). injection E as -> <-. rewrite forallb_forall in F. specialize (F c J).
  destruct c; try discriminate F; try (right; split; [discriminate|split; [discriminate|reflexivity]]).
  destruct (Z.eqb_spec h0 h) as [->|N].
  - left. exists c, hk. split; [reflexivity|]. destruct (data_kind c); discriminate.
  - right. split; [intros _; cbn; congruence|]. split; [discriminate|reflexivity].
Qed.
Definition sx (l : list op) (h : Z) : session := match sess_get (after l) h with Some x => x | None => mkS 0 0 [] false [] 0 op_zero end.
Definition ox (l : list op) (h hk : Z) : obj := match find_obj (after l) (sx l h) hk with Some o => o | None => aes_obj end.
Definition k7 : keyobj := mkKey CKK_AES (repeat 7%N 16) [] 0.
Example C117_case :
  ready tw (after msg_open) H2 (sx msg_open H2) KT (ox msg_open H2 KT) k7 /\ OpsCbcProofs.fresh (ss_op (sx msg_open H2)) /\
  ready tw (after msg_open) H1 (sx msg_open H1) 1 (ox msg_open H1 1) k7 /\ OpsCbcProofs.fresh (ss_op (sx msg_open H1)) /\
  amid tw (after msg_open) H2 (KEncryptInit M_AES_CBC_PAD (MPraw iv16) 0) KT (enc_upds parts1 ++ [KEncryptFinal (Buf 16)]) enc_outs /\
  amid tw (after msg_open) H1 (KDecryptInit M_AES_CBC_PAD (MPraw iv16) 0) 1 (dec_upds parts2 ++ [KDecryptFinal (Buf 16)]) dec_outs /\
  OpsCbcProofs.fits parts1 /\ OpsCbcProofs.fits parts2 /\ List.length ct21 = 32 /\ ct21 <> concat (map fst parts1) /\ concat (map o_out dec_outs) = msg21.
Proof.
  split; [apply ready_by; [vm_compute; reflexivity|apply after_reach; vm_compute; exact Logic.I|vm_compute; reflexivity|vm_compute; reflexivity|vm_compute; reflexivity]|].
  split; [split; vm_compute; reflexivity|].
  split; [apply ready_by; [vm_compute; reflexivity|apply after_reach; vm_compute; exact Logic.I|vm_compute; reflexivity|vm_compute; reflexivity|vm_compute; reflexivity]|].
  split; [split; vm_compute; reflexivity|].
  split; [apply amid_by with (l := enc_l); [vm_compute; reflexivity|apply goes_by; vm_compute; reflexivity|vm_compute; reflexivity]|].
  split; [apply amid_by with (l := dec_l); [vm_compute; reflexivity|apply goes_by; vm_compute; reflexivity|vm_compute; reflexivity]|].
  split; [repeat apply Forall_cons; try apply Forall_nil; unfold zlen; vm_compute; intuition discriminate|].
  split; [repeat apply Forall_cons; try apply Forall_nil; unfold zlen; vm_compute; intuition discriminate|].
  split; [vm_compute; reflexivity|]. split; [vm_compute; discriminate|vm_compute; reflexivity].
Qed.
