(** A call by itself does what Ops.v says: the four calls, mechanism by mechanism. *)
From Verif Require Import Base Cbc Ops SessRace SessRaceProofs CbcProofs OpsSpec OpsProofs3 AnswersProofs2.
Local Ltac Zify.zify_post_hook ::= Z.div_mod_to_equations.

(** The session as Ops.v sees it: the collected ciphertext is what gcm.enc points to. *)
Definition content (s : sst) : list N :=
  match ss_enc s with
  | Some q => match ss_mem s q with Some l => firstn (Z.to_nat (ss_encSz s)) l | None => [] end
  | None => []
  end.
Definition with_content (g : gcm) (d : list N) : gcm := mkGcm (g_iv g) (g_aad g) (g_aadSz g) (g_tagBits g) (g_authTag g) d.
Definition view (s : sst) : opst :=
  match os_params (ss_op s) with
  | PGcm g => set_params (ss_op s) (PGcm (with_content g (content s)))
  | _ => ss_op s
  end.
(** The partial block is within its 16 bytes; gcm.enc is NULL and gcm.encSz 0, or gcm.enc points to
    a live block of gcm.encSz bytes, fewer than 2^31. *)
Definition wf (s : sst) : Prop :=
  length (fst (os_part (ss_op s))) = 16 /\ snd (os_part (ss_op s)) <= 16 /\
  forall g, os_params (ss_op s) = PGcm g ->
    g_enc g = [] /\ (ss_encSz s < 2^31)%Z /\
    match ss_enc s with
    | None => ss_encSz s = 0%Z
    | Some q => exists l, ss_mem s q = Some l /\ zlen l = ss_encSz s
    end.
Definition to_call (c : part_call) : call :=
  match c with EncUp d b => KEncryptUpdate d b | EncFin b => KEncryptFinal b | DecUp d b => KDecryptUpdate d b | DecFin b => KDecryptFinal b end.
Definition agree (r : res (opst * outc)) (t : res (sst * outc)) : Prop :=
  match r, t with
  | Ok (st, o), Ok (s, o') => o' = o /\ view s = st /\ wf s
  | Undef _, Undef _ => True
  | _, _ => False
  end.

Lemma view_init s : os_init (view s) = os_init (ss_op s).
Proof. unfold view. destruct (os_params (ss_op s)); reflexivity. Qed.
Lemma view_mech s : os_mech (view s) = os_mech (ss_op s).
Proof. unfold view. destruct (os_params (ss_op s)); reflexivity. Qed.
Lemma view_curr s : os_curr (view s) = os_curr (ss_op s).
Proof. unfold view. destruct (os_params (ss_op s)); reflexivity. Qed.
Lemma view_part s : os_part (view s) = os_part (ss_op s).
Proof. unfold view. destruct (os_params (ss_op s)); reflexivity. Qed.
Lemma view_get_cbc s : get_cbc (view s) = get_cbc (ss_op s).
Proof. unfold view, get_cbc. destruct (os_params (ss_op s)) eqn:E; cbn [set_params os_params]; rewrite ?E; reflexivity. Qed.
Lemma view_cbc s p : get_cbc (ss_op s) = Ok p -> view s = ss_op s.
Proof. unfold view, get_cbc. destruct (os_params (ss_op s)); congruence. Qed.
Lemma view_get_gcm s : get_gcm (view s) = (g <- get_gcm (ss_op s) ;; Ok (with_content g (content s))).
Proof. unfold view, get_gcm. destruct (os_params (ss_op s)) eqn:E; cbn [set_params os_params]; rewrite ?E; reflexivity. Qed.
Lemma agree_same s o : wf s -> agree (Ok (view s, o)) (Ok (s, o)).
Proof. intro W. cbn. split; [reflexivity|]. split; [reflexivity|exact W]. Qed.
Lemma wf_cbc s p : wf s -> get_cbc (ss_op s) = Ok p -> length (cb_partial p) = 16 /\ cb_psz p <= 16.
Proof.
  intros [W1 [W2 _]]. unfold get_cbc. destruct (os_params (ss_op s)); try discriminate. injection 1 as <-. split; assumption.
Qed.
Lemma wf_at s p : length (cb_partial p) = 16 -> cb_psz p <= 16 -> wf (at_ s p).
Proof. intros A B. split; [exact A|]. split; [exact B|]. intros g G. discriminate G. Qed.
Lemma view_at s p : view (at_ s p) = put_cbc (ss_op s) p.
Proof. reflexivity. Qed.

Section WithEnv.
Variable ev : env.
Variable objs : nat -> option keyobj.
Variable rz : bool.
Hypothesis ES : env_sizes ev.
Let ci := e_ci ev.

Lemma run_start b f s :
  run (start b f) s = match os_curr (ss_op s) with
                      | None => Ok (s, fail b CKR_OPERATION_NOT_INITIALIZED)
                      | Some o => run (f o (os_mech (ss_op s))) s
                      end.
Proof. cbn [run start rd bind]. destruct (os_curr (ss_op s)); reflexivity. Qed.
Lemma run_on_init i b k s :
  run (on_init i b k) s = if (os_init (ss_op s) =? i)%Z then run k s else Ok (s, fail b CKR_OPERATION_NOT_INITIALIZED).
Proof. cbn [run on_init rd bind]. destruct (os_init (ss_op s) =? i)%Z; reflexivity. Qed.
Lemma run_sized need b k s :
  run (sized_p need b k) s = match b with
                             | Query => Ok (s, mkOut CKR_OK need [])
                             | Buf n => if (u32 n <? need)%Z then Ok (s, fail b CKR_BUFFER_TOO_SMALL) else run k s
                             end.
Proof. destruct b as [|n]; [reflexivity|]. cbn [sized_p]. destruct (u32 n <? need)%Z; reflexivity. Qed.
Lemma run_cbc_fin k s p :
  run (cbc_fin k) (at_ s p) = run k (with_op s (set_init (put_cbc (ss_op s) (mkCbc (cb_aes p) (cb_partial p) 0)) 0)).
Proof. unfold cbc_fin. rewrite run_wr_psz. reflexivity. Qed.

Lemma agree_init i b s (r : res (opst * outc)) k : wf s -> agree r (run k s) ->
  agree (need_init (view s) i b r) (run (on_init i b k) s).
Proof.
  intros W A. unfold need_init. rewrite run_on_init, view_init. destruct (os_init (ss_op s) =? i)%Z; [exact A|].
  apply agree_same. exact W.
Qed.
Lemma agree_sized need b s (r : res (opst * outc)) k : wf s ->
  (forall n, b = Buf n -> (need <= u32 n)%Z -> agree r (run k s)) ->
  agree (sized (view s) need b r) (run (sized_p need b k) s).
Proof.
  intros W A. rewrite run_sized. unfold sized. destruct b as [|n]; [apply agree_same; exact W|].
  destruct (Z.ltb_spec (u32 n) need); [apply agree_same; exact W|]. apply (A n); [reflexivity|lia].
Qed.
Lemma agree_cbc A (f : cbc -> A) (r : cbc -> res (opst * outc)) k s : wf s ->
  (forall p, get_cbc (ss_op s) = Ok p -> at_ s p = s -> length (cb_partial p) = 16 -> cb_psz p <= 16 ->
     agree (r p) (run (k (f p)) (at_ s p))) ->
  agree (p <- get_cbc (view s) ;; r p) (run (rd_cbc f k) s).
Proof.
  intros W A'. rewrite view_get_cbc. cbn [run rd_cbc rd]. destruct (get_cbc (ss_op s)) as [p|e|u] eqn:G; cbn [bind].
  - pose proof (at_self s p G) as S. destruct (wf_cbc s p W G) as [L Z]. specialize (A' p eq_refl S L Z). rewrite S in A'. exact A'.
  - unfold get_cbc in G. destruct (os_params (ss_op s)); discriminate G.
  - exact I.
Qed.

(** The three Update functions of CBC. *)
Lemma u32_len (d : list N) z : (0 <= z <= 16)%Z -> (zlen (trunc32 d) < 2^31)%Z ->
  u32 (zlen d + z) = (zlen (trunc32 d) + z)%Z.
Proof. intros Z L. unfold u32. rewrite zlen_trunc in *. pose proof (zlen_nonneg _ d). rewrite <- Zplus_mod_idemp_l. apply Z.mod_small. lia. Qed.

Definition blk0 (d : list N) : nat := (length d / BLK) * BLK.
Definition blkp (d : list N) : nat :=
  if BLK <? length d then let sz0 := length d - length d mod BLK in if sz0 =? length d then sz0 - BLK else sz0 else 0.
Lemma blk0_mod d : blk0 d mod 16 = 0. Proof. unfold blk0, BLK. apply Nat.mod_mul. discriminate. Qed.
Lemma blk0_le d : blk0 d <= length d. Proof. unfold blk0, BLK. lia. Qed.
Lemma blk0_rest d : length d - blk0 d <= 16. Proof. unfold blk0, BLK. lia. Qed.
Lemma blkp_le d : blkp d <= length d.
Proof. unfold blkp, BLK. destruct (Nat.ltb_spec 16 (length d)); [|lia]. cbv zeta. destruct (Nat.eqb_spec (length d - length d mod 16) (length d)); lia. Qed.
Lemma blkp_rest d : length d - blkp d <= 16.
Proof. unfold blkp, BLK. destruct (Nat.ltb_spec 16 (length d)); [|lia]. cbv zeta. destruct (Nat.eqb_spec (length d - length d mod 16) (length d)); lia. Qed.
Lemma blkp_mod d : blkp d mod 16 = 0.
Proof. unfold blkp, BLK. destruct (Nat.ltb_spec 16 (length d)); [|reflexivity]. cbv zeta. destruct (Nat.eqb_spec (length d - length d mod 16) (length d)); lia. Qed.
Definition fulle (z : Z) (d : list N) : bool := (z =? 16)%Z.
Definition fullp (z : Z) (d : list N) : bool := andb (z =? 16)%Z (0 <? length d).
Lemma enc_ok a d : length d mod 16 = 0 -> exists o a', wc_AesCbcEncrypt ci a d = Ok (o, a').
Proof. intro L. destruct (wenc_whole ci a d L) as [[o a'] E]. exists o, a'. exact E. Qed.
Lemma dec_ok a d : length d mod 16 = 0 -> exists o a', wc_AesCbcDecrypt ci a d = Ok (o, a').
Proof. intro L. destruct (wdec_whole ci a d L) as [[o a'] E]. exists o, a'. exact E. Qed.

Lemma of_nat_eqb a b : (Z.of_nat a =? Z.of_nat b)%Z = (a =? b).
Proof. destruct (Nat.eqb_spec a b), (Z.eqb_spec (Z.of_nat a) (Z.of_nat b)); try reflexivity; lia. Qed.
Lemma enc_useq p d : (zlen d < 2^31)%Z -> cb_psz p <= 16 ->
  WP11_AesCbc_EncryptUpdate ci p d = useq (wc_AesCbcEncrypt ci) true fulle blk0 p d.
Proof.
  intros L Z. unfold WP11_AesCbc_EncryptUpdate, cbc_update, useq, fulle, blk0. destruct (Z.leb_spec (2^31) (zlen d)); [lia|].
  destruct (Nat.ltb_spec BLK (cb_psz p)); [unfold BLK in *; lia|]. cbv zeta. change 16%Z with (Z.of_nat BLK). rewrite of_nat_eqb. reflexivity.
Qed.
Lemma dec_useq p d : (zlen d < 2^31)%Z -> cb_psz p <= 16 ->
  WP11_AesCbc_DecryptUpdate ci p d = useq (wc_AesCbcDecrypt ci) false fulle blk0 p d.
Proof.
  intros L Z. unfold WP11_AesCbc_DecryptUpdate, cbc_update, useq, fulle, blk0. destruct (Z.leb_spec (2^31) (zlen d)); [lia|].
  destruct (Nat.ltb_spec BLK (cb_psz p)); [unfold BLK in *; lia|]. cbv zeta. change 16%Z with (Z.of_nat BLK). rewrite of_nat_eqb. reflexivity.
Qed.
Lemma pad_useq p d : (zlen d < 2^31)%Z -> cb_psz p <= 16 ->
  WP11_AesCbcPad_DecryptUpdate ci p d = useq (wc_AesCbcDecrypt ci) false fullp blkp p d.
Proof.
  intros L Z. unfold WP11_AesCbcPad_DecryptUpdate, useq, fullp, blkp. destruct (Z.leb_spec (2^31) (zlen d)); [lia|].
  destruct (Nat.ltb_spec BLK (cb_psz p)); [unfold BLK in *; lia|]. cbv zeta. change 16%Z with (Z.of_nat BLK). rewrite of_nat_eqb.
  destruct (if 0 <? cb_psz p then _ else _) as [[[[[o1 a1] part1] psz1] d1]|e|u]; cbn [bind]; try reflexivity.
  destruct (Nat.ltb_spec BLK (length d1)) as [B|B]; cbn [bind]; [|reflexivity]. cbv zeta.
  set (sz := if length d1 - length d1 mod BLK =? length d1 then length d1 - length d1 mod BLK - BLK else length d1 - length d1 mod BLK).
  destruct (Nat.ltb_spec 0 sz) as [Q|Q]; [reflexivity|]. exfalso. unfold sz, BLK in *.
  destruct (Nat.eqb_spec (length d1 - length d1 mod 16) (length d1)); lia.
Qed.
Lemma skipn_len A n (l : list A) : length (skipn n l) = length l - n.
Proof. apply skipn_length. Qed.
Lemma bytes0 p d : cb_psz p <= 16 -> (zlen d < 2^31)%Z -> Z.of_nat (bytes_out fulle blk0 p d) = align16 (zlen d + Z.of_nat (cb_psz p)).
Proof.
  intros Z L. unfold bytes_out, fulle, blk0, align16, zlen in *. cbv zeta. destruct (Nat.ltb_spec 0 (cb_psz p)).
  - rewrite skipn_len. unfold BLK. destruct (Z.eqb_spec (Z.of_nat (cb_psz p + Nat.min (16 - cb_psz p) (length d))) 16); lia.
  - unfold BLK. lia.
Qed.
Lemma bytesp p d : cb_psz p <= 16 -> (zlen d < 2^31)%Z -> Z.of_nat (bytes_out fullp blkp p d) = pad_dec_need (zlen d + Z.of_nat (cb_psz p)).
Proof.
  intros Z L. unfold bytes_out, fullp, blkp, pad_dec_need, align16, zlen in *. cbv zeta.
  destruct (Nat.ltb_spec 0 (cb_psz p)).
  - rewrite !skipn_len. unfold BLK. set (m := Nat.min (16 - cb_psz p) (length d)).
    destruct (Z.eqb_spec (Z.of_nat (cb_psz p + m)) 16); destruct (Nat.ltb_spec 0 (length d - m)); cbn [andb];
    destruct (Nat.ltb_spec 16 (length d - m));
    try destruct (Nat.eqb_spec (length d - m - (length d - m) mod 16) (length d - m));
    destruct (Z.eqb_spec ((Z.of_nat (length d) + Z.of_nat (cb_psz p)) mod 16) 0); cbn [negb];
    destruct (Z.ltb_spec 0 (Z.of_nat (length d) + Z.of_nat (cb_psz p))); unfold m in *; lia.
  - unfold BLK. destruct (Nat.ltb_spec 16 (length d));
    try destruct (Nat.eqb_spec (length d - (length d) mod 16) (length d));
    destruct (Z.eqb_spec ((Z.of_nat (length d) + Z.of_nat (cb_psz p)) mod 16) 0); cbn [negb];
    destruct (Z.ltb_spec 0 (Z.of_nat (length d) + Z.of_nat (cb_psz p))); lia.
Qed.

Lemma useq_psz crypt clear full blk (blk_rest : forall d, length d - blk d <= 16) p d out p' :
  cb_psz p <= 16 -> useq crypt clear full blk p d = Ok (out, p') -> cb_psz p' <= 16.
Proof.
  intros Z E. unfold useq in E.
  destruct (if 0 <? cb_psz p then _ else _) as [[[[[o1 a1] part1] psz1] d1]|e|u] eqn:E1 in E; cbn [bind] in E; try discriminate E.
  assert (P1 : psz1 <= 16).
  { clear E. destruct (0 <? cb_psz p).
    - cbv zeta in E1.
      assert (Q : cb_psz p + Nat.min (BLK - cb_psz p) (length d) <= 16) by (unfold BLK; lia).
      revert Q E1. generalize (Nat.min (BLK - cb_psz p) (length d)) as sz. intros sz Q E1. destruct (full _ _).
      + destruct (crypt _ _) as [[o a]|e|u]; cbn [bind] in E1; try discriminate E1. injection E1 as <- <- <- <- <-. lia.
      + injection E1 as <- <- <- <- <-. exact Q.
    - injection E1 as <- <- <- <- <-. exact Z. }
  clear E1.
  destruct (if 0 <? blk d1 then _ else _) as [[[o2 a2] d2]|e|u] eqn:E2 in E; cbn [bind] in E; try discriminate E.
  assert (L2 : length d2 <= 16).
  { clear E. destruct (Nat.ltb_spec 0 (blk d1)).
    - destruct (crypt _ _) as [[o a]|e|u]; cbn [bind] in E2; try discriminate E2. injection E2 as <- <- <-.
      rewrite skipn_length. apply blk_rest.
    - injection E2 as <- <- <-. pose proof (blk_rest d1). lia. }
  injection E as <- <-. destruct (Nat.ltb_spec 0 (length d2)); cbn [cb_psz]; lia.
Qed.

Lemma agree_up (F : cbc -> list N -> res (list N * cbc)) crypt clear full blk s p d n need :
  (forall a x, length x mod 16 = 0 -> exists o a', crypt a x = Ok (o, a')) ->
  (forall x, blk x mod 16 = 0) -> (forall x, blk x <= length x) -> (forall x, length x - blk x <= 16) ->
  get_cbc (ss_op s) = Ok p -> length (cb_partial p) = 16 -> cb_psz p <= 16 ->
  ((zlen d < 2^31)%Z -> F p d = useq crypt clear full blk p d) ->
  ((2^31 <= zlen d)%Z -> exists u, F p d = Undef u) ->
  ((zlen d < 2^31)%Z -> Z.of_nat (bytes_out full blk p d) = need) -> (need <= u32 n)%Z -> (0 <= n)%Z ->
  agree (conclude (Buf n) (view s) ('(out, p') <- F p d ;; Ok (put_cbc (view s) p', zlen out, out)))
        (run (up crypt clear full blk n done (failed (Buf n)) d) (at_ s p)).
Proof.
  intros CO BM BL BR G L Z FU FB NE NL N0. destruct (Z.ltb_spec (zlen d) (2^31)) as [S|S].
  - rewrite FU by exact S. assert (RM : (Z.of_nat (bytes_out full blk p d) <= n)%Z).
    { rewrite (NE S). unfold u32 in NL. pose proof (Z.mod_le n (2^32) N0 eq_refl) as ML. exact (Z.le_trans _ _ _ NL ML). }
    destruct (run_up crypt clear full blk CO BM BL BR done (failed (Buf n)) n s p d L Z S RM) as [out [p' [E R]]].
    rewrite E, R. cbn [bind conclude run done]. rewrite (view_cbc s p G).
    split; [reflexivity|]. split; [reflexivity|]. apply wf_at.
    + exact (useq_len crypt clear full blk CO BM BL BR done p d out p' L Z E).
    + exact (useq_psz crypt clear full blk BR p d out p' Z E).
  - destruct (FB S) as [u E]. rewrite E. cbn [bind conclude]. unfold up.
    destruct (Z.leb_spec (2^31) (zlen d)); [exact I|lia].
Qed.
Lemma enc_big p d : (2^31 <= zlen d)%Z -> exists u, WP11_AesCbc_EncryptUpdate ci p d = Undef u.
Proof. intro L. unfold WP11_AesCbc_EncryptUpdate, cbc_update. destruct (Z.leb_spec (2^31) (zlen d)); [|lia]. eexists. reflexivity. Qed.
Lemma dec_big p d : (2^31 <= zlen d)%Z -> exists u, WP11_AesCbc_DecryptUpdate ci p d = Undef u.
Proof. intro L. unfold WP11_AesCbc_DecryptUpdate, cbc_update. destruct (Z.leb_spec (2^31) (zlen d)); [|lia]. eexists. reflexivity. Qed.
Lemma pad_big p d : (2^31 <= zlen d)%Z -> exists u, WP11_AesCbcPad_DecryptUpdate ci p d = Undef u.
Proof. intro L. unfold WP11_AesCbcPad_DecryptUpdate. destruct (Z.leb_spec (2^31) (zlen d)); [|lia]. eexists. reflexivity. Qed.

Definition buf_ok (b : outbuf) : Prop := match b with Query => True | Buf n => (0 <= n)%Z end.

(** The GCM member. *)
Lemma wf_gcm s g : wf s -> get_gcm (ss_op s) = Ok g ->
  g_enc g = [] /\ zlen (content s) = ss_encSz s /\ load s (ss_enc s) (ss_encSz s) = Ok (content s) /\ (ss_encSz s < 2^31)%Z /\
  match ss_enc s with None => ss_encSz s = 0%Z | Some q => exists l, ss_mem s q = Some l /\ zlen l = ss_encSz s end.
Proof.
  intros [_ [_ W]]. unfold get_gcm. destruct (os_params (ss_op s)) eqn:P; try discriminate. injection 1 as <-.
  destruct (W g0 eq_refl) as [W1 [WS W2]]. split; [exact W1|]. unfold content, load. destruct (ss_enc s) as [q|].
  - destruct W2 as [l [M Z]]. rewrite M. rewrite <- Z. unfold zlen. rewrite Nat2Z.id, firstn_all.
    rewrite Z.ltb_irrefl. split; [reflexivity|]. split; [reflexivity|]. split; [unfold zlen in Z; rewrite Z; exact WS|]. exists l. split; reflexivity.
  - rewrite W2. split; [reflexivity|]. split; [reflexivity|]. split; reflexivity.
Qed.
Lemma get_gcm_params s g : get_gcm (ss_op s) = Ok g -> os_params (ss_op s) = PGcm g.
Proof. unfold get_gcm. destruct (os_params (ss_op s)); try discriminate. injection 1 as <-. reflexivity. Qed.
Lemma get_gcm_cases s : (exists g, get_gcm (ss_op s) = Ok g) \/ get_gcm (ss_op s) = Undef UB_union.
Proof. unfold get_gcm. destruct (os_params (ss_op s)); [right|right|left|right|right|right|right]; try reflexivity. eexists. reflexivity. Qed.
Definition at_g (s : sst) (g : gcm) : sst := with_op s (set_params (ss_op s) (PGcm g)).
Lemma get_at_g s g : get_gcm (ss_op (at_g s g)) = Ok g.
Proof. reflexivity. Qed.
Lemma run_wr_gcm f k s g : get_gcm (ss_op s) = Ok g -> run (wr_gcm f k) s = run k (at_g s (f g)).
Proof. intro G. cbn [run wr_gcm wr]. rewrite G. reflexivity. Qed.
Lemma view_at_g s g : view (at_g s g) = set_params (ss_op s) (PGcm (with_content g (content s))).
Proof. reflexivity. Qed.
Lemma set_params_view s p : set_params (view s) p = set_params (ss_op s) p.
Proof. unfold view. destruct (os_params (ss_op s)); reflexivity. Qed.
Lemma wf_at_g s g g' : wf s -> get_gcm (ss_op s) = Ok g -> g_enc g' = [] -> wf (at_g s g').
Proof.
  intros W G E. destruct (wf_gcm s g W G) as [_ [_ [_ M]]]. destruct W as [W1 [W2 _]].
  split; [exact W1|]. split; [exact W2|]. intros h H. injection H as <-. split; [exact E|]. exact M.
Qed.

Lemma EncryptUpdate_agree s d b : wf s -> buf_ok b ->
  agree (C_EncryptUpdate ev objs (view s) d b) (run (p_EncryptUpdate ev objs d b) s).
Proof.
  intros W B. unfold C_EncryptUpdate, p_EncryptUpdate, with_obj. rewrite run_start, view_curr, view_mech.
  destruct (os_curr (ss_op s)) as [o|]; [|apply agree_same; exact W].
  assert (CB : forall i, agree
     (need_init (view s) i b
        (p <- get_cbc (view s) ;;
         sized (view s) (align16 (u32 (zlen d + WP11_AesCbc_PartLen p))) b
           (conclude b (view s)
              ('(out, p') <- WP11_AesCbc_EncryptUpdate (e_ci ev) p (trunc32 d) ;; Ok (put_cbc (view s) p', zlen out, out)))))
     (run (on_init i b (rd_cbc WP11_AesCbc_PartLen (fun z =>
        sized_p (align16 (u32 (zlen d + z))) b (enc_up ev (buf_in b) done (failed b) (trunc32 d))))) s)).
  { intro i. apply agree_init; [exact W|]. apply agree_cbc; [exact W|]. intros p G SE L Z.
    rewrite SE at 1. rewrite <- SE at 3. unfold at_ in SE.
    assert (Q := agree_sized (align16 (u32 (zlen d + WP11_AesCbc_PartLen p))) b s
      (conclude b (view s) ('(out, p') <- WP11_AesCbc_EncryptUpdate (e_ci ev) p (trunc32 d) ;; Ok (put_cbc (view s) p', zlen out, out)))
      (enc_up ev (buf_in b) done (failed b) (trunc32 d)) W).
    fold (at_ s p) in SE. rewrite SE. apply Q. intros n -> NL. rewrite <- SE at 2.
    unfold WP11_AesCbc_PartLen in NL.
    apply (agree_up (WP11_AesCbc_EncryptUpdate (e_ci ev)) (wc_AesCbcEncrypt (e_ci ev)) true fulle blk0 s p (trunc32 d) n (align16 (u32 (zlen d + Z.of_nat (cb_psz p))))); try assumption.
    - exact enc_ok.
    - exact blk0_mod.
    - exact blk0_le.
    - exact blk0_rest.
    - intro S. exact (enc_useq p (trunc32 d) S Z).
    - exact (enc_big p (trunc32 d)).
    - intro S. rewrite u32_len by (try exact S; lia). apply bytes0; assumption. }
  destruct (os_mech (ss_op s)); try (apply agree_same; exact W).
  - apply CB.
  - apply CB.
  - apply agree_init; [exact W|]. apply agree_sized; [exact W|]. intros n -> NL.
    rewrite view_get_gcm. cbn [run rd_gcm rd]. destruct (get_gcm_cases s) as [[g G]|G]; rewrite G; cbn [bind]; [|exact I].
    destruct (wf_gcm s g W G) as [GE _].
    cbn [run key rd]. unfold deref. destruct (objs o) as [ko|]; cbn [bind]; [|exact I].
    change (gcm_call_enc ev (with_content g (content s)) ko (trunc32 d)) with (gcm_call_enc ev g ko (trunc32 d)).
    destruct (gcm_call_enc ev g ko (trunc32 d)) as [[c t]|e|u] eqn:E; cbn [bind conclude].
    + rewrite (run_wr_gcm _ _ s g G). rewrite (run_wr_gcm _ _ _ _ (get_at_g s _)). cbn [run done].
      split; [reflexivity|]. split; [rewrite set_params_view; reflexivity|]. apply (wf_at_g s g); assumption.
    + rewrite (run_wr_gcm _ _ s g G). cbn [run failed].
      split; [reflexivity|]. split; [rewrite set_params_view; reflexivity|]. apply (wf_at_g s g); assumption.
    + exact I.
Qed.
End WithEnv.
