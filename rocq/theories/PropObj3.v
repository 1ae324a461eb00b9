(** Object properties: C20, C63. *)
From Verif Require Import Base Codec Ops ToyEnv Object PropObject Store StoreSpec Sys SysProofs SysProofs2 SysProofs3 SysProofs4
  WfProofs ToySys PropStore PropStore2 ObjFrame ObjProofs HandleProofs QuotaProofs DiskHandles PropObj PropObj2.

(** ** C20: read-only sessions cannot change objects *)
(** A read-only session. *)
Definition read_only (s : sys) (h : Z) : Prop := exists x, sess_get s h = Some x /\ ss_use x = SESSION_RO.
(** Apart from the calls that change the login state nothing happens to token,
    files or the objects of sessions; logging in and out only decrypts or encrypts
    the key material of token objects. *)
Definition changes_login (c : op) : Prop :=
  match c with OLogin _ _ _ _ | OLogout _ | OCloseSession _ => True | _ => False end.
Definition objects_kept (c : op) (s s' : sys) : Prop :=
  (forall h o, session_obj s' h o <-> session_obj s h o) /\ s_fs s' = s_fs s /\
  map ident (t_objs (s_tok s')) = map ident (t_objs (s_tok s)) /\ (~ changes_login c -> s_tok s' = s_tok s).

Section W.
Variable w : world.
Definition ro_in (s : sys) (h : Z) : Prop := forall x, In x (s_sess s) -> ss_h x = h -> is_rw x = false.
Lemma prim_ro c h s s' : inv s -> ro_in s h -> prim w c h s s' -> ro_in s' h /\ s_tok s' = s_tok s /\ s_fs s' = s_fs s /\ (forall h' o, session_obj s' h' o <-> session_obj s h' o).
Proof.
  intros I R P. destruct P as [s x x' X U E1 E2 E3 E4|s n|s x rnd c' s' X Rw E1 E2 Cl|s x o X Rw E1 L Iu Nu Hd Ot M Cl|s x b o X Rw E1 L Iu Nu Nb Hd Ot M Cl|s x o X Rw E1 Io Cl|s x o X Rw E1 Io Ot Cl|s x o o' X Rw E1 Io Sid M];
    try (exfalso; specialize (R x X E1); congruence).
  - pose proof (inv_uniq _ I) as Uq. split; [|split; [reflexivity|split; [reflexivity|]]].
    + intros y Y Hy. cbn in Y. unfold upd_sess in Y. apply in_map_iff in Y as (z & E & Z). destruct (Z.eqb_spec (ss_h z) (ss_h x')) as [K|K].
      * subst y. unfold is_rw. rewrite E3. apply (R x X E1).
      * subst z. apply R; assumption.
    + intros h' o. split; intros (y & Y & J).
      * destruct (Z.eq_dec h' h) as [->|N].
        -- apply sess_get_in in Y as (Y & Hy & Uy & Sl). assert (y = x').
           { cbn in Y. unfold upd_sess in Y. apply in_map_iff in Y as (z & E & Z). destruct (Z.eqb_spec (ss_h z) (ss_h x')) as [K|K]; [congruence|]. exfalso. congruence. }
           subst y. exists x. split; [|rewrite <- E4; exact J]. subst h. apply sess_get_of; assumption.
        -- exists y. split; [|exact J]. apply sess_get_in in Y as (Y & Hy & Uy & Sl). cbn in Y. unfold upd_sess in Y. apply in_map_iff in Y as (z & E & Z).
           destruct (Z.eqb_spec (ss_h z) (ss_h x')) as [K|K]; [exfalso; congruence|]. subst z h'. apply sess_get_of; assumption.
      * destruct (Z.eq_dec h' h) as [->|N].
        -- pose proof Y as Y0. apply sess_get_in in Y0 as (Yi & Hy & _). assert (y = x) by (eapply sess_get_same; eauto; congruence). subst y. exists x'. split; [|rewrite E4; exact J].
           eapply sess_get_put; [exact Uq|exact Y|congruence|exact E3].
        -- exists y. split; [|exact J]. apply sess_get_put_other; [exact Uq|exact Y|congruence].
  - split; [exact R|]. split; [reflexivity|]. split; [reflexivity|]. intros; reflexivity.
Qed.
Lemma prims_ro c h s s' : inv s -> ro_in s h -> prims w c h s s' -> s_tok s' = s_tok s /\ s_fs s' = s_fs s /\ (forall h' o, session_obj s' h' o <-> session_obj s h' o).
Proof.
  intros I R P. induction P as [s|s s1 s2 P Ps IH]; [split; [reflexivity|split; [reflexivity|intros; reflexivity]]|].
  destruct (prim_ro _ _ _ _ I R P) as (A & B & C & D). destruct IH as (E & F & G); [eapply prim_inv; eauto|exact A|]. split; [congruence|]. split; [congruence|]. intros h' o. rewrite G. apply D.
Qed.

Theorem C20_read_only d rnd s c s' out h : reach w (sys0 d) s -> read_only s h -> session_of c = Some h -> step w rnd s c = Ok (s', out) -> objects_kept c s s'.
Proof.
  intros R (x & X & Ro) Sc H. pose proof (reach_inv _ _ _ R) as I. pose proof (inv_uniq _ I) as Uq. pose proof X as X0. apply sess_get_in in X0 as (Xi & Hx & Ux & Sl).
  assert (Rw : is_rw x = false) by (unfold is_rw; rewrite Ro; reflexivity).
  assert (Same : forall s1, s_sess s1 = s_sess s -> forall h' o, session_obj s1 h' o <-> session_obj s h' o).
  { intros s1 E h' o. unfold session_obj. rewrite (sess_get_ext _ _ h' E). reflexivity. }
  assert (K : forall s1, s1 = s -> objects_kept c s s1) by (intros s1 ->; split; [intros; reflexivity|split; [reflexivity|split; reflexivity]]).
  assert (Cnt : (0 < s_count s)%Z). { destruct (Z_lt_le_dec 0 (s_count s)); [assumption|]. destruct I as (_ & I2 & _). rewrite (I2 l) in Xi. contradiction. }
  destruct (objop c) as [h0|] eqn:Oc.
  - assert (h0 = h) by (destruct c; try discriminate Oc; cbn in *; congruence). subst h0. destruct (prims_ro c h s s' I) as (A & B & D); [|eapply objop_prims; eauto|].
    + intros y Y Hy. rewrite (sess_get_same s y x Uq Y Xi (eq_trans Hy (eq_sym Hx))). exact Rw.
    + split; [exact D|]. split; [exact B|]. rewrite A. split; reflexivity.
  - destruct c; try discriminate Sc; try discriminate Oc; cbn in Sc; injection Sc as ->; cbn [step] in H; unfold with_sess, need_lib in H; destruct (0 <? s_count s)%Z eqn:Cn; try lia; rewrite X in H.
    + (* InitPIN *) unfold InitPIN in H. assert (N : t_login (s_tok s) <> RW_SO).
      { intros E. destruct I as (_ & _ & _ & _ & I4). specialize (I4 E). rewrite Forall_forall in I4. exact (I4 x Xi Ro). }
      assert (G : GetState (s_tok s) x <> RW_SO).
      { unfold GetState. destruct (Z.eqb_spec (t_login (s_tok s)) RW_SO) as [E|_]; [contradiction|]. rewrite Ro. destruct (t_login (s_tok s) =? RW_USER)%Z; cbn; discriminate. }
      destruct (Z.eqb_spec (GetState (s_tok s) x) RW_SO) as [E|_]; [contradiction|]. cbn [negb] in H. unfold rv_ in H. injection H as <- _. apply K. reflexivity.
    + (* SetPIN *) unfold SetPIN in H. destruct (pin_len_ok _); cbn [negb] in H; [|unfold rv_ in H; injection H as <- _; apply K; reflexivity].
      destruct (pin_len_ok _); cbn [negb] in H; [|unfold rv_ in H; injection H as <- _; apply K; reflexivity].
      assert (N : t_login (s_tok s) <> RW_SO).
      { intros E. destruct I as (_ & _ & _ & _ & I4). specialize (I4 E). rewrite Forall_forall in I4. exact (I4 x Xi Ro). }
      assert (G : orb (GetState (s_tok s) x =? RW_SO)%Z (orb (GetState (s_tok s) x =? RW_USER)%Z (GetState (s_tok s) x =? RW_PUBLIC)%Z) = false).
      { unfold GetState. destruct (Z.eqb_spec (t_login (s_tok s)) RW_SO) as [E|_]; [contradiction|]. rewrite Ro. destruct (t_login (s_tok s) =? RW_USER)%Z; reflexivity. }
      rewrite G in H. cbn [negb] in H. unfold rv_ in H. injection H as <- _. apply K. reflexivity.
    + (* CloseSession *) pose proof H as H0. unfold CloseSession in H. destruct (close_sess _ _) as [l| |] eqn:CL; cbn [bind] in H; try discriminate.
      pose proof I as (I1 & _). specialize (I1 Cnt). pose proof (close_sess_ok _ _ _ I1 Xi CL) as (_ & CO & _).
      assert (Ex : ss_objs x = []). { destruct I1 as (_ & _ & I1). rewrite Forall_forall in I1. apply (I1 x Xi). exact Rw. }
      assert (T : map ident (t_objs (s_tok s')) = map ident (t_objs (s_tok s)) /\ s_fs s' = s_fs s /\ s_sess s' = l).
      { destruct (existsb in_use l); [unfold rv_ in H; injection H as <- _; auto|]. destruct (Logout _ _) as [t| |] eqn:Lo; cbn [bind] in H; try discriminate.
        unfold rv_ in H. injection H as <- _. apply Logout_ok in Lo as (_ & Lo & _). auto. }
      destruct T as (T1 & T2 & T3). split; [|split; [exact T2|split; [exact T1|intros N; exfalso; apply N; exact Logic.I]]].
      intros h' o. split; intros (y & Y & J).
      * apply sess_get_in in Y as (Y & Hy & Uy & Sly). rewrite T3 in Y. destruct (CO y Y) as [[Y1 Y2]|(_ & Y2 & Y3)]; [|rewrite Y3 in J; contradiction].
        exists y. split; [|exact J]. subst h'. apply sess_get_of; assumption.
      * destruct (Z.eq_dec h' h) as [->|N]; [assert (y = x) by congruence; subst y; rewrite Ex in J; contradiction|].
        exists y. split; [|exact J]. apply (step_frame w rnd s (OCloseSession h) s' out h' y I); [cbn [step]; unfold with_sess, need_lib; rewrite Cn, X; exact H0|discriminate|congruence|reflexivity|exact Y].
    + (* Login *) unfold Login in H. destruct (pin_len_ok _); cbn [negb] in H; [|unfold rv_ in H; injection H as <- _; apply K; reflexivity].
      destruct (_ =? CKU_SO)%Z.
      { destruct (SOLogin _ _ _ _ _) as [c0 t] eqn:E. unfold rv_ in H. injection H as <- _. apply SOLogin_ok in E as (E & _). split; [apply Same; reflexivity|]. split; [reflexivity|].
        split; [change (map ident (t_objs t) = map ident (t_objs (s_tok s))); rewrite E; reflexivity|intros N; exfalso; apply N; exact Logic.I]. }
      destruct (_ =? CKU_USER)%Z.
      { destruct (UserLogin _ _ _ _) as [[c0 t]| |] eqn:E; cbn [bind] in H; try discriminate. unfold rv_ in H. injection H as <- _. apply UserLogin_ok in E as (E & _). split; [apply Same; reflexivity|]. split; [reflexivity|].
        split; [exact E|intros N; exfalso; apply N; exact Logic.I]. }
      destruct (_ =? _)%Z; unfold rv_ in H; injection H as <- _; apply K; reflexivity.
    + (* Logout *) destruct (Logout _ _) as [t| |] eqn:Lo; cbn [bind] in H; try discriminate. unfold rv_ in H. injection H as <- _. apply Logout_ok in Lo as (_ & Lo & _).
      split; [apply Same; reflexivity|]. split; [reflexivity|]. split; [exact Lo|intros N; exfalso; apply N; exact Logic.I].
Qed.
End W.
Print Assumptions C20_read_only.
(** A read-only session beside a session with objects; its attempts to destroy and
    change them, and to create one, are refused. *)
Definition with_ro : list op := some_objs ++ [OOpenSession 1 RO].
Example C20_case : read_only (after with_ro) H1 /\
  rvs (with_ro ++ [ODestroyObject H1 (2^28 + 2); OCreateObject H1 aes_tmpl; OSetAttributeValue H1 (2^28 + 2) [mkA CKA_ID (AV [1%N])]; OGenerateKey H1 true [mkA CKA_VALUE_LEN (ULONG 16)] keyA; OGetAttributeValue H1 (2^28 + 2) []]) =
  repeat CKR_OK 15 ++ [CKR_SESSION_READ_ONLY; CKR_SESSION_READ_ONLY; CKR_SESSION_READ_ONLY; CKR_SESSION_READ_ONLY; CKR_OK].
Proof.
  split; [|vm_compute; reflexivity]. destruct (sess_get (after with_ro) H1) as [x|] eqn:X; [|vm_compute in X; discriminate]. exists x. split; [exact X|]. vm_compute in X. injection X as <-. reflexivity.
Qed.

(** ** C63: CKA_TOKEN decides where an object lives *)
(** From every session, [ho] names object [u]. *)
Definition everywhere (s : sys) (ho : Z) (u : nat) : Prop := forall h y, sess_get s h = Some y -> exists o, find_obj s y ho = Some o /\ o_uid o = u.
(** [u] with handle [ho], created through session [h] with CKA_TOKEN byte [b], is
    where it should be. *)
Definition lives (w : world) (s : sys) (h ho : Z) (b : N) (u : nat) : Prop :=
  if (b =? 0)%N then exists o, session_obj s h o /\ o_uid o = u /\ o_handle o = ho /\ o_onTok o = false
  else (exists o, In o (t_objs (s_tok s)) /\ o_uid o = u /\ o_handle o = ho /\ o_onTok o = true) /\ everywhere s ho u /\
       forall rnd s1 out, step w rnd s (OCloseSession h) = Ok (s1, out) -> everywhere s1 ho u.
Definition C63_good (w : world) (s : sys) (c : op) : Prop :=
  (forall rnd h t b s' ho, creator c = Some (h, t) -> tmpl_token t = Some b -> step w rnd s c = Ok (s', OutH CKR_OK ho) -> exists u, ~ In u (uids (live s)) /\ lives w s' h ho b u) /\
  (forall rnd h m tp tq g s' h1 h2 b1 b2, c = OGenerateKeyPair h m tp tq g -> tmpl_token tp = Some b1 -> tmpl_token tq = Some b2 -> step w rnd s c = Ok (s', OutH2 CKR_OK h1 h2) ->
     exists u1 u2, ~ In u1 (uids (live s)) /\ ~ In u2 (uids (live s)) /\ u1 <> u2 /\ lives w s' h h1 b1 u1 /\ lives w s' h h2 b2 u2).
Definition C63_claim (w : world) : Prop :=
  laws (w_se w) -> forall d l s os c, d (F_TOKEN, 0%nat) = None -> run w (sys0 d) l = Ok (s, os) -> (2 * (zlen l + 1) < 2^28)%Z -> Forall (fun c => byte_call (fst c)) l -> byte_call c -> C63_good w s c.

(** Proved for CK_FALSE and for odd bytes (CK_TRUE is 1), in histories in which
    the bytes are 0 or not a multiple of 16. *)
Definition odd_byte (b : N) : Prop := b = 0%N \/ N.odd b = true.
Definition odd_call (c : op) : Prop := forall t b, In t (templates c) -> In (mkA CKA_TOKEN (AV [b])) t -> (b < 256)%N /\ odd_byte b.
Lemma odd_usual c : odd_call c -> usual_call c.
Proof.
  intros O t b T I. destruct (O t b T I) as [A [B|B]]; split; auto. right. intros E. apply N.mod_divide in E; [|discriminate]. destruct E as [k ->]. rewrite N.odd_mul in B. change (N.odd 16) with false in B. rewrite andb_false_r in B. discriminate.
Qed.
Lemma odd_tmpl c t b : odd_call c -> In t (templates c) -> tmpl_token t = Some b -> odd_byte b.
Proof.
  intros U T E. unfold tmpl_token in E. destruct (find_last t CKA_TOKEN) as [[ty v]|] eqn:F; [|injection E as <-; left; reflexivity].
  cbn in E. destruct v as [[|b1 [|? ?]]| |]; try discriminate. injection E as ->. apply last_in in F as [F E]. cbn in E. subst ty. apply (U t b T F).
Qed.
Section W2.
Variable w : world.
Hypothesis L : laws (w_se w).
Lemma everywhere_good m s o : good True m s -> (m < 2^28)%Z -> In o (t_objs (s_tok s)) -> everywhere s (o_handle o) (o_uid o).
Proof. intros G M I h y Y. exists o. split; [|reflexivity]. apply (good_finds True m s h y o Logic.I G M Y). apply in_or_app. auto. Qed.
Lemma in_tags u ho b l : In (u, ho, b) (tags l) -> exists o, In o l /\ o_uid o = u /\ o_handle o = ho /\ o_onTok o = b.
Proof. intros J. apply in_map_iff in J as (o & E & I). injection E as <- <- <-. exists o. auto. Qed.
Lemma tags_close rnd s h s1 out : inv s -> step w rnd s (OCloseSession h) = Ok (s1, out) -> tags (t_objs (s_tok s1)) = tags (t_objs (s_tok s)).
Proof.
  intros I H. cbn [step] in H. unfold with_sess, need_lib in H. destruct (0 <? s_count s)%Z eqn:Cn; [|unfold rv_ in H; injection H as <- _; reflexivity].
  destruct (sess_get s h) as [x|]; [|unfold rv_ in H; injection H as <- _; reflexivity]. unfold CloseSession in H. destruct (close_sess _ _) as [l| |]; cbn [bind] in H; try discriminate.
  destruct (existsb in_use l); [unfold rv_ in H; injection H as <- _; reflexivity|]. destruct (Logout _ _) as [t| |] eqn:Lo; cbn [bind] in H; try discriminate.
  unfold rv_ in H. injection H as <- _. apply Logout_ok in Lo as (_ & Lo & _). apply tags_ident in Lo. exact Lo.
Qed.
Lemma lives_tok d m s h ho b u : orderly w True d m s -> (m < 2^28)%Z -> b <> 0%N -> In (u, ho, true) (tags (t_objs (s_tok s))) -> lives w s h ho b u.
Proof.
  intros O M B J. unfold lives. apply N.eqb_neq in B. rewrite B. destruct (in_tags _ _ _ _ J) as (o & Io & Eu & Eh & Et). destruct (orderly_kept w True (l_hash _ L) _ _ _ O M) as [G _].
  split; [exists o; auto|]. split; [rewrite <- Eh, <- Eu; eapply everywhere_good; eauto|]. intros rnd s1 out H.
  rewrite <- (tags_close rnd s h s1 out (reach_inv _ _ _ (orderly_reach _ _ _ _ _ O)) H) in J. destruct (in_tags _ _ _ _ J) as (o1 & Io1 & Eu1 & Eh1 & _).
  assert (O1 : orderly w True d (m + uses (OCloseSession h)) s1) by (eapply od_step; [exact O|exact H|intros t b' []]).
  assert (M1 : (m + uses (OCloseSession h) < 2^28)%Z) by (cbn [uses templates]; unfold uses, zlen, templates; cbn [length]; lia).
  destruct (orderly_kept w True (l_hash _ L) _ _ _ O1 M1) as [G1 _]. rewrite <- Eh1, <- Eu1. eapply everywhere_good; eauto.
Qed.
Lemma lives_sess s h o : session_obj s h o -> o_onTok o = false -> lives w s h (o_handle o) 0 (o_uid o).
Proof. intros S T. unfold lives. cbn [N.eqb]. exists o. auto. Qed.
Lemma added_lives d m s s1 h b o : orderly w True d m s1 -> (m < 2^28)%Z -> odd_byte b -> added w h b o s s1 -> lives w s1 h (o_handle o) b (o_uid o).
Proof.
  intros O M B A. pose proof A as (Fr & Ot & _ & x & x' & X & X' & _ & K). destruct (N.eqb_spec b 0) as [->|Nb].
  - destruct K as (_ & _ & K & _). apply lives_sess; [|exact Ot]. exists x'. split; [exact X'|rewrite K; left; reflexivity].
  - destruct K as (_ & _ & K & _). eapply lives_tok; eauto. rewrite (tags_core _ (o :: t_objs (s_tok s))) by exact K. left. unfold tag. rewrite Ot. destruct B as [B|B]; [contradiction|]. rewrite B. reflexivity.
Qed.
Lemma added_later d m s1 s2 h b o h' b' o' : inv s1 -> orderly w True d m s2 -> (m < 2^28)%Z -> odd_byte b ->
  (if (b =? 0)%N then session_obj s1 h o else In o (t_objs (s_tok s1))) -> o_onTok o = N.odd b -> added w h b' o' s1 s2 -> h' = h -> lives w s2 h' (o_handle o) b (o_uid o).
Proof.
  intros I O M B P Ot A ->. pose proof A as (_ & _ & _ & x & x' & X & X' & _ & K). destruct (N.eqb_spec b 0) as [->|Nb].
  - destruct P as (y & Y & J). assert (y = x) by congruence. subst y. apply lives_sess; [|exact Ot]. exists x'. split; [exact X'|].
    destruct (b' =? 0)%N; [destruct K as (_ & _ & K & _); rewrite K; right; exact J|destruct K as (_ & _ & _ & K & _); rewrite K; exact J].
  - eapply lives_tok; eauto. destruct B as [B|B]; [contradiction|]. assert (J : In (o_uid o, o_handle o, true) (tags (t_objs (s_tok s1)))) by (apply in_map_iff; exists o; split; [unfold tag; rewrite Ot, B; reflexivity|exact P]).
    destruct (b' =? 0)%N; [destruct K as (_ & _ & _ & K & _); rewrite K; exact J|]. destruct K as (_ & _ & K & _). rewrite (tags_core _ (o' :: t_objs (s_tok s1))) by exact K. right. exact J.
Qed.
End W2.
Theorem C63_partial w : laws (w_se w) -> forall d l s os c, d (F_TOKEN, 0%nat) = None -> run w (sys0 d) l = Ok (s, os) -> (2 * (zlen l + 1) < 2^28)%Z ->
  Forall (fun c => usual_call (fst c)) l -> odd_call c -> C63_good w s c.
Proof.
  intros L d l s os c D H M F Oc. destruct (run_orderly w d l 0 (sys0 d) s os (od_0 w True d D) H F) as (m & O & Lm). pose proof (orderly_pos _ _ _ _ _ O) as P. clear H F.
  pose proof (reach_inv w _ _ (orderly_reach _ _ _ _ _ O)) as I. pose proof (uses_two c) as U2. split.
  - intros rnd h t b s' ho Cr Tb H. assert (O1 : orderly w True d (m + uses c) s') by (eapply od_step; [exact O|exact H|apply usual_bytes, odd_usual; exact Oc]).
    destruct (step_created w _ _ _ _ _ _ _ I Cr H) as [(ho' & b' & ob & Nh & Tb' & Eh & A) | (Nh & _)]; [|discriminate Nh]. cbn in Nh. injection Nh as <-. assert (b' = b) by congruence. subst b' ho.
    exists (o_uid ob). split; [apply A|]. eapply added_lives; eauto; [lia|]. eapply odd_tmpl; eauto. destruct c; try discriminate Cr; injection Cr as _ <-; left; reflexivity.
  - intros rnd h m0 tp tq g s' h1 h2 b1 b2 -> T1 T2 H. assert (O1 : orderly w True d (m + uses (OGenerateKeyPair h m0 tp tq g)) s') by (eapply od_step; [exact O|exact H|apply usual_bytes, odd_usual; exact Oc]).
    destruct (pair_created w _ _ _ _ _ _ _ _ _ I H) as [(k1 & k2 & c1 & c2 & o1 & o2 & s1 & E & T1' & T2' & E1 & E2 & A1 & A2 & I1 & Fr) | (r & E & _)]; [|discriminate E].
    injection E as Ek1 Ek2. assert (c1 = b1) by congruence. assert (c2 = b2) by congruence. subst c1 c2 k1 k2 h1 h2.
    assert (B1 : odd_byte b1) by (eapply odd_tmpl; eauto; left; reflexivity). assert (B2 : odd_byte b2) by (eapply odd_tmpl; eauto; right; left; reflexivity).
    assert (J : exists q, o_uid q = o_uid o1 /\ o_handle q = o_handle o1 /\ o_onTok q = N.odd b1 /\ In q (live s1) /\ if (b1 =? 0)%N then session_obj s1 h q else In q (t_objs (s_tok s1))).
    { pose proof A1 as (_ & Ot & _ & x & x' & _ & X' & _ & K). destruct (b1 =? 0)%N eqn:Eb.
      - destruct K as (_ & _ & K & _). exists o1. split; [reflexivity|]. split; [reflexivity|]. split; [exact Ot|]. split; [|exists x'; split; [exact X'|rewrite K; left; reflexivity]].
        apply in_or_app. right. apply sess_get_in in X' as (X' & _). eapply all_objs_in; [exact X'|]. rewrite K. left. reflexivity.
      - destruct K as (_ & _ & K & _). destruct (t_objs (s_tok s1)) as [|q r] eqn:Eq; [discriminate K|]. pose proof (tags_core _ (o1 :: t_objs (s_tok s)) K) as Kt. injection Kt as K1 K2 K3 _.
        exists q. split; [exact K1|]. split; [exact K2|]. split; [congruence|]. split; [unfold live; rewrite Eq; left; reflexivity|left; reflexivity]. }
    destruct J as (q & Q1 & Q2 & Q3 & Ql & Q4). exists (o_uid o1), (o_uid o2). split; [apply A1|]. split; [exact Fr|]. split.
    + destruct A2 as (A2 & _). intros E. apply A2. rewrite <- E, <- Q1. apply in_map. exact Ql.
    + split; [|eapply added_lives; eauto; lia]. rewrite <- Q1, <- Q2. eapply added_later; eauto; lia.
Qed.
Print Assumptions C63_partial.
(** CKA_TOKEN 16: the object goes to the token, but its handle has no token bit and
    names nothing. *)
Theorem C63_refuted : ~ C63_claim tw.
Proof.
  intros Cl. set (c := OCreateObject H2 (token_is 16 aes_tmpl)). set (l := setup ++ [OOpenSession 1 RW]).
  destruct (hist l) as [[s os]| |] eqn:E; [|vm_compute in E; discriminate..].
  destruct (Cl toy_laws nofiles (numbered 1 l) s os c eq_refl (hist_run _ _ _ E)) as [Q _]; [vm_compute; reflexivity| | |].
  - apply Forall_forall. intros b I. apply byteb_ok. assert (B : forallb (fun c => byteb (fst c)) (numbered 1 l) = true) by (vm_compute; reflexivity). rewrite forallb_forall in B. apply B. exact I.
  - apply byteb_ok. vm_compute. reflexivity.
  - rewrite <- (hist_is _ _ _ E) in Q. clear E. destruct (step tw (rnd 0) (after l) c) as [[s1 o1]| |] eqn:E1; [|vm_compute in E1; discriminate..].
    assert (O1 : o1 = OutH CKR_OK 1) by (vm_compute in E1; injection E1 as _ <-; reflexivity). subst o1.
    destruct (Q (rnd 0) H2 (token_is 16 aes_tmpl) 16%N s1 1%Z eq_refl eq_refl E1) as (u & _ & Lv). unfold lives in Lv. cbn [N.eqb] in Lv. destruct Lv as (_ & Ev & _).
    destruct (sess_get s1 H2) as [y|] eqn:Y; [|vm_compute in E1; injection E1 as <-; vm_compute in Y; discriminate]. destruct (Ev H2 y Y) as (o & Fo & _).
    vm_compute in E1. injection E1 as <-. vm_compute in Y. injection Y as <-. vm_compute in Fo. discriminate.
Qed.
Print Assumptions C63_refuted.
(** CKA_TOKEN 2: the object is in the list of the token but does not know it, and
    destroying it is a use after free. *)
Example C63_two : outs (setup ++ [OOpenSession 1 RW; OCreateObject H2 (token_is 2 aes_tmpl)]) <> [] /\
  step tw (rnd 0) (after (setup ++ [OOpenSession 1 RW; OCreateObject H2 (token_is 2 aes_tmpl)])) (ODestroyObject H2 (2 * 2^28 + 1)) = Undef UB_use_after_free.
Proof. split; vm_compute; [discriminate|reflexivity]. Qed.
Example C63_case : odd_call (OCreateObject H2 (tokenly aes_tmpl)) /\ odd_call (OCreateObject H2 aes_tmpl) /\
  rvs (some_objs ++ [OCreateObject H2 (tokenly aes_tmpl); OCreateObject H2 aes_tmpl; OCloseSession H2]) = repeat CKR_OK 17.
Proof.
  split; [|split; [|vm_compute; reflexivity]]; intros t b [<-|[]] I; cbn in I; decompose [or] I; try contradiction; try discriminate.
  injection H as <-. split; [reflexivity|right; reflexivity].
Qed.
