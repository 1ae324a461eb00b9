(** C118: sessions and login follow the reference machine of Device.v in every history. *)
From Verif Require Import Base Ops Object Store Sys SysProofs SysProofs2 SysProofs3 SysProofs4 LoginProofs ToySys PropSys1 PropSys2 Device DeviceProofs.

Lemma count_le s : (0 <? s_count s)%Z = negb (s_count s <=? 0)%Z.
Proof. destruct (Z.ltb_spec 0 (s_count s)), (Z.leb_spec (s_count s) 0); try reflexivity; lia. Qed.
(** A call on a session, read from the library's side. *)
Lemma on_sess s d h k s' o : sim s d -> with_sess s h k = Ok (s', o) ->
  (s' = s /\ o <> OutRv CKR_OK /\ out_rv o <> CKR_OK /\ out_rv o <> CKR_FUNCTION_FAILED /\ forall P : bool -> Prop, on_session d h o P) \/
  (exists x, (0 < s_count s)%Z /\ In x (s_sess s) /\ ss_h x = h /\ in_use x = true /\ d_mode d h = Some (is_rw x) /\ k x = Ok (s', o) /\ forall P : bool -> Prop, P (is_rw x) -> on_session d h o P).
Proof.
  intros (Sc & Sm & Sl & St) E. unfold with_sess, need_lib in E. rewrite count_le in E. unfold on_session. rewrite <- Sc, <- Sm.
  destruct (Z.leb_spec (s_count s) 0) as [L|L]; cbn [negb] in E; [left; unfold rv_ in E; injection E as <- <-; split; [reflexivity|]; repeat split; discriminate|].
  unfold mode. destruct (sess_get s h) as [x|] eqn:G; [|left; unfold rv_ in E; injection E as <- <-; split; [reflexivity|]; repeat split; discriminate].
  right. pose proof G as G0. apply sess_get_in in G as (X & Eh & U & _). exists x. repeat split; auto.
Qed.
Lemma on_slot_ s d slot k s' o : sim s d -> with_slot s slot k = Ok (s', o) ->
  (s' = s /\ out_rv o <> CKR_OK /\ out_rv o <> CKR_FUNCTION_FAILED /\ (forall a b, o <> OutH a b) /\ forall P : Prop, on_slot d slot o P) \/
  ((0 < s_count s)%Z /\ k = Ok (s', o) /\ forall P : Prop, P -> on_slot d slot o P).
Proof.
  intros (Sc & Sm & Sl & St) E. unfold with_slot, need_lib in E. rewrite count_le in E. unfold on_slot. rewrite <- Sc.
  destruct (Z.leb_spec (s_count s) 0) as [L|L]; cbn [negb] in E; [left; unfold rv_ in E; injection E as <- <-; repeat split; discriminate|].
  unfold slot_ok in E. destruct (slot =? 1)%Z; [right; auto|left; unfold rv_ in E; injection E as <- <-; repeat split; discriminate].
Qed.
Lemma next_fail d c o : out_rv o <> CKR_OK -> out_rv o <> CKR_FUNCTION_FAILED ->
  match c with OInitialize | OFinalize | ORestart => True | _ => next d c o = d end.
Proof. intros A B. apply Z.eqb_neq in A, B. destruct c; try exact I; cbn [next]; rewrite A; cbn [negb]; try reflexivity. rewrite B. reflexivity. Qed.
Lemma next_other d c o : matters c = false -> next d c o = d.
Proof. destruct c; try discriminate; intros _; cbn [next]; destruct (negb _); reflexivity. Qed.

Lemma pin_store w rnd s t c s' : store w rnd (set_tok s t) = Ok (c, s') -> modes (s_sess s') = modes (s_sess s) /\ s_count s' = s_count s /\ t_login (s_tok s') = t_login t.
Proof.
  intros T. apply store_frame in T as (E1 & E2 & _ & E & _). apply tok0_eq in E. cbn in *. rewrite E2. repeat split; auto; tauto.
Qed.
Lemma state_code s d x : sim s d -> in_use x = true -> GetState (s_tok s) x = state_of (d_who d) (is_rw x).
Proof.
  intros (_ & _ & Sl & _) U. unfold GetState, is_rw. rewrite Sl. destruct (d_who d) as [[]|]; cbn; destruct (ss_use x =? SESSION_RW)%Z; reflexivity.
Qed.
Theorem C118_step w rnd s d c s' o : inv s -> sim s d -> step w rnd s c = Ok (s', o) -> says d c o /\ sim s' (next d c o).
Proof.
  intros I S E. pose proof (step_inv _ _ _ _ _ _ I E) as I'. pose proof S as (Sc & Sm & Sl & St).
  assert (QUIET : objop c <> None -> sim s' d).
  { destruct (objop c) as [h|] eqn:O; [|congruence]. intros _.
    pose proof (objop_prims _ _ _ _ _ _ _ I O E) as P. destruct (prims_inv _ _ _ _ _ P I) as [_ (Q1 & Q2 & Q3)]. apply tok0_eq in Q3.
    eapply modes_sim; [exact S|exact Q2|exact Q1|tauto]. }
  assert (FAIL : forall o', out_rv o' <> CKR_OK -> out_rv o' <> CKR_FUNCTION_FAILED -> match c with OInitialize | OFinalize | ORestart => True | _ => next d c o' = d end) by (intros; apply next_fail; assumption).
  destruct c; cbn [says];
   try (rewrite next_other by reflexivity; split; [|apply QUIET; discriminate]; clear QUIET; cbn [step] in E; apply (on_sess _ d) in E as [(-> & _ & _ & _ & F)|(x & Cn & X & Eh & U & M & E & F)]; [apply F| |exact S]; apply F).
  - (* C_Initialize *)
    cbn [step] in E. unfold Initialize in E. cbn [next]. rewrite <- Sc. destruct (s_count s =? 0)%Z eqn:C0.
    + destruct (Token_Load _ _ _) as [t| |] eqn:T; cbn [bind] in E; try discriminate. injection E as <- <-. split; [reflexivity|].
      apply Token_Load_ok in T as [T _]. split; [reflexivity|]. split; [|split; [exact T|]].
      * intros h. unfold mode, sess_get. destruct (slot_ok _); [|reflexivity]. cbn [s_sess add_sess find_sess find].
        destruct (_ =? h)%Z; [reflexivity|]. destruct (_ =? h)%Z; reflexivity.
      * cbn. intros K. discriminate K.
    + injection E as <- <-. split; [reflexivity|]. split; [reflexivity|]. auto.
  - (* C_Finalize *)
    cbn [step] in E. unfold Finalize in E. cbn [next]. rewrite <- Sc. destruct (s_count s - 1 =? 0)%Z eqn:C0.
    + destruct (Z.eqb_spec (s_count s) 1); [|lia]. 
      destruct (store _ _ _) as [[c1 s1]| |]; cbn [bind] in E; try discriminate. destruct (final_all _); cbn [bind] in E; try discriminate.
      destruct (free_all _); cbn [bind] in E; try discriminate. injection E as <- <-. split; [reflexivity|].
      split; [reflexivity|]. split; [apply mode_none; reflexivity|]. split; [reflexivity|exact Logic.I].
    + destruct (Z.eqb_spec (s_count s) 1); [lia|]. injection E as <- <-. split; [reflexivity|]. split; [reflexivity|]. auto.
  - (* the process ends *)
    cbn [step] in E. injection E as <- <-. split; [reflexivity|]. split; [reflexivity|]. split; [apply mode_none; reflexivity|]. split; [reflexivity|exact Logic.I].
  - (* C_InitToken *)
    cbn [step] in E. apply (on_slot_ _ d) in E as [(-> & A & B & _ & F)|(Cn & E & F)]; [rewrite (FAIL o A B); split; [apply F|exact S]| |exact S].
    unfold InitToken in E. change (pin_len_ok pin) with (good_pin pin) in E. destruct (good_pin pin); cbn [negb] in *.
    2:{ unfold rv_ in E. injection E as <- <-. split; [apply F; reflexivity|exact S]. }
    rewrite <- (any_open_sess s d I Cn S) in E.
    destruct (andb (t_init (s_tok s)) (any_open d)) eqn:B1.
    { unfold rv_ in E. injection E as <- <-. apply andb_prop in B1 as [_ B1]. split; [|exact S]. apply F. eexists. split; [reflexivity|]. rewrite B1. cbn. auto 6. }
    match type of E with (if ?b then _ else _) = _ => destruct b end. { unfold rv_ in E. injection E as <- <-. split; [|exact S]. apply F. eexists. split; [reflexivity|]. cbn. auto. }
    destruct (TokenReset _ _ _ _ _) as [[c1 s1]| |] eqn:T; cbn [bind] in E; try discriminate. unfold rv_ in E. injection E as <- <-.
    unfold TokenReset in T. destruct (free_all _); cbn [bind] in T; try discriminate. destruct (zlen _ <? 32)%Z; [discriminate|].
    unfold SetSOPin in T. apply pin_store in T as (T1 & T2 & T3). cbn in T1, T2, T3.
    split; [apply F; eexists; split; [reflexivity|]; destruct (c1 =? 0)%Z; cbn; auto|].
    assert (N : next d (OInitToken slot pin label) (OutRv (if (c1 =? 0)%Z then CKR_OK else CKR_FUNCTION_FAILED)) = Dev (d_count d) (d_mode d) None) by (destruct (c1 =? 0)%Z; reflexivity).
    rewrite N. eapply modes_sim_to; [exact S|exact T1|exact T2|exact T3].
  - (* C_InitPIN *)
    rewrite next_other by reflexivity. cbn [step] in E. apply (on_sess _ d) in E as [(-> & _ & _ & _ & F)|(x & Cn & X & Eh & U & M & E & F)]; [split; [apply F|exact S]| |exact S].
    unfold InitPIN in E. rewrite (state_code s d x S U) in E. 
    assert (Q : (state_of (d_who d) (is_rw x) =? RW_SO)%Z = match d_who d with Some SO => true | _ => false end) by (destruct (d_who d) as [[]|], (is_rw x); reflexivity).
    rewrite Q in E. destruct (d_who d) as [[]|] eqn:W; cbn [negb] in E; try (unfold rv_ in E; injection E as <- <-; split; [apply F; reflexivity|exact S]).
    change (pin_len_ok pin) with (good_pin pin) in E. destruct (good_pin pin); cbn [negb] in E; [|unfold rv_ in E; injection E as <- <-; split; [apply F; reflexivity|exact S]].
    destruct (SetUserPin _ _ _ _) as [[c1 s1]| |] eqn:T; cbn [bind] in E; try discriminate. unfold rv_ in E. injection E as <- <-.
    unfold SetUserPin in T. apply pin_store in T as (T1 & T2 & T3).
    split; [apply F; eexists; split; [reflexivity|]; destruct (c1 =? 0)%Z; cbn; auto|]. eapply modes_sim; [exact S|exact T1|exact T2|exact T3].
  - (* C_SetPIN *)
    rewrite next_other by reflexivity. cbn [step] in E. apply (on_sess _ d) in E as [(-> & _ & _ & _ & F)|(x & Cn & X & Eh & U & M & E & F)]; [split; [apply F|exact S]| |exact S].
    unfold SetPIN in E. cbv zeta in E. change (pin_len_ok old) with (good_pin old) in E. change (pin_len_ok new) with (good_pin new) in E.
    destruct (good_pin old); cbn [negb andb] in *; [|unfold rv_ in E; injection E as <- <-; split; [apply F; reflexivity|exact S]].
    destruct (good_pin new); cbn [negb] in *; [|unfold rv_ in E; injection E as <- <-; split; [apply F; reflexivity|exact S]].
    rewrite (state_code s d x S U) in E.
    assert (Q : orb (state_of (d_who d) (is_rw x) =? RW_SO)%Z (orb (state_of (d_who d) (is_rw x) =? RW_USER)%Z (state_of (d_who d) (is_rw x) =? RW_PUBLIC)%Z) = is_rw x).
    { destruct (d_who d) as [[]|] eqn:W; destruct (is_rw x) eqn:Rw; try reflexivity. exfalso.
      destruct I as (Ok1 & _ & _ & _ & SOo). specialize (SOo ltac:(rewrite Sl; reflexivity)). rewrite Forall_forall in SOo. specialize (SOo x X).
      destruct (Ok1 Cn) as (_ & _ & Fs). rewrite Forall_forall in Fs. destruct (Fs x X) as [K _]. unfold in_use in U. unfold is_rw in Rw.
      destruct K as [K|[K|[K|[]]]]; rewrite <- K in *; try discriminate. congruence. }
    rewrite Q in E. destruct (is_rw x) eqn:Rw; cbn [negb] in E; [|unfold rv_ in E; injection E as <- <-; split; [apply F; reflexivity|exact S]].
    match type of E with (if ?b then _ else _) = _ => destruct b end; [unfold rv_ in E; injection E as <- <-; split; [apply F; eexists; split; [reflexivity|]; cbn; auto|exact S]|].
    match type of E with (if ?b then _ else _) = _ => destruct b end; [unfold rv_ in E; injection E as <- <-; split; [apply F; eexists; split; [reflexivity|]; cbn; auto|exact S]|].
    match type of E with bind ?r _ = _ => destruct r as [[c1 s1]| |] eqn:T end; cbn [bind] in E; try discriminate. unfold rv_ in E. injection E as <- <-.
    split; [apply F; eexists; split; [reflexivity|]; destruct (c1 =? 0)%Z; cbn; auto|].
    destruct (_ =? _)%Z; apply pin_store in T as (T1 & T2 & T3); (eapply modes_sim; [exact S|exact T1|exact T2|exact T3]).
  - (* C_OpenSession *)
    cbn [step] in E. apply (on_slot_ _ d) in E as [(-> & A & B & _ & F)|(Cn & E & F)]; [rewrite (FAIL o A B); split; [apply F|exact S]| |exact S].
    destruct (open_sim s d flags s' o I I' Cn S E) as [A B]. split; [apply F; exact A|exact B].
  - (* C_CloseSession *)
    cbn [step] in E. apply (on_sess _ d) in E as [(-> & _ & A & B & F)|(x & Cn & X & Eh & U & M & E & F)]; [rewrite (FAIL o A B); split; [apply F|exact S]| |exact S].
    unfold CloseSession in E. destruct (close_sess _ _) as [l| |] eqn:CL; cbn [bind] in E; try discriminate.
    pose proof (close_sess_ok _ _ _ (okl s I Cn) X CL) as (OK' & _). pose proof (close_mode s x l I Cn X CL) as CM. pose proof (close_tight _ _ _ (okl s I Cn) X St CL) as CT.
    set (d1 := Dev (d_count d) (with_mode d h None) (d_who d)).
    assert (S1 : sim (set_sess s l) d1).
    { split; [exact Sc|]. split; [|split; [exact Sl|exact CT]]. intros h'. rewrite CM, Eh, Sm. reflexivity. }
    assert (I1 : inv (set_sess s l)).
    { apply sess_inv_step; auto; [eapply close_sess_sub; [apply (okl s I Cn)|exact X|exact CL]|].
      pose proof (close_sess_ok _ _ _ (okl s I Cn) X CL) as (_ & K2 & _). intros y Y. destruct (K2 y Y) as [[? _]|(_ & Z & _)]; auto. }
    pose proof (any_open_sess (set_sess s l) d1 I1 Cn S1) as A1. cbn [set_sess s_sess] in A1.
    rewrite <- A1 in E. destruct (any_open d1) eqn:AO.
    + unfold rv_ in E. injection E as <- <-. split; [apply F; reflexivity|]. cbn [next out_rv]. change (negb (CKR_OK =? CKR_OK)%Z) with false. cbv iota zeta.
      fold d1. rewrite AO. exact S1.
    + destruct (Logout _ _) as [t| |] eqn:L; cbn [bind] in E; try discriminate. unfold rv_ in E. injection E as <- <-. split; [apply F; reflexivity|].
      cbn [next out_rv]. change (negb (CKR_OK =? CKR_OK)%Z) with false. cbv iota zeta. fold d1. rewrite AO. apply Logout_ok in L as (L & _).
      apply (login_to d1 (set_sess s l) t None S1 L).
  - (* C_CloseAllSessions *)
    cbn [step] in E. apply (on_slot_ _ d) in E as [(-> & A & B & _ & F)|(Cn & E & F)]; [rewrite (FAIL o A B); split; [apply F|exact S]| |exact S].
    destruct (close_all _) as [l| |] eqn:CL; cbn [bind] in E; try discriminate. unfold rv_ in E. injection E as <- <-. split; [apply F; reflexivity|].
    cbn [next out_rv]. change (negb (CKR_OK =? CKR_OK)%Z) with false. cbv iota.
    apply close_all_ok in CL as (p & b & a & b' & E1 & -> & E3 & E4 & E5 & E6 & E7 & E8); [|apply I; exact Cn].
    split; [exact Sc|]. split; [|split; [exact Sl|intros K; discriminate K]]. intros h. cbn [d_mode]. change (H 1) with (sess_handle 1). rewrite <- Sm.
    unfold mode. destruct (Z.eqb_spec h (sess_handle 1)) as [->|N].
    + assert (G : sess_get (set_sess s [b'; a]) (sess_handle 1) = sess_get s (sess_handle 1)); [|rewrite G; reflexivity].
      rewrite <- E3. unfold sess_get. match goal with |- context [slot_ok ?q] => destruct (slot_ok q) end; [|reflexivity].
      cbn [set_sess s_sess]. rewrite (find_sess_uniq [b'; a] a); [|apply chain_uniq; apply E8|right; left; reflexivity].
      rewrite (find_sess_uniq (s_sess s) a); [reflexivity|apply inv_uniq; exact I|].
      rewrite E1. apply in_or_app. right; right; left; reflexivity.
    + destruct (sess_get _ h) as [y|] eqn:G; [|reflexivity]. apply sess_get_in in G as (Y & Ey & Uy & _).
      destruct Y as [<-|[<-|[]]]; [unfold in_use in Uy; rewrite E6 in Uy; discriminate|congruence].
  - (* C_GetSessionInfo *)
    injection E as <- <-. rewrite (state_code s d x S U). unfold mode_flags. destruct (is_rw x); reflexivity.
  - (* C_Login *)
    cbn [step] in E. apply (on_sess _ d) in E as [(-> & _ & A & B & F)|(x & Cn & X & Eh & U & M & E & F)]; [rewrite (FAIL o A B); split; [apply F|exact S]| |exact S].
    change (pin_len_ok pin) with (good_pin pin) in *. destruct (good_pin pin) eqn:GP; cbn [negb].
    2:{ unfold Login in E. change (pin_len_ok pin) with (good_pin pin) in E. rewrite GP in E. unfold rv_ in E. injection E as <- <-. split; [apply F; reflexivity|exact S]. }
    assert (ROLE : forall r, ut = cku r -> login_says d r now o /\ sim s' (next d (OLogin h ut pin now) o)).
    { intros r ->. destruct now as [n|].
      2:{ assert (ES : s' = set_tok s (s_tok s) /\ o = OutRv CKR_PIN_INCORRECT).
          { unfold Login in E. change (pin_len_ok pin) with (good_pin pin) in E. rewrite GP in E. destruct r; cbn in E; injection E as <- <-; auto. }
          destruct ES as [-> ->]. split; [reflexivity|]. apply same_events; [exact S|reflexivity]. }
      apply login_attempt in E as (rv & -> & A); [|exact GP].
      pose proof (logged_in_inv s I) as LI. rewrite Sl in LI.
      assert (LW : logged_in (t_login (s_tok s)) = match d_who d with Some _ => true | None => false end) by (rewrite Sl; destruct (d_who d) as [[]|]; reflexivity).
      assert (RO : any_ro d = ro_open s) by (apply (any_ro_sess s d I Cn S)).
      assert (FS : forall t rv', t_login t = t_login (s_tok s) -> rv' <> CKR_OK -> sim (set_tok s t) (next d (OLogin h (cku r) pin (Some n)) (OutRv rv'))).
      { intros t rv' E1 N. apply Z.eqb_neq in N. cbn [next out_rv]. rewrite N. apply same_events; assumption. }
      unfold login_says. destruct A as [G | G K | p G K Hr Ro | p G K Ro Ck | p G K Ro Ck | p k l G K Ro Ck Id | p k l rv G K Hr Ck Id Nr]; rewrite G in LW.
      - destruct (d_who d); [|discriminate LW]. split; [reflexivity|]. exact S.
      - destruct (d_who d); [discriminate LW|]. split; [|exact S]. destruct r; [|eexists; reflexivity].
        destruct (any_ro d); eexists; (split; [reflexivity|]; cbn; auto).
      - destruct (d_who d); [discriminate LW|]. subst r. rewrite RO, Ro. split; [eexists; split; [reflexivity|]; cbn; auto|]. apply FS; [reflexivity|discriminate].
      - destruct (d_who d); [discriminate LW|]. split; [|apply FS; [destruct r; reflexivity|discriminate]]. destruct r; [|eexists; reflexivity].
        rewrite RO, (Ro eq_refl). eexists. split; [reflexivity|]. cbn. auto.
      - destruct (d_who d); [discriminate LW|]. split; [|apply FS; [destruct r; reflexivity|discriminate]]. destruct r; [|eexists; reflexivity].
        rewrite RO, (Ro eq_refl). eexists. split; [reflexivity|]. cbn. auto.
      - destruct (d_who d); [discriminate LW|]. split.
        + destruct r; [|eexists; reflexivity]. rewrite RO, (Ro eq_refl). eexists. split; [reflexivity|]. cbn. auto.
        + cbn [next out_rv]. change (negb (CKR_OK =? CKR_OK)%Z) with false. cbv iota.
          replace (Some (if (cku r =? 0)%Z then SO else User)) with (Some r) by (destruct r; reflexivity). apply login_to; [exact S|destruct r; reflexivity].
      - destruct (d_who d); [discriminate LW|]. subst r. split; [eexists; reflexivity|]. apply FS; [reflexivity|exact Nr]. }
    destruct (Z.eqb_spec ut 0) as [->|U0]; [destruct (ROLE SO eq_refl) as [A B]; split; [apply F; exact A|exact B]|].
    destruct (Z.eqb_spec ut 1) as [->|U1]; [destruct (ROLE User eq_refl) as [A B]; split; [apply F; exact A|exact B]|].
    unfold Login in E. change (pin_len_ok pin) with (good_pin pin) in E. rewrite GP in E. cbn [negb] in E. 
    apply Z.eqb_neq in U0, U1. change CKU_SO with 0%Z in E. change CKU_USER with 1%Z in E. rewrite U0, U1 in E.
    change CKU_CONTEXT_SPECIFIC with 2%Z in E.
    destruct (ut =? 2)%Z eqn:U2; unfold rv_ in E; injection E as <- <-; (split; [apply F; reflexivity|exact S]).
  - (* C_Logout *)
    cbn [step] in E. apply (on_sess _ d) in E as [(-> & _ & A & B & F)|(x & Cn & X & Eh & U & M & E & F)]; [rewrite (FAIL o A B); split; [apply F|exact S]| |exact S].
    destruct (Logout _ _) as [t| |] eqn:L; cbn [bind] in E; try discriminate. unfold rv_ in E. injection E as <- <-. split; [apply F; reflexivity|].
    apply Logout_ok in L as (L & _). apply (login_to d s t None S L).
  - (* C_GetTokenInfo *)
    rewrite next_other by reflexivity. cbn [step] in E. apply (on_slot_ _ d) in E as [(-> & A & B & _ & F)|(Cn & E & F)]; [split; [apply F|exact S]| |exact S].
    injection E as <- <-. split; [apply F; exact Logic.I|exact S].
  - destruct (is_rw x) eqn:Rw; [exact Logic.I|]. unfold need_rw in E. rewrite Rw in E. unfold rv_ in E. injection E as _ <-. reflexivity.
  - destruct (is_rw x) eqn:Rw; [exact Logic.I|]. unfold need_rw in E. rewrite Rw in E. unfold rv_ in E. injection E as _ <-. reflexivity.
  - destruct (is_rw x) eqn:Rw; [exact Logic.I|]. unfold need_rw in E. rewrite Rw in E. unfold rv_ in E. injection E as _ <-. reflexivity.
  - exact Logic.I.
  - destruct (is_rw x) eqn:Rw; [exact Logic.I|]. unfold need_rw in E. rewrite Rw in E. unfold rv_ in E. injection E as _ <-. reflexivity.
  - exact Logic.I.
  - exact Logic.I.
  - exact Logic.I.
  - exact Logic.I.
  - exact Logic.I.
  - destruct (is_rw x) eqn:Rw; [exact Logic.I|]. unfold need_rw in E. rewrite Rw in E. unfold rv_ in E. injection E as _ <-. reflexivity.
  - destruct (is_rw x) eqn:Rw; [exact Logic.I|]. unfold need_rw in E. rewrite Rw in E. unfold rv_ in E. injection E as _ <-. reflexivity.
  - exact Logic.I.
  - exact Logic.I.
Qed.
Print Assumptions C118_step.

Lemma run_sim w l : forall s d s' os, inv s -> sim s d -> run w s l = Ok (s', os) ->
  follows d (map fst l) os /\ inv s' /\ sim s' (device d (map fst l) os).
Proof.
  induction l as [|[c r] l IH]; cbn [run map fst]; intros s d s' os I S E.
  - injection E as <- <-. split; [exact Logic.I|]. auto.
  - destruct (step w r s c) as [[s1 o1]| |] eqn:E1; cbn [bind] in E; try discriminate.
    destruct (run w s1 l) as [[s2 os2]| |] eqn:E2; cbn [bind] in E; try discriminate. injection E as <- <-.
    destruct (C118_step w r s d c s1 o1 I S E1) as [A B]. destruct (IH s1 _ s2 os2 (step_inv _ _ _ _ _ _ I E1) B E2) as (A2 & B2 & C2).
    cbn [follows device]. auto.
Qed.
Lemma sim0 fs : sim (sys0 fs) dev0.
Proof. split; [reflexivity|]. split; [apply mode_none; reflexivity|]. split; [reflexivity|exact I]. Qed.
(** Every history of calls, whatever files the library starts with, whatever randomness is drawn and whatever the
    cryptography answers, is a history of the reference machine. *)
Theorem C118_follows : forall w fs l s os, run w (sys0 fs) l = Ok (s, os) -> follows dev0 (map fst l) os.
Proof. intros w fs l s os R. apply (run_sim w l _ dev0 _ _ (inv0 fs) (sim0 fs) R). Qed.
Print Assumptions C118_follows.
(** And what C_GetSessionInfo answers afterwards is what the machine says. *)
Theorem C118_state : forall w fs l s os h, run w (sys0 fs) l = Ok (s, os) ->
  let d := device dev0 (map fst l) os in
  info w s h = Some (if (d_count d <=? 0)%Z then OutRv CKR_CRYPTOKI_NOT_INITIALIZED
                     else match d_mode d h with
                          | Some rw => OutInfo CKR_OK (state_of (d_who d) rw) (mode_flags rw)
                          | None => OutRv CKR_SESSION_HANDLE_INVALID end).
Proof.
  intros w fs l s os h R d. destruct (run_sim w l _ dev0 _ _ (inv0 fs) (sim0 fs) R) as (_ & I & S). fold d in S.
  assert (E : exists s', step w (fun _ => []) s (OGetSessionInfo h) = Ok (s', match info w s h with Some o => o | None => OutRv 0 end) /\ info w s h <> None).
  { unfold info, ask. cbn [step]. unfold with_sess, need_lib, rv_. destruct (0 <? s_count s)%Z; [destruct (sess_get s h)|]; eexists; (split; [reflexivity|discriminate]). }
  destruct E as (s' & E & N). destruct (info w s h) as [o|]; [|contradiction]. destruct (C118_step _ _ _ _ _ _ _ I S E) as [A _].
  cbn [says] in A. unfold on_session in A. f_equal. destruct (d_count d <=? 0)%Z; [exact A|]. destruct (d_mode d h); exact A.
Qed.
Print Assumptions C118_state.
(** Calls on objects and keys have no influence: two histories, even on different tokens, with the same session and
    login calls answered alike leave the same sessions in the same state. *)
Lemma device_events cs : forall d os, length os = length cs ->
  device d cs os = fold_left (fun d p => next d (fst p) (snd p)) (session_events cs os) d.
Proof.
  induction cs as [|c cs IH]; intros d [|o os] L; try discriminate L; [reflexivity|].
  cbn [device]. unfold session_events. cbn [combine filter fst]. destruct (matters c) eqn:M.
  - cbn [fold_left fst snd]. apply IH. cbn in L. lia.
  - rewrite next_other by exact M. apply IH. cbn in L. lia.
Qed.
Lemma run_length w l : forall s s' os, run w s l = Ok (s', os) -> length os = length l.
Proof.
  induction l as [|[c r] l IH]; cbn [run]; intros s s' os E; [injection E as _ <-; reflexivity|].
  destruct (step w r s c) as [[s1 o1]| |]; cbn [bind] in E; try discriminate.
  destruct (run w s1 l) as [[s2 os2]| |] eqn:E2; cbn [bind] in E; try discriminate. injection E as _ <-. cbn. f_equal. eapply IH. exact E2.
Qed.
Theorem C118_independent : forall w1 fs1 l1 s1 os1 w2 fs2 l2 s2 os2,
  run w1 (sys0 fs1) l1 = Ok (s1, os1) -> run w2 (sys0 fs2) l2 = Ok (s2, os2) ->
  session_events (map fst l1) os1 = session_events (map fst l2) os2 -> forall h, info w1 s1 h = info w2 s2 h.
Proof.
  intros w1 fs1 l1 s1 os1 w2 fs2 l2 s2 os2 R1 R2 E h. rewrite (C118_state _ _ _ _ _ h R1), (C118_state _ _ _ _ _ h R2).
  rewrite !device_events by (rewrite map_length; eapply run_length; eassumption). rewrite E. reflexivity.
Qed.
Print Assumptions C118_independent.
(** The machine leaves C_OpenSession no choice. *)
Theorem C118_one_choice : forall d n m, chosen d n -> chosen d m -> n = m.
Proof.
  assert (L : forall d n m, chosen d n -> chosen d m -> ~ (n < m)%Z).
  { intros d n m (N1 & N2 & N3 & N4) (M1 & M2 & M3 & M4) L. apply numbers_in in N1, M1.
    destruct M4 as [W|A]; [rewrite (N3 m L W) in M2; discriminate|]. rewrite (A n ltac:(lia)) in N2. discriminate. }
  intros d n m A B. pose proof (L d n m A B). pose proof (L d m n B A). lia.
Qed.
Print Assumptions C118_one_choice.
(** A history with refused calls, a login, a closed session whose number is used again, and the last close. *)
Definition c118 : list op :=
  setup ++ [OOpenSession 1 RW; OOpenSession 1 RO; OOpenSession 1 RW; OLogin H2 CKU_SO sopin (Some 1%Z); OLogin H2 CKU_USER upin (Some 1%Z);
            OCloseSession H1; OOpenSession 1 RW; OCloseSession H3; OCloseSession H2; OGetSessionInfo H1; OCloseSession H1; OOpenSession 1 RO; OGetSessionInfo H2].
Example C118_case : follows dev0 c118 (outs c118) /\ skipn 7 (outs c118) =
  [OutH CKR_OK H2; OutH CKR_OK H1; OutH CKR_OK H3; OutRv CKR_SESSION_READ_ONLY_EXISTS; OutRv CKR_OK; OutRv CKR_OK; OutH CKR_OK H1; OutRv CKR_OK; OutRv CKR_OK;
   OutInfo CKR_OK RW_USER 6; OutRv CKR_OK; OutH CKR_OK H2; OutInfo CKR_OK RO_PUBLIC 4].
Proof.
  split; [|vm_compute; reflexivity].
  assert (R : exists s, run tw (sys0 nofiles) (numbered 1 c118) = Ok (s, outs c118)).
  { unfold outs, hist. destruct (run tw (sys0 nofiles) (numbered 1 c118)) as [[s o]| |] eqn:E; [eexists; reflexivity| |]; vm_compute in E; discriminate. }
  destruct R as [s R]. apply C118_follows in R. replace (map fst (numbered 1 c118)) with c118 in R by (vm_compute; reflexivity). exact R.
Qed.
