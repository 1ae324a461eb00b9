(** Sessions: C01, C02, C03, C04 and the session part of C05. *)
From Verif Require Import Base Ops Object Store Sys SysProofs SysProofs2 SysProofs3 SysProofs4 ToySys.

(** ** Specification vocabulary: what C_GetSessionInfo answers *)
Definition ask (w : world) (s : sys) (c : op) : option out :=
  match step w (fun _ => []) s c with Ok (_, o) => Some o | _ => None end.
Definition info (w : world) (s : sys) (h : Z) : option out := ask w s (OGetSessionInfo h).
(** A handle is usable: the call succeeds. *)
Definition valid (w : world) (s : sys) (h : Z) : Prop := exists st fl, info w s h = Some (OutInfo CKR_OK st fl).
(** At least / at most [n] different usable handles. *)
Definition at_least (w : world) (s : sys) (n : nat) : Prop :=
  exists l, NoDup l /\ Forall (valid w s) l /\ length l = n.
Definition at_most (w : world) (s : sys) (n : nat) : Prop :=
  forall l, NoDup l -> Forall (valid w s) l -> (length l <= n)%nat.
(** CKF_RW_SESSION (2) and CKF_SERIAL_SESSION (4) of the flags reported. *)
Definition mode_flags (rw : bool) : Z := if rw then 6%Z else 4%Z.
Definition wants_rw (flags : Z) : bool := Z.testbit flags 1.
Definition wants_serial (flags : Z) : bool := Z.testbit flags 2.

Lemma info_eq w s h : info w s h =
  Some (if (0 <? s_count s)%Z then
          match sess_get s h with
          | Some x => OutInfo CKR_OK (GetState (s_tok s) x) (mode_flags (is_rw x))
          | None => OutRv CKR_SESSION_HANDLE_INVALID end
        else OutRv CKR_CRYPTOKI_NOT_INITIALIZED).
Proof.
  unfold info, ask. cbn. unfold with_sess, need_lib, rv_. destruct (0 <? s_count s)%Z; [|reflexivity].
  destruct (sess_get s h) as [x|]; [|reflexivity]. destruct (is_rw x); reflexivity.
Qed.
Lemma valid_eq w s h : valid w s h <-> (0 < s_count s)%Z /\ exists x, sess_get s h = Some x.
Proof.
  unfold valid. rewrite info_eq. destruct (0 <? s_count s)%Z eqn:C.
  - apply Z.ltb_lt in C. destruct (sess_get s h) as [x|]; split.
    + intros _. eauto. + intros _. eauto.
    + intros (? & ? & ?); discriminate. + intros (_ & ? & ?); discriminate.
  - apply Z.ltb_ge in C. split; [intros (? & ? & ?); discriminate|lia].
Qed.
Lemma land_bit n fl : (0 <= n)%Z -> negb (Z.land fl (2 ^ n) =? 0)%Z = Z.testbit fl n.
Proof.
  intros N. destruct (Z.testbit fl n) eqn:T.
  - apply negb_true_iff, Z.eqb_neq. intros E. apply (f_equal (fun z => Z.testbit z n)) in E.
    rewrite Z.land_spec, T, Z.pow2_bits_true, Z.bits_0 in E by lia. discriminate.
  - apply negb_false_iff, Z.eqb_eq. apply Z.bits_inj_0. intros k. rewrite Z.land_spec.
    destruct (Z.eq_dec k n) as [->|]; [rewrite T; reflexivity|].
    destruct (Z.ltb_spec k 0); [rewrite (Z.testbit_neg_r fl k); auto|].
    rewrite Z.pow2_bits_false by lia. apply andb_false_r.
Qed.
Lemma sess_get_uniq s x : uniq (s_sess s) -> In x (s_sess s) -> in_use x = true -> slot_ok (ss_h x / 2^16) = true ->
  sess_get s (ss_h x) = Some x.
Proof. intros U I E S. unfold sess_get. rewrite S, (find_sess_uniq _ _ U I), E. reflexivity. Qed.
Lemma handle_slot l x : sess_ok l -> In x l -> slot_ok (ss_h x / 2^16) = true.
Proof.
  intros (C & L & _) I. pose proof (chain_range _ _ C I) as R. unfold sess_handle in R.
  unfold slot_ok. apply Z.eqb_eq. symmetry. apply (Z.div_unique _ _ _ (ss_h x - 2^16)); lia.
Qed.
Lemma valid_in w s h : inv s -> (valid w s h <-> exists x, In x (s_sess s) /\ ss_h x = h /\ in_use x = true).
Proof.
  intros I. rewrite valid_eq. split.
  - intros (_ & x & G). apply sess_get_in in G as (A & B & C & _). eauto.
  - intros (x & A & <- & C).
    assert (Cn : (0 < s_count s)%Z).
    { destruct (Z.ltb_spec 0 (s_count s)); [assumption|]. destruct I as (_ & B & _). rewrite B in A by lia. destruct A. }
    split; [exact Cn|]. exists x. apply sess_get_uniq; auto; [apply inv_uniq; auto|].
    eapply handle_slot; eauto. apply I; exact Cn.
Qed.
Lemma valid_at_most w s : inv s -> at_most w s 70.
Proof.
  intros I l N F. assert (Z : (zlen (s_sess s) <= 70)%Z).
  { destruct (Z.ltb_spec 0 (s_count s)) as [C|C].
    - destruct I as (A & _). apply A in C as (_ & L & _). lia.
    - destruct I as (_ & B & _). rewrite B by lia. unfold zlen; cbn; lia. }
  assert (L : (length l <= length (map ss_h (s_sess s)))%nat).
  { apply NoDup_incl_length; [exact N|]. intros h J. rewrite Forall_forall in F. apply F in J.
    apply valid_in in J as (x & X & <- & _); [|exact I]. apply in_map; exact X. }
  rewrite map_length in L. unfold zlen in Z. lia.
Qed.

(** ** C01 *)
Theorem C01_open_session :
  forall w d s rnd slot fl s' h, reach w (sys0 d) s ->
    step w rnd s (OOpenSession slot fl) = Ok (s', OutH CKR_OK h) ->
    ~ valid w s h /\                                     (* not the handle of an open session *)
    (exists st, info w s' h = Some (OutInfo CKR_OK st (mode_flags (wants_rw fl)))) /\  (* usable, in the mode asked for *)
    (forall h', h' <> h -> info w s' h' = info w s h') /\ (* all others as before *)
    at_most w s' 70.
Proof.
  intros w d s rnd slot fl s' h R H. pose proof (reach_inv _ _ _ R) as I.
  pose proof (step_inv _ _ _ _ _ _ I H) as I'.
  cbn [step] in H. unfold with_slot, need_lib in H.
  destruct (0 <? s_count s)%Z eqn:Cn; [|discriminate]. apply Z.ltb_lt in Cn. destruct (slot_ok slot); [|discriminate].
  apply OpenSession_ok in H as [(_ & rv & E & _) | (l & x & P)]; auto; [discriminate|].
  cbv zeta in P. destruct P as (-> & E & OK & _ & _ & Sub & Sup & X & Ux & Wh). injection E as ->.
  pose proof (chain_uniq _ (proj1 OK)) as Ul.
  assert (NV : forall y, In y (s_sess s) -> ss_h y = ss_h x -> in_use y = false).
  { intros y Y E. assert (y = x) by (apply (NoDup_map_inj _ _ ss_h l); auto). subst. unfold in_use. rewrite Ux. reflexivity. }
  set (u := if negb (Z.land fl CKF_RW_SESSION =? 0)%Z then SESSION_RW else SESSION_RO) in *.
  assert (Uu : in_use (set_use x u) = true) by (unfold in_use, u; cbn; destruct (negb _); reflexivity).
  assert (Sx : slot_ok (ss_h x / 2^16) = true) by (eapply handle_slot; eauto).
  split; [|split; [|split]].
  - rewrite valid_in by exact I. intros (y & Y & E & U). rewrite (NV y Y E) in U. discriminate.
  - rewrite info_eq. cbn [s_count put_sess set_sess s_tok]. rewrite (proj2 (Z.ltb_lt _ _) Cn).
    assert (G : sess_get (put_sess (set_sess s l) (set_use x u)) (ss_h (set_use x u)) = Some (set_use x u)).
    { apply sess_get_uniq; auto; [apply inv_uniq; auto|]. cbn. eapply upd_sess_self; eauto. }
    change (ss_h (set_use x u)) with (ss_h x) in G. cbn [ss_h] in *. rewrite G. eexists. f_equal. f_equal.
    unfold is_rw, u, wants_rw. cbn [set_use ss_use]. change CKF_RW_SESSION with (2 ^ 1)%Z. rewrite land_bit by lia.
    destruct (Z.testbit fl 1); reflexivity.
  - intros h' N. rewrite !info_eq. cbn [s_count put_sess set_sess s_tok]. rewrite (proj2 (Z.ltb_lt _ _) Cn).
    assert (G : sess_get (put_sess (set_sess s l) (set_use x u)) h' = sess_get s h').
    { unfold sess_get. match goal with |- context [slot_ok ?q] => destruct (slot_ok q) end; [|reflexivity]. cbn [put_sess set_sess s_sess].
      assert (F : find_sess (upd_sess l (set_use x u)) h' = find_sess (s_sess s) h' \/
                  (find_sess (upd_sess l (set_use x u)) h' = None /\ find_sess (s_sess s) h' = None)).
      { left. destruct (find_sess (s_sess s) h') as [y|] eqn:Fy.
        - apply find_sess_in in Fy as [Y <-]. apply find_sess_uniq.
          + unfold uniq. rewrite upd_sess_h. exact Ul.
          + apply upd_sess_other; auto.
        - destruct (find_sess (upd_sess l _) h') as [y|] eqn:F2; [|reflexivity]. exfalso.
          apply find_sess_in in F2 as [Y <-].
          assert (Y2 : In y (s_sess s)).
          { unfold upd_sess in Y. apply in_map_iff in Y as (z & Ez & Z). destruct (ss_h z =? _)%Z.
            - subst y. cbn in N. congruence.
            - subst z. destruct (Sub y Z) as [? | ->]; auto. congruence. }
          unfold find_sess in Fy. apply (find_none _ _ Fy) in Y2. lia. }
      destruct F as [-> | [-> ->]]; reflexivity. }
    rewrite G. reflexivity.
  - apply valid_at_most; exact I'.
Qed.
Print Assumptions C01_open_session.

(** CKR_SESSION_COUNT exactly when 70 sessions are open. *)
Theorem C01_session_count :
  forall w d s rnd fl s' o, reach w (sys0 d) s -> (0 < s_count s)%Z ->
    step w rnd s (OOpenSession 1 fl) = Ok (s', o) ->
    (out_rv o = CKR_SESSION_COUNT -> s' = s /\ at_least w s 70) /\
    (wants_serial fl = true -> (wants_rw fl = true \/ t_login (s_tok s) <> RW_SO) -> 
       (at_least w s 70 -> o = OutRv CKR_SESSION_COUNT) /\
       (~ at_least w s 70 -> exists h, o = OutH CKR_OK h)).
Proof.
  intros w d s rnd fl s' o R Cn H. pose proof (reach_inv _ _ _ R) as I.
  cbn [step] in H. unfold with_slot, need_lib in H. rewrite (proj2 (Z.ltb_lt _ _) Cn) in H.
  change (slot_ok 1) with true in H. cbv iota in H.
  pose proof (OpenSession_ok _ _ _ _ I Cn H) as K.
  assert (All : zlen (s_sess s) = 70%Z -> Forall (fun x => in_use x = true) (s_sess s) -> at_least w s 70).
  { intros L F. exists (map ss_h (s_sess s)). split; [apply inv_uniq; exact I|]. split.
    - apply Forall_forall. intros h J. apply in_map_iff in J as (x & <- & X). apply valid_in; [exact I|].
      rewrite Forall_forall in F. eauto.
    - rewrite map_length. unfold zlen in L. lia. }
  assert (Conv : at_least w s 70 -> first_unused (s_sess s) = None /\ zlen (s_sess s) = 70%Z).
  { intros (l & N & F & L).
    assert (Inc : incl l (map ss_h (s_sess s))).
    { intros h J. rewrite Forall_forall in F. apply F in J. apply valid_in in J as (x & X & <- & _); [|exact I]. apply in_map; exact X. }
    pose proof (proj1 I Cn) as (Ch & Ln & _).
    assert (Lm : length (map ss_h (s_sess s)) = 70%nat).
    { pose proof (NoDup_incl_length N Inc). rewrite map_length in *. unfold zlen in Ln. lia. }
    split; [|rewrite map_length in Lm; unfold zlen; lia].
    destruct (first_unused (s_sess s)) as [x|] eqn:FU; [|reflexivity]. exfalso.
    unfold first_unused in FU. apply find_some in FU as [X Ux].
    assert (J : In (ss_h x) l).
    { assert (K2 : incl (map ss_h (s_sess s)) l) by (apply NoDup_length_incl; [exact N|lia|exact Inc]). apply K2, in_map; exact X. }
    rewrite Forall_forall in F. apply F in J. apply valid_in in J as (y & Y & E & U); [|exact I].
    assert (y = x) by (apply (NoDup_map_inj _ _ ss_h (s_sess s)); auto; apply (inv_uniq s I)). subst.
    rewrite U in Ux. discriminate. }
  split.
  - intros E. destruct K as [(-> & rv & -> & _ & C) | (l & x & P)].
    + cbn in E. split; [reflexivity|]. apply All; apply C; exact E.
    + cbv zeta in P. destruct P as (_ & -> & _). discriminate.
  - intros Sr Rw. unfold OpenSession in H. change CKF_SERIAL_SESSION with (2^2)%Z in H.
    assert (S1 : (Z.land fl (2^2) =? 0)%Z = false) by (apply negb_true_iff; rewrite land_bit by lia; exact Sr).
    rewrite S1 in H. change CKF_RW_SESSION with (2^1)%Z in H. cbv zeta in H. rewrite land_bit in H by lia. fold (wants_rw fl) in H.
    assert (S2 : andb (negb (wants_rw fl)) (t_login (s_tok s) =? RW_SO)%Z = false).
    { destruct Rw as [-> | Rw]; [reflexivity|]. apply Z.eqb_neq in Rw. rewrite Rw. apply andb_false_r. }
    rewrite S2 in H.
    pose proof (proj1 I Cn) as (Ch & Ln & _).
    assert (HD : exists y r, s_sess s = y :: r) by (destruct (s_sess s) as [|y r]; [unfold zlen in Ln; cbn in Ln; lia|eauto]).
    destruct HD as (hd & tl & HD). pose proof (chain_id (s_sess s) hd tl Ch (proj2 Ln) HD) as HI.
    split.
    + intros A. destruct (Conv A) as [F L]. rewrite F in H. rewrite HD in H.
      assert (E70 : (sess_id hd =? SESSION_MAX)%Z = true) by (apply Z.eqb_eq; unfold SESSION_MAX; lia).
      rewrite E70 in H. unfold rv_ in H. congruence.
    + intros A. destruct (first_unused (s_sess s)) as [x|] eqn:FU; [injection H as _ <-; eauto|].
      destruct (match s_sess s with [] => false | x :: _ => _ end) eqn:M; [|injection H as _ <-; eauto].
      exfalso. apply A. rewrite HD in M. apply Z.eqb_eq in M. unfold SESSION_MAX in M. apply All; [lia|].
      apply Forall_forall. intros x X. unfold first_unused in FU. apply (find_none _ _ FU) in X. apply negb_false_iff in X. exact X.
Qed.
Print Assumptions C01_session_count.

(** 70 sessions can be opened, the 71st is refused; the handles are different. *)
Example C01_example :
  rvs (OInitialize :: repeat (OOpenSession 1 RW) 71) = repeat CKR_OK 71 ++ [CKR_SESSION_COUNT] /\
  NoDup (map (fun o => match o with OutH _ h => h | _ => 0%Z end) (skipn 1 (outs (OInitialize :: repeat (OOpenSession 1 RW) 70)))) /\
  info tw (after (OInitialize :: [OOpenSession 1 RO; OOpenSession 1 RW])) H2 = Some (OutInfo CKR_OK RO_PUBLIC 4).
Proof.
  split; [vm_compute; reflexivity|]. split; [|vm_compute; reflexivity].
  match goal with |- NoDup ?l => let v := eval vm_compute in l in change l with v end.
  repeat (constructor; [cbn; intuition discriminate|]). constructor.
Qed.

(** ** C02 *)
(** The session handle of a call. *)
Definition op_handle (c : op) : option Z :=
  match c with
  | OInitialize | OFinalize | ORestart | OInitToken _ _ _ | OOpenSession _ _ | OCloseAllSessions _ | OGetTokenInfo _ _ => None
  | OInitPIN h _ | OSetPIN h _ _ | OCloseSession h | OGetSessionInfo h | OLogin h _ _ _ | OLogout h
  | OCreateObject h _ | OCopyObject h _ _ | ODestroyObject h _ | OGetAttributeValue h _ _ | OSetAttributeValue h _ _
  | OFindObjectsInit h _ | OFindObjects h _ | OFindObjectsFinal h | OGenerateKey h _ _ _ | OGenerateKeyPair h _ _ _ _
  | OWrapKey h _ _ _ _ _ | OUnwrapKey h _ _ _ _ _ | ODeriveKey h _ _ _ _ | OCrypto h _ _ => Some h
  end.
Definition refused (s : sys) : Z := if (0 <? s_count s)%Z then CKR_SESSION_HANDLE_INVALID else CKR_CRYPTOKI_NOT_INITIALIZED.
Lemma not_valid_refused w s h c rnd : ~ valid w s h -> op_handle c = Some h ->
  step w rnd s c = Ok (s, OutRv (refused s)).
Proof.
  intros V O. assert (G : (0 < s_count s)%Z -> sess_get s h = None).
  { intros C. destruct (sess_get s h) eqn:E; [|reflexivity]. exfalso. apply V. apply valid_eq. eauto. }
  unfold refused. destruct c; try discriminate O; injection O as ->; cbn [step]; unfold with_sess, need_lib, rv_;
  (destruct (0 <? s_count s)%Z eqn:C; [|reflexivity]); apply Z.ltb_lt in C; rewrite (G C); reflexivity.
Qed.
Definition closed (s : sys) (h : Z) : Prop := forall x, In x (s_sess s) -> ss_h x = h -> in_use x = false.
Lemma closed_valid w s h : inv s -> (closed s h <-> ~ valid w s h).
Proof.
  intros I. rewrite valid_in by exact I. unfold closed. split.
  - intros C (x & X & E & U). rewrite (C x X E) in U. discriminate.
  - intros N x X E. destruct (in_use x) eqn:U; [|reflexivity]. exfalso. apply N. eauto.
Qed.
Lemma closed_modes s s' h : modes (s_sess s') = modes (s_sess s) -> closed s h -> closed s' h.
Proof.
  intros M C x X E. assert (J : In (ss_h x, ss_use x) (modes (s_sess s'))).
  { unfold modes. apply (in_map (fun x => (ss_h x, ss_use x))). exact X. }
  rewrite M in J. unfold modes in J. apply in_map_iff in J as (y & Ey & Y). injection Ey as E1 E2.
  specialize (C y Y). unfold in_use in *. rewrite <- E2. apply C. congruence.
Qed.
Lemma step_modes w rnd s c s' o : inv s -> step w rnd s c = Ok (s', o) ->
  match c with OInitialize | OFinalize | ORestart | OOpenSession _ _ | OCloseSession _ | OCloseAllSessions _ => True
  | _ => modes (s_sess s') = modes (s_sess s) /\ s_count s' = s_count s end.
Proof.
  intros I H. destruct (objop c) as [h|] eqn:O.
  { pose proof (objop_prims _ _ _ _ _ _ _ I O H) as P. destruct (prims_inv _ _ _ _ _ P I) as [_ (Q1 & Q2 & _)].
    destruct c; try discriminate O; auto. }
  destruct c; try discriminate O; auto; cbn [step] in H; unfold with_slot, with_sess, need_lib in H;
  (destruct (0 <? s_count s)%Z; [|sinv; auto]).
  - destruct (slot_ok slot); [|sinv; auto]. unfold InitToken in H.
    repeat match type of H with (if ?b then rv_ _ _ else _) = _ => destruct b; [sinv; auto|] end.
    destruct (TokenReset _ _ _ _ _) as [[c s1]| |] eqn:T; cbn [bind] in H; try discriminate. unfold rv_ in H. injection H as <- _.
    unfold TokenReset in T. destruct (free_all _); cbn [bind] in T; try discriminate. destruct (zlen _ <? 32)%Z; [discriminate|].
    apply store_frame in T as (E1 & E2 & _). cbn in *. rewrite E2. auto.
  - destruct (sess_get s h); [|sinv; auto]. unfold InitPIN in H.
    repeat match type of H with (if ?b then rv_ _ _ else _) = _ => destruct b; [sinv; auto|] end.
    destruct (SetUserPin _ _ _ _) as [[c s1]| |] eqn:T; cbn [bind] in H; try discriminate. unfold rv_ in H. injection H as <- _.
    apply store_frame in T as (E1 & E2 & _). cbn in *. rewrite E2. auto.
  - destruct (sess_get s h); [|sinv; auto]. unfold SetPIN in H. cbv zeta in H.
    repeat match type of H with (if ?b then rv_ _ _ else _) = _ => destruct b; [sinv; auto|] end.
    match type of H with bind ?r _ = _ => destruct r as [[c s1]| |] eqn:T end; cbn [bind] in H; try discriminate.
    unfold rv_ in H. injection H as <- _.
    destruct (_ =? _)%Z; apply store_frame in T as (E1 & E2 & _); cbn in *; rewrite E2; auto.
  - destruct (sess_get s h); [|sinv; auto]. unfold Login in H. destruct (negb _); [sinv; auto|].
    destruct (ut =? CKU_SO)%Z; [|destruct (ut =? CKU_USER)%Z; [|destruct (ut =? CKU_CONTEXT_SPECIFIC)%Z; sinv; auto]].
    + destruct (SOLogin _ _ _ _ _) as [c t]. sinv. auto.
    + destruct (UserLogin _ _ _ _) as [[c t]| |]; cbn [bind] in H; try discriminate. sinv. auto.
  - destruct (sess_get s h); [|sinv; auto]. destruct (Logout _ _) as [t| |]; cbn [bind] in H; try discriminate. sinv. auto.
  - destruct (slot_ok slot); sinv; auto.
Qed.
Lemma step_closed w rnd s c s' o h : inv s -> step w rnd s c = Ok (s', o) -> closed s h ->
  ~ (exists slot fl, c = OOpenSession slot fl /\ o = OutH CKR_OK h) -> closed s' h.
Proof.
  intros I H C N. pose proof (step_modes _ _ _ _ _ _ I H) as M.
  destruct c; try (eapply closed_modes; [apply M|exact C]); clear M; cbn [step] in H; unfold with_slot, with_sess, need_lib in H.
  - unfold Initialize in H. destruct (s_count s =? 0)%Z; sinv; [|exact C].
    intros x [<- | [<- | []]] _; reflexivity.
  - unfold Finalize in H. destruct (_ =? 0)%Z; [|sinv; exact C]. sinv. intros x [].
  - sinv. intros x [].
  - destruct (0 <? s_count s)%Z eqn:Cn; [|sinv; exact C]. destruct (slot_ok slot); [|sinv; exact C].
    apply Z.ltb_lt in Cn. apply OpenSession_ok in H as [[-> _] | (l & x & P)]; auto.
    cbv zeta in P. destruct P as (-> & -> & OK & _ & _ & Sub & Sup & X & Ux & Wh).
    intros y Y E. cbn [put_sess set_sess s_sess] in Y. apply in_upd_sess in Y as [-> | Y].
    + exfalso. apply N. cbn in E. rewrite E. eauto.
    + destruct (Sub y Y) as [Z | ->]; [apply C; auto|]. unfold in_use. rewrite Ux. reflexivity.
  - destruct (0 <? s_count s)%Z eqn:Cn; [|sinv; exact C]. destruct (sess_get s h0) as [x|] eqn:G; [|sinv; exact C].
    apply Z.ltb_lt in Cn. apply sess_get_in in G as (X & Hx & Ux & _).
    unfold CloseSession in H. destruct (close_sess _ _) as [l| |] eqn:CL; cbn [bind] in H; try discriminate.
    apply close_sess_ok in CL as (K1 & K2 & K3); [|apply I; exact Cn|exact X].
    assert (Cl : closed (set_sess s l) h).
    { intros y Y E. cbn in Y. destruct (K2 y Y) as [[? _] | (_ & U & _)]; [apply C; auto|]. unfold in_use. rewrite U. reflexivity. }
    destruct (existsb in_use l); [sinv; exact Cl|].
    destruct (Logout _ _) as [t| |]; cbn [bind] in H; try discriminate. sinv. exact Cl.
  - destruct (0 <? s_count s)%Z eqn:Cn; [|sinv; exact C]. destruct (slot_ok slot); [|sinv; exact C].
    apply Z.ltb_lt in Cn. destruct (close_all _) as [l| |] eqn:CL; cbn [bind] in H; try discriminate. sinv.
    apply close_all_ok in CL as (p & b & a & b' & E1 & -> & E3 & E4 & E5 & E6 & E7 & E8); [|apply I; exact Cn].
    intros y [<- | [<- | []]] E; [unfold in_use; rewrite E6; reflexivity|]. apply C; [|exact E].
    rewrite E1. apply in_or_app. right; right; left; reflexivity.
Qed.
(** No OpenSession call of the history returned [h]. *)
Fixpoint not_given (h : Z) (l : list (op * (nat -> list N))) (os : list out) : Prop :=
  match l, os with
  | (OOpenSession _ _, _) :: l', o :: os' => o <> OutH CKR_OK h /\ not_given h l' os'
  | _ :: l', _ :: os' => not_given h l' os'
  | _, _ => True
  end.
Lemma run_closed w h l : forall s s' os, inv s -> run w s l = Ok (s', os) -> closed s h -> not_given h l os -> closed s' h /\ inv s'.
Proof.
  induction l as [|[c r] l IH]; cbn [run]; intros s s' os I H C N; [injection H as <- _; auto|].
  destruct (step w r s c) as [[s1 o1]| |] eqn:E; cbn [bind] in H; try discriminate.
  destruct (run w s1 l) as [[s2 os2]| |] eqn:E2; cbn [bind] in H; try discriminate. injection H as <- <-.
  assert (N1 : not_given h l os2) by (destruct c; cbn in N; tauto).
  apply (IH s1 s2 os2); auto; [eapply step_inv; eauto|]. eapply step_closed; eauto.
  intros (slot & fl & -> & ->). cbn in N. tauto.
Qed.

Theorem C02_close_session :
  forall w d s rnd h s' rv, reach w (sys0 d) s ->
    step w rnd s (OCloseSession h) = Ok (s', OutRv rv) -> rv = CKR_OK ->
    (* every later call with h is refused until OpenSession returns it again *)
    (forall l s2 os, run w s' l = Ok (s2, os) -> not_given h l os ->
       forall c rnd2, op_handle c = Some h -> step w rnd2 s2 c = Ok (s2, OutRv (refused s2))) /\
    (* its objects are gone *)
    (forall x o, sess_get s h = Some x -> In o (ss_objs x) -> ~ In (o_uid o) (map o_uid (live s'))) /\
    (* the other sessions keep everything *)
    (forall h', h' <> h -> sess_get s' h' = sess_get s h').
Proof.
  intros w d s rnd h s' rv R H Erv. pose proof (reach_inv _ _ _ R) as I. pose proof (step_inv _ _ _ _ _ _ I H) as I'.
  cbn [step] in H. unfold with_sess, need_lib in H.
  destruct (0 <? s_count s)%Z eqn:Cn; [|sinv; discriminate]. destruct (sess_get s h) as [x|] eqn:G; [|sinv; discriminate].
  pose proof G as G0. apply Z.ltb_lt in Cn. apply sess_get_in in G as (X & Hx & Ux & Sl).
  unfold CloseSession in H. destruct (close_sess _ _) as [l| |] eqn:CL; cbn [bind] in H; try discriminate.
  pose proof CL as CL0. apply close_sess_ok in CL as (K1 & K2 & K3); [|apply I; exact Cn|exact X].
  assert (E : exists t, s' = set_tok (set_sess s l) t /\ map ident (t_objs t) = map ident (t_objs (s_tok s))).
  { destruct (existsb in_use l); [sinv; exists (s_tok s); auto|].
    destruct (Logout _ _) as [t| |] eqn:L; cbn [bind] in H; try discriminate. sinv. exists t. split; [reflexivity|].
    apply Logout_ok in L. apply L. }
  destruct E as (t & -> & Et). split; [|split].
  - intros l2 s2 os Rn N c rnd2 O. assert (Cl : closed (set_tok (set_sess s l) t) h).
    { intros y Y E. cbn in Y. destruct (K2 y Y) as [[_ ?] | (_ & U & _)]; [congruence|]. unfold in_use. rewrite U. reflexivity. }
    destruct (run_closed _ _ _ _ _ _ I' Rn Cl N) as [C2 I2]. apply not_valid_refused with (h := h); auto.
    apply closed_valid; auto.
  - intros x0 o E O J. injection E as <-.
    destruct I as (_ & _ & [Nd _] & _). fold (uids (live (set_tok (set_sess s l) t))) in J.
    unfold live in J. cbn in J. rewrite uids_app in J.
    apply in_split in X as (l1 & l2 & El). unfold live in Nd. rewrite El, all_objs_app in Nd. cbn in Nd.
    rewrite !uids_app in Nd.
    assert (Ou : In (o_uid o) (uids (ss_objs x))) by (apply in_map; exact O).
    assert (Dis : ~ In (o_uid o) (uids (t_objs (s_tok s)) ++ uids (all_objs l1)) /\ ~ In (o_uid o) (uids (all_objs l2))).
    { clear - Nd Ou. rewrite app_assoc in Nd. revert Nd. generalize (uids (t_objs (s_tok s)) ++ uids (all_objs l1)) as a.
      intros a Nd. split.
      - intros J. apply in_split in J as (p & q & ->). rewrite <- app_assoc in Nd. cbn in Nd. apply NoDup_remove_2 in Nd.
        apply Nd. apply in_or_app. right. apply in_or_app. right. apply in_or_app. auto.
      - intros J. apply in_split in Ou as (p & q & E). rewrite E in Nd. rewrite <- app_assoc, app_assoc in Nd. cbn in Nd.
        apply NoDup_remove_2 in Nd. apply Nd. apply in_or_app. right. apply in_or_app. auto. }
    destruct Dis as [D1 D2]. rewrite in_app_iff in D1. apply in_app_or in J as [J | J].
    + apply D1. left. rewrite (ident_uids _ _ Et) in J. exact J.
    + unfold uids in J. apply in_map_iff in J as (o2 & Eo & J). apply in_all_objs in J as (y & Y & J).
      destruct (K2 y Y) as [[Y2 Ny] | (_ & _ & Eo2)]; [|rewrite Eo2 in J; destruct J].
      rewrite El in Y2. apply in_app_or in Y2 as [Y2 | [-> | Y2]]; [|congruence|].
      * apply D1. right. rewrite <- Eo. apply in_map. eapply all_objs_in; eauto.
      * apply D2. rewrite <- Eo. apply in_map. eapply all_objs_in; eauto.
  - intros h' N. unfold sess_get. match goal with |- context [slot_ok ?q] => destruct (slot_ok q) end; [|reflexivity]. cbn [set_tok set_sess s_sess].
    pose proof (chain_uniq _ (proj1 K1)) as Ul. pose proof (inv_uniq s I) as Us.
    destruct (find_sess (s_sess s) h') as [y|] eqn:F.
    + apply find_sess_in in F as [Y <-]. destruct (in_use y) eqn:U.
      * assert (Y' : In y l) by (apply K3; auto; congruence). rewrite (find_sess_uniq _ _ Ul Y'), U. reflexivity.
      * destruct (find_sess l (ss_h y)) as [z|] eqn:F2; [|reflexivity]. apply find_sess_in in F2 as [Z Ez].
        destruct (K2 z Z) as [[Z2 _] | (E1 & _)]; [|congruence].
        assert (z = y) by (apply (NoDup_map_inj _ _ ss_h (s_sess s)); auto). subst. rewrite U. reflexivity.
    + destruct (find_sess l h') as [z|] eqn:F2; [|reflexivity]. exfalso. apply find_sess_in in F2 as [Z <-].
      destruct (K2 z Z) as [[Z2 _] | (E1 & _)]; [|congruence]. unfold find_sess in F. apply (find_none _ _ F) in Z2. lia.
Qed.
Print Assumptions C02_close_session.

(** Two sessions, one with an object; closing it and using its handle, then opening
    again. *)
Definition c02 : list op :=
  [OInitialize; OOpenSession 1 RW; OOpenSession 1 RW; OCreateObject H1 PropObject.aes_tmpl; OCloseSession H1;
   OFindObjects H1 1; OGetSessionInfo H2; OOpenSession 1 RO; OGetSessionInfo H1].
Example C02_example : rvs c02 = [0; 0; 0; 0; 0; CKR_SESSION_HANDLE_INVALID; 0; 0; 0]%Z /\
  length (live (after (firstn 4 c02))) = 1 /\ live (after (firstn 5 c02)) = [].
Proof. vm_compute. auto. Qed.

(** ** C03 *)
Definition C03_claim : Prop :=
  forall w d s rnd s' , reach w (sys0 d) s -> (0 < s_count s)%Z ->
    step w rnd s (OCloseAllSessions 1) = Ok (s', OutRv CKR_OK) ->
    (forall h, ~ valid w s' h) /\ t_login (s_tok s') = RW_PUBLIC.
Definition c03 : list op :=
  setup ++ [OOpenSession 1 RW; OOpenSession 1 RW; OLogin H1 CKU_USER upin (Some 5%Z)].
Theorem C03_close_all_refuted : ~ C03_claim.
Proof.
  intros C. destruct (step tw (rnd 0) (after c03) (OCloseAllSessions 1)) as [[s' o]| |] eqn:E; [|vm_compute in E; discriminate..].
  assert (Eo : o = OutRv CKR_OK) by (vm_compute in E; injection E as _ <-; reflexivity). subst o.
  assert (R : reach tw (sys0 nofiles) (after c03)) by (apply after_reach; vm_compute; exact Logic.I).
  assert (P : (0 < s_count (after c03))%Z) by (vm_compute; reflexivity).
  destruct (C tw nofiles (after c03) (rnd 0) s' R P E) as [A _].
  - apply (A H1). unfold valid. exists 3%Z, 6%Z.
    vm_compute in E. injection E as <-. vm_compute. reflexivity.
Qed.
Print Assumptions C03_close_all_refuted.
(** Also nobody is logged out. *)
Theorem C03_no_logout_refuted :
  ~ (forall w d s rnd s', reach w (sys0 d) s -> step w rnd s (OCloseAllSessions 1) = Ok (s', OutRv CKR_OK) ->
       t_login (s_tok s') = RW_PUBLIC).
Proof.
  intros C. destruct (step tw (rnd 0) (after c03) (OCloseAllSessions 1)) as [[s' o]| |] eqn:E; [|vm_compute in E; discriminate..].
  assert (Eo : o = OutRv CKR_OK) by (vm_compute in E; injection E as _ <-; reflexivity). subst o.
  specialize (C tw nofiles (after c03) (rnd 0) s' (after_reach c03 ltac:(vm_compute; exact Logic.I)) E).
  vm_compute in E. injection E as <-. vm_compute in C. discriminate.
Qed.
Print Assumptions C03_no_logout_refuted.
(** What does hold: every handle but the first session's becomes invalid and stays
    so; that session and the login state are left as they were. Missing from the
    full claim: the first session, and the logout. *)
Theorem C03_close_all_partial :
  forall w d s rnd s', reach w (sys0 d) s -> (0 < s_count s)%Z ->
    step w rnd s (OCloseAllSessions 1) = Ok (s', OutRv CKR_OK) ->
    (forall h, h <> 65537%Z -> ~ valid w s' h) /\ sess_get s' 65537 = sess_get s 65537 /\ s_tok s' = s_tok s.
Proof.
  intros w d s rnd s' R Cn H. pose proof (reach_inv _ _ _ R) as I. pose proof (step_inv _ _ _ _ _ _ I H) as I'.
  cbn [step] in H. unfold with_slot, need_lib in H. rewrite (proj2 (Z.ltb_lt _ _) Cn) in H. change (slot_ok 1) with true in H. cbv iota in H.
  destruct (close_all _) as [l| |] eqn:CL; cbn [bind] in H; try discriminate. sinv.
  apply close_all_ok in CL as (p & b & a & b' & E1 & -> & E3 & E4 & E5 & E6 & E7 & E8); [|apply I; exact Cn].
  split; [|split; [|reflexivity]].
  - intros h N. rewrite valid_in by exact I'. intros (x & [<- | [<- | []]] & E & U).
    + unfold in_use in U. rewrite E6 in U. discriminate.
    + rewrite E3 in E. unfold sess_handle in E. lia.
  - change 65537%Z with (sess_handle 1). rewrite <- E3. unfold sess_get. match goal with |- context [slot_ok ?q] => destruct (slot_ok q) end; [|reflexivity].
    cbn [set_sess s_sess]. rewrite (find_sess_uniq [b'; a] a); [|apply chain_uniq; apply E8|right; left; reflexivity].
    rewrite (find_sess_uniq (s_sess s) a); [reflexivity|apply inv_uniq; exact I|].
    rewrite E1. apply in_or_app. right; right; left; reflexivity.
Qed.
Print Assumptions C03_close_all_partial.
Example C03_example : 
  let s := after (c03 ++ [OOpenSession 1 RW; OCloseAllSessions 1]) in
  info tw s H1 = Some (OutInfo CKR_OK RW_USER 6) /\ info tw s H2 = Some (OutRv CKR_SESSION_HANDLE_INVALID) /\
  info tw s H3 = Some (OutRv CKR_SESSION_HANDLE_INVALID).
Proof. vm_compute. auto. Qed.

(** ** C04 *)
Definition so_in (w : world) (s : sys) : Prop := exists h fl, info w s h = Some (OutInfo CKR_OK RW_SO fl).
Lemma state_so t x : GetState t x = RW_SO <-> t_login t = RW_SO.
Proof.
  unfold GetState. destruct (t_login t =? RW_SO)%Z eqn:E; [apply Z.eqb_eq in E; tauto|]. apply Z.eqb_neq in E.
  split; [|contradiction]. destruct (t_login t =? RW_USER)%Z; destruct (ss_use x =? SESSION_RW)%Z; discriminate.
Qed.
Lemma so_in_login w s : so_in w s -> t_login (s_tok s) = RW_SO.
Proof.
  intros (h & fl & E). rewrite info_eq in E. destruct (0 <? s_count s)%Z; [|discriminate].
  destruct (sess_get s h) as [x|]; [|discriminate]. injection E as E _. apply state_so in E. exact E.
Qed.
Theorem C04_so_no_read_only :
  forall w d s, reach w (sys0 d) s -> so_in w s ->
    (* every open session is read/write *)
    (forall h st fl, info w s h = Some (OutInfo CKR_OK st fl) -> st = RW_SO /\ fl = mode_flags true) /\
    (* a read-only session is refused *)
    (forall rnd fl, wants_serial fl = true -> wants_rw fl = false ->
       step w rnd s (OOpenSession 1 fl) = Ok (s, OutRv CKR_SESSION_READ_WRITE_SO_EXISTS)).
Proof.
  intros w d s R SO. pose proof (reach_inv _ _ _ R) as I. pose proof (so_in_login _ _ SO) as L. split.
  - intros h st fl E. rewrite info_eq in E. destruct (0 <? s_count s)%Z; [|discriminate].
    destruct (sess_get s h) as [x|] eqn:G; [|discriminate]. injection E as <- <-.
    split; [apply state_so; exact L|]. f_equal. apply sess_get_in in G as (X & _ & U & _).
    destruct I as (A & B & _ & _ & D). specialize (D L). rewrite Forall_forall in D. specialize (D x X).
    assert (J : In (ss_use x) [0; SESSION_RO; SESSION_RW]%Z).
    { destruct (Z.ltb_spec 0 (s_count s)) as [C|C]; [|rewrite B in X by lia; destruct X].
      destruct (A C) as (_ & _ & F). rewrite Forall_forall in F. apply F; exact X. }
    unfold in_use in U. destruct J as [E | [E | [E | []]]]; [rewrite <- E in U; discriminate|congruence|].
    unfold is_rw. rewrite <- E. reflexivity.
  - intros rnd fl Sr Rw. cbn [step]. unfold with_slot, need_lib.
    destruct SO as (h & f & E). rewrite info_eq in E. destruct (0 <? s_count s)%Z; [|discriminate].
    change (slot_ok 1) with true. cbv iota. unfold OpenSession. change CKF_SERIAL_SESSION with (2^2)%Z.
    assert (S1 : (Z.land fl (2^2) =? 0)%Z = false) by (apply negb_true_iff; rewrite land_bit by lia; exact Sr).
    rewrite S1. change CKF_RW_SESSION with (2^1)%Z. cbv zeta. rewrite land_bit by lia.
    unfold wants_rw in Rw. rewrite Rw, L. reflexivity.
Qed.
Print Assumptions C04_so_no_read_only.
(** With a read-only session open, an SO login that would otherwise be looked at
    is refused with CKR_SESSION_READ_ONLY_EXISTS; it never succeeds. *)
Theorem C04_so_login_refused :
  forall w d s rnd h h2 st pin now s' o, reach w (sys0 d) s ->
    info w s h2 = Some (OutInfo CKR_OK st (mode_flags false)) ->
    step w rnd s (OLogin h CKU_SO pin now) = Ok (s', o) ->
    out_rv o <> CKR_OK /\ ~ so_in w s' /\
    (valid w s h -> (4 <= zlen pin <= 32)%Z -> st = RO_PUBLIC -> 
     (forall t, now = Some t -> p_fail (t_so (s_tok s)) = 3%Z -> (p_last (t_so (s_tok s)) + p_tmo (t_so (s_tok s)) < t)%Z) ->
     now <> None -> o = OutRv CKR_SESSION_READ_ONLY_EXISTS).
Proof.
  intros w d s rnd h h2 st pin now s' o R E H. pose proof (reach_inv _ _ _ R) as I.
  rewrite info_eq in E. destruct (0 <? s_count s)%Z eqn:Cn; [|discriminate].
  destruct (sess_get s h2) as [x|] eqn:G; [|discriminate]. injection E as <- Em.
  apply sess_get_in in G as (X & _ & U & _).
  assert (Ro : ss_use x = SESSION_RO).
  { destruct I as (A & _). apply Z.ltb_lt in Cn. destruct (A Cn) as (_ & _ & F). rewrite Forall_forall in F.
    destruct (F x X) as [[J | [J | [J | []]]] _]; auto; [unfold in_use in U; rewrite <- J in U; discriminate|].
    unfold is_rw in Em. rewrite <- J in Em. discriminate. }
  assert (Ex : existsb (fun x => ss_use x =? SESSION_RO)%Z (s_sess s) = true).
  { apply existsb_exists. exists x. split; [exact X|]. rewrite Ro. reflexivity. }
  assert (NL : t_login (s_tok s) <> RW_SO).
  { intros L. destruct I as (_ & _ & _ & _ & D). specialize (D L). rewrite Forall_forall in D. apply (D x X). exact Ro. }
  assert (NS : forall t, t_login t <> RW_SO -> ~ so_in w (set_tok s t)).
  { intros t N SO. apply so_in_login in SO. apply N. exact SO. }
  assert (NS0 : ~ so_in w s) by (intros SO; apply so_in_login in SO; contradiction).
  cbn [step] in H. unfold with_sess, need_lib in H. rewrite Cn in H.
  destruct (sess_get s h) as [x1|] eqn:G1.
  2:{ sinv. repeat split; [discriminate|exact NS0|]. intros V. apply valid_eq in V as (_ & y & Y). congruence. }
  unfold Login in H. destruct (negb (pin_len_ok pin)) eqn:PL.
  { sinv. repeat split; [discriminate|exact NS0|]. intros _ P. unfold pin_len_ok in PL. lia. }
  change (CKU_SO =? CKU_SO)%Z with true in H. cbv iota in H.
  destruct (SOLogin w (s_sess s) (s_tok s) pin now) as [c t] eqn:L. sinv.
  pose proof L as L0. apply SOLogin_ok in L as (_ & _ & _ & _ & _ & _ & _ & [[C Lg] | (_ & _ & _ & Ex')]); [|congruence].
  split; [|split].
  - cbn. unfold login_rv. destruct (c =? LOGGED_IN_E)%Z; [discriminate|]. destruct (andb true _); [discriminate|].
    destruct (c =? PIN_NOT_SET_E)%Z; [discriminate|]. destruct (negb (c =? 0)%Z) eqn:C0; [discriminate|].
    apply negb_false_iff, Z.eqb_eq in C0. contradiction.
  - apply NS. rewrite Lg. exact NL.
  - intros _ _ St Lk Nn. unfold SOLogin in L0. destruct now as [n|]; [|congruence].
    assert (Lo : logged_in (t_login (s_tok s)) = false).
    { unfold GetState in St. unfold logged_in. destruct I as (_ & _ & _ & [J | [J | [J | []]]] & _); rewrite <- J in *; [reflexivity| |congruence].
      cbn in St. destruct (ss_use x =? SESSION_RW)%Z; discriminate. }
    rewrite Lo in L0. destruct (lock_check (t_so (s_tok s)) n) as [p|] eqn:LC.
    + rewrite Ex in L0. injection L0 as <- _. reflexivity.
    + unfold lock_check in LC. destruct (_ =? MAX_FAILS)%Z eqn:F; [|discriminate]. apply Z.eqb_eq in F.
      specialize (Lk n eq_refl F). apply Z.ltb_lt in Lk. rewrite Lk in LC. discriminate.
Qed.
Print Assumptions C04_so_login_refused.
Example C04_example :
  rvs (setup ++ [OOpenSession 1 RW; OLogin H2 CKU_SO sopin (Some 1%Z); OOpenSession 1 RO; OLogout H2; OOpenSession 1 RO;
                 OLogin H2 CKU_SO sopin (Some 1%Z)]) =
  repeat CKR_OK 9 ++ [CKR_SESSION_READ_WRITE_SO_EXISTS; CKR_OK; CKR_OK; CKR_SESSION_READ_ONLY_EXISTS].
Proof. vm_compute. reflexivity. Qed.
