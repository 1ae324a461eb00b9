(** Login and lock-out: C05, C06, C08, C59. *)
From Verif Require Import Base Ops Object Store Sys SysProofs SysProofs2 SysProofs3 SysProofs4 LoginProofs ToySys PropSys1.

(** ** C05 *)
(** Session state by who is logged in and session mode (PKCS#11 2.40, 5.6). *)
Definition state_of (x : option role) (rw : bool) : Z :=
  match x with
  | None => if rw then 2 else 0
  | Some User => if rw then 3 else 1
  | Some SO => 4
  end%Z.
(** All open sessions report [x] as logged in. *)
Definition who (w : world) (s : sys) (x : option role) : Prop :=
  forall h st fl, info w s h = Some (OutInfo CKR_OK st fl) -> exists rw, fl = mode_flags rw /\ st = state_of x rw.
Lemma who_login w s x : t_login (s_tok s) = match x with None => RW_PUBLIC | Some r => login_state r end -> who w s x.
Proof.
  intros L h st fl E. rewrite info_eq in E. destruct (0 <? s_count s)%Z; [|discriminate].
  destruct (sess_get s h) as [y|]; [|discriminate]. injection E as <- <-. exists (is_rw y). split; [reflexivity|].
  unfold GetState, is_rw. destruct x as [[]|]; cbn in L; rewrite L; cbn; destruct (ss_use y =? SESSION_RW)%Z; reflexivity.
Qed.
Theorem C05_session_state : forall w d s, reach w (sys0 d) s -> exists x, who w s x.
Proof.
  intros w d s R. destruct (reach_inv _ _ _ R) as (_ & _ & _ & [J | [J | [J | []]]] & _).
  - exists None. apply who_login. auto. - exists (Some User). apply who_login. auto. - exists (Some SO). apply who_login. auto.
Qed.
Print Assumptions C05_session_state.

Theorem C05_login :
  forall w d s rnd h ut a now s' o, reach w (sys0 d) s ->
    step w rnd s (OLogin h ut a now) = Ok (s', o) ->
    (out_rv o = CKR_OK -> exists r, ut = cku r /\ who w s None /\ (4 <= zlen a <= 32)%Z /\
       right w (s_tok s) r a /\ who w s' (Some r)) /\
    (out_rv o <> CKR_OK -> forall h', info w s' h' = info w s h').
Proof.
  intros w d s rnd h ut a now s' o R H. pose proof (reach_inv _ _ _ R) as I.
  cbn [step] in H. unfold with_sess, need_lib in H.
  assert (D : forall rv, rv <> CKR_OK -> rv_ s rv = Ok (s', o) -> 
    (out_rv o = CKR_OK -> exists r, ut = cku r /\ who w s None /\ (4 <= zlen a <= 32)%Z /\
       right w (s_tok s) r a /\ who w s' (Some r)) /\
    (out_rv o <> CKR_OK -> forall h', info w s' h' = info w s h')).
  { intros rv N E. unfold rv_ in E. injection E as <- <-. cbn. split; [contradiction|reflexivity]. }
  destruct (0 <? s_count s)%Z eqn:Cn; [|eapply D; [|exact H]; discriminate].
  destruct (sess_get s h) as [x|]; [|eapply D; [|exact H]; discriminate].
  destruct (pin_len_ok a) eqn:L.
  2:{ unfold Login in H. rewrite L in H. eapply D; [|exact H]; discriminate. }
  destruct now as [n|].
  2:{ unfold Login in H. rewrite L in H. cbn [negb] in H. destruct (ut =? CKU_SO)%Z.
      - cbn [SOLogin] in H. replace (set_tok s (s_tok s)) with s in H by (symmetry; apply eta_sys). eapply D; [|exact H]; discriminate.
      - destruct (ut =? CKU_USER)%Z; [|destruct (ut =? CKU_CONTEXT_SPECIFIC)%Z; eapply D; try exact H; discriminate].
        cbn [UserLogin bind] in H. replace (set_tok s (s_tok s)) with s in H by (symmetry; apply eta_sys). eapply D; [|exact H]; discriminate. }
  destruct (Z.eq_dec ut CKU_SO) as [U | U]; [|destruct (Z.eq_dec ut CKU_USER) as [U2 | U2]].
  3:{ unfold Login in H. rewrite L in H. cbn [negb] in H. apply Z.eqb_neq in U, U2. rewrite U, U2 in H.
      destruct (ut =? CKU_CONTEXT_SPECIFIC)%Z; eapply D; try exact H; discriminate. }
  1: change ut with (id ut) in H; assert (Er : exists r, ut = cku r) by (exists SO; exact U).
  2: assert (Er : exists r, ut = cku r) by (exists User; exact U2).
  all: destruct Er as [r ->]; unfold id in H; apply login_attempt in H as (rv & -> & A); [|exact L];
    pose proof (logged_in_inv s I) as LI;
    assert (SI : forall t h', t_login t = t_login (s_tok s) -> info w (set_tok s t) h' = info w s h')
      by (intros t h' E; rewrite !info_eq; cbn; unfold sess_get; cbn; unfold GetState; rewrite E; reflexivity);
    (destruct A as [G | G K | p G K ? ? | p G K ? ? | p G K ? ? | p k l G K ? ? ? | p k l rv G K ? ? ?]; cbn [out_rv];
     (split; [try discriminate; try contradiction | try (intros N; exfalso; apply N; reflexivity);
       intros _ h'; try reflexivity; apply SI; destruct r; reflexivity])).
  all: intros _; exists r; split; [reflexivity|]; apply LI in G;
    (split; [apply who_login; exact G|]); (split; [unfold pin_len_ok in L; lia|]);
    (split; [apply right_check; assumption|]); apply who_login; destruct r; reflexivity.
Qed.
Print Assumptions C05_login.

(** Conversely the right PIN is accepted when nobody is logged in, the role is not
    locked out and (for the SO) no read-only session is open. For the user the
    stored objects must decode; here: no objects. *)
Theorem C05_right_pin_accepted :
  forall w d s rnd h r a n, reach w (sys0 d) s -> valid w s h -> (4 <= zlen a <= 32)%Z ->
    t_login (s_tok s) = RW_PUBLIC -> lock_check (pin_of r (s_tok s)) n <> None ->
    (match r with SO => ro_open s = false | User => t_objs (s_tok s) = [] end) ->
    right w (s_tok s) r a ->
    exists s', step w rnd s (OLogin h (cku r) a (Some n)) = Ok (s', OutRv CKR_OK).
Proof.
  intros w d s rnd h r a n R V L G K X RT. apply valid_eq in V as (Cn & x & Gx).
  assert (E : exists s', Login w s (cku r) a (Some n) = Ok (s', OutRv CKR_OK)).
  { assert (PL : pin_len_ok a = true) by (unfold pin_len_ok; lia). apply right_check in RT.
    unfold Login. rewrite PL. destruct r; cbn [cku negb pin_of] in *.
    - change (CKU_SO =? CKU_SO)%Z with true. cbv iota. unfold SOLogin. rewrite G. change (logged_in RW_PUBLIC) with false. cbv iota.
      destruct (lock_check (t_so (s_tok s)) n) as [p|] eqn:LK; [|contradiction]. unfold ro_open in X. rewrite X.
      pose proof (lock_same _ _ _ LK) as (E1 & E2 & E3 & _).
      rewrite (check_same w (s_tok s) (set_so (s_tok s) p) (t_so (s_tok s)) p a eq_refl E1 E2 E3), RT.
      change (0 =? PIN_INVALID_E)%Z with false. cbv beta iota zeta. change (0 =? 0)%Z with true. cbv iota. eexists. reflexivity.
    - change (CKU_USER =? CKU_SO)%Z with false. change (CKU_USER =? CKU_USER)%Z with true. cbv iota. unfold UserLogin. rewrite G. change (logged_in RW_PUBLIC) with false. cbv iota.
      destruct (lock_check (t_user (s_tok s)) n) as [p|] eqn:LK; [|contradiction].
      pose proof (lock_same _ _ _ LK) as (E1 & E2 & E3 & _).
      rewrite (check_same w (s_tok s) (set_user (s_tok s) p) (t_user (s_tok s)) p a eq_refl E1 E2 E3), RT.
      change (0 =? PIN_INVALID_E)%Z with false. cbv beta iota zeta. change (0 =? 0)%Z with true. cbv iota.
      cbn [set_key set_user t_objs]. rewrite X. cbn. eexists. reflexivity. }
  destruct E as [s' E]. exists s'. cbn [step]. unfold with_sess, need_lib. rewrite (proj2 (Z.ltb_lt _ _) Cn), Gx. exact E.
Qed.
Print Assumptions C05_right_pin_accepted.

Theorem C05_logout :
  forall w d s rnd h s' , reach w (sys0 d) s -> step w rnd s (OLogout h) = Ok (s', OutRv CKR_OK) -> who w s' None.
Proof.
  intros w d s rnd h s' R H. cbn [step] in H. unfold with_sess, need_lib in H.
  destruct (0 <? s_count s)%Z; [|discriminate]. destruct (sess_get s h); [|discriminate].
  destruct (Logout _ _) as [t| |] eqn:L; cbn [bind] in H; try discriminate. unfold rv_ in H. injection H as <-.
  apply Logout_ok in L as (L & _). apply who_login. exact L.
Qed.
Print Assumptions C05_logout.

Definition changes_login (c : op) : bool :=
  match c with
  | OInitialize | OFinalize | ORestart | OInitToken _ _ _ | OOpenSession _ _ | OCloseSession _ | OCloseAllSessions _
  | OLogin _ _ _ _ | OLogout _ => true
  | _ => false
  end.
(** No other call changes who is logged in or the mode of a session. *)
Theorem C05_frame :
  forall w d s rnd c s' o h, reach w (sys0 d) s -> step w rnd s c = Ok (s', o) -> changes_login c = false ->
    info w s' h = info w s h.
Proof.
  intros w d s rnd c s' o h R H N. pose proof (reach_inv _ _ _ R) as I. pose proof (step_inv _ _ _ _ _ _ I H) as I'.
  pose proof (step_modes _ _ _ _ _ _ I H) as M.
  assert (ML : modes (s_sess s') = modes (s_sess s) /\ s_count s' = s_count s /\ t_login (s_tok s') = t_login (s_tok s)).
  { destruct (objop c) as [h0|] eqn:O.
    - pose proof (objop_prims _ _ _ _ _ _ _ I O H) as P. destruct (prims_inv _ _ _ _ _ P I) as [_ (Q1 & Q2 & Q3)].
      apply tok0_eq in Q3. destruct c; try discriminate N; try discriminate O; tauto.
    - destruct c; try discriminate N; try discriminate O; (split; [apply M|split; [apply M|]]);
      cbn [step] in H; unfold with_slot, with_sess, need_lib in H;
      (destruct (0 <? s_count s)%Z; [|sinv; reflexivity]).
      + destruct (sess_get s _); [|sinv; reflexivity]. unfold InitPIN in H.
        repeat match type of H with (if ?b then rv_ _ _ else _) = _ => destruct b; [sinv; reflexivity|] end.
        destruct (SetUserPin _ _ _ _) as [[c s1]| |] eqn:T; cbn [bind] in H; try discriminate. unfold rv_ in H. injection H as <- _.
        apply store_frame in T as (_ & _ & _ & E & _). apply tok0_eq in E. tauto.
      + destruct (sess_get s _); [|sinv; reflexivity]. unfold SetPIN in H. cbv zeta in H.
        repeat match type of H with (if ?b then rv_ _ _ else _) = _ => destruct b; [sinv; reflexivity|] end.
        match type of H with bind ?r _ = _ => destruct r as [[c s1]| |] eqn:T end; cbn [bind] in H; try discriminate.
        unfold rv_ in H. injection H as <- _.
        destruct (_ =? _)%Z; apply store_frame in T as (_ & _ & _ & E & _); apply tok0_eq in E; cbn in E; tauto.
      + destruct (slot_ok _); sinv; reflexivity. }
  destruct ML as (E1 & E2 & E3). rewrite !info_eq, E2.
  assert (G : forall u, match sess_get s' h with Some x => Some (ss_use x) | None => None end = u ->
              match sess_get s h with Some x => Some (ss_use x) | None => None end = u).
  { intros u <-. unfold sess_get. destruct (slot_ok (h / 2^16)); [|reflexivity].
    unfold find_sess. clear - E1. revert E1. generalize (s_sess s') as b. induction (s_sess s) as [|x l IH]; intros [|y b] E; cbn in E; try discriminate; [reflexivity|].
    injection E as E0 Eu E. cbn. rewrite E0. destruct (ss_h x =? h)%Z; [|apply IH; exact E].
    unfold in_use. rewrite Eu. destruct (negb _); [rewrite Eu|]; reflexivity. }
  specialize (G _ eq_refl). destruct (0 <? s_count s)%Z; [|reflexivity].
  destruct (sess_get s' h) as [y|]; destruct (sess_get s h) as [x|]; try discriminate G; [|reflexivity].
  injection G as G. unfold GetState, is_rw. rewrite E3, G. reflexivity.
Qed.
Print Assumptions C05_frame.
Definition c05 : list op := setup ++ [OOpenSession 1 RW; OOpenSession 1 RO; OLogin H2 CKU_USER upin (Some 9%Z)].
Example C05_example : info tw (after c05) H2 = Some (OutInfo CKR_OK RW_USER 6) /\ info tw (after c05) H1 = Some (OutInfo CKR_OK RO_USER 4) /\
  rvs (c05 ++ [OLogin H2 CKU_USER upin (Some 9%Z); OLogout H1; OLogin H2 CKU_SO upin (Some 9%Z)]) =
  repeat CKR_OK 10 ++ [CKR_USER_ALREADY_LOGGED_IN; CKR_OK; CKR_SESSION_READ_ONLY_EXISTS].
Proof. vm_compute. auto. Qed.

(** ** C06 *)
Definition locked (s : sys) (r : role) (n : Z) : Prop :=
  let p := pin_of r (s_tok s) in (p_fail p = 3 /\ n <= p_last p + p_tmo p)%Z.
(** Refused during lock-out, in the same way for every PIN, state unchanged. *)
Theorem C06_locked_out :
  forall w s h r n, locked s r n ->
    exists rv, rv <> CKR_OK /\ forall rnd a, (4 <= zlen a <= 32)%Z ->
      step w rnd s (OLogin h (cku r) a (Some n)) = Ok (s, OutRv rv).
Proof.
  intros w s h r n K. apply lock_none in K.
  assert (T : set_tok s (s_tok s) = s) by apply eta_sys.
  exists (if (0 <? s_count s)%Z then match sess_get s h with
          | Some _ => if logged_in (t_login (s_tok s)) then CKR_USER_ALREADY_LOGGED_IN else CKR_PIN_INCORRECT
          | None => CKR_SESSION_HANDLE_INVALID end else CKR_CRYPTOKI_NOT_INITIALIZED). split.
  - destruct (0 <? s_count s)%Z; [|discriminate]. destruct (sess_get s h); [|discriminate]. destruct (logged_in _); discriminate.
  - intros rnd a L. assert (PL : pin_len_ok a = true) by (unfold pin_len_ok; lia).
    cbn [step]. unfold with_sess, need_lib, rv_. destruct (0 <? s_count s)%Z; [|reflexivity]. destruct (sess_get s h); [|reflexivity].
    unfold Login. rewrite PL. cbn [negb]. destruct r; cbn [cku pin_of] in *.
    + change (CKU_SO =? CKU_SO)%Z with true. cbv iota. unfold SOLogin. destruct (logged_in _); [rewrite T; reflexivity|].
      rewrite K, T. reflexivity.
    + change (CKU_USER =? CKU_SO)%Z with false. change (CKU_USER =? CKU_USER)%Z with true. cbv iota. unfold UserLogin.
      destruct (logged_in _); cbn [bind]; [rewrite T; reflexivity|]. rewrite K. cbn [bind]. rewrite T. reflexivity.
Qed.
Print Assumptions C06_locked_out.

(** A call that compares the PIN, and its time. *)
Definition guess (w : world) (s : sys) (r : role) (c : op) : option Z :=
  match c with
  | OLogin h ut a (Some n) =>
      if andb (ut =? cku r)%Z (andb (0 <? s_count s)%Z (andb (match sess_get s h with Some _ => true | None => false end)
         (andb (pin_len_ok a) (andb (negb (logged_in (t_login (s_tok s))))
         (andb (match lock_check (pin_of r (s_tok s)) n with Some _ => true | None => false end)
         (andb (match r with SO => negb (ro_open s) | User => true end)
         (andb (t_init (s_tok s)) (negb (p_len (pin_of r (s_tok s)) =? 0)%Z))))))))
      then Some n else None
  | _ => None
  end.
(** Any other C_Login call for the role behaves the same whatever the PIN. *)
Theorem C06_no_comparison :
  forall w s h r a now, guess w s r (OLogin h (cku r) a now) = None -> (4 <= zlen a <= 32)%Z ->
    forall rnd a', (4 <= zlen a' <= 32)%Z ->
      step w rnd s (OLogin h (cku r) a now) = step w rnd s (OLogin h (cku r) a' now).
Proof.
  intros w s h r a now G L rnd a' L'.
  assert (P : pin_len_ok a = true) by (unfold pin_len_ok; lia). assert (P' : pin_len_ok a' = true) by (unfold pin_len_ok; lia).
  cbn [step]. unfold with_sess, need_lib. destruct (0 <? s_count s)%Z eqn:Cn; [|reflexivity]. 
  destruct (sess_get s h) eqn:Sg; [|reflexivity]. unfold Login. rewrite P, P'. cbn [negb].
  assert (G' : forall n, now = Some n -> logged_in (t_login (s_tok s)) = false -> 
    forall p, lock_check (pin_of r (s_tok s)) n = Some p -> match r with SO => ro_open s = false | User => True end ->
    t_init (s_tok s) = false \/ p_len (pin_of r (s_tok s)) = 0%Z).
  { intros n -> Li p K X. unfold guess in G. rewrite Z.eqb_refl, Cn, Sg, P, Li, K in G. cbn [andb negb] in G.
    destruct r; [rewrite X in G|]; cbn [andb negb] in G; (destruct (t_init (s_tok s)); [|auto]); cbn [andb] in G;
    (destruct (p_len _ =? 0)%Z eqn:E; [apply Z.eqb_eq in E; auto|discriminate]). }
  destruct r; cbn [cku pin_of] in *.
  - change (CKU_SO =? CKU_SO)%Z with true. cbv iota. unfold SOLogin. destruct now as [n|]; [|reflexivity].
    destruct (logged_in _) eqn:Li; [reflexivity|]. destruct (lock_check _ _) as [p|] eqn:K; [|reflexivity].
    destruct (existsb _ _) eqn:RO; [reflexivity|]. specialize (G' n eq_refl eq_refl p K RO). pose proof (lock_same _ _ _ K) as (E1 & _).
    assert (Q : forall b, CheckPin w (set_so (s_tok s) p) p b = PIN_NOT_SET_E) by (intros b; apply check_not_set; cbn; rewrite E1; exact G').
    rewrite !Q. reflexivity.
  - change (CKU_USER =? CKU_SO)%Z with false. change (CKU_USER =? CKU_USER)%Z with true. cbv iota. unfold UserLogin. destruct now as [n|]; [|reflexivity].
    destruct (logged_in _) eqn:Li; [reflexivity|]. destruct (lock_check _ _) as [p|] eqn:K; [|reflexivity].
    specialize (G' n eq_refl eq_refl p K Logic.I). pose proof (lock_same _ _ _ K) as (E1 & _).
    assert (Q : forall b, CheckPin w (set_user (s_tok s) p) p b = PIN_NOT_SET_E) by (intros b; apply check_not_set; cbn; rewrite E1; exact G').
    rewrite !Q. reflexivity.
Qed.
Print Assumptions C06_no_comparison.

(** Counters as they are counted: *)
Definition sane (p : pin) : Prop := (0 <= p_fail p <= 3 /\ 0 <= p_tmo p)%Z.

Lemma guess_inv w s r h ut a now n : guess w s r (OLogin h ut a now) = Some n ->
  now = Some n /\ ut = cku r /\ (0 < s_count s)%Z /\ (exists x, sess_get s h = Some x) /\ pin_len_ok a = true /\
  logged_in (t_login (s_tok s)) = false /\ (exists p, lock_check (pin_of r (s_tok s)) n = Some p) /\
  (r = SO -> ro_open s = false) /\ t_init (s_tok s) = true /\ p_len (pin_of r (s_tok s)) <> 0%Z.
Proof.
  unfold guess. destruct now as [m|]; [|discriminate]. intros H.
  destruct (andb _ _) eqn:E; [|discriminate]. injection H as ->. rewrite !andb_true_iff in E.
  destruct E as (E1 & E2 & E3 & E4 & E5 & E6 & E7 & E8 & E9).
  apply Z.eqb_eq in E1. apply Z.ltb_lt in E2. apply negb_true_iff in E5, E9. apply Z.eqb_neq in E9.
  destruct (sess_get s h); [|discriminate]. destruct (lock_check _ _); [|discriminate].
  repeat split; eauto. intros ->. apply negb_true_iff in E7. exact E7.
Qed.
(** A wrong PIN is counted; the third starts a lock-out that lasts longer each
    time. Nothing else changes. *)
Theorem C06_wrong_pin_counted :
  forall w s rnd r h a now n s' o, sane (pin_of r (s_tok s)) ->
    guess w s r (OLogin h (cku r) a now) = Some n -> ~ right w (s_tok s) r a ->
    step w rnd s (OLogin h (cku r) a now) = Ok (s', o) ->
    let p := pin_of r (s_tok s) in
    let f := (if p_fail p =? 3 then 1 else p_fail p + 1)%Z in
    o = OutRv CKR_PIN_INCORRECT /\
    s' = set_tok s (set_pin r (s_tok s)
           (if (f =? 3)%Z then mkPin (p_hash p) (p_len p) (p_seed p) 3 n (p_tmo p + match r with SO => 600 | User => 60 end)
            else mkPin (p_hash p) (p_len p) (p_seed p) f (p_last p) (p_tmo p))).
Proof.
  intros w s rnd r h a now n s' o [Sf St] G NR H p f.
  apply guess_inv in G as (-> & _ & Cn & (x & Sg) & PL & LI & (p1 & K) & RO & TI & NZ).
  cbn [step] in H. unfold with_sess, need_lib in H. rewrite (proj2 (Z.ltb_lt _ _) Cn), Sg in H.
  apply login_attempt in H as (rv & -> & A); [|exact PL].
  rewrite right_check in NR.
  destruct A as [G | G K2 | q G K2 Er X | q G K2 X Ck | q G K2 X Ck | q k l G K2 X Ck ? | q k l rv G K2 X Ck ? ?]; try congruence.
  - rewrite (RO Er) in X. discriminate.
  - exfalso. apply check_not_set in Ck as [Ck | Ck]; congruence.
  - split; [reflexivity|]. rewrite K in K2. injection K2 as <-. f_equal. f_equal.
    pose proof (lock_same _ _ _ K) as (_ & _ & _ & _ & _ & [[F Ep] | (F & Ti & F')]); fold p in K, F.
    + rewrite Ep. fold p. unfold count_fail, MAX_FAILS, f. apply Z.eqb_neq in F. rewrite F. destruct (p_fail p + 1 =? 3)%Z eqn:F3; [|reflexivity]. apply Z.eqb_eq in F3. rewrite F3. destruct r; reflexivity.
    + unfold f. rewrite F. cbn. fold p in Ti. unfold lock_check in K. rewrite F in K. unfold MAX_FAILS in K. cbn in K.
      rewrite (proj2 (Z.ltb_lt _ _) Ti) in K. injection K as <-. unfold count_fail, zero_fail. cbn. reflexivity.
Qed.
Print Assumptions C06_wrong_pin_counted.

(** Three wrong PINs in a row lock the role. *)
Theorem C06_three_wrong_lock :
  forall w s r, sane (pin_of r (s_tok s)) -> p_fail (pin_of r (s_tok s)) = 0%Z ->
    forall c1 c2 c3 s1 s2 s3 o1 o2 o3 g1 g2 g3 n1 n2 n3 h1 h2 h3 a1 a2 a3 t1 t2 t3,
    c1 = OLogin h1 (cku r) a1 t1 -> c2 = OLogin h2 (cku r) a2 t2 -> c3 = OLogin h3 (cku r) a3 t3 ->
    step w g1 s c1 = Ok (s1, o1) -> step w g2 s1 c2 = Ok (s2, o2) -> step w g3 s2 c3 = Ok (s3, o3) ->
    guess w s r c1 = Some n1 -> guess w s1 r c2 = Some n2 -> guess w s2 r c3 = Some n3 ->
    ~ right w (s_tok s) r a1 -> ~ right w (s_tok s1) r a2 -> ~ right w (s_tok s2) r a3 ->
    forall n, (n <= n3 + p_tmo (pin_of r (s_tok s)) + match r with SO => 600 | User => 60 end)%Z -> locked s3 r n.
Proof.
  intros w s r S F0 c1 c2 c3 s1 s2 s3 o1 o2 o3 g1 g2 g3 n1 n2 n3 h1 h2 h3 a1 a2 a3 t1 t2 t3 -> -> -> E1 E2 E3 G1 G2 G3 R1 R2 R3 n Le.
  assert (PS : forall t p, pin_of r (set_pin r t p) = p) by (intros; destruct r; reflexivity).
  apply C06_wrong_pin_counted with (n := n1) in E1; auto. cbv zeta in E1. rewrite F0 in E1. cbn [Z.eqb Z.add Pos.eqb] in E1. change (0 + 1)%Z with 1%Z in E1. cbn in E1. destruct E1 as (_ & E1).
  assert (P1 : pin_of r (s_tok s1) = mkPin (p_hash (pin_of r (s_tok s))) (p_len (pin_of r (s_tok s))) (p_seed (pin_of r (s_tok s))) 1 (p_last (pin_of r (s_tok s))) (p_tmo (pin_of r (s_tok s)))).
  { rewrite E1. cbn. apply PS. }
  clear E1. destruct S as [_ S].
  apply C06_wrong_pin_counted with (n := n2) in E2; auto; [|rewrite P1; split; cbn; lia]. rewrite P1 in E2. cbn [p_fail p_hash p_len p_seed p_last p_tmo Z.eqb Pos.eqb] in E2. change (1 + 1)%Z with 2%Z in E2. cbn [Z.eqb Pos.eqb] in E2. destruct E2 as (_ & E2).
  assert (P2 : pin_of r (s_tok s2) = mkPin (p_hash (pin_of r (s_tok s))) (p_len (pin_of r (s_tok s))) (p_seed (pin_of r (s_tok s))) 2 (p_last (pin_of r (s_tok s))) (p_tmo (pin_of r (s_tok s)))).
  { rewrite E2. cbn. apply PS. }
  clear E2.
  apply C06_wrong_pin_counted with (n := n3) in E3; auto; [|rewrite P2; split; cbn; lia]. rewrite P2 in E3. cbn [p_fail p_hash p_len p_seed p_last p_tmo Z.eqb Pos.eqb] in E3. change (2 + 1)%Z with 3%Z in E3. cbn [Z.eqb Pos.eqb] in E3. destruct E3 as (_ & E3).
  unfold locked. rewrite E3. cbn [set_tok s_tok]. rewrite PS. cbn [p_fail p_last p_tmo]. split; [reflexivity|]. lia.
Qed.
Print Assumptions C06_three_wrong_lock.

Theorem C06_success_resets :
  forall w s rnd r h a now s' , step w rnd s (OLogin h (cku r) a now) = Ok (s', OutRv CKR_OK) ->
    let p := pin_of r (s_tok s') in p_fail p = 0%Z /\ p_last p = 0%Z /\ p_tmo p = 0%Z.
Proof.
  intros w s rnd r h a now s' H. cbn [step] in H. unfold with_sess, need_lib in H.
  destruct (0 <? s_count s)%Z; [|discriminate]. destruct (sess_get s h); [|discriminate].
  destruct (pin_len_ok a) eqn:PL; [|unfold Login in H; rewrite PL in H; discriminate].
  destruct now as [n|]; [|unfold Login in H; rewrite PL in H; destruct r; discriminate].
  apply login_attempt in H as (rv & E & A); [|exact PL]. injection E as <-.
  inversion A; subst; try congruence; destruct r; cbn; auto.
Qed.
Print Assumptions C06_success_resets.

(** Failure counters across the other calls. *)
Definition counters (p : pin) : Z * Z * Z := (p_fail p, p_last p, p_tmo p).
Lemma step_counters w rnd s c s' o r : inv s -> step w rnd s c = Ok (s', o) ->
  match c with
  | OInitialize | OFinalize | ORestart | OInitToken _ _ _ => True
  | OLogin _ ut _ now => (ut = cku r /\ now <> None) \/ counters (pin_of r (s_tok s')) = counters (pin_of r (s_tok s))
  | _ => counters (pin_of r (s_tok s')) = counters (pin_of r (s_tok s))
  end.
Proof.
  intros I H. pose proof (step_pins _ _ _ _ _ _ I H) as P.
  assert (Q : forall t t', t_so t = t_so t' /\ t_user t = t_user t' -> counters (pin_of r t) = counters (pin_of r t')).
  { intros t t' [E1 E2]. destruct r; cbn; congruence. }
  assert (T : forall v, v = pin_of r (s_tok s) -> True) by auto.
  destruct c; auto; try (apply Q; tauto); cbn [step] in H; unfold with_sess, need_lib in H.
  - destruct (0 <? s_count s)%Z; [|sinv; reflexivity]. destruct (sess_get s _); [|sinv; reflexivity]. unfold InitPIN in H.
    repeat match type of H with (if ?b then rv_ _ _ else _) = _ => destruct b; [sinv; reflexivity|] end.
    destruct (SetUserPin _ _ _ _) as [[c s1]| |] eqn:E; cbn [bind] in H; try discriminate. unfold rv_ in H. injection H as <- _.
    apply store_frame in E as (_ & _ & _ & E & _). apply tok0_eq in E. cbn in E. destruct E as (_ & _ & E1 & E2 & _).
    destruct r; cbn; unfold counters; [rewrite E1|rewrite E2]; reflexivity.
  - destruct (0 <? s_count s)%Z; [|sinv; reflexivity]. destruct (sess_get s _); [|sinv; reflexivity]. unfold SetPIN in H. cbv zeta in H.
    repeat match type of H with (if ?b then rv_ _ _ else _) = _ => destruct b; [sinv; reflexivity|] end.
    match type of H with bind ?r _ = _ => destruct r as [[c s1]| |] eqn:E end; cbn [bind] in H; try discriminate.
    unfold rv_ in H. injection H as <- _.
    destruct (_ =? _)%Z; apply store_frame in E as (_ & _ & _ & E & _); apply tok0_eq in E; cbn in E; destruct E as (_ & _ & E1 & E2 & _);
    destruct r; cbn; unfold counters; (rewrite E1 || rewrite E2); reflexivity.
  - destruct (0 <? s_count s)%Z; [|sinv; auto]. destruct (sess_get s _); [|sinv; auto].
    unfold Login in H. destruct (negb _); [sinv; auto|].
    destruct (ut =? CKU_SO)%Z eqn:U; [|destruct (ut =? CKU_USER)%Z eqn:U2; [|destruct (ut =? CKU_CONTEXT_SPECIFIC)%Z; sinv; auto]].
    + apply Z.eqb_eq in U. destruct (SOLogin _ _ _ _ _) as [c t] eqn:E. unfold rv_ in H. injection H as <- _.
      destruct now as [n|]; [|cbn in E; injection E as <- <-; right; reflexivity].
      destruct r; [left; split; [exact U|discriminate]|right].
      apply SOLogin_ok in E as (_ & E & _). cbn. rewrite E. reflexivity.
    + apply Z.eqb_eq in U2. destruct (UserLogin _ _ _ _) as [[c t]| |] eqn:E; cbn [bind] in H; try discriminate. unfold rv_ in H. injection H as <- _.
      destruct now as [n|]; [|cbn in E; injection E as <- <-; right; reflexivity].
      destruct r; [right|left; split; [exact U2|discriminate]].
      apply UserLogin_ok in E as (_ & _ & E & _). cbn. rewrite E. reflexivity.
Qed.

(** Histories in which no C_Login for the role gets the right PIN, the clock does
    not run backwards, and the library is not restarted nor the token
    re-initialised: [ts] are the times of the PIN comparisons, newest first, [c]
    the time of the latest C_Login call. *)
Inductive tries (w : world) (r : role) : sys -> list Z -> Z -> sys -> Prop :=
  | tr_0 s c : tries w r s [] c s
  | tr_login s ts c s1 s2 h a n rnd o : tries w r s ts c s1 -> 
      step w rnd s1 (OLogin h (cku r) a (Some n)) = Ok (s2, o) -> ~ right w (s_tok s1) r a -> (c <= n)%Z ->
      tries w r s (match guess w s1 r (OLogin h (cku r) a (Some n)) with Some t => t :: ts | None => ts end) n s2
  | tr_other s ts c s1 s2 k rnd o : tries w r s ts c s1 -> step w rnd s1 k = Ok (s2, o) ->
      (match k with OInitialize | OFinalize | ORestart | OInitToken _ _ _ => False
       | OLogin _ ut _ now => ut <> cku r \/ now = None | _ => True end) ->
      tries w r s ts c s2.
Lemma tries_inv w r s ts c s' : tries w r s ts c s' -> inv s -> inv s'.
Proof. induction 1; intros I; auto; (eapply step_inv; [|eassumption]; auto). Qed.

Lemma div3 n : (0 <= n)%Z -> exists k, (n / 3 = k /\ 3 * k <= n < 3 * k + 3 /\ 0 <= k)%Z.
Proof. intros H. exists (n / 3)%Z. split; [reflexivity|]. pose proof (Z.div_mod n 3). pose proof (Z.mod_pos_bound n 3). lia. Qed.

Section Bound.
Variable T : Z.
Hypothesis T0 : (0 < T)%Z.
(** j lock-outs started; n comparisons, first at f0, newest at t. *)
Definition bound (n first newest : Z) : Prop := let k := ((n - 1) / 3)%Z in (T * (k * (k + 1)) <= 2 * (newest - first))%Z.
Definition ghost (ts : list Z) (c : Z) (fail last0 tmo : Z) (M0 : Z) : Prop :=
  exists j, (0 <= j)%Z /\ tmo = (M0 + T * j)%Z /\ (0 <= fail <= 3)%Z /\
    (Z.of_nat (length ts) <= 3 * j + (if fail =? 3 then 0 else fail))%Z /\
    match ts with
    | [] => j = 0%Z
    | t :: _ => let first := List.last ts 0%Z in
        (first <= t <= c)%Z /\ bound (Z.of_nat (length ts)) first t /\
        (fail <> 3 -> T * (j * (j + 1)) <= 2 * (c - first))%Z /\
        (fail = 3 -> 0 < j -> last0 <= c /\ T * (j * (j - 1)) <= 2 * (last0 - first))%Z
    end.
Lemma sq_mono a b : (0 <= a <= b)%Z -> (a * (a + 1) <= b * (b + 1))%Z.
Proof. intros. nia. Qed.
Lemma last_cons (t : Z) ts : ts <> [] -> List.last (t :: ts) 0%Z = List.last ts 0%Z.
Proof. destruct ts; [contradiction|reflexivity]. Qed.

(** A wrong guess at time n. *)
Lemma ghost_wrong ts c f l m M0 n : (0 <= M0)%Z -> ghost ts c f l m M0 -> (c <= n)%Z -> (f = 3 -> l + m < n)%Z ->
  let f' := (if f =? 3 then 1 else f + 1)%Z in
  ghost (n :: ts) n f' (if (f' =? 3)%Z then n else l) (if (f' =? 3)%Z then m + T else m)%Z M0.
Proof.
  intros HM (j & J0 & -> & F & N & G) Cn Ex f'.
  assert (TS : ts = [] \/ ts <> []) by (destruct ts; [left|right]; [reflexivity|discriminate]).
  (* elapsed time at n is enough for j rounds *)
  assert (El : match ts with [] => j = 0%Z | _ => (T * (j * (j + 1)) <= 2 * (n - List.last ts 0%Z))%Z end).
  { destruct ts as [|t ts]; [exact G|]. destruct G as (G1 & G2 & G3 & G4).
    destruct (Z.eq_dec f 3) as [E | E].
    - destruct (Z.eq_dec j 0) as [-> | Nj]; [nia|]. specialize (Ex E). destruct (G4 E) as [L1 L2]; [lia|]. nia.
    - specialize (G3 E). lia. }
  assert (K : ((Z.of_nat (length (n :: ts)) - 1) / 3 <= j)%Z).
  { replace (Z.of_nat (length (n :: ts)) - 1)%Z with (Z.of_nat (length ts)) by (cbn [length]; lia).
    destruct (div3 (Z.of_nat (length ts))) as (k & -> & B & _); [lia|]. destruct (f =? 3)%Z eqn:E; lia. }
  assert (K0 : (0 <= (Z.of_nat (length (n :: ts)) - 1) / 3)%Z) by (apply Z.div_pos; cbn [length]; lia).
  assert (El2 : (T * (j * (j + 1)) <= 2 * (n - List.last (n :: ts) 0%Z))%Z).
  { destruct ts as [|t ts]; [rewrite El; cbn; lia|]. rewrite last_cons by discriminate. exact El. }
  assert (Ln : (List.last (n :: ts) 0 <= n)%Z).
  { destruct ts as [|t ts]; [cbn; lia|]. rewrite last_cons by discriminate. destruct G as (G1 & _). lia. }
  assert (B : bound (Z.of_nat (length (n :: ts))) (List.last (n :: ts) 0%Z) n).
  { unfold bound. cbv zeta. pose proof (sq_mono _ _ (conj K0 K)). nia. }
  destruct (f' =? 3)%Z eqn:F3.
  - apply Z.eqb_eq in F3. assert (F2 : f = 2%Z) by (unfold f' in F3; destruct (f =? 3)%Z eqn:E; lia).
    exists (j + 1)%Z. split; [lia|]. split; [lia|]. split; [lia|]. split.
    + rewrite F3. cbn [length]. subst f. cbn in N |- *. lia.
    + split; [lia|]. split; [exact B|]. split; [lia|]. intros _ _. split; [lia|]. nia.
  - apply Z.eqb_neq in F3. exists j. split; [lia|]. split; [reflexivity|].
    assert (Ff : (0 <= f' <= 2)%Z) by (unfold f' in *; destruct (f =? 3)%Z eqn:E; lia). split; [lia|]. split.
    + apply Z.eqb_neq in F3. rewrite F3. cbn [length]. unfold f'. destruct (f =? 3)%Z eqn:E; lia.
    + split; [lia|]. split; [exact B|]. split; [intros _; exact El2|]. lia.
Qed.
(** A C_Login that compares nothing, at time n: the counter stays or is cleared. *)
Lemma ghost_idle ts c f l m M0 n f' : (0 <= M0)%Z -> ghost ts c f l m M0 -> (c <= n)%Z ->
  (f' = f \/ (f = 3 /\ l + m < n /\ f' = 0))%Z -> ghost ts n f' l m M0.
Proof.
  intros HM (j & J0 & -> & F & N & G) Cn H. exists j. split; [exact J0|]. split; [reflexivity|]. split; [lia|]. split.
  - destruct H as [-> | (-> & _ & ->)]; [exact N|cbn in *; exact N].
  - destruct ts as [|t ts]; [exact G|]. destruct G as (G1 & G2 & G3 & G4). split; [lia|]. split; [exact G2|]. split.
    + intros X. destruct H as [-> | (-> & E & ->)]; [specialize (G3 X); lia|].
      destruct (Z.eq_dec j 0) as [-> | Nj]; [lia|]. destruct G4 as [L1 L2]; [lia..|]. nia.
    + intros X Y. destruct H as [-> | (-> & E & ->)]; [|discriminate]. specialize (G4 X Y). lia.
Qed.
End Bound.

Lemma tries_ghost w r s ts c s' : tries w r s ts c s' -> inv s -> sane (pin_of r (s_tok s)) ->
  let p := pin_of r (s_tok s') in ghost (tmo_of r) ts c (p_fail p) (p_last p) (p_tmo p) (p_tmo (pin_of r (s_tok s))).
Proof.
  intros H I S. induction H as [s c | s ts c s1 s2 h a n rnd o H IH E NR Le | s ts c s1 s2 k rnd o H IH E K]; cbv zeta in *.
  - exists 0%Z. destruct S as [S1 S2]. split; [lia|]. split; [lia|]. split; [exact S1|]. cbn [length]. split; [|reflexivity].
    destruct (_ =? 3)%Z; lia.
  - specialize (IH I S). pose proof (tries_inv _ _ _ _ _ _ H I) as I1.
    assert (TP : (0 < tmo_of r)%Z) by (destruct r; reflexivity).
    assert (S1 : sane (pin_of r (s_tok s1))).
    { destruct IH as (j & J & E1 & E2 & _). split; [exact E2|]. rewrite E1. destruct S. nia. }
    assert (PS : forall t p, pin_of r (set_pin r t p) = p) by (intros; destruct r; reflexivity).
    destruct (guess w s1 r _) as [t|] eqn:G.
    + pose proof (guess_inv _ _ _ _ _ _ _ _ G) as (En & _ & _ & _ & _ & _ & (q & LK) & _). injection En as <-.
      apply C06_wrong_pin_counted with (n := n) in E; auto. cbv zeta in E. destruct E as (_ & ->). cbn [set_tok s_tok]. rewrite PS.
      pose proof (ghost_wrong (tmo_of r) TP ts c _ _ _ _ n (proj2 S) IH Le) as W.
      assert (X : p_fail (pin_of r (s_tok s1)) = 3%Z -> (p_last (pin_of r (s_tok s1)) + p_tmo (pin_of r (s_tok s1)) < n)%Z).
      { intros F. apply lock_same in LK as (_ & _ & _ & _ & _ & [[? _] | (_ & ? & _)]); [contradiction|assumption]. }
      specialize (W X). cbv zeta in W.
      destruct (((if p_fail (pin_of r (s_tok s1)) =? 3 then 1 else p_fail (pin_of r (s_tok s1)) + 1) =? 3)%Z) eqn:F3.
      * apply Z.eqb_eq in F3. rewrite F3 in W. cbn [p_fail p_last p_tmo]. unfold tmo_of in *. destruct r; exact W.
      * cbn [p_fail p_last p_tmo]. exact W.
    + (* nothing compared *)
      assert (Q : exists f', ((f' = p_fail (pin_of r (s_tok s1)) \/
                    (p_fail (pin_of r (s_tok s1)) = 3 /\ p_last (pin_of r (s_tok s1)) + p_tmo (pin_of r (s_tok s1)) < n /\ f' = 0))%Z) /\
                    counters (pin_of r (s_tok s2)) = (f', p_last (pin_of r (s_tok s1)), p_tmo (pin_of r (s_tok s1)))).
      { cbn [step] in E. unfold with_sess, need_lib in E.
        destruct (0 <? s_count s1)%Z eqn:Cn; [|sinv; exists (p_fail (pin_of r (s_tok s2))); auto].
        destruct (sess_get s1 h) as [x|] eqn:Sg; [|sinv; exists (p_fail (pin_of r (s_tok s2))); auto].
        destruct (pin_len_ok a) eqn:PL.
        2:{ unfold Login in E. rewrite PL in E. unfold rv_ in E. injection E as <- _. exists (p_fail (pin_of r (s_tok s1))); auto. }
        apply login_attempt in E as (rv & -> & A); [|exact PL].
        assert (LKX : forall p, lock_check (pin_of r (s_tok s1)) n = Some p -> 
           exists f', ((f' = p_fail (pin_of r (s_tok s1)) \/
                    (p_fail (pin_of r (s_tok s1)) = 3 /\ p_last (pin_of r (s_tok s1)) + p_tmo (pin_of r (s_tok s1)) < n /\ f' = 0))%Z) /\
                    counters p = (f', p_last (pin_of r (s_tok s1)), p_tmo (pin_of r (s_tok s1)))).
        { intros p LK. exists (p_fail p). apply lock_same in LK as (_ & _ & _ & E1 & E2 & [[X ->] | X]).
          - split; [left; reflexivity|reflexivity]. - split; [right; tauto|]. unfold counters. rewrite E1, E2. reflexivity. }
        rewrite right_check in NR.
        destruct A as [G1 | G1 K2 | q G1 K2 Er X | q G1 K2 X Ck | q G1 K2 X Ck | q k l G1 K2 X Ck ? | q k l rv G1 K2 X Ck ? ?];
          try contradiction; cbn [set_tok s_tok]; try rewrite PS; try (apply LKX; assumption);
          try (exists (p_fail (pin_of r (s_tok s1))); split; [left|]; reflexivity).
        exfalso. unfold guess in G. rewrite Z.eqb_refl, Cn, Sg, PL, G1, K2 in G. cbn [andb negb] in G.
        assert (TI : t_init (s_tok s1) = true /\ (p_len (pin_of r (s_tok s1)) =? 0)%Z = false).
        { unfold CheckPin in Ck. destruct (t_init (s_tok s1)); cbn [negb orb] in Ck; [|discriminate].
          destruct (_ =? 0)%Z; [discriminate|auto]. }
        destruct TI as [T1 T2]. rewrite T1, T2 in G. destruct r; [rewrite (X eq_refl) in G|]; discriminate. }
      destruct Q as (f' & Q1 & Q2). unfold counters in Q2. injection Q2 as -> -> ->.
      eapply ghost_idle; eauto. apply S.
  - specialize (IH I S). pose proof (tries_inv _ _ _ _ _ _ H I) as I1.
    pose proof (step_counters _ _ _ _ _ _ r I1 E) as C. unfold counters in C.
    assert (C' : (p_fail (pin_of r (s_tok s2)), p_last (pin_of r (s_tok s2)), p_tmo (pin_of r (s_tok s2))) =
                 (p_fail (pin_of r (s_tok s1)), p_last (pin_of r (s_tok s1)), p_tmo (pin_of r (s_tok s1)))).
    { destruct k; try contradiction; try exact C. destruct C as [[C1 C2] | C]; [|exact C]. tauto. }
    injection C' as -> -> ->. exact IH.
Qed.

(** The number n of comparisons and the time they took: with k = (n-1)/3 complete
    rounds, at least T + 2T + ... + kT seconds lie between the first and the
    last, T = 60 (user) or 600 (SO). Missing from the full claim: histories with a
    restart in between ([C06_across_restart_refuted]). *)
Theorem C06_guess_rate_partial :
  forall w d r s ts c s', reach w (sys0 d) s -> sane (pin_of r (s_tok s)) -> tries w r s ts c s' -> ts <> [] ->
    let n := Z.of_nat (length ts) in let k := ((n - 1) / 3)%Z in
    let T := match r with SO => 600%Z | User => 60%Z end in
    (T * (k * (k + 1)) <= 2 * (hd 0 ts - List.last ts 0))%Z.
Proof.
  intros w d r s ts c s' R S H N n k T. pose proof (tries_ghost _ _ _ _ _ _ H (reach_inv _ _ _ R) S) as G.
  destruct G as (j & _ & _ & _ & _ & G). destruct ts as [|t ts]; [contradiction|]. destruct G as (_ & B & _).
  unfold bound in B. cbv zeta in B. unfold T, k, n. cbn [hd]. destruct r; exact B.
Qed.
Print Assumptions C06_guess_rate_partial.

(** Four guesses: the fourth is refused until 60 s after the third. *)
Definition bad3 (t : Z) : list op := repeat (OLogin H2 CKU_USER wrong (Some t)) 3.
Definition c06 : list op := setup ++ OOpenSession 1 RW :: bad3 100.
Example C06_example : 
  rvs (c06 ++ [OLogin H2 CKU_USER upin (Some 160%Z); OLogin H2 CKU_USER upin (Some 161%Z)]) =
    repeat CKR_OK 8 ++ repeat CKR_PIN_INCORRECT 4 ++ [CKR_OK] /\
  rvs (c06 ++ bad3 161 ++ [OLogin H2 CKU_USER upin (Some 281%Z); OLogin H2 CKU_USER upin (Some 282%Z)]) =
    repeat CKR_OK 8 ++ repeat CKR_PIN_INCORRECT 7 ++ [CKR_OK] /\
  locked (after c06) User 160 /\ sane (pin_of User (s_tok (after c06))) /\
  guess tw (after (setup ++ [OOpenSession 1 RW])) User (OLogin H2 CKU_USER wrong (Some 100%Z)) = Some 100%Z.
Proof.
  split; [vm_compute; reflexivity|]. split; [vm_compute; reflexivity|].
  split; [unfold locked; vm_compute; split; [reflexivity|discriminate]|].
  split; [unfold sane; vm_compute; repeat split; discriminate|]. vm_compute. reflexivity.
Qed.
(** The counters do not survive the end of the process (they are stored only
    together with something else): the lock-out can be escaped by restarting. *)
Definition C06_across_restart_claim : Prop :=
  forall w d s rnd s1 s2 o1 o2 r n, reach w (sys0 d) s -> locked s r n ->
    step w rnd s ORestart = Ok (s1, o1) -> step w rnd s1 OInitialize = Ok (s2, o2) -> locked s2 r n.
Theorem C06_across_restart_refuted : ~ C06_across_restart_claim.
Proof.
  intros C. assert (R : reach tw (sys0 nofiles) (after c06)) by (apply after_reach; vm_compute; exact Logic.I).
  destruct (step tw (rnd 0) (after c06) ORestart) as [[s1 o1]| |] eqn:E1; [|vm_compute in E1; discriminate..].
  destruct (step tw (rnd 0) s1 OInitialize) as [[s2 o2]| |] eqn:E2; [|vm_compute in E1; injection E1 as <- _; vm_compute in E2; discriminate..].
  assert (L : locked (after c06) User 160) by (unfold locked; vm_compute; split; [reflexivity|discriminate]).
  specialize (C tw nofiles (after c06) (rnd 0) s1 s2 o1 o2 User 160%Z R L E1 E2).
  vm_compute in E1. injection E1 as <- _. vm_compute in E2. injection E2 as <- _. unfold locked in C. vm_compute in C. destruct C; discriminate.
Qed.
Print Assumptions C06_across_restart_refuted.

(** ** C08 *)
(** Calls that tell whether a PIN is the right one, for a role. *)
Definition tells (w : world) (s : sys) (c : op) (r : role) (a : list N) : Prop :=
  match c with
  | OLogin h ut b (Some n) => b = a /\ ut = cku r /\ guess w s r c <> None
  | OSetPIN h old new => old = a /\ (4 <= zlen old <= 32)%Z /\ (4 <= zlen new <= 32)%Z /\ valid w s h /\
      match r with SO => info w s h = Some (OutInfo CKR_OK RW_SO 6) | User => exists st, In st [RW_PUBLIC; RW_USER] /\ info w s h = Some (OutInfo CKR_OK st 6) end
  | OInitToken slot b _ => b = a /\ r = SO /\ (4 <= zlen b <= 32)%Z /\ slot = 1%Z /\ t_init (s_tok s) = true /\ (forall h, ~ valid w s h)
  | _ => False
  end.
Definition C08_claim : Prop :=
  forall w d s rnd c s' o r a, reach w (sys0 d) s -> (0 < s_count s)%Z -> step w rnd s c = Ok (s', o) -> tells w s c r a ->
    ~ right w (s_tok s) r a -> p_len (pin_of r (s_tok s)) <> 0%Z ->
    (p_fail (pin_of r (s_tok s')) <> p_fail (pin_of r (s_tok s))).
Theorem C08_set_pin_refuted : ~ C08_claim.
Proof.
  intros C. set (l := setup ++ [OOpenSession 1 RW]).
  assert (R : reach tw (sys0 nofiles) (after l)) by (apply after_reach; vm_compute; exact Logic.I).
  destruct (step tw (rnd 0) (after l) (OSetPIN H2 wrong pin2)) as [[s1 o1]| |] eqn:E1; [|vm_compute in E1; discriminate..].
  refine (C tw nofiles (after l) (rnd 0) _ s1 o1 User wrong R _ E1 _ _ _ _).
  - vm_compute. reflexivity.
  - unfold tells. split; [reflexivity|]. split; [split; vm_compute; discriminate|]. split; [split; vm_compute; discriminate|]. split.
    + exists 2%Z, 6%Z. vm_compute. reflexivity.
    + exists 2%Z. split; [cbn; auto|]. vm_compute. reflexivity.
  - rewrite right_check. vm_compute. discriminate.
  - vm_compute. discriminate.
  - vm_compute in E1. injection E1 as <- _. vm_compute. reflexivity.
Qed.
Print Assumptions C08_set_pin_refuted.
(** Neither does C_InitToken, and both go on telling during a lock-out. *)
Theorem C08_init_token_refuted :
  ~ (forall w d s rnd c s' o a, reach w (sys0 d) s -> (0 < s_count s)%Z -> step w rnd s c = Ok (s', o) -> tells w s c SO a ->
       ~ right w (s_tok s) SO a -> (exists b l, c = OInitToken 1 b l) -> p_fail (t_so (s_tok s')) <> p_fail (t_so (s_tok s))).
Proof.
  intros C. set (l := setup).
  assert (R : reach tw (sys0 nofiles) (after l)) by (apply after_reach; vm_compute; exact Logic.I).
  destruct (step tw (rnd 0) (after l) (OInitToken 1 wrong lab)) as [[s1 o1]| |] eqn:E1; [|vm_compute in E1; discriminate..].
  refine (C tw nofiles (after l) (rnd 0) _ s1 o1 wrong R _ E1 _ _ _ _).
  - vm_compute. reflexivity.
  - unfold tells. split; [reflexivity|]. split; [reflexivity|]. split; [split; vm_compute; discriminate|]. split; [reflexivity|].
    split; [vm_compute; reflexivity|]. intros h V. apply valid_in in V as (x & X & _ & U); [|eapply reach_inv; exact R].
    vm_compute in X. destruct X as [<- | [<- | []]]; discriminate.
  - rewrite right_check. vm_compute. discriminate.
  - eauto.
  - vm_compute in E1. injection E1 as <- _. vm_compute. reflexivity.
Qed.
Print Assumptions C08_init_token_refuted.
Example C08_during_lockout :
  rvs (c06 ++ [OSetPIN H2 wrong pin2; OSetPIN H2 upin pin2]) = repeat CKR_OK 8 ++ repeat CKR_PIN_INCORRECT 4 ++ [CKR_OK] /\
  locked (after (c06 ++ [OSetPIN H2 wrong pin2; OSetPIN H2 upin pin2])) User 160.
Proof. split; [vm_compute; reflexivity|]. unfold locked. vm_compute. split; [reflexivity|discriminate]. Qed.
(** C_Login alone is as claimed. Missing from the full claim: C_SetPIN and
    C_InitToken. *)
Theorem C08_login_partial :
  forall w s rnd h ut b n s' o r a, sane (pin_of r (s_tok s)) ->
    step w rnd s (OLogin h ut b (Some n)) = Ok (s', o) -> tells w s (OLogin h ut b (Some n)) r a ->
    ~ right w (s_tok s) r a ->
    p_fail (pin_of r (s_tok s')) <> p_fail (pin_of r (s_tok s)) /\ ~ locked s r n.
Proof.
  intros w s rnd h ut b n s' o r a S H T NR. cbn [tells] in T. destruct T as (-> & -> & G).
  destruct (guess w s r _) as [m|] eqn:Gs; [|contradiction].
  pose proof (guess_inv _ _ _ _ _ _ _ _ Gs) as (En & _ & _ & _ & _ & _ & (q & LK) & _). injection En as ->.
  apply C06_wrong_pin_counted with (n := m) in H; auto. cbv zeta in H. destruct H as (_ & ->).
  assert (PS : forall t p, pin_of r (set_pin r t p) = p) by (intros; destruct r; reflexivity).
  cbn [set_tok s_tok]. rewrite PS. split.
  - destruct (p_fail (pin_of r (s_tok s)) =? 3)%Z eqn:F3.
    + apply Z.eqb_eq in F3. cbn. lia.
    + cbv iota. apply Z.eqb_neq in F3. destruct (_ =? 3)%Z eqn:F4; cbn [p_fail]; [apply Z.eqb_eq in F4|]; lia.
  - unfold locked. intros L. apply lock_none in L. congruence.
Qed.
Print Assumptions C08_login_partial.

(** ** C59 *)
Definition flags_of (r : role) (o : out) : bool * bool * bool :=
  match o with OutTok _ _ so us _ _ => match r with SO => so | User => us end | _ => (false, false, false) end.
Definition lock_flag (r : role) (o : out) : bool := snd (flags_of r o).
Definition final_flag (r : role) (o : out) : bool := snd (fst (flags_of r o)).
Definition C59_claim : Prop :=
  forall w d s r n o, reach w (sys0 d) s -> (0 < s_count s)%Z -> ask w s (OGetTokenInfo 1 n) = Some o ->
    (lock_flag r o = true <-> locked s r n).
(** At the last second of a lock-out C_Login is refused but the flag is clear. *)
Theorem C59_locked_flag_refuted : ~ C59_claim.
Proof.
  intros C. assert (R : reach tw (sys0 nofiles) (after c06)) by (apply after_reach; vm_compute; exact Logic.I).
  destruct (ask tw (after c06) (OGetTokenInfo 1 160)) as [o|] eqn:E; [|vm_compute in E; discriminate].
  destruct (C tw nofiles (after c06) User 160%Z o R ltac:(vm_compute; reflexivity) E) as [_ X].
  assert (L : locked (after c06) User 160) by (unfold locked; vm_compute; split; [reflexivity|discriminate]).
  apply X in L. vm_compute in E. injection E as <-. discriminate.
Qed.
Print Assumptions C59_locked_flag_refuted.
Lemma token_info w s n o : (0 < s_count s)%Z -> ask w s (OGetTokenInfo 1 n) = Some o ->
  forall r, flags_of r o = pin_flags (pin_of r (s_tok s)) n.
Proof.
  intros C E r. unfold ask in E. cbn [step] in E. unfold with_slot, need_lib in E. rewrite (proj2 (Z.ltb_lt _ _) C) in E.
  change (slot_ok 1) with true in E. cbv iota in E. injection E as <-. destruct r; reflexivity.
Qed.
(** Exact at every other time; FINAL_TRY is exact. Missing from the full claim:
    the one instant at which a lock-out ends. *)
Theorem C59_flags_partial :
  forall w s r n o, (0 < s_count s)%Z -> ask w s (OGetTokenInfo 1 n) = Some o ->
    let p := pin_of r (s_tok s) in
    (n <> (p_last p + p_tmo p)%Z -> (lock_flag r o = true <-> locked s r n)) /\
    (* one more wrong PIN now leads to a lock-out now *)
    (forall rnd h a s' o', sane p -> guess w s r (OLogin h (cku r) a (Some n)) = Some n -> ~ right w (s_tok s) r a ->
       step w rnd s (OLogin h (cku r) a (Some n)) = Ok (s', o') ->
       (final_flag r o = true <-> locked s' r n)).
Proof.
  intros w s r n o C E p. pose proof (token_info _ _ _ _ C E r) as F. unfold lock_flag, final_flag. rewrite F. cbn. fold p. split.
  - intros N. unfold locked. fold p. rewrite andb_true_iff, Z.eqb_eq, Z.ltb_lt. unfold MAX_FAILS. cbv zeta. lia.
  - intros rnd h a s' o' S G NR H. apply C06_wrong_pin_counted with (n := n) in H; auto. cbv zeta in H. destruct H as (_ & ->).
    unfold locked. assert (PS : forall t q, pin_of r (set_pin r t q) = q) by (intros; destruct r; reflexivity).
    cbn [set_tok s_tok]. rewrite PS. fold p. destruct S as [S1 S2]. unfold MAX_FAILS. rewrite Z.eqb_eq.
    destruct (p_fail p =? 3)%Z eqn:F3; [apply Z.eqb_eq in F3|apply Z.eqb_neq in F3].
    + change (1 =? 3)%Z with false. cbn. lia.
    + destruct (p_fail p + 1 =? 3)%Z eqn:F4; [apply Z.eqb_eq in F4|apply Z.eqb_neq in F4]; cbn [p_fail p_last p_tmo]; destruct r; lia.
Qed.
Print Assumptions C59_flags_partial.
Example C59_example : 
  option_map (lock_flag User) (ask tw (after c06) (OGetTokenInfo 1 159)) = Some true /\
  option_map (final_flag User) (ask tw (after (setup ++ OOpenSession 1 RW :: firstn 2 (bad3 100))) (OGetTokenInfo 1 159)) = Some true.
Proof. vm_compute. auto. Qed.
