(** C119: the PINs follow the reference machine of Guard.v in every history. *)
From Verif Require Import Base Codec Ops Object Store Sys SysProofs SysProofs2 SysProofs3 SysProofs4 LoginProofs RvProofs ToySys PropSys1 PropSys2 PropSys3 Device DeviceProofs PropDevice Guard.

(** The hash tells the PINs of [U] apart, whatever the seed. *)
Definition apart (w : world) (U : list (list N)) : Prop :=
  forall p q sd, In p U -> In q U -> se_hash (w_se w) p sd = se_hash (w_se w) q sd -> p = q.
Definition matched (w : world) (p : pin) (a : list N) : Prop :=
  firstn (Z.to_nat (p_len p)) (se_hash (w_se w) a (p_seed p)) = firstn (Z.to_nat (p_len p)) (p_hash p).
Definition gsim (w : world) (U : list (list N)) (made : bool) (p : pin) (g : guard) : Prop :=
  p_fail p = q_wrong g /\ p_last p = q_since g /\ p_tmo p = q_wait g /\
  match q_pin g with
  | None => made = false \/ p_len p = 0%Z
  | Some f => made = true /\ p_len p <> 0%Z /\ forall a, In a U -> (f a = true <-> matched w p a)
  end.
Definition lsim (w : world) (U : list (list N)) (s : sys) (m : lib) : Prop :=
  sim s (l_dev m) /\ t_init (s_tok s) = l_made m /\ forall r, gsim w U (l_made m) (pin_of r (s_tok s)) (l_guard m r).

Section G.
Variable w : world.
Variable U : list (list N).
Hypothesis H32 : hash32 w.
Hypothesis HU : apart w U.

Lemma gsim_some made p : exists g, gsim w U made p g.
Proof.
  destruct (andb made (negb (p_len p =? 0)%Z)) eqn:B.
  - exists (Guard (Some (fun a => if list_eq_dec N.eq_dec (firstn (Z.to_nat (p_len p)) (se_hash (w_se w) a (p_seed p))) (firstn (Z.to_nat (p_len p)) (p_hash p)) then true else false)) (p_fail p) (p_last p) (p_tmo p)).
    apply andb_prop in B as [B1 B2]. repeat split; auto; cbn [q_pin].
    + intros E. rewrite E in B2. discriminate.
    + intros X. unfold matched. destruct (list_eq_dec _ _ _); [assumption|discriminate].
    + intros X. unfold matched in X. destruct (list_eq_dec _ _ _); [reflexivity|contradiction].
  - exists (Guard None (p_fail p) (p_last p) (p_tmo p)). repeat split; auto. cbn. destruct made; [right|left; reflexivity].
    cbn in B. destruct (p_len p =? 0)%Z eqn:E; [apply Z.eqb_eq; exact E|discriminate].
Qed.
Lemma lsim_some s d : sim s d -> exists m, l_dev m = d /\ lsim w U s m.
Proof.
  intros S. destruct (gsim_some (t_init (s_tok s)) (t_so (s_tok s))) as [a A]. destruct (gsim_some (t_init (s_tok s)) (t_user (s_tok s))) as [b B].
  exists (Lib d (t_init (s_tok s)) (fun r => match r with SO => a | User => b end)). split; [reflexivity|]. split; [exact S|]. split; [reflexivity|].
  intros []; assumption.
Qed.
Lemma gsim_ext made p p' g g' : gsim w U made p g -> p' = p -> g' = g -> gsim w U made p' g'.
Proof. intros A -> ->. exact A. Qed.

(** What CheckPin says, read from the machine. *)
Lemma check_sim t p g a : In a U -> gsim w U (t_init t) p g ->
  CheckPin w t p a = match accepts g a with None => PIN_NOT_SET_E | Some false => PIN_INVALID_E | Some true => 0%Z end.
Proof.
  intros A (_ & _ & _ & G). unfold accepts. destruct (q_pin g) as [f|].
  - destruct G as (G1 & G2 & G3). specialize (G3 a A). destruct (f a).
    + apply check_0. repeat split; auto. apply G3. reflexivity.
    + pose proof (check_cases w t p a) as [C|[C|[C|[]]]]; [|congruence|].
      * symmetry in C. apply check_0 in C as (_ & _ & C). apply G3 in C. discriminate.
      * symmetry in C. apply check_not_set in C as [C|C]; congruence.
  - apply check_not_set. exact G.
Qed.
(** A new PIN. *)
Lemma gsim_new made new sd g f l t : In new U -> made = true -> q_wrong g = f -> q_since g = l -> q_wait g = t ->
  gsim w U made (mkPin (se_hash (w_se w) new sd) 32 sd f l t) (new_pin new g).
Proof.
  intros A Md <- <- <-. split; [reflexivity|]. split; [reflexivity|]. split; [reflexivity|]. cbn [new_pin q_pin].
  split; [exact Md|]. split; [discriminate|]. intros a Ha. unfold text_eqb, matched. cbn [p_len p_seed p_hash].
  rewrite !firstn_all2 by (rewrite H32; lia). split.
  - destruct (list_eq_dec N.eq_dec new a) as [->|]; [reflexivity|discriminate].
  - intros E. apply HU in E; auto. subst a. destruct (list_eq_dec N.eq_dec new new); congruence.
Qed.
Lemma lock_sim made p g n : gsim w U made p g -> match lock_check p n with
  | None => locked_out g n = true
  | Some p' => locked_out g n = false /\ gsim w U made p' (unlocked g)
  end.
Proof.
  intros (G1 & G2 & G3 & G4). unfold lock_check, locked_out, unlocked, MAX_FAILS. rewrite G1, G2, G3.
  destruct (q_wrong g =? 3)%Z; cbn [andb]; [|repeat split; assumption].
  destruct (Z.ltb_spec (q_since g + q_wait g) n), (Z.leb_spec n (q_since g + q_wait g)); try (exfalso; lia); [|reflexivity].
  split; [reflexivity|]. repeat split; cbn; auto.
Qed.
Lemma wrong_sim made p g n r : gsim w U made p g -> (q_wrong g <> 3)%Z -> gsim w U made (count_fail p n (tmo_of r)) (wrong_pin r n g).
Proof.
  intros (G1 & G2 & G3 & G4) N3. unfold count_fail, wrong_pin, MAX_FAILS. rewrite G1.
  destruct (Z.eqb_spec (q_wrong g + 1) 3), (Z.eqb_spec (q_wrong g) 2); try lia.
  - repeat split; cbn; auto. rewrite G3. destruct r; reflexivity.
  - repeat split; cbn; auto.
Qed.
Lemma unlocked_3 g : q_wrong (unlocked g) <> 3%Z.
Proof. unfold unlocked. destruct (Z.eqb_spec (q_wrong g) 3); cbn; [lia|assumption]. Qed.
Lemma reset_sim made p g : gsim w U made p g -> gsim w U made (reset_fail p) (right_pin g).
Proof. intros (G1 & G2 & G3 & G4). repeat split; cbn; auto. Qed.
Lemma unlocked_right g : right_pin (unlocked g) = right_pin g.
Proof. unfold unlocked, right_pin. destruct (_ =? 3)%Z; reflexivity. Qed.
Lemma accepts_unlocked g a : accepts (unlocked g) a = accepts g a.
Proof. unfold unlocked, accepts. destruct (_ =? 3)%Z; reflexivity. Qed.

(** C_Login for one role. *)
Lemma login_sim s m r a now s' o : inv s -> (0 < s_count s)%Z -> lsim w U s m -> In a U -> good_pin a = true ->
  Login w s (cku r) a now = Ok (s', o) ->
  match fst (try_login m r a now) with Some rv => o = OutRv rv | None => exists rv, o = OutRv rv end /\
  t_init (s_tok s') = t_init (s_tok s) /\ gsim w U (l_made m) (pin_of r (s_tok s')) (snd (try_login m r a now)) /\
  pin_of (other r) (s_tok s') = pin_of (other r) (s_tok s).
Proof.
  intros I Cn (S & Ti & Gs) A GP E. pose proof (Gs r) as G. destruct now as [n|].
  2:{ assert (ES : s' = set_tok s (s_tok s) /\ o = OutRv CKR_PIN_INCORRECT).
      { unfold Login in E. change (pin_len_ok a) with (good_pin a) in E. rewrite GP in E. destruct r; cbn in E; injection E as <- <-; auto. }
      destruct ES as [-> ->]. cbn. auto. }
  apply login_attempt in E as (rv & -> & T); [|exact GP].
  pose proof S as (Sc & Sm & Sl & St).
  assert (LW : logged_in (t_login (s_tok s)) = match d_who (l_dev m) with Some _ => true | None => false end) by (rewrite Sl; destruct (d_who (l_dev m)) as [[]|]; reflexivity).
  assert (RO : any_ro (l_dev m) = ro_open s) by (apply (any_ro_sess s (l_dev m) I Cn S)).
  pose proof (lock_sim _ _ _ n G) as LS.
  rewrite <- Ti in G. pose proof (check_sim (s_tok s) _ _ a A G) as CK. rewrite Ti in G.
  unfold try_login. destruct T as [L | L K | p L K Hr Ro | p L K Ro Ck | p L K Ro Ck | p k l L K Ro Ck Id | p k l rv L K Hr Ck Id Nr]; rewrite L in LW.
  - destruct (d_who (l_dev m)); [|discriminate LW]. cbn [fst snd]. auto.
  - destruct (d_who (l_dev m)); [discriminate LW|]. rewrite K in LS. rewrite LS. cbn [fst snd]. auto.
  - destruct (d_who (l_dev m)); [discriminate LW|]. rewrite K in LS. destruct LS as [-> LS]. subst r. rewrite RO, Ro. cbn. auto.
  - destruct (d_who (l_dev m)); [discriminate LW|]. rewrite K in LS. destruct LS as [-> LS].
    replace (match r with SO => any_ro (l_dev m) | User => false end) with false by (destruct r; [rewrite RO, Ro|]; reflexivity).
    rewrite Ck in CK. destruct (accepts _ _) as [[]|]; try discriminate CK. destruct r; cbn; auto.
  - destruct (d_who (l_dev m)); [discriminate LW|]. rewrite K in LS. destruct LS as [-> LS].
    replace (match r with SO => any_ro (l_dev m) | User => false end) with false by (destruct r; [rewrite RO, Ro|]; reflexivity).
    rewrite Ck in CK. destruct (accepts _ _) as [[]|]; try discriminate CK. cbn [fst snd].
    pose proof (wrong_sim _ _ _ n r LS (unlocked_3 _)) as WS. destruct r; cbn in *; auto.
  - destruct (d_who (l_dev m)); [discriminate LW|]. rewrite K in LS. destruct LS as [-> LS].
    replace (match r with SO => any_ro (l_dev m) | User => false end) with false by (destruct r; [rewrite RO, Ro|]; reflexivity).
    rewrite Ck in CK. destruct (accepts _ _) as [[]|]; try discriminate CK. cbn [fst snd].
    apply reset_sim in LS. rewrite unlocked_right in LS. split; [destruct r; [reflexivity|eexists; reflexivity]|]. destruct r; cbn in *; auto.
  - destruct (d_who (l_dev m)); [discriminate LW|]. rewrite K in LS. destruct LS as [-> LS]. subst r.
    rewrite Ck in CK. destruct (accepts _ _) as [[]|]; try discriminate CK. cbn [fst snd].
    apply reset_sim in LS. rewrite unlocked_right in LS. split; [eexists; reflexivity|]. cbn in *; auto.
Qed.

(** Calls that leave the PINs alone. *)
Lemma quiet_sim s s' m d' : lsim w U s m -> sim s' d' -> t_init (s_tok s') = t_init (s_tok s) -> t_so (s_tok s') = t_so (s_tok s) -> t_user (s_tok s') = t_user (s_tok s) ->
  lsim w U s' (Lib d' (l_made m) (l_guard m)).
Proof. intros (S & Ti & Gs) S' A B C. split; [exact S'|]. split; [cbn; congruence|]. intros r. cbn. specialize (Gs r). destruct r; cbn in *; congruence. Qed.
Lemma role_sim s s' m d' r g : lsim w U s m -> sim s' d' -> t_init (s_tok s') = t_init (s_tok s) -> gsim w U (l_made m) (pin_of r (s_tok s')) g ->
  pin_of (other r) (s_tok s') = pin_of (other r) (s_tok s) -> lsim w U s' (Lib d' (l_made m) (at_role (l_guard m) r g)).
Proof.
  intros (S & Ti & Gs) S' A B C. split; [exact S'|]. split; [cbn; congruence|]. intros r'. cbn [l_made l_guard].
  pose proof (Gs (other r)) as D. rewrite <- C in D. destruct r, r'; cbn in *; assumption.
Qed.
Lemma open_sess s d h x : sim s d -> d_mode d h = Some (is_rw x) -> is_open d h = true.
Proof. intros _ M. unfold is_open. rewrite M. reflexivity. Qed.
End G.

Lemma on_sess2 s d h k s' o : sim s d -> with_sess s h k = Ok (s', o) ->
  (s' = s /\ (d_count d <= 0 \/ d_mode d h = None)%Z /\ forall P : bool -> Prop, on_session d h o P) \/
  (exists x, (0 < s_count s)%Z /\ In x (s_sess s) /\ in_use x = true /\ (0 <? d_count d)%Z = true /\ d_mode d h = Some (is_rw x) /\ k x = Ok (s', o) /\
     forall P : bool -> Prop, P (is_rw x) -> on_session d h o P).
Proof.
  intros (Sc & Sm & Sl & St) E. unfold with_sess, need_lib in E. rewrite count_le in E. unfold on_session. rewrite <- Sc, <- Sm.
  destruct (Z.leb_spec (s_count s) 0) as [L|L]; cbn [negb] in E; [left; unfold rv_ in E; injection E as <- <-; split; [reflexivity|]; split; [left; exact L|reflexivity]|].
  unfold mode. destruct (sess_get s h) as [x|] eqn:G; [|left; unfold rv_ in E; injection E as <- <-; split; [reflexivity|]; split; [right; reflexivity|reflexivity]].
  right. pose proof G as G0. apply sess_get_in in G as (X & Eh & Us & _). exists x. repeat split; auto. apply Z.ltb_lt. exact L.
Qed.
Lemma tok_store w rnd s t c s' : store w rnd (set_tok s t) = Ok (c, s') -> t_init (s_tok s') = t_init t /\ t_so (s_tok s') = t_so t /\ t_user (s_tok s') = t_user t.
Proof. intros T. apply store_frame in T as (_ & _ & _ & T & _). apply tok0_eq in T. cbn in T. tauto. Qed.

Theorem C119_step w U rnd s m c s' o : hash32 w -> apart w U -> inv s -> li_init s -> lsim w U s m -> incl (pins_of c) U ->
  step w rnd s c = Ok (s', o) -> answers m c o /\ exists m', moves m c o m' /\ lsim w U s' m'.
Proof.
  intros H32 HU I LI LS PU E. pose proof LS as (S & Ti & Gs). pose proof (C118_step _ _ _ _ _ _ _ I S E) as [SA SN].
  pose proof (step_pins _ _ _ _ _ _ I E) as SP. pose proof S as (Sc & Sm & Sl & St).
  assert (QUIET : t_init (s_tok s') = t_init (s_tok s) -> t_so (s_tok s') = t_so (s_tok s) -> t_user (s_tok s') = t_user (s_tok s) ->
            lsim w U s' (Lib (next (l_dev m) c o) (l_made m) (l_guard m))) by (intros; eapply quiet_sim; eauto).
  assert (ANY : exists m', l_dev m' = next (l_dev m) c o /\ lsim w U s' m') by (apply lsim_some; exact SN).
  unfold answers.
  destruct c; try (split; [split; [exact SA|exact Logic.I]|]; exists (Lib (next (l_dev m) c o) (l_made m) (l_guard m)); fail);
   try (split; [split; [exact SA|exact Logic.I]|]; eexists; split; [|apply QUIET; apply SP]; repeat split; fail).
  - (* C_Initialize *)
    split; [split; [exact SA|exact Logic.I]|]. cbn [step] in E. unfold Initialize in E. unfold moves. rewrite <- Sc. destruct (s_count s =? 0)%Z.
    + destruct ANY as (m' & D & L). exists m'. split; [split; [exact D|exact Logic.I]|exact L].
    + injection E as <- _. eexists. split; [|apply QUIET; reflexivity]. repeat split.
  - (* C_Finalize *)
    split; [split; [exact SA|exact Logic.I]|]. cbn [step] in E. unfold Finalize in E. unfold moves. rewrite <- Sc.
    destruct (Z.eqb_spec (s_count s) 1) as [C1|C1].
    + destruct ANY as (m' & D & L). exists m'. split; [split; [exact D|exact Logic.I]|exact L].
    + destruct (Z.eqb_spec (s_count s - 1) 0); [lia|]. injection E as <- _. eexists. split; [|apply QUIET; reflexivity]. repeat split.
  - (* the process ends *)
    split; [split; [exact SA|exact Logic.I]|]. destruct ANY as (m' & D & L). exists m'. split; [split; [exact D|exact Logic.I]|exact L].
  - (* C_InitToken *)
    assert (SAME : s' = s -> out_rv o <> CKR_OK -> exists m', moves m (OInitToken slot pin label) o m' /\ lsim w U s' m').
    { intros -> N. eexists. split; [|apply QUIET; reflexivity]. split; [reflexivity|]. apply Z.eqb_neq in N. rewrite N. split; reflexivity. }
    cbn [step] in E. apply (on_slot_ _ (l_dev m)) in E as [(Es & A & B & _ & F)|(Cn & E & F)]; [split; [split; [exact SA|apply F]|apply SAME; assumption]| |exact S].
    unfold InitToken in E. change (pin_len_ok pin) with (good_pin pin) in E. destruct (good_pin pin) eqn:GP; cbn [negb] in *.
    2:{ unfold rv_ in E. injection E as <- <-. split; [split; [exact SA|apply F; exact Logic.I]|apply SAME; [reflexivity|discriminate]]. }
    rewrite <- (any_open_sess s (l_dev m) I Cn S), Ti in E. unfold may_init.
    assert (PIN : In pin U) by (apply PU; left; reflexivity).
    assert (GO : may_init m pin = None -> TokenReset w rnd s pin label = TokenReset w rnd s pin label ->
       '(c, s1) <- TokenReset w rnd s pin label ;; rv_ s1 (if (c =? 0)%Z then CKR_OK else CKR_FUNCTION_FAILED) = Ok (s', o) ->
       o = OutRv CKR_OK /\ exists m', moves m (OInitToken slot pin label) o m' /\ lsim w U s' m').
    { intros _ _ T0. destruct (TokenReset _ _ _ _ _) as [[c1 s1]| |] eqn:T; cbn [bind] in T0; try discriminate. unfold rv_ in T0. injection T0 as <- <-.
      unfold TokenReset in T. destruct (free_all _); cbn [bind] in T; try discriminate. destruct (zlen _ <? 32)%Z; [discriminate|].
      unfold SetSOPin in T. cbn [set_tok s_tok] in T. apply store_empty in T as [-> ET]; [|reflexivity]. cbn [set_tok s_tok] in ET.
      split; [reflexivity|]. exists (Lib (next (l_dev m) (OInitToken slot pin label) (OutRv CKR_OK)) true (fun r => match r with SO => new_pin pin no_pin | User => no_pin end)).
      split; [split; [reflexivity|]; cbn; auto|]. split; [exact SN|]. rewrite ET. split; [reflexivity|].
      intros []; cbn [l_made l_guard pin_of set_so tok_init t_so t_user].
      - apply gsim_new; auto.
      - repeat split. cbn. auto. }
    destruct (l_made m) eqn:Md; cbn [andb] in E.
    + destruct (any_open (l_dev m)) eqn:AO. { unfold rv_ in E. injection E as <- <-. split; [split; [exact SA|apply F; reflexivity]|apply SAME; [reflexivity|discriminate]]. }
      pose proof (Gs SO) as G. rewrite <- Ti in G. pose proof (check_sim w U (s_tok s) (t_so (s_tok s)) _ pin PIN G) as CK. rewrite CK in E.
      destruct (accepts (l_guard m SO) pin) as [[]|] eqn:AC.
      * destruct GO as [-> GO]; [unfold may_init; rewrite Md, AO, AC; reflexivity|reflexivity|exact E|]. split; [split; [exact SA|apply F; reflexivity]|exact GO].
      * cbn in E. unfold rv_ in E. injection E as <- <-. split; [split; [exact SA|apply F; reflexivity]|apply SAME; [reflexivity|discriminate]].
      * cbn in E. unfold rv_ in E. injection E as <- <-. split; [split; [exact SA|apply F; reflexivity]|apply SAME; [reflexivity|discriminate]].
    + destruct GO as [-> GO]; [unfold may_init; rewrite Md; reflexivity|reflexivity|exact E|]. split; [split; [exact SA|apply F; reflexivity]|exact GO].
  - (* C_InitPIN *)
    assert (SAME : s' = s -> init_pin m h pin = false -> (says (l_dev m) (OInitPIN h pin) o /\ (if init_pin m h pin then rv_in o [CKR_OK; CKR_FUNCTION_FAILED] else True)) /\ exists m', moves m (OInitPIN h pin) o m' /\ lsim w U s' m').
    { intros -> N. rewrite N. split; [split; [exact SA|exact Logic.I]|]. eexists. split; [|apply QUIET; reflexivity]. split; [reflexivity|]. rewrite N. split; reflexivity. }
    unfold init_pin, is_open in *. cbn [step] in E. apply (on_sess2 _ (l_dev m)) in E as [(Es & N & F)|(x & Cn & X & Us & Cd & M & E & F)]; [apply SAME; [exact Es|]| |exact S].
    { destruct N as [N | ->]; [destruct (Z.ltb_spec 0 (d_count (l_dev m))); [lia|reflexivity]|apply andb_false_r]. }
    rewrite Cd, M in *. cbn [andb] in *.
    unfold InitPIN in E. rewrite (state_code s (l_dev m) x S Us) in E.
    assert (Q : (state_of (d_who (l_dev m)) (is_rw x) =? RW_SO)%Z = match d_who (l_dev m) with Some SO => true | _ => false end) by (destruct (d_who (l_dev m)) as [[]|], (is_rw x); reflexivity).
    rewrite Q in E. change (pin_len_ok pin) with (good_pin pin) in E.
    destruct (d_who (l_dev m)) as [[]|] eqn:W; cbn [negb] in E; try (unfold rv_ in E; injection E as <- <-; apply SAME; [reflexivity|apply andb_false_r]).
    destruct (good_pin pin) eqn:GP; cbn [negb] in E; [|unfold rv_ in E; injection E as <- <-; apply SAME; reflexivity]. cbn [andb] in *.
    destruct (SetUserPin _ _ _ _) as [[c1 s1]| |] eqn:T; cbn [bind] in E; try discriminate. unfold rv_ in E. injection E as <- <-.
    split; [split; [exact SA|]; eexists; split; [reflexivity|]; destruct (c1 =? 0)%Z; cbn; auto|].
    unfold SetUserPin in T. cbv zeta in T. apply tok_store in T as (T1 & T2 & T3).
    exists (Lib (next (l_dev m) (OInitPIN h pin) (OutRv (if (c1 =? 0)%Z then CKR_OK else CKR_FUNCTION_FAILED))) (l_made m) (at_role (l_guard m) User (new_pin pin (l_guard m User)))).
    split; [split; [reflexivity|]; unfold init_pin, is_open; rewrite Cd, M, GP, W; split; reflexivity|].
    eapply role_sim; [exact LS|exact SN|exact T1| |exact T2]. cbn [pin_of]. rewrite T3.
    pose proof (Gs User) as (G1 & G2 & G3 & _). cbn [pin_of] in G1, G2, G3. cbn [set_key set_seed set_user t_user]. apply gsim_new; auto.
    + apply PU. left. reflexivity.
    + rewrite <- Ti. apply LI. rewrite Sl. discriminate.
  - (* C_SetPIN *)
    assert (SAME : s' = s -> set_pin_ok m h old new = false -> exists m', moves m (OSetPIN h old new) o m' /\ lsim w U s' m').
    { intros -> N. eexists. split; [|apply QUIET; reflexivity]. split; [reflexivity|]. rewrite N. split; reflexivity. }
    unfold set_pin_ok in *. cbn [step] in E. apply (on_sess2 _ (l_dev m)) in E as [(Es & N & F)|(x & Cn & X & Us & Cd & M & E & F)]; [split; [split; [exact SA|apply F]|apply SAME; [exact Es|]]| |exact S].
    { destruct N as [N | ->]; [destruct (Z.ltb_spec 0 (d_count (l_dev m))); [lia|reflexivity]|apply andb_false_r]. }
    assert (QQ : says (l_dev m) (OSetPIN h old new) o) by exact SA. cbn [says] in QQ. unfold on_session in QQ. rewrite M in QQ.
    destruct (Z.leb_spec (d_count (l_dev m)) 0); [apply Z.ltb_lt in Cd; lia|].
    rewrite Cd, M in *. cbn [andb] in *.
    unfold SetPIN in E. cbv zeta in E. change (pin_len_ok old) with (good_pin old) in E. change (pin_len_ok new) with (good_pin new) in E.
    destruct (good_pin old) eqn:GO; cbn [negb andb] in *; [|unfold rv_ in E; injection E as <- <-; split; [split; [exact SA|apply F; rewrite andb_false_r; exact Logic.I]|apply SAME; [reflexivity|apply andb_false_r]]].
    destruct (good_pin new) eqn:GN; cbn [negb] in *; [|unfold rv_ in E; injection E as <- <-; split; [split; [exact SA|apply F; rewrite andb_false_r; exact Logic.I]|apply SAME; [reflexivity|apply andb_false_r]]].
    rewrite (state_code s (l_dev m) x S Us) in E.
    match type of E with (if ?b then _ else _) = _ => destruct b eqn:Q end.
    { unfold rv_ in E. injection E as <- <-. destruct (is_rw x) eqn:Rw; [exfalso; destruct (d_who (l_dev m)) as [[]|]; discriminate Q|].
      split; [split; [exact SA|apply F; exact Logic.I]|apply SAME; reflexivity]. }
    assert (Rw : is_rw x = true).
    { destruct (is_rw x) eqn:Rw; [reflexivity|]. cbn [negb] in *. destruct (d_who (l_dev m)) as [[]|]; try discriminate Q.
      (* a read-only session beside the SO *) exfalso. cbn in QQ. subst o. unfold rv_ in E.
      match type of E with (if ?b then _ else _) = _ => destruct b end; [discriminate E|].
      match type of E with (if ?b then _ else _) = _ => destruct b end; [discriminate E|].
      match type of E with bind ?r _ = _ => destruct r as [[c1 s1]| |] end; cbn [bind] in E; try discriminate. injection E as _ E. destruct (c1 =? 0)%Z; discriminate. }
    rewrite Rw in *. cbn [andb] in *.
    set (r := own_role (l_dev m)) in *.
    assert (RE : (state_of (d_who (l_dev m)) true =? RW_SO)%Z = match r with SO => true | User => false end) by (unfold r, own_role; destruct (d_who (l_dev m)) as [[]|]; reflexivity).
    rewrite RE in E.
    assert (PE : (if match r with SO => true | User => false end then t_so (s_tok s) else t_user (s_tok s)) = pin_of r (s_tok s)) by (destruct r; reflexivity).
    rewrite PE in E. pose proof (Gs r) as G. rewrite <- Ti in G.
    rewrite (check_sim w U (s_tok s) _ _ old ltac:(apply PU; left; reflexivity) G) in E. rewrite Ti in G.
    destruct (accepts (l_guard m r) old) as [[]|] eqn:AC; cbn in E;
      [|unfold rv_ in E; injection E as <- <-; split; [split; [exact SA|apply F; reflexivity]|apply SAME; reflexivity]..].
    match type of E with bind ?r _ = _ => destruct r as [[c1 s1]| |] eqn:T end; cbn [bind] in E; try discriminate. unfold rv_ in E. injection E as <- <-.
    split; [split; [exact SA|apply F; eexists; split; [reflexivity|]; destruct (c1 =? 0)%Z; cbn; auto]|].
    eexists (Lib _ (l_made m) (at_role (l_guard m) r (new_pin new (l_guard m r)))).
    split; [split; [reflexivity|]; unfold set_pin_ok; fold r; rewrite Cd, M, GO, GN, AC; split; reflexivity|].
    assert (Md : l_made m = true).
    { destruct G as (_ & _ & _ & G). unfold accepts in AC. destruct (q_pin _); [|discriminate]. apply G. }
    destruct G as (G1 & G2 & G3 & _).
    assert (NW : In new U) by (apply PU; right; left; reflexivity).
    destruct r; apply tok_store in T as (T1 & T2 & T3).
    + eapply role_sim; [exact LS|exact SN|exact T1| |exact T3]. cbn [pin_of] in *. rewrite T2. apply gsim_new; auto.
    + eapply role_sim; [exact LS|exact SN|exact T1| |exact T2]. cbn [pin_of] in *. rewrite T3. apply gsim_new; auto.
  - (* C_Login *)
    assert (SAME : s' = s -> match good_pin pin, role_of ut, andb (0 <? d_count (l_dev m))%Z (is_open (l_dev m) h) with true, Some _, true => False | _, _, _ => True end ->
       exists m', moves m (OLogin h ut pin now) o m' /\ lsim w U s' m').
    { intros -> N. eexists. split; [|apply QUIET; reflexivity]. split; [reflexivity|]. destruct (good_pin pin), (role_of ut), (andb (0 <? d_count (l_dev m))%Z (is_open (l_dev m) h)); try contradiction; split; reflexivity. }
    unfold is_open in *. cbn [step] in E. apply (on_sess2 _ (l_dev m)) in E as [(Es & N & F)|(x & Cn & X & Us & Cd & M & E & F)]; [split; [split; [exact SA|apply F]|apply SAME; [exact Es|]]| |exact S].
    { replace (andb _ _) with false by (destruct N as [N | ->]; [destruct (Z.ltb_spec 0 (d_count (l_dev m))); [lia|reflexivity]|symmetry; apply andb_false_r]). destruct (good_pin pin), (role_of ut); exact Logic.I. }
    rewrite Cd, M in *. cbn [andb] in *. destruct (good_pin pin) eqn:GP.
    2:{ unfold Login in E. change (pin_len_ok pin) with (good_pin pin) in E. rewrite GP in E. unfold rv_ in E. injection E as <- <-. split; [split; [exact SA|apply F; exact Logic.I]|apply SAME; [reflexivity|exact Logic.I]]. }
    destruct (role_of ut) as [r|] eqn:Ro.
    + assert (EU : ut = cku r).
      { unfold role_of in Ro. destruct (Z.eqb_spec ut 0) as [->|]; [injection Ro as <-; reflexivity|]. destruct (Z.eqb_spec ut 1) as [->|]; [injection Ro as <-; reflexivity|discriminate]. }
      subst ut. destruct (login_sim w U s m r pin now s' o I Cn LS ltac:(apply PU; left; reflexivity) GP E) as (A1 & A2 & A3 & A4).
      split; [split; [exact SA|apply F; exact A1]|].
      eexists (Lib _ (l_made m) (at_role (l_guard m) r _)). split; [|eapply role_sim; [exact LS|exact SN|exact A2|exact A3|exact A4]].
      split; [reflexivity|]. unfold is_open. rewrite GP, Ro, Cd, M. split; reflexivity.
    + unfold Login in E. change (pin_len_ok pin) with (good_pin pin) in E. rewrite GP in E. cbn [negb] in E. unfold role_of in Ro.
      change CKU_SO with 0%Z in E. change CKU_USER with 1%Z in E. destruct (ut =? 0)%Z; [discriminate|]. destruct (ut =? 1)%Z; [discriminate|].
      destruct (ut =? CKU_CONTEXT_SPECIFIC)%Z; unfold rv_ in E; injection E as <- <-; (split; [split; [exact SA|apply F; exact Logic.I]|apply SAME; [reflexivity|exact Logic.I]]).
  - (* C_GetTokenInfo *)
    cbn [step] in E. split; [split; [exact SA|]|eexists; split; [|apply QUIET; apply SP]; repeat split].
    apply (on_slot_ _ (l_dev m)) in E as [(-> & A & B & _ & F)|(Cn & E & F)]; [apply F| |exact S]. injection E as <- <-. apply F.
    eexists _, _. rewrite Ti. f_equal; [unfold pin_flags, warnings, MAX_FAILS; pose proof (Gs SO) as (G1 & G2 & G3 & _); cbn [pin_of] in *; rewrite G1, G2, G3; reflexivity|unfold pin_flags, warnings, MAX_FAILS; pose proof (Gs User) as (G1 & G2 & G3 & _); cbn [pin_of] in *; rewrite G1, G2, G3; reflexivity].
Qed.
Print Assumptions C119_step.

Lemma run_lsim w U l : hash32 w -> apart w U -> forall s m s' os, inv s -> li_init s -> lsim w U s m -> incl (all_pins (map fst l)) U -> run w s l = Ok (s', os) ->
  accords m (map fst l) os.
Proof.
  intros H32 HU. induction l as [|[c rnd] l IH]; intros s m s' os I L S PU E; cbn [run] in E.
  - injection E as _ <-. exact Logic.I.
  - destruct (step w rnd s c) as [[s1 o]| |] eqn:E1; cbn [bind] in E; try discriminate.
    destruct (run w s1 l) as [[s2 os2]| |] eqn:E2; cbn [bind] in E; try discriminate. injection E as <- <-.
    cbn [map fst all_pins flat_map] in PU. apply incl_app_inv in PU as [P1 P2].
    destruct (C119_step w U rnd s m c s1 o H32 HU I L S P1 E1) as (A & m' & B & C).
    cbn [map fst accords]. split; [exact A|]. exists m'. split; [exact B|].
    eapply IH; [| |exact C|exact P2|exact E2]; [eapply step_inv; eauto|eapply step_li; eauto].
Qed.
Lemma lsim0 w U fs : lsim w U (sys0 fs) lib0.
Proof. split; [apply sim0|]. split; [reflexivity|]. intros []; repeat split; cbn; auto. Qed.
(** Every history, whatever the storage holds and whatever the world. *)
Theorem C119_follows : forall w fs l s os, hash32 w -> apart w (all_pins (map fst l)) -> run w (sys0 fs) l = Ok (s, os) -> accords lib0 (map fst l) os.
Proof. intros w fs l s os H32 HU E. eapply (run_lsim w (all_pins (map fst l))); eauto; [apply inv0|intros X; cbn in X; congruence|apply lsim0|apply incl_refl]. Qed.
Print Assumptions C119_follows.

(** A wrong PIN tells that it is wrong and nothing else: the library answers every other wrong PIN in the same way and
    is left in the same state. *)
Theorem C119_wrong_alike : forall w rnd s h a b, good_pin a = true -> good_pin b = true ->
  let wrong r := ~ right w (s_tok s) r a /\ ~ right w (s_tok s) r b in
  (forall r now, wrong r -> step w rnd s (OLogin h (cku r) a now) = step w rnd s (OLogin h (cku r) b now)) /\
  (forall new, wrong SO -> wrong User -> step w rnd s (OSetPIN h a new) = step w rnd s (OSetPIN h b new)) /\
  (forall slot label, t_init (s_tok s) = true -> wrong SO -> step w rnd s (OInitToken slot a label) = step w rnd s (OInitToken slot b label)).
Proof.
  intros w rnd s h a b Ga Gb wrong.
  change (good_pin a) with (pin_len_ok a) in Ga. change (good_pin b) with (pin_len_ok b) in Gb.
  assert (SAME : forall r, wrong r -> CheckPin w (s_tok s) (pin_of r (s_tok s)) a = CheckPin w (s_tok s) (pin_of r (s_tok s)) b).
  { intros r [A B]. rewrite right_check in A, B.
    pose proof (check_cases w (s_tok s) (pin_of r (s_tok s)) a) as [X|[X|[X|[]]]]; [congruence| |];
    pose proof (check_cases w (s_tok s) (pin_of r (s_tok s)) b) as [Y|[Y|[Y|[]]]]; try congruence; exfalso.
    - symmetry in Y. apply check_not_set in Y. apply check_not_set with (w := w) (a := a) in Y. rewrite Y in X. discriminate X.
    - symmetry in X. apply check_not_set in X. apply check_not_set with (w := w) (a := b) in X. rewrite X in Y. discriminate Y. }
  split; [|split].
  - intros r now Wr. cbn [step]. unfold with_sess, need_lib. destruct (0 <? s_count s)%Z; [|reflexivity]. destruct (sess_get s h); [|reflexivity].
    unfold Login. rewrite Ga, Gb. cbn [negb]. specialize (SAME r Wr). destruct Wr as [Wa Wb]. rewrite right_check in Wa, Wb. destruct r; cbn [cku pin_of] in *.
    + change (CKU_SO =? CKU_SO)%Z with true. cbv iota. unfold SOLogin. destruct now as [n|]; [|reflexivity]. destruct (logged_in _); [reflexivity|].
      destruct (lock_check (t_so (s_tok s)) n) as [p|] eqn:K; [|reflexivity]. pose proof (lock_same _ _ _ K) as (E1 & E2 & E3 & _).
      destruct (existsb _ _); [reflexivity|]. cbv zeta.
      rewrite !(check_same w (s_tok s) (set_so (s_tok s) p) (t_so (s_tok s)) p _ eq_refl E1 E2 E3). rewrite SAME. reflexivity.
    + change (CKU_USER =? CKU_SO)%Z with false. change (CKU_USER =? CKU_USER)%Z with true. cbv iota. unfold UserLogin. destruct now as [n|]; [|reflexivity]. destruct (logged_in _); [reflexivity|].
      destruct (lock_check (t_user (s_tok s)) n) as [p|] eqn:K; [|reflexivity]. pose proof (lock_same _ _ _ K) as (E1 & E2 & E3 & _). cbv zeta.
      rewrite !(check_same w (s_tok s) (set_user (s_tok s) p) (t_user (s_tok s)) p _ eq_refl E1 E2 E3). rewrite SAME in *. 
      destruct (_ =? PIN_INVALID_E)%Z; [reflexivity|]. destruct (Z.eqb_spec (CheckPin w (s_tok s) (t_user (s_tok s)) b) 0); [congruence|reflexivity].
  - intros new Ws Wu. cbn [step]. unfold with_sess, need_lib. destruct (0 <? s_count s)%Z; [|reflexivity]. destruct (sess_get s h) as [x|]; [|reflexivity].
    unfold SetPIN. cbv zeta. rewrite Ga, Gb. cbn [negb]. destruct (negb (pin_len_ok new)); [reflexivity|]. destruct (negb _); [reflexivity|].
    pose proof (SAME SO Ws) as E1. pose proof (SAME User Wu) as E2. cbn [pin_of] in E1, E2. destruct (_ =? RW_SO)%Z; [rewrite E1|rewrite E2]; reflexivity.
  - intros slot label TI Ws. cbn [step]. unfold with_slot, need_lib. destruct (0 <? s_count s)%Z; [|reflexivity]. destruct (slot_ok slot); [|reflexivity].
    unfold InitToken. rewrite Ga, Gb, TI. cbn [negb andb]. destruct (existsb _ _); [reflexivity|].
    pose proof (SAME SO Ws) as E1. cbn [pin_of] in E1. destruct Ws as [Wa Wb]. rewrite right_check in Wa, Wb. cbn [pin_of] in Wa, Wb.
    destruct (Z.eqb_spec (CheckPin w (s_tok s) (t_so (s_tok s)) a) 0); [congruence|]. destruct (Z.eqb_spec (CheckPin w (s_tok s) (t_so (s_tok s)) b) 0); [congruence|]. reflexivity.
Qed.
Print Assumptions C119_wrong_alike.

(** A history with wrong PINs, a lock-out, its end, and a change of PIN: the hypotheses hold and the answers are these. *)
Definition c119 : list op :=
  setup ++ [OOpenSession 1 RW; OLogin H2 CKU_USER wrong (Some 100%Z); OLogin H2 CKU_USER pin2 (Some 101%Z); OGetTokenInfo 1 101; OLogin H2 CKU_USER wrong (Some 102%Z);
            OGetTokenInfo 1 102; OLogin H2 CKU_USER upin (Some 162%Z); OLogin H2 CKU_USER upin (Some 163%Z); OSetPIN H2 wrong pin2; OSetPIN H2 upin pin2; OLogout H2;
            OLogin H2 CKU_USER upin (Some 170%Z); OLogin H2 CKU_USER pin2 (Some 171%Z)].
Example C119_case : apart tw (all_pins c119) /\
  map out_rv (skipn 8 (outs c119)) = [CKR_PIN_INCORRECT; CKR_PIN_INCORRECT; CKR_OK; CKR_PIN_INCORRECT; CKR_OK; CKR_PIN_INCORRECT; CKR_OK; CKR_PIN_INCORRECT; CKR_OK; CKR_OK; CKR_PIN_INCORRECT; CKR_OK] /\
  nth 10 (outs c119) (OutRv 1) = OutTok CKR_OK lab (false, false, false) (true, true, false) true true /\
  nth 12 (outs c119) (OutRv 1) = OutTok CKR_OK lab (false, false, false) (true, false, true) true true.
Proof.
  split; [|vm_compute; auto]. intros p q sd P Q E.
  change (toy_hash p sd = toy_hash q sd) in E. apply (f_equal (firstn 16)) in E. unfold toy_hash in E.
  assert (L : forall l, length (pad 16 l) = 16) by (intros l; unfold pad, zeros; rewrite firstn_length, app_length, repeat_length; lia).
  rewrite !firstn_app, !L, Nat.sub_diag in E. rewrite !firstn_O, !app_nil_r, !firstn_all2 in E by (rewrite L; lia).
  assert (D : forallb (fun x => forallb (fun y => implb (text_eqb (pad 16 x) (pad 16 y)) (text_eqb x y)) (all_pins c119)) (all_pins c119) = true) by (vm_compute; reflexivity).
  rewrite forallb_forall in D. specialize (D p P). rewrite forallb_forall in D. specialize (D q Q).
  unfold text_eqb in D at 1. destruct (list_eq_dec _ _ _); [|contradiction]. cbn [implb] in D. unfold text_eqb in D. destruct (list_eq_dec N.eq_dec p q); [assumption|discriminate].
Qed.
