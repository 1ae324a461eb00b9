(** C_Login, case by case, and the frame of the failure counters. *)
From Verif Require Import Base Ops Object Store Sys SysProofs SysProofs2 SysProofs3 SysProofs4.

Inductive role := SO | User.
Definition cku (r : role) : Z := match r with SO => CKU_SO | User => CKU_USER end.
Definition other (r : role) : role := match r with SO => User | User => SO end.
Definition pin_of (r : role) (t : token) : pin := match r with SO => t_so t | User => t_user t end.
Definition set_pin (r : role) (t : token) (p : pin) : token := match r with SO => set_so t p | User => set_user t p end.
Definition tmo_of (r : role) : Z := match r with SO => SO_TIMEOUT | User => USER_TIMEOUT end.
Definition login_state (r : role) : Z := match r with SO => RW_SO | User => RW_USER end.
Definition ro_open (s : sys) : bool := existsb (fun x => ss_use x =? SESSION_RO)%Z (s_sess s).
(** The PIN given agrees with the stored one. *)
Definition right (w : world) (t : token) (r : role) (a : list N) : Prop :=
  let p := pin_of r t in
  t_init t = true /\ p_len p <> 0%Z /\
  firstn (Z.to_nat (p_len p)) (se_hash (w_se w) a (p_seed p)) = firstn (Z.to_nat (p_len p)) (p_hash p).

Section W.
Variable w : world.
Lemma check_0 t p a : CheckPin w t p a = 0%Z <->
  t_init t = true /\ p_len p <> 0%Z /\
  firstn (Z.to_nat (p_len p)) (se_hash (w_se w) a (p_seed p)) = firstn (Z.to_nat (p_len p)) (p_hash p).
Proof.
  unfold CheckPin. destruct (t_init t); cbn [negb orb]; [|split; [discriminate|intuition discriminate]].
  destruct (p_len p =? 0)%Z eqn:L; [apply Z.eqb_eq in L; split; [discriminate|intuition]|]. apply Z.eqb_neq in L.
  destruct (list_eq_dec _ _ _); [tauto|]. split; [discriminate|tauto].
Qed.
Lemma check_cases t p a : In (CheckPin w t p a) [0; PIN_INVALID_E; PIN_NOT_SET_E]%Z.
Proof. unfold CheckPin. destruct (orb _ _); [cbn; auto|]. destruct (list_eq_dec _ _ _); cbn; auto. Qed.
Lemma check_not_set t p a : CheckPin w t p a = PIN_NOT_SET_E <-> t_init t = false \/ p_len p = 0%Z.
Proof.
  unfold CheckPin. destruct (t_init t); cbn [negb orb]; [|tauto].
  destruct (p_len p =? 0)%Z eqn:L; [apply Z.eqb_eq in L; tauto|]. apply Z.eqb_neq in L.
  destruct (list_eq_dec _ _ _); split; try discriminate; intros [?|?]; congruence.
Qed.
Lemma check_same t t' p p' a : t_init t' = t_init t -> p_len p' = p_len p -> p_seed p' = p_seed p -> p_hash p' = p_hash p ->
  CheckPin w t' p' a = CheckPin w t p a.
Proof. unfold CheckPin. intros -> -> -> ->. reflexivity. Qed.
Lemma right_check t r a : right w t r a <-> CheckPin w t (pin_of r t) a = 0%Z.
Proof. unfold right. cbv zeta. rewrite check_0. tauto. Qed.
Lemma lock_same p n p' : lock_check p n = Some p' ->
  p_len p' = p_len p /\ p_seed p' = p_seed p /\ p_hash p' = p_hash p /\ p_last p' = p_last p /\ p_tmo p' = p_tmo p /\
  ((p_fail p <> 3 /\ p' = p) \/ (p_fail p = 3 /\ p_last p + p_tmo p < n /\ p_fail p' = 0))%Z.
Proof.
  unfold lock_check, MAX_FAILS. destruct (p_fail p =? 3)%Z eqn:F; [|intros [= <-]; repeat split; left; split; [lia|reflexivity]].
  destruct (_ <? n)%Z eqn:T; [|discriminate]. intros [= <-]. repeat split. right. cbn. lia.
Qed.
Lemma lock_none p n : lock_check p n = None <-> (p_fail p = 3 /\ n <= p_last p + p_tmo p)%Z.
Proof.
  unfold lock_check, MAX_FAILS. destruct (p_fail p =? 3)%Z eqn:F; [destruct (_ <? n)%Z eqn:T|]; split; intros X; try discriminate X; try (exfalso; lia); try reflexivity; lia.
Qed.

(** The ways C_Login can go, for an open session and a PIN of allowed length. *)
Inductive attempt (s : sys) (r : role) (a : list N) (n : Z) : sys -> Z -> Prop :=
  | at_logged : logged_in (t_login (s_tok s)) = true -> attempt s r a n s CKR_USER_ALREADY_LOGGED_IN
  | at_locked : logged_in (t_login (s_tok s)) = false -> lock_check (pin_of r (s_tok s)) n = None ->
      attempt s r a n s CKR_PIN_INCORRECT
  | at_ro p : logged_in (t_login (s_tok s)) = false -> lock_check (pin_of r (s_tok s)) n = Some p ->
      r = SO -> ro_open s = true ->
      attempt s r a n (set_tok s (set_pin r (s_tok s) p)) CKR_SESSION_READ_ONLY_EXISTS
  | at_unset p : logged_in (t_login (s_tok s)) = false -> lock_check (pin_of r (s_tok s)) n = Some p ->
      (r = SO -> ro_open s = false) -> CheckPin w (s_tok s) (pin_of r (s_tok s)) a = PIN_NOT_SET_E ->
      attempt s r a n (set_tok s (set_pin r (s_tok s) p)) CKR_USER_PIN_NOT_INITIALIZED
  | at_wrong p : logged_in (t_login (s_tok s)) = false -> lock_check (pin_of r (s_tok s)) n = Some p ->
      (r = SO -> ro_open s = false) -> CheckPin w (s_tok s) (pin_of r (s_tok s)) a = PIN_INVALID_E ->
      attempt s r a n (set_tok s (set_pin r (s_tok s) (count_fail p n (tmo_of r)))) CKR_PIN_INCORRECT
  | at_ok p k l : logged_in (t_login (s_tok s)) = false -> lock_check (pin_of r (s_tok s)) n = Some p ->
      (r = SO -> ro_open s = false) -> CheckPin w (s_tok s) (pin_of r (s_tok s)) a = 0%Z ->
      map ident l = map ident (t_objs (s_tok s)) ->
      attempt s r a n (set_tok s (set_login (set_objs (set_key (set_pin r (s_tok s) (reset_fail p)) k) l) (login_state r))) CKR_OK
  | at_undecoded p k l rv : logged_in (t_login (s_tok s)) = false -> lock_check (pin_of r (s_tok s)) n = Some p ->
      r = User -> CheckPin w (s_tok s) (pin_of r (s_tok s)) a = 0%Z ->
      map ident l = map ident (t_objs (s_tok s)) -> rv <> CKR_OK ->
      attempt s r a n (set_tok s (set_objs (set_key (set_pin r (s_tok s) (reset_fail p)) k) l)) rv.

Lemma eta_tok t : mkTok (t_label t) (t_init t) (t_so t) (t_user t) (t_seed t) (t_key t) (t_login t) (t_objs t) = t.
Proof. destruct t; reflexivity. Qed.
Lemma eta_sys s : mkSys (s_count s) (s_sess s) (s_tok s) (s_fs s) (s_log s) (s_uid s) = s.
Proof. destruct s; reflexivity. Qed.
Lemma login_rv_nz so c : (c <> 0 -> login_rv so c <> CKR_OK)%Z.
Proof.
  intros C. unfold login_rv. destruct (c =? LOGGED_IN_E)%Z; [discriminate|]. destruct (andb so _); [discriminate|].
  destruct (c =? PIN_NOT_SET_E)%Z; [discriminate|]. destruct (c =? 0)%Z eqn:E; [lia|discriminate].
Qed.
Lemma login_attempt s r a n s' o : pin_len_ok a = true -> Login w s (cku r) a (Some n) = Ok (s', o) ->
  exists rv, o = OutRv rv /\ attempt s r a n s' rv.
Proof.
  intros L H. unfold Login in H. rewrite L in H. cbn [negb] in H. destruct r; cbn [cku] in H.
  - change (CKU_SO =? CKU_SO)%Z with true in H. cbv iota in H.
    destruct (SOLogin w (s_sess s) (s_tok s) a (Some n)) as [c t] eqn:E. unfold rv_ in H. injection H as <- <-.
    eexists. split; [reflexivity|]. unfold SOLogin in E.
    destruct (logged_in (t_login (s_tok s))) eqn:LI.
    { injection E as <- <-. destruct s; cbn. change (login_rv true LOGGED_IN_E) with CKR_USER_ALREADY_LOGGED_IN. apply at_logged. exact LI. }
    destruct (lock_check (t_so (s_tok s)) n) as [p|] eqn:K.
    2:{ injection E as <- <-. change (login_rv true PIN_INVALID_E) with CKR_PIN_INCORRECT. destruct s; cbn in *.
        apply at_locked; auto. }
    destruct (existsb _ _) eqn:RO.
    { injection E as <- <-. change (login_rv true READ_ONLY_E) with CKR_SESSION_READ_ONLY_EXISTS. apply (at_ro s SO a n p); auto. }
    pose proof (lock_same _ _ _ K) as (E1 & E2 & E3 & _).
    rewrite (check_same (s_tok s) (set_so (s_tok s) p) (t_so (s_tok s)) p a eq_refl E1 E2 E3) in E.
    pose proof (check_cases (s_tok s) (t_so (s_tok s)) a) as C.
    destruct (CheckPin w (s_tok s) (t_so (s_tok s)) a =? PIN_INVALID_E)%Z eqn:C1.
    { injection E as <- <-. apply Z.eqb_eq in C1. rewrite C1. apply (at_wrong s SO a n p); auto. }
    destruct (CheckPin w (s_tok s) (t_so (s_tok s)) a =? 0)%Z eqn:C2.
    { injection E as <- <-. apply Z.eqb_eq in C2. change (login_rv true 0) with CKR_OK.
      apply (at_ok s SO a n p (t_key (s_tok s)) (t_objs (s_tok s))); auto. }
    injection E as <- <-. apply Z.eqb_neq in C1, C2. destruct C as [C | [C | [C | []]]]; try congruence. rewrite <- C.
    apply (at_unset s SO a n p); auto.
  - change (CKU_USER =? CKU_SO)%Z with false in H. change (CKU_USER =? CKU_USER)%Z with true in H. cbv iota in H.
    destruct (UserLogin w (s_tok s) a (Some n)) as [[c t]| |] eqn:E; cbn [bind] in H; try discriminate. unfold rv_ in H. injection H as <- <-.
    eexists. split; [reflexivity|]. unfold UserLogin in E.
    destruct (logged_in (t_login (s_tok s))) eqn:LI.
    { injection E as <- <-. destruct s; cbn. change (login_rv false LOGGED_IN_E) with CKR_USER_ALREADY_LOGGED_IN. apply at_logged. exact LI. }
    destruct (lock_check (t_user (s_tok s)) n) as [p|] eqn:K.
    2:{ injection E as <- <-. change (login_rv false PIN_INVALID_E) with CKR_PIN_INCORRECT. destruct s; cbn in *.
        apply at_locked; auto. }
    pose proof (lock_same _ _ _ K) as (E1 & E2 & E3 & _).
    rewrite (check_same (s_tok s) (set_user (s_tok s) p) (t_user (s_tok s)) p a eq_refl E1 E2 E3) in E.
    pose proof (check_cases (s_tok s) (t_user (s_tok s)) a) as C.
    destruct (CheckPin w (s_tok s) (t_user (s_tok s)) a =? PIN_INVALID_E)%Z eqn:C1.
    { injection E as <- <-. apply Z.eqb_eq in C1. rewrite C1. apply (at_wrong s User a n p); auto. discriminate. }
    destruct (CheckPin w (s_tok s) (t_user (s_tok s)) a =? 0)%Z eqn:C2.
    { apply Z.eqb_eq in C2. cbn [t_key t_objs set_key set_user] in E.
      destruct (decode_all _ _ _) as [[c2 l]| |] eqn:D; cbn [bind] in E; try discriminate.
      apply decode_all_ident in D as [D _].
      destruct (c2 =? 0)%Z eqn:C0; injection E as <- <-.
      - change (login_rv false 0) with CKR_OK.
        apply (at_ok s User a n p (se_hash (w_se w) a (t_seed (s_tok s))) l); auto. discriminate.
      - apply (at_undecoded s User a n p (se_hash (w_se w) a (t_seed (s_tok s))) l); auto. apply login_rv_nz. lia. }
    injection E as <- <-. apply Z.eqb_neq in C1, C2. destruct C as [C | [C | [C | []]]]; try congruence. rewrite <- C.
    apply (at_unset s User a n p); auto. discriminate.
Qed.

Lemma logged_in_inv s : inv s -> (logged_in (t_login (s_tok s)) = false <-> t_login (s_tok s) = RW_PUBLIC).
Proof. intros (_ & _ & _ & [J | [J | [J | []]]] & _); rewrite <- J; split; try reflexivity; discriminate. Qed.

(** Which calls leave the PIN records alone. *)
Lemma step_pins rnd s c s' o : inv s -> step w rnd s c = Ok (s', o) ->
  match c with
  | OInitialize | OFinalize | ORestart | OInitToken _ _ _ | OInitPIN _ _ | OSetPIN _ _ _ | OLogin _ _ _ _ => True
  | _ => t_so (s_tok s') = t_so (s_tok s) /\ t_user (s_tok s') = t_user (s_tok s) /\ t_init (s_tok s') = t_init (s_tok s) /\
         t_label (s_tok s') = t_label (s_tok s) /\ t_seed (s_tok s') = t_seed (s_tok s) /\ t_key (s_tok s') = t_key (s_tok s)
  end.
Proof.
  intros I H. destruct (objop c) as [h|] eqn:O.
  { pose proof (objop_prims _ _ _ _ _ _ _ I O H) as P. destruct (prims_inv _ _ _ _ _ P I) as [_ (_ & _ & Q)].
    apply tok0_eq in Q. destruct c; try discriminate O; tauto. }
  destruct c; try discriminate O; auto; cbn [step] in H; unfold with_slot, with_sess, need_lib in H;
  (destruct (0 <? s_count s)%Z eqn:Cn; [|sinv; tauto]).
  - destruct (slot_ok slot); [|sinv; tauto]. apply Z.ltb_lt in Cn. apply OpenSession_ok in H as [[-> _] | (l & x & P)]; auto; [tauto|].
    cbv zeta in P. destruct P as (-> & _). cbn. tauto.
  - destruct (sess_get s h) as [x|]; [|sinv; tauto]. unfold CloseSession in H.
    destruct (close_sess _ _) as [l| |]; cbn [bind] in H; try discriminate.
    destruct (existsb in_use l); [sinv; cbn; tauto|]. cbn [set_sess s_tok] in H.
    destruct (Logout w (s_tok s)) as [t| |] eqn:L; cbn [bind] in H; try discriminate. sinv. cbn.
    apply Logout_ok in L as (_ & _ & E1 & E2 & E3 & (E4 & E5 & E6) & _). tauto.
  - destruct (slot_ok slot); [|sinv; tauto]. destruct (close_all _) as [l| |]; cbn [bind] in H; try discriminate. sinv. cbn. tauto.
  - destruct (sess_get s h) as [x|]; [|sinv; tauto]. 
    destruct (Logout w (s_tok s)) as [t| |] eqn:L; cbn [bind] in H; try discriminate. sinv. cbn.
    apply Logout_ok in L as (_ & _ & E1 & E2 & E3 & (E4 & E5 & E6) & _). tauto.
  - destruct (slot_ok slot); sinv; tauto.
Qed.
End W.
