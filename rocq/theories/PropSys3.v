(** PIN changes, token initialisation, library bracketing: C09, C11, C12, C13. *)
From Verif Require Import Base Codec Ops Object Store Sys SysProofs SysProofs2 SysProofs3 SysProofs4 LoginProofs RvProofs ToySys PropSys1 PropSys2.

(** HashPIN gives PIN_HASH_SZ = 32 bytes: internal.c 3744-3768. *)
Definition hash32 (w : world) : Prop := forall p s, length (se_hash (w_se w) p s) = 32%nat.
Lemma tw_hash32 : hash32 tw.
Proof.
  intros p s. change (se_hash (w_se tw) p s) with (toy_hash p s). unfold toy_hash, pad.
  unfold zeros. rewrite app_length, !firstn_length, !app_length, !repeat_length. lia.
Qed.

(** Whoever is logged in, the token is initialised. *)
Definition li_init (s : sys) : Prop := t_login (s_tok s) <> RW_PUBLIC -> t_init (s_tok s) = true.
Lemma step_li w rnd s c s' o : inv s -> step w rnd s c = Ok (s', o) -> li_init s -> li_init s'.
Proof.
  intros I H L. unfold li_init in *. destruct (objop c) as [h|] eqn:O.
  { pose proof (objop_prims _ _ _ _ _ _ _ I O H) as P. destruct (prims_inv _ _ _ _ _ P I) as [_ (_ & _ & Q)].
    apply tok0_eq in Q as (_ & Q2 & _ & _ & _ & _ & Q7). rewrite Q2, Q7. exact L. }
  pose proof (step_pins _ _ _ _ _ _ I H) as SP.
  destruct c; try discriminate O; cbn [step] in H; unfold with_slot, with_sess, need_lib in H.
  - unfold Initialize in H. destruct (s_count s =? 0)%Z; [|unfold rv_ in H; injection H as <- _; exact L].
    destruct (Token_Load _ _ _) as [t| |] eqn:T; cbn [bind] in H; try discriminate. injection H as <- _. cbn.
    apply Token_Load_ok in T as [T _]. intros X. congruence.
  - unfold Finalize in H. destruct (_ =? 0)%Z; [|injection H as <- _; exact L]. sinv. cbn in *. congruence.
  - sinv. cbn in *. congruence.
  - destruct (0 <? s_count s)%Z; [|sinv; auto]. destruct (slot_ok slot); [|sinv; auto]. unfold InitToken in H.
    repeat match type of H with (if ?b then rv_ _ _ else _) = _ => destruct b; [sinv; auto|] end.
    destruct (TokenReset _ _ _ _ _) as [[c s1]| |] eqn:T; cbn [bind] in H; try discriminate. unfold rv_ in H. injection H as <- _.
    unfold TokenReset in T. destruct (free_all _); cbn [bind] in T; try discriminate. destruct (zlen _ <? 32)%Z; [discriminate|].
    apply store_frame in T as (_ & _ & _ & E & _). apply tok0_eq in E as (_ & E & _). rewrite E. reflexivity.
  - destruct (0 <? s_count s)%Z; [|sinv; auto]. destruct (sess_get s h); [|sinv; auto]. unfold InitPIN in H.
    repeat match type of H with (if ?b then rv_ _ _ else _) = _ => destruct b; [sinv; auto|] end.
    destruct (SetUserPin _ _ _ _) as [[c s1]| |] eqn:T; cbn [bind] in H; try discriminate. unfold rv_ in H. injection H as <- _.
    apply store_frame in T as (_ & _ & _ & E & _). apply tok0_eq in E as (_ & E & _ & _ & _ & _ & E2). rewrite E, E2. exact L.
  - destruct (0 <? s_count s)%Z; [|sinv; auto]. destruct (sess_get s h); [|sinv; auto]. unfold SetPIN in H. cbv zeta in H.
    repeat match type of H with (if ?b then rv_ _ _ else _) = _ => destruct b; [sinv; auto|] end.
    match type of H with bind ?r _ = _ => destruct r as [[c s1]| |] eqn:T end; cbn [bind] in H; try discriminate.
    unfold rv_ in H. injection H as <- _.
    destruct (_ =? _)%Z; apply store_frame in T as (_ & _ & _ & E & _); apply tok0_eq in E as (_ & E & _ & _ & _ & _ & E2);
    rewrite E, E2; exact L.
  - destruct (0 <? s_count s)%Z eqn:C; [|sinv; auto]. apply Z.ltb_lt in C. destruct (slot_ok slot); [|sinv; auto].
    apply OpenSession_ok in H as [[-> _] | (l & x & P)]; auto. cbv zeta in P. destruct P as (-> & _). exact L.
  - destruct (0 <? s_count s)%Z; [|sinv; auto]. destruct (sess_get s h) as [x|]; [|sinv; auto]. unfold CloseSession in H.
    destruct (close_sess _ _) as [l| |]; cbn [bind] in H; try discriminate.
    destruct (existsb in_use l); [sinv; auto|]. cbn [set_sess s_tok] in H.
    destruct (Logout w (s_tok s)) as [t| |] eqn:Lo; cbn [bind] in H; try discriminate. sinv. cbn in *.
    apply Logout_ok in Lo as (Lo & _). congruence.
  - destruct (0 <? s_count s)%Z; [|sinv; auto]. destruct (slot_ok slot); [|sinv; auto]. destruct (close_all _); cbn [bind] in H; try discriminate. sinv. auto.
  - destruct (0 <? s_count s)%Z; [|sinv; auto]. destruct (sess_get s h) as [x|]; [|sinv; auto].
    unfold Login in H. destruct (negb _); [sinv; auto|].
    destruct (ut =? CKU_SO)%Z; [|destruct (ut =? CKU_USER)%Z; [|destruct (ut =? CKU_CONTEXT_SPECIFIC)%Z; sinv; auto]].
    + destruct (SOLogin _ _ _ _ _) as [c t] eqn:E. unfold rv_ in H. injection H as <- _. cbn.
      pose proof E as E0. apply SOLogin_ok in E as (_ & _ & _ & (A1 & A2 & A3) & _ & _ & _ & [[C Lg] | (C & Lg & Pub & _)]).
      * rewrite A2, Lg. exact L.
      * intros _. subst c. rewrite A2. unfold SOLogin in E0. destruct now as [n|]; [|discriminate]. rewrite Pub in E0.
        destruct (lock_check _ _); [|discriminate]. destruct (existsb _ _); [discriminate|].
        cbv zeta in E0. destruct (_ =? PIN_INVALID_E)%Z eqn:C1; [injection E0 as E0 _; apply Z.eqb_eq in C1; rewrite E0 in C1; discriminate|].
        destruct (CheckPin _ _ _ _ =? 0)%Z eqn:C2; [|injection E0 as E0 _; rewrite E0 in C2; discriminate].
        apply Z.eqb_eq, check_0 in C2 as (C2 & _). exact C2.
    + destruct (UserLogin _ _ _ _) as [[c t]| |] eqn:E; cbn [bind] in H; try discriminate. unfold rv_ in H. injection H as <- _. cbn.
      pose proof E as E0. apply UserLogin_ok in E as (_ & _ & _ & (A1 & A2 & A3) & _ & _ & _ & [[C Lg] | (C & Lg & Pub)]).
      * rewrite A2, Lg. exact L.
      * intros _. subst c. rewrite A2. unfold UserLogin in E0. destruct now as [n|]; [|discriminate]. rewrite Pub in E0.
        destruct (lock_check _ _) as [p|]; [|discriminate].
        cbv zeta in E0. destruct (_ =? PIN_INVALID_E)%Z eqn:C1; [injection E0 as E0 _; apply Z.eqb_eq in C1; rewrite E0 in C1; discriminate|].
        destruct (CheckPin _ _ _ _ =? 0)%Z eqn:C2; [|injection E0 as E0 _; rewrite E0 in C2; discriminate].
        apply Z.eqb_eq, check_0 in C2 as (C2 & _). exact C2.
  - destruct (0 <? s_count s)%Z; [|sinv; auto]. destruct (sess_get s h) as [x|]; [|sinv; auto].
    destruct (Logout w (s_tok s)) as [t| |] eqn:Lo; cbn [bind] in H; try discriminate. sinv. cbn in *.
    apply Logout_ok in Lo as (Lo & _). congruence.
  - destruct (0 <? s_count s)%Z; [|sinv; auto]. destruct (slot_ok slot); sinv; auto.
Qed.
Lemma reach_li w d s : reach w (sys0 d) s -> li_init s.
Proof.
  intros R. assert (X : inv s /\ li_init s); [|apply X]. induction R as [|s rnd c s' o R IH H]; [split; [apply inv0|intros X; cbn in X; congruence]|].
  destruct IH as [I L]. split; [eapply step_inv; eauto|eapply step_li; eauto].
Qed.

(** ** C09 *)
Lemma right_set w t r r' p a : right w (set_pin r t p) r' a <->
  match r, r' with
  | SO, SO | User, User => t_init t = true /\ p_len p <> 0%Z /\
      firstn (Z.to_nat (p_len p)) (se_hash (w_se w) a (p_seed p)) = firstn (Z.to_nat (p_len p)) (p_hash p)
  | _, _ => right w t r' a
  end.
Proof. unfold right. destruct r, r'; cbn; tauto. Qed.
Lemma right_tok0 w t t' r a : tok0 t = tok0 t' -> (right w t r a <-> right w t' r a).
Proof. intros E. apply tok0_eq in E as (_ & E1 & E2 & E3 & _). unfold right. destruct r; cbn; rewrite E1, ?E2, ?E3; tauto. Qed.
(** After a change to [new] of the PIN of [r]. *)
Definition changed (w : world) (t t' : token) (r : role) (new : list N) : Prop :=
  right w t' r new /\
  (forall a, se_hash (w_se w) a (p_seed (pin_of r t')) <> se_hash (w_se w) new (p_seed (pin_of r t')) -> ~ right w t' r a) /\
  (forall a, right w t' (other r) a <-> right w t (other r) a).
Lemma changed_set w s rnd r new c s' t1 : hash32 w -> t_init (s_tok s) = true ->
  let p := pin_of r (s_tok s) in
  tok0 t1 = tok0 (set_pin r (s_tok s) (mkPin (se_hash (w_se w) new (rbytes 16 (rnd 0%nat))) 32 (rbytes 16 (rnd 0%nat)) (p_fail p) (p_last p) (p_tmo p))) \/
  (exists k sd, tok0 t1 = tok0 (set_key (set_seed (set_pin r (s_tok s) (mkPin (se_hash (w_se w) new (rbytes 16 (rnd 0%nat))) 32 (rbytes 16 (rnd 0%nat)) (p_fail p) (p_last p) (p_tmo p))) sd) k)) ->
  store w rnd (set_tok s t1) = Ok (c, s') -> changed w (s_tok s) (s_tok s') r new.
Proof.
  intros H32 TI p E St. apply store_frame in St as (_ & _ & _ & E4 & _). cbn in E4.
  set (q := mkPin (se_hash (w_se w) new (rbytes 16 (rnd 0%nat))) 32 (rbytes 16 (rnd 0%nat)) (p_fail p) (p_last p) (p_tmo p)) in *.
  assert (R : forall r' a, right w (s_tok s') r' a <-> right w (set_pin r (s_tok s) q) r' a).
  { intros r' a. rewrite (right_tok0 w _ _ r' a E4). destruct E as [E | (k & sd & E)]; rewrite (right_tok0 w _ _ r' a E); [reflexivity|].
    unfold right. destruct r, r'; cbn; tauto. }
  assert (P : pin_of r (s_tok s') = q).
  { apply tok0_eq in E4 as (_ & _ & A & B & _). destruct E as [E | (k & sd & E)]; apply tok0_eq in E as (_ & _ & A2 & B2 & _);
    destruct r; cbn in *; congruence. }
  assert (F : forall a sd, firstn (Z.to_nat 32) (se_hash (w_se w) a sd) = se_hash (w_se w) a sd).
  { intros a sd. apply firstn_all2. rewrite H32. lia. }
  split; [|split].
  - apply R, right_set. destruct r; (split; [exact TI|]; split; [discriminate|reflexivity]).
  - intros a N Ra. apply R, right_set in Ra. rewrite P in N. apply N.
    destruct r; destruct Ra as (_ & _ & Ra); change (p_len q) with 32%Z in Ra; unfold q in Ra at 1 2; cbn [p_seed p_hash] in Ra; rewrite !F in Ra; exact Ra.
  - intros a. rewrite R, right_set. destruct r; reflexivity.
Qed.

Definition set_pin_role (st : Z) : role := if (st =? 4)%Z then SO else User.
Theorem C09_set_pin :
  forall w d s rnd h old new s' o, hash32 w -> reach w (sys0 d) s -> step w rnd s (OSetPIN h old new) = Ok (s', o) ->
    (out_rv o = CKR_OK -> exists st fl, info w s h = Some (OutInfo CKR_OK st fl) /\
       right w (s_tok s) (set_pin_role st) old /\ (4 <= zlen new <= 32)%Z /\
       changed w (s_tok s) (s_tok s') (set_pin_role st) new) /\
    (* refused because of the PIN, the session or the login: nothing changes *)
    (out_rv o <> CKR_OK -> out_rv o <> CKR_FUNCTION_FAILED -> s' = s) /\
    (~ (exists st fl, info w s h = Some (OutInfo CKR_OK st fl) /\ right w (s_tok s) (set_pin_role st) old) -> s' = s).
Proof.
  intros w d s rnd h old new s' o H32 R H. rewrite !info_eq.
  cbn [step] in H. unfold with_sess, need_lib in H.
  destruct (0 <? s_count s)%Z eqn:Cn; [|sinv; repeat split; [discriminate|reflexivity..]].
  destruct (sess_get s h) as [x|] eqn:G; [|sinv; repeat split; [discriminate|reflexivity..]].
  unfold SetPIN in H. cbv zeta in H.
  destruct (pin_len_ok old) eqn:L1; cbn [negb] in H; [|sinv; repeat split; [discriminate|reflexivity..]].
  destruct (pin_len_ok new) eqn:L2; cbn [negb] in H; [|sinv; repeat split; [discriminate|reflexivity..]].
  destruct (negb (orb _ _)) eqn:L3; [sinv; repeat split; [discriminate|reflexivity..]|].
  set (st := GetState (s_tok s) x) in *.
  assert (PE : (if (st =? RW_SO)%Z then t_so (s_tok s) else t_user (s_tok s)) = pin_of (set_pin_role st) (s_tok s)).
  { unfold set_pin_role, RW_SO. destruct (st =? 4)%Z; reflexivity. }
  rewrite PE in H.
  destruct (CheckPin w (s_tok s) (pin_of (set_pin_role st) (s_tok s)) old =? PIN_NOT_SET_E)%Z eqn:C1; [sinv; repeat split; [discriminate|reflexivity..]|].
  destruct (CheckPin w (s_tok s) (pin_of (set_pin_role st) (s_tok s)) old =? 0)%Z eqn:C2; cbn [negb] in H; [|sinv; repeat split; [discriminate|reflexivity..]].
  apply Z.eqb_eq in C2. apply right_check in C2.
  match type of H with bind ?r _ = _ => destruct r as [[c s1]| |] eqn:T end; cbn [bind] in H; try discriminate.
  unfold rv_ in H. injection H as <- <-.
  assert (Ch : changed w (s_tok s) (s_tok s1) (set_pin_role st) new).
  { unfold set_pin_role, RW_SO in *. destruct (st =? 4)%Z.
    - eapply changed_set; [exact H32|apply C2| |exact T]. left. reflexivity.
    - eapply changed_set; [exact H32|apply C2| |exact T]. right. eexists _, _. reflexivity. }
  split; [|split].
  - intros _. exists st, (mode_flags (is_rw x)). split; [reflexivity|]. split; [exact C2|]. split; [unfold pin_len_ok in L2; lia|exact Ch].
  - cbn. destruct (c =? 0)%Z; intros A B; contradiction.
  - intros N. exfalso. apply N. exists st, (mode_flags (is_rw x)). auto.
Qed.
Print Assumptions C09_set_pin.
Theorem C09_init_pin :
  forall w d s rnd h new s' o, hash32 w -> reach w (sys0 d) s -> step w rnd s (OInitPIN h new) = Ok (s', o) ->
    (out_rv o = CKR_OK -> (exists fl, info w s h = Some (OutInfo CKR_OK RW_SO fl)) /\ (4 <= zlen new <= 32)%Z /\
       changed w (s_tok s) (s_tok s') User new) /\
    (out_rv o <> CKR_OK -> out_rv o <> CKR_FUNCTION_FAILED -> s' = s) /\
    (~ (exists fl, info w s h = Some (OutInfo CKR_OK RW_SO fl)) -> s' = s).
Proof.
  intros w d s rnd h new s' o H32 R H. rewrite !info_eq. pose proof (reach_li _ _ _ R) as LI.
  cbn [step] in H. unfold with_sess, need_lib in H.
  destruct (0 <? s_count s)%Z eqn:Cn; [|sinv; repeat split; discriminate || reflexivity].
  destruct (sess_get s h) as [x|] eqn:G; [|sinv; repeat split; discriminate || reflexivity].
  unfold InitPIN in H.
  destruct (GetState (s_tok s) x =? RW_SO)%Z eqn:L1; cbn [negb] in H; [|sinv; repeat split; discriminate || reflexivity].
  destruct (pin_len_ok new) eqn:L2; cbn [negb] in H; [|sinv; repeat split; discriminate || reflexivity].
  destruct (SetUserPin _ _ _ _) as [[c s1]| |] eqn:T; cbn [bind] in H; try discriminate.
  unfold rv_ in H. injection H as <- <-. apply Z.eqb_eq in L1.
  assert (TI : t_init (s_tok s) = true).
  { apply LI. apply state_so in L1. rewrite L1. discriminate. }
  assert (Ch : changed w (s_tok s) (s_tok s1) User new).
  { eapply changed_set; [exact H32|exact TI| |exact T]. right. eexists _, _. reflexivity. }
  split; [|split].
  - intros _. split; [exists (mode_flags (is_rw x)); rewrite L1; reflexivity|]. split; [unfold pin_len_ok in L2; lia|exact Ch].
  - cbn. destruct (c =? 0)%Z; intros A B; contradiction.
  - intros N. exfalso. apply N. exists (mode_flags (is_rw x)). rewrite L1. reflexivity.
Qed.
Print Assumptions C09_init_pin.
(** Change the user PIN as the user, and as the SO. *)
Example C09_example :
  rvs (setup ++ [OOpenSession 1 RW; OLogin H2 CKU_USER upin (Some 1%Z); OSetPIN H2 wrong pin2; OSetPIN H2 upin pin2; OLogout H2;
                 OLogin H2 CKU_USER upin (Some 1%Z); OLogin H2 CKU_USER pin2 (Some 1%Z); OLogout H2;
                 OInitPIN H2 upin; OLogin H2 CKU_SO sopin (Some 1%Z); OInitPIN H2 upin; OLogout H2; OLogin H2 CKU_USER upin (Some 1%Z)]) =
  repeat CKR_OK 9 ++ [CKR_PIN_INCORRECT; CKR_OK; CKR_OK; CKR_PIN_INCORRECT; CKR_OK; CKR_OK;
                      CKR_USER_NOT_LOGGED_IN; CKR_OK; CKR_OK; CKR_OK; CKR_OK].
Proof. vm_compute. reflexivity. Qed.

(** ** C11 *)
Lemma store_empty w rnd s c s' : t_objs (s_tok s) = [] -> store w rnd s = Ok (c, s') -> c = 0%Z /\ s_tok s' = s_tok s.
Proof.
  unfold store, Token_Store. intros E H. rewrite E in H. destruct (tok_header _); cbn [bind store_objs] in H; try discriminate.
  injection H as <- <-. split; [reflexivity|]. cbn. unfold set_objs. rewrite <- E. apply eta_tok.
Qed.
Theorem C11_init_token :
  forall w d s rnd slot pin label s' o, hash32 w -> reach w (sys0 d) s -> t_init (s_tok s) = true ->
    step w rnd s (OInitToken slot pin label) = Ok (s', o) ->
    (out_rv o = CKR_OK ->
       (forall h, ~ valid w s h) /\ (4 <= zlen pin <= 32)%Z /\ right w (s_tok s) SO pin /\
       (* erased *)
       t_objs (s_tok s') = [] /\ (forall a, ~ right w (s_tok s') User a) /\ t_login (s_tok s') = RW_PUBLIC /\
       (forall r, p_fail (pin_of r (s_tok s')) = 0%Z /\ p_tmo (pin_of r (s_tok s')) = 0%Z) /\
       right w (s_tok s') SO pin /\
       (forall a, se_hash (w_se w) a (p_seed (t_so (s_tok s'))) <> se_hash (w_se w) pin (p_seed (t_so (s_tok s'))) -> ~ right w (s_tok s') SO a) /\
       (length label = 32%nat -> t_label (s_tok s') = label)) /\
    (out_rv o <> CKR_OK -> s' = s).
Proof.
  intros w d s rnd slot pin label s' o H32 R TI H. pose proof (reach_inv _ _ _ R) as I.
  cbn [step] in H. unfold with_slot, need_lib in H.
  destruct (0 <? s_count s)%Z eqn:Cn; [|sinv; split; [discriminate|reflexivity]].
  destruct (slot_ok slot); [|sinv; split; [discriminate|reflexivity]].
  unfold InitToken in H. rewrite TI in H. cbn [andb] in H.
  destruct (pin_len_ok pin) eqn:L; cbn [negb] in H; [|sinv; split; [discriminate|reflexivity]].
  destruct (existsb in_use (s_sess s)) eqn:EX; [sinv; split; [discriminate|reflexivity]|].
  destruct (CheckPin w (s_tok s) (t_so (s_tok s)) pin =? 0)%Z eqn:C; cbn [negb] in H; [|sinv; split; [discriminate|reflexivity]].
  apply Z.eqb_eq in C. 
  destruct (TokenReset _ _ _ _ _) as [[c s1]| |] eqn:T; cbn [bind] in H; try discriminate. unfold rv_ in H. injection H as <- <-.
  unfold TokenReset in T. destruct (free_all _) as [u| |]; cbn [bind] in T; try discriminate.
  destruct (zlen _ <? 32)%Z; [discriminate|].
  unfold SetSOPin in T. cbn [set_tok s_tok] in T. apply store_empty in T as [-> E]; [|reflexivity]. cbn [set_tok s_tok] in E.
  split; [|intros X; exfalso; apply X; reflexivity]. intros _.
  assert (F : forall a sd, firstn (Z.to_nat 32) (se_hash (w_se w) a sd) = se_hash (w_se w) a sd).
  { intros a sd. apply firstn_all2. rewrite H32. lia. }
  split; [|split; [|split]].
  - intros h V. apply valid_in in V as (x & X & _ & U); [|exact I].
    assert (Y : existsb in_use (s_sess s) = true) by (apply existsb_exists; eauto). congruence.
  - unfold pin_len_ok in L. lia.
  - apply (right_check w (s_tok s) SO). exact C.
  - rewrite E. cbn [set_so tok_init t_objs t_login t_label t_so t_user]. split; [reflexivity|]. split; [|split; [reflexivity|split; [|split; [|split]]]].
    + intros b (_ & Q & _). cbn in Q. congruence.
    + intros []; split; reflexivity.
    + split; [reflexivity|]. split; [discriminate|reflexivity].
    + cbn [p_seed]. intros b N (_ & _ & Q). cbn [pin_of set_so t_so p_len p_seed p_hash] in Q. rewrite !F in Q. contradiction.
    + intros LL. apply firstn_all2. lia.
Qed.
Print Assumptions C11_init_token.
Example C11_example :
  let l := setup ++ [OOpenSession 1 RW; OCreateObject H2 (mkA CKA_TOKEN (AV [1%N]) :: PropObject.aes_tmpl)] in
  rvs (l ++ [OInitToken 1 sopin lab; OCloseSession H2; OInitToken 1 wrong lab; OInitToken 1 sopin (repeat 65%N 32)]) =
    repeat CKR_OK 9 ++ [CKR_SESSION_EXISTS; CKR_OK; CKR_PIN_INCORRECT; CKR_OK] /\
  length (t_objs (s_tok (after l))) = 1.
Proof. vm_compute. auto. Qed.

(** ** C12 *)
(** No C_InitToken call of the history succeeded and there was no token file. *)
Definition never_inited (w : world) (l : list (op * (nat -> list N))) (os : list out) : Prop :=
  Forall2 (fun c o => match fst c with OInitToken _ _ _ => out_rv o <> CKR_OK | _ => True end) l os.
Definition C12_claim : Prop :=
  forall w l s os rnd pin label s' o, run w (sys0 nofiles) l = Ok (s, os) -> never_inited w l os -> (0 < s_count s)%Z ->
    (4 <= zlen pin <= 32)%Z -> step w rnd s (OInitToken 1 pin label) = Ok (s', o) -> out_rv o = CKR_OK.
(** One C_Initialize/C_Finalize pair makes the token uninitialisable for ever. *)
Theorem C12_fresh_token_refuted : ~ C12_claim.
Proof.
  intros C. set (l := [OInitialize; OFinalize; OInitialize]).
  destruct (run tw (sys0 nofiles) (numbered 1 l)) as [[s os]| |] eqn:E; [|vm_compute in E; discriminate..].
  destruct (step tw (rnd 0) s (OInitToken 1 sopin lab)) as [[s' o]| |] eqn:E2;
    [|vm_compute in E; injection E as <- _; vm_compute in E2; discriminate..].
  assert (N : never_inited tw (numbered 1 l) os) by (vm_compute in E; injection E as _ <-; repeat constructor).
  assert (P : (0 < s_count s)%Z) by (vm_compute in E; injection E as <- _; reflexivity).
  assert (B : (4 <= zlen sopin <= 32)%Z) by (split; vm_compute; discriminate).
  pose proof (C tw (numbered 1 l) s os (rnd 0) sopin lab s' o E N P B E2) as X. clear C N P B.
  vm_compute in E. injection E as <- _. vm_compute in E2. injection E2 as _ <-. vm_compute in X. discriminate X.
Qed.
Print Assumptions C12_fresh_token_refuted.
Example C12_for_ever : rvs [OInitialize; OFinalize; OInitialize; OInitToken 1 sopin lab; OFinalize; OInitialize; OInitToken 1 sopin lab] =
  [CKR_OK; CKR_OK; CKR_OK; CKR_PIN_INCORRECT; CKR_OK; CKR_OK; CKR_PIN_INCORRECT].
Proof. vm_compute. reflexivity. Qed.
(** A token still in its fresh state (never stored) can be initialised. Missing
    from the full claim: a token that C_Finalize has stored uninitialised. *)
Theorem C12_fresh_token_partial :
  forall w s rnd pin label, (0 < s_count s)%Z -> s_tok s = tok_fresh -> (4 <= zlen pin <= 32)%Z ->
    hash32 w -> length label = 32%nat ->
    exists s', step w rnd s (OInitToken 1 pin label) = Ok (s', OutRv CKR_OK) /\ right w (s_tok s') SO pin.
Proof.
  intros w s rnd pin label Cn TF L H32 LL. cbn [step]. unfold with_slot, need_lib. rewrite (proj2 (Z.ltb_lt _ _) Cn).
  change (slot_ok 1) with true. cbv iota. unfold InitToken.
  assert (PL : pin_len_ok pin = true) by (unfold pin_len_ok; lia). rewrite PL, TF. cbn [negb andb tok_fresh t_init].
  unfold TokenReset. rewrite TF. cbn [free_all tok_fresh t_objs bind].
  assert (LZ : (zlen label <? 32)%Z = false) by (unfold zlen; lia). rewrite LZ. rewrite firstn_all2 by lia.
  unfold SetSOPin. cbn [set_tok s_tok].
  assert (RL : length (rbytes 16 (rnd 0%nat)) = 16%nat) by (unfold rbytes; rewrite firstn_length, app_length; unfold zeros; rewrite repeat_length; lia).
  assert (St : exists c s', store w rnd (set_tok (set_tok s (tok_init label))
     (set_so (tok_init label) (mkPin (se_hash (w_se w) pin (rbytes 16 (rnd 0%nat))) 32 (rbytes 16 (rnd 0%nat)) 0 0 0))) = Ok (c, s')).
  { unfold store, Token_Store, tok_header, pin_bytes.
    cbn [set_tok s_tok set_so tok_init t_label t_so t_user t_seed t_objs p_hash p_len p_seed p_fail p_last p_tmo pin0].
    assert (W : forall b n, (0 <= n <= zlen b)%Z -> st_write b n = Ok (firstn (Z.to_nat n) b)).
    { intros b n B. unfold st_write. destruct (n <? 0)%Z eqn:E1; [lia|]. destruct (zlen b <? n)%Z eqn:E2; [lia|]. reflexivity. }
    unfold w_fixed, w_array. change (i32 (u32 32)) with 32%Z. change (i32 (u32 0)) with 0%Z.
    pose proof (H32 pin (rbytes 16 (rnd 0%nat))) as HL.
    rewrite !W by (unfold zlen; rewrite ?HL, ?LL, ?RL, ?repeat_length; cbn; lia). cbn [bind store_objs]. eexists _, _. reflexivity. }
  destruct St as (c & s' & St). cbn in St |- *. rewrite St. apply store_empty in St as [-> E]; [|reflexivity].
  cbn [bind]. exists s'. split; [reflexivity|]. rewrite E. split; [reflexivity|]. split; [discriminate|reflexivity].
Qed.
Print Assumptions C12_fresh_token_partial.
Example C12_example : s_tok (after [OInitialize]) = tok_fresh /\ s_tok (after [OInitialize; ORestart; OInitialize]) = tok_fresh /\
  rvs [OInitialize; ORestart; OInitialize; OInitToken 1 sopin lab] = repeat CKR_OK 4.
Proof. vm_compute. auto. Qed.

(** ** C13 *)
(** Initialisations less finalisations of the running process. *)
Definition net1 (n : Z) (c : op) : Z :=
  match c with OInitialize => n + 1 | OFinalize => n - 1 | ORestart => 0 | _ => n end%Z.
Definition net (l : list (op * (nat -> list N))) : Z := fold_left (fun n c => net1 n (fst c)) l 0%Z.
(** An API call other than C_Initialize and C_Finalize. *)
Definition call_of (c : op) : Prop := match c with OInitialize | OFinalize | ORestart => False | _ => True end.
Definition C13_claim : Prop :=
  forall w l s os rnd s1 o1 rnd2 c s2 o2, run w (sys0 nofiles) l = Ok (s, os) ->
    step w rnd s OInitialize = Ok (s1, o1) -> out_rv o1 = CKR_OK -> call_of c -> step w rnd2 s1 c = Ok (s2, o2) ->
    out_rv o2 <> CKR_CRYPTOKI_NOT_INITIALIZED.
(** One C_Finalize too many, and the next C_Initialize has no effect. *)
Theorem C13_bracketing_refuted : ~ C13_claim.
Proof.
  intros C. set (l := [OFinalize]).
  destruct (run tw (sys0 nofiles) (numbered 1 l)) as [[s os]| |] eqn:E; [|vm_compute in E; discriminate..].
  destruct (step tw (rnd 0) s OInitialize) as [[s1 o1]| |] eqn:E2; [|vm_compute in E; injection E as <- _; vm_compute in E2; discriminate..].
  destruct (step tw (rnd 0) s1 (OGetTokenInfo 1 0)) as [[s2 o2]| |] eqn:E3;
    [|vm_compute in E; injection E as <- _; vm_compute in E2; injection E2 as <- _; vm_compute in E3; discriminate..].
  pose proof (fun K1 K2 => C tw (numbered 1 l) s os (rnd 0) s1 o1 (rnd 0) (OGetTokenInfo 1 0) s2 o2 E E2 K1 K2 E3) as X. clear C.
  vm_compute in E; injection E as <- _; vm_compute in E2; injection E2 as <- <-; vm_compute in E3. injection E3 as _ <-.
  vm_compute in X. apply X; auto.
Qed.
Print Assumptions C13_bracketing_refuted.

Lemma step_count w rnd s c s' o : inv s -> step w rnd s c = Ok (s', o) -> s_count s' = net1 (s_count s) c.
Proof.
  intros I H. destruct (objop c) as [h|] eqn:O.
  { pose proof (objop_prims _ _ _ _ _ _ _ I O H) as P. destruct (prims_inv _ _ _ _ _ P I) as [_ (Q & _)].
    destruct c; try discriminate O; exact Q. }
  destruct c; try discriminate O; cbn [step net1] in *; unfold with_slot, with_sess, need_lib in H.
  1: { unfold Initialize in H. destruct (s_count s =? 0)%Z eqn:Z0; [|injection H as <- _; reflexivity].
       apply Z.eqb_eq in Z0. rewrite Z0. destruct (Token_Load _ _ _) as [t| |]; cbn [bind] in H; try discriminate. injection H as <- _. reflexivity. }
  1: { unfold Finalize in H. destruct (_ =? 0)%Z eqn:Z0; [|injection H as <- _; reflexivity].
       apply Z.eqb_eq in Z0. rewrite Z0. sinv. reflexivity. }
  1: { sinv. reflexivity. }
  all: destruct (0 <? s_count s)%Z eqn:Cn; [|sinv; reflexivity].
  all: match type of H with (match ?x with _ => _ end) = _ => destruct x; [|sinv; reflexivity] end.
  - unfold InitToken in H. repeat match type of H with (if ?b then rv_ _ _ else _) = _ => destruct b; [sinv; reflexivity|] end.
    destruct (TokenReset _ _ _ _ _) as [[c s1]| |] eqn:T; cbn [bind] in H; try discriminate. unfold rv_ in H. injection H as <- _.
    unfold TokenReset in T. destruct (free_all _); cbn [bind] in T; try discriminate. destruct (zlen _ <? 32)%Z; [discriminate|]. apply store_frame in T as (E & _). exact E.
  - unfold InitPIN in H. repeat match type of H with (if ?b then rv_ _ _ else _) = _ => destruct b; [sinv; reflexivity|] end.
    destruct (SetUserPin _ _ _ _) as [[c s1]| |] eqn:T; cbn [bind] in H; try discriminate. unfold rv_ in H. injection H as <- _.
    apply store_frame in T as (E & _). exact E.
  - unfold SetPIN in H. cbv zeta in H. repeat match type of H with (if ?b then rv_ _ _ else _) = _ => destruct b; [sinv; reflexivity|] end.
    match type of H with bind ?r _ = _ => destruct r as [[c s1]| |] eqn:T end; cbn [bind] in H; try discriminate.
    unfold rv_ in H. injection H as <- _. destruct (_ =? _)%Z; apply store_frame in T as (E & _); exact E.
  - apply Z.ltb_lt in Cn. apply OpenSession_ok in H as [[-> _] | (l & x & P)]; auto. cbv zeta in P. destruct P as (-> & _). reflexivity.
  - unfold CloseSession in H. sinv; reflexivity.
  - destruct (close_all _); cbn [bind] in H; try discriminate. sinv. reflexivity.
  - unfold Login in H. sinv; reflexivity.
  - sinv. reflexivity.
  - sinv. reflexivity.
Qed.
Lemma run_count w s l s' os : inv s -> run w s l = Ok (s', os) -> s_count s' = fold_left (fun n c => net1 n (fst c)) l (s_count s) /\ inv s'.
Proof.
  revert s os. induction l as [|[c rnd] l IH]; cbn [run]; intros s os I H; [injection H as <- _; auto|].
  destruct (step w rnd s c) as [[s1 o]| |] eqn:E; cbn [bind] in H; try discriminate.
  destruct (run w s1 l) as [[s2 os2]| |] eqn:E2; cbn [bind] in H; try discriminate. injection H as <- _.
  cbn [fold_left fst]. rewrite <- (step_count _ _ _ _ _ _ I E). eapply IH; [|exact E2]. eapply step_inv; eauto.
Qed.
(** In every history, a call is refused with CKR_CRYPTOKI_NOT_INITIALIZED exactly
    if there were at most as many C_Initialize as C_Finalize calls. Missing from
    the full claim: histories in which C_Finalize was called once too often. *)
Theorem C13_bracketing_partial :
  forall w d l s os rnd c s' o, run w (sys0 d) l = Ok (s, os) -> call_of c -> step w rnd s c = Ok (s', o) ->
    (out_rv o = CKR_CRYPTOKI_NOT_INITIALIZED <-> (net l <= 0)%Z) /\
    (out_rv o = CKR_CRYPTOKI_NOT_INITIALIZED -> s' = s).
Proof.
  intros w d l s os rnd c s' o R K H. apply run_count in R as [R I]; [|apply inv0]. cbn [s_count sys0] in R. change (s_count s = net l) in R.
  rewrite <- R. destruct (0 <? s_count s)%Z eqn:Cn.
  - assert (N : out_rv o <> CKR_CRYPTOKI_NOT_INITIALIZED).
    { apply Z.ltb_lt in Cn. eapply step_nn; [|exact Cn|exact H]. destruct c; auto; contradiction. }
    split; [|intros X; contradiction]. apply Z.ltb_lt in Cn. split; [intros X; contradiction|lia].
  - assert (X : s' = s /\ out_rv o = CKR_CRYPTOKI_NOT_INITIALIZED).
    { destruct c; try contradiction; cbn [step] in H; unfold with_slot, with_sess, need_lib in H; rewrite Cn in H;
      unfold rv_ in H; injection H as <- <-; auto. }
    destruct X as [-> X]. apply Z.ltb_ge in Cn. tauto.
Qed.
Print Assumptions C13_bracketing_partial.
Example C13_example :
  rvs [OInitialize; OInitialize; OFinalize; OGetTokenInfo 1 0; OFinalize; OGetTokenInfo 1 0; OFinalize; OInitialize; OGetTokenInfo 1 0; OInitialize; OGetTokenInfo 1 0] =
  [CKR_OK; CKR_OK; CKR_OK; CKR_OK; CKR_OK; CKR_CRYPTOKI_NOT_INITIALIZED; CKR_OK; CKR_OK; CKR_CRYPTOKI_NOT_INITIALIZED; CKR_OK; CKR_OK].
Proof. vm_compute. reflexivity. Qed.
