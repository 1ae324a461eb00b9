(** The operation of a session, and the key it works with, while other calls are made. *)
From Verif Require Import Base Cbc Ops OpsSpec OpsProofs Object ObjectProofs Store Sys SysProofs SysProofs2 SysProofs3 SysProofs4 WfProofs ObjFrame ObjProofs HandleProofs FindState UseProofs.
From Coq Require Import Bool.
Local Open Scope list_scope.

(** Calls that are no operation of session [h] and do not end it. *)
Definition aside (h : Z) (c : op) : Prop :=
  (cryptop c = true -> objop c <> Some h) /\ c <> OCloseSession h /\ ends_all c = false.
(** The mechanisms whose key is copied into the session by the Init call: WP11_Session_SetCbcParams and
    WP11_Hmac_Init (internal.c 4562-4583, 8370-8393). *)
Definition copied (m : mech) : bool := match m with M_AES_CBC | M_AES_CBC_PAD | M_HMAC _ => true | _ => false end.

Lemma data_no_key ev objs objs' st c k : data_kind c = Some k -> copied (os_mech st) = true -> Ops.step ev objs st c = Ops.step ev objs' st c.
Proof.
  intros D C. destruct c; try discriminate D; cbn [Ops.step];
  unfold C_Encrypt, C_EncryptUpdate, C_EncryptFinal, C_Decrypt, C_DecryptUpdate, C_DecryptFinal, C_Sign, C_SignUpdate, C_SignFinal, C_Verify, C_VerifyUpdate, C_VerifyFinal, with_obj;
  (destruct (os_curr st); [|reflexivity]); destruct (os_mech st); try discriminate C; reflexivity.
Qed.
(** With the same key under the number the session remembers, the outcome is the same. *)
Lemma data_same_key ev objs objs' st c k u : data_kind c = Some k -> os_curr st = Some u -> objs u = objs' u -> Ops.step ev objs st c = Ops.step ev objs' st c.
Proof.
  intros D C E. destruct c; try discriminate D; cbn [Ops.step];
  unfold C_Encrypt, C_EncryptUpdate, C_EncryptFinal, C_Decrypt, C_DecryptUpdate, C_DecryptFinal, C_Sign, C_SignUpdate, C_SignFinal, C_Verify, C_VerifyUpdate, C_VerifyFinal, with_obj;
  rewrite C; destruct (os_mech st); unfold pk_crypt, pk_sign, pk_verify, deref; try rewrite E; reflexivity.
Qed.

Section W.
Variable w : world.
Lemma aside_op rnd s c s' o h x : inv s -> aside h c -> step w rnd s c = Ok (s', o) -> sess_get s h = Some x ->
  exists x', sess_get s' h = Some x' /\ ss_op x' = ss_op x.
Proof.
  intros I (L1 & L2 & L3) H G. pose proof (step_inv w _ _ _ _ _ I H) as I'.
  assert (Fr : objop c <> Some h -> exists x', sess_get s' h = Some x' /\ ss_op x' = ss_op x) by (intros N; exists x; split; [|reflexivity]; exact (step_frame w _ _ _ _ _ _ _ I H N L2 L3 G)).
  destruct (objop c) as [h0|] eqn:O; [|apply Fr; discriminate]. destruct (Z.eq_dec h0 h) as [->|N]; [|apply Fr; congruence].
  destruct (cryptop c) eqn:F; [exfalso; apply L1; auto|]. pose proof (step_ukeys w _ _ _ _ _ _ I O F H) as K.
  pose proof (sess_get_in _ _ _ G) as (X & Hx & Ux & Sl). assert (J : In (ukey x) (ukeys s')) by (rewrite K; apply in_map; exact X).
  apply in_map_iff in J as (y & E & Y). unfold ukey in E. injection E as E1 E2 E3. exists y. split; [|exact E3]. subst h. rewrite <- E1.
  apply sess_get_of; [apply inv_uniq; exact I'|exact Y|unfold in_use in *; rewrite E2; exact Ux|rewrite E1; exact Sl].
Qed.
Lemma data_call_run rnd s h c hk s' o x k : inv s -> (0 < s_count s)%Z -> sess_get s h = Some x -> data_kind c = Some k -> step w rnd s (OCrypto h c hk) = Ok (s', o) ->
  exists objs p r, Ops.step (w_ev w) objs (ss_op x) c = Ok (p, r) /\ o = OutC r /\ sess_get s' h = Some (set_op x p) /\ s' = put_sess s (set_op x p) /\
    (forall u, os_curr (ss_op x) = Some u -> match find_uid s u with Some ob => exists ko, view w ob = Ok ko /\ objs u = Some ko | None => objs u = None end).
Proof.
  intros I Cn G D H. cbn [step] in H. unfold with_sess, need_lib in H. apply Z.ltb_lt in Cn. rewrite Cn, G in H.
  assert (R : bind (run_cont w s x c) (fun '(x1, r) => Ok (put_sess s x1, OutC r)) = Ok (s', o)) by (destruct c; try discriminate D; exact H). clear H.
  destruct (run_cont w s x c) as [[x1 r]| |] eqn:E; cbn [bind] in R; try discriminate. injection R as <- <-. unfold run_cont in E.
  match type of E with bind ?m _ = _ => destruct m as [ko| |] eqn:K end; cbn [bind] in E; try discriminate.
  destruct (Ops.step _ _ _ _) as [[p r1]| |] eqn:S; cbn [bind] in E; try discriminate. injection E as <- <-.
  exists (fun _ => ko), p, r1. split; [exact S|]. split; [reflexivity|]. split; [eapply sess_get_put; [apply inv_uniq; exact I|exact G|reflexivity|reflexivity]|]. split; [reflexivity|].
  intros u U. rewrite U in K. destruct (find_uid s u) as [ob|]; [|congruence]. destruct (view w ob) as [k0| |]; cbn [bind] in K; try discriminate. exists k0. split; [reflexivity|congruence].
Qed.
Lemma get_count s h x : inv s -> sess_get s h = Some x -> (0 < s_count s)%Z.
Proof. intros (_ & B & _) G. apply sess_get_in in G as (X & _). destruct (Z.ltb_spec 0 (s_count s)) as [L|L]; [exact L|]. rewrite B in X by exact L. destruct X. Qed.

(** ** The key *)
(** Calls that neither change nor destroy an object with handle [ho]; if it is an object of the token, they also
    do not log in or out or initialise the token. *)
Definition spared (ho : Z) (c : op) : Prop :=
  match c with
  | ODestroyObject _ h | OSetAttributeValue _ h _ => h <> ho
  | OLogin _ _ _ _ | OLogout _ | OInitToken _ _ _ => on_token ho = false
  | _ => True
  end.
(** Session [h] finds, where the handle of [o] says, an object that is [o] but for its stored form. *)
Definition place (s : sys) (x : session) (o : obj) : list obj := if on_token (o_handle o) then t_objs (s_tok s) else ss_objs x.
Definition has (s : sys) (h : Z) (o : obj) : Prop :=
  exists x o', In x (s_sess s) /\ ss_h x = h /\ In o' (place s x o) /\ core_obj o' = core_obj o.
Lemma core_uid a b : core_obj a = core_obj b -> o_uid a = o_uid b /\ o_handle a = o_handle b.
Proof. intros E. split; [exact (f_equal o_uid E)|exact (f_equal o_handle E)]. Qed.
Lemma remove_keeps u l o : In o l -> o_uid o <> u -> In o (remove_uid u l).
Proof. intros J N. induction l as [|b l IH]; [destruct J|]. cbn [remove_uid]. destruct (Nat.eqb_spec (o_uid b) u) as [Q|Q]; destruct J as [->|J]; auto; [congruence|left; reflexivity|right; auto]. Qed.
Lemma place_in s x o p : In p (place s x o) -> In p (t_objs (s_tok s) ++ ss_objs x).
Proof. unfold place. intros J. apply in_or_app. destruct (on_token _); auto. Qed.
Lemma reach_live s x o : In x (s_sess s) -> In o (t_objs (s_tok s) ++ ss_objs x) -> In o (live s).
Proof. intros X J. unfold live. apply in_app_or in J as [J|J]; apply in_or_app; [left; exact J|right; eapply all_objs_in; eauto]. Qed.
Lemma core_list_in l l' o : map core_obj l' = map core_obj l -> In o l -> exists o', In o' l' /\ core_obj o' = core_obj o.
Proof. intros E J. apply (in_map core_obj) in J. rewrite <- E in J. apply in_map_iff in J as (o' & F & J). eauto. Qed.
Lemma prim_has cl h0 s s' h o : inv s -> prim w cl h0 s s' -> spared (o_handle o) cl -> has s h o -> has s' h o.
Proof.
  intros I P Sp (y & o' & Y & Hy & Jo & Ec). pose proof (inv_uniq s I) as U. pose proof (proj1 (proj2 (proj2 I))) as Uo. pose proof (proj2 (core_uid _ _ Ec)) as Eh.
  assert (Sd : forall o1, In o1 (live s) -> o_handle o1 <> o_handle o -> o_uid o' <> o_uid o1).
  { intros o1 L N E. apply N. rewrite <- Eh. f_equal. destruct Uo as [ND _]. symmetry. apply (NoDup_map_inj _ _ o_uid (live s)); auto. eapply reach_live; [exact Y|eapply place_in; exact Jo]. }
  assert (Upd : forall x x', In x (s_sess s) -> ss_h x' = ss_h x -> (y = x -> In o' (place s x' o)) -> has (put_sess s x') h o).
  { intros x x' X E K. destruct (Z.eq_dec (ss_h y) (ss_h x)) as [Q|Q].
    - assert (y = x) by (apply (NoDup_map_inj _ _ ss_h (s_sess s)); auto). subst y. exists x', o'. split; [|split; [congruence|split; [exact (K eq_refl)|exact Ec]]].
      cbn. unfold upd_sess. apply in_map_iff. exists x. rewrite E, Z.eqb_refl. auto.
    - exists y, o'. split; [cbn; apply upd_sess_other; [exact Y|congruence]|]. auto. }
  destruct P as [s x x' X Ux E1 E2 E3 E4|s n|s x rnd c s' X Rw E1 E2 Cl|s x o1 X Rw E1 L Iu Nu Hd Ot Mk Cl|s x b o1 X Rw E1 L Iu Nu Nb Hd Ot Mk Cl|s x o1 X Rw E1 Io (ho & Cl & Fo)|s x o1 X Rw E1 Io Ot (ho & Cl & Fo)|s x o1 o1' X Rw E1 Io Sid (ho & t & rv & Cl & Fo & Mk)].
  - apply (Upd x x' X); [congruence|]. intros ->. unfold place in *. rewrite E4. exact Jo.
  - exists y, o'. auto.
  - apply store_frame in E2 as (_ & S & _ & _ & C). unfold has, place in *. rewrite S. destruct (on_token (o_handle o)).
    + destruct (core_list_in _ _ _ C Jo) as (o2 & J2 & F2). exists y, o2. split; [exact Y|]. split; [exact Hy|]. split; [exact J2|congruence].
    + exists y, o'. auto.
  - apply (Upd x _ X); [reflexivity|]. intros ->. unfold place in *. destruct (on_token (o_handle o)); [exact Jo|right; exact Jo].
  - exists y, o'. split; [exact Y|]. split; [exact Hy|]. split; [|exact Ec]. unfold place in *. destruct (on_token (o_handle o)); [right|]; exact Jo.
  - assert (N : o_uid o' <> o_uid o1). { apply Sd; [eapply all_objs_in in Io; [|exact X]; unfold live; apply in_or_app; right; exact Io|]. apply SysProofs3.find_obj_in in Fo as [_ ->]. rewrite Cl in Sp. exact Sp. }
    apply (Upd x _ X); [reflexivity|]. intros ->. unfold place in *. destruct (on_token (o_handle o)); [exact Jo|apply remove_keeps; assumption].
  - assert (N : o_uid o' <> o_uid o1). { apply Sd; [unfold live; apply in_or_app; left; exact Io|]. apply SysProofs3.find_obj_in in Fo as [_ ->]. rewrite Cl in Sp. exact Sp. }
    exists y, o'. split; [exact Y|]. split; [exact Hy|]. split; [|exact Ec]. unfold place in *. destruct (on_token (o_handle o)); [apply remove_keeps; assumption|exact Jo].
  - assert (N : o_uid o' <> o_uid o1'). { destruct Sid as (-> & _). apply Sd; [exact (reach_live _ _ _ X Io)|]. apply SysProofs3.find_obj_in in Fo as [_ ->]. rewrite Cl in Sp. exact Sp. }
    assert (Ki : forall l, In o' l -> In o' (upd_objs l o1')). { intros l J. unfold upd_objs. apply in_map_iff. exists o'. apply Nat.eqb_neq in N. rewrite N. auto. }
    exists (set_sobjs y (upd_objs (ss_objs y) o1')), o'. split; [cbn; apply in_map_iff; exists y; auto|]. split; [exact Hy|]. split; [|exact Ec].
    unfold place in *. destruct (on_token (o_handle o)); apply Ki; exact Jo.
Qed.
Lemma prims_has cl h0 s s' h o : inv s -> prims w cl h0 s s' -> spared (o_handle o) cl -> has s h o -> has s' h o.
Proof. intros I P. revert I. induction P as [s|s s1 s2 P Ps IH]; intros I Sp H; [exact H|]. apply IH; [eapply prim_inv; eauto|exact Sp|eapply prim_has; eauto]. Qed.
Lemma tok_has s s' h o x : sess_get s' h = Some x -> In x (s_sess s) -> uniq (s_sess s) -> (on_token (o_handle o) = true -> map core_obj (t_objs (s_tok s')) = map core_obj (t_objs (s_tok s))) -> has s h o -> has s' h o.
Proof.
  intros G X U C (y & o' & Y & Hy & Jo & Ec). apply sess_get_in in G as (X' & Hx & _).
  assert (y = x) by (apply (NoDup_map_inj _ _ ss_h (s_sess s)); auto; congruence). subst y. unfold has, place in *. destruct (on_token (o_handle o)).
  - destruct (core_list_in _ _ _ (C eq_refl) Jo) as (o2 & J2 & F2). exists x, o2. split; [exact X'|]. split; [exact Hy|]. split; [exact J2|congruence].
  - exists x, o'. auto.
Qed.
Lemma store_core rnd s c s' : store w rnd s = Ok (c, s') -> map core_obj (t_objs (s_tok s')) = map core_obj (t_objs (s_tok s)).
Proof. intros H. apply store_frame in H as (_ & _ & _ & _ & C). exact C. Qed.
Lemma step_has rnd s c s' r h o x : inv s -> aside h c -> spared (o_handle o) c -> step w rnd s c = Ok (s', r) -> sess_get s h = Some x -> has s h o -> has s' h o.
Proof.
  intros I A Sp H G Hs. destruct (objop c) as [h0|] eqn:O; [eapply prims_has; [exact I|eapply objop_prims; eauto|exact Sp|exact Hs]|].
  pose proof (get_count _ _ _ I G) as Cn. pose proof (inv_uniq s I) as U. destruct A as (_ & A2 & A3).
  assert (G' : sess_get s' h = Some x) by (apply (step_frame w _ _ _ _ _ _ _ I H); [rewrite O; discriminate|exact A2|exact A3|exact G]).
  apply (tok_has s s' h o x G'); [apply sess_get_in in G; tauto|exact U| |exact Hs]. intros Tk. apply Z.ltb_lt in Cn.
  destruct c; try discriminate O; try discriminate A3; try (cbn [spared] in Sp; congruence); cbn [step] in H; unfold with_slot, with_sess, need_lib in H; try rewrite Cn in H.
  - unfold Initialize in H. apply Z.ltb_lt in Cn. destruct (s_count s =? 0)%Z eqn:C0; [lia|]. sinv. reflexivity.
  - destruct (sess_get s h0); [|sinv; reflexivity]. unfold InitPIN in H. repeat match type of H with (if ?b then rv_ _ _ else _) = _ => destruct b; [sinv; reflexivity|] end.
    destruct (SetUserPin _ _ _ _) as [[c s1]| |] eqn:T; cbn [bind] in H; try discriminate. sinv. unfold SetUserPin in T. apply store_core in T. exact T.
  - destruct (sess_get s h0); [|sinv; reflexivity]. unfold SetPIN in H. cbv zeta in H. repeat match type of H with (if ?b then rv_ _ _ else _) = _ => destruct b; [sinv; reflexivity|] end.
    match type of H with bind ?r _ = _ => destruct r as [[c s1]| |] eqn:T end; cbn [bind] in H; try discriminate.
    unfold rv_ in H. injection H as <- _. destruct (_ =? _)%Z; [unfold SetSOPin in T|unfold SetUserPin in T]; apply store_core in T; exact T.
  - apply Z.ltb_lt in Cn. destruct (slot_ok slot); [|sinv; reflexivity]. apply OpenSession_ok in H as [[-> _] | (l & y & -> & _)]; auto.
  - destruct (sess_get s h0) as [y|] eqn:Gy; [|sinv; reflexivity]. apply sess_get_in in Gy as (Y & Hy & Uy & _).
    unfold CloseSession in H. destruct (close_sess _ _) as [l| |] eqn:CL; cbn [bind] in H; try discriminate.
    assert (E : s_sess s' = l). { cbv zeta in H. destruct (existsb in_use l); [sinv; reflexivity|]. destruct (Logout _ _) as [t| |] eqn:L; cbn [bind] in H; try discriminate. sinv. reflexivity. }
    apply sess_get_in in G' as (X' & _ & Ux & _). rewrite E in X'. assert (Q : existsb in_use l = true) by (apply existsb_exists; eauto). rewrite Q in H. unfold rv_ in H. injection H as H _. rewrite <- H. reflexivity.
  - destruct (slot_ok slot); sinv; reflexivity.
Qed.
Lemma has_find s h o : inv s -> has s h o -> exists o', find_uid s (o_uid o) = Some o' /\ core_obj o' = core_obj o.
Proof.
  intros I (x & o' & X & Hx & J & E). exists o'. split; [|exact E]. pose proof (proj1 (core_uid _ _ E)) as Eu. pose proof (reach_live _ _ _ X (place_in _ _ _ _ J)) as L. unfold find_uid.
  destruct (find _ (live s)) as [q|] eqn:Fd.
  - apply find_some in Fd as [L' Q]. apply Nat.eqb_eq in Q. f_equal. destruct I as (_ & _ & (ND & _) & _). apply (NoDup_map_inj _ _ o_uid (live s)); auto. congruence.
  - eapply find_none in Fd; [|exact L]. rewrite Eu, Nat.eqb_refl in Fd. discriminate Fd.
Qed.
Lemma core_view a b : core_obj a = core_obj b -> view w a = view w b.
Proof.
  intros E. assert (T : o_type a = o_type b) by exact (f_equal o_type E). assert (D : o_data a = o_data b) by exact (f_equal o_data E).
  assert (C : o_class a = o_class b) by exact (f_equal o_class E).
  unfold view, is_sym, as_rsa, as_ec, as_sym. rewrite ?T, ?D, ?C. reflexivity.
Qed.
End W.
