(** Keys in use by an operation: they stay where the session finds them, as long
    as nobody destroys them. *)
From Verif Require Import Base Ops OpsSpec OpsProofs Object ObjectProofs Store Sys SysProofs SysProofs2 SysProofs3 SysProofs4 WfProofs ObjFrame ObjProofs HandleProofs FindState.

(** The key the session's active operation works with. *)
Definition op_key (p : opst) : option nat := if (os_init p =? 0)%Z then None else os_curr p.
Definition in_op (x : session) : option nat := op_key (ss_op x).

(** ** The operations *)
Lemma op_step_key ev objs st c st' r : c <> KReopen -> Ops.step ev objs st c = Ok (st', r) ->
  op_key st' = None \/ op_key st' = op_key st \/ exists u, with_key c u = Some c /\ op_key st' = Some u.
Proof.
  intros NR H. destruct (call_cases c) as [(k & K)|[(k & K)| ->]]; [| |contradiction].
  - destruct (step_init_spec _ _ _ _ _ _ _ K H) as [_ [[R C]|[_ (E1 & _ & E3)]]]; [|right; left; unfold op_key; rewrite E1, E3; reflexivity].
    right; right. destruct c; try discriminate K; exists k0; (split; [reflexivity|]); unfold op_key;
    (destruct (os_init st' =? 0)%Z eqn:Z0; [apply Z.eqb_eq in Z0; rewrite Z0 in C; discriminate C|]);
    cbn [Ops.step] in H; unfold init_call in H; (destruct (objs k0) as [ko|]; [|injection H as _ <-; discriminate R]);
    unfold C_EncryptInit, C_DecryptInit, C_SignInit, C_VerifyInit in H; destruct m;
    unfold rsa_noparam, oaep_init, pss_init, cbc_init, gcm_init, hmac_init, ecdsa_init, SetGcmParams in H; inv_step; inv_pair; first [discriminate R|reflexivity].
  - destruct (step_data_frame _ _ _ _ _ _ _ K H) as (F1 & _ & [F3|F3]); [right; left|left]; unfold op_key; rewrite F3; [rewrite F1|]; reflexivity.
Qed.

(** No use of freed memory. *)
Definition calm {A} (r : res A) : Prop := r <> Undef UB_use_after_free.
(** wolfCrypt itself uses no freed memory. *)
Definition quiet (ev : env) : Prop :=
  (forall k iv a n p t, calm (e_gcm_enc ev k iv a n p t)) /\ (forall k iv a n c t, calm (e_gcm_dec ev k iv a n c t)) /\
  (forall m k p r d, calm (e_pk_enc ev m k p r d)) /\ (forall m k p r d, calm (e_pk_dec ev m k p r d)) /\
  (forall m k p r d, calm (e_pk_sign ev m k p r d)) /\ (forall m k p g d, calm (e_pk_verify ev m k p g d)).
Lemma calm_bind A B (m : res A) (f : A -> res B) : calm m -> (forall a, calm (f a)) -> calm (bind m f).
Proof. destruct m; cbn; auto; [discriminate|]. intros H _ E. apply H. injection E as ->. reflexivity. Qed.
Lemma calm_conclude b st r : calm r -> calm (conclude b st r).
Proof. intros H. destruct r as [[[? ?] ?]| |]; cbn; try discriminate. intros E. apply H. injection E as ->. reflexivity. Qed.
Lemma calm_sized st n b k : calm k -> calm (sized st n b k).
Proof. intros H. unfold sized. destruct b; [discriminate|]. destruct (_ <? _)%Z; [discriminate|exact H]. Qed.
Ltac calm := repeat (cbv beta zeta; match goal with
  | |- calm (bind _ _) => apply calm_bind; [|intros]
  | |- calm (conclude _ _ _) => apply calm_conclude
  | |- calm (sized _ _ _ _) => apply calm_sized
  | |- calm (Ok _) => discriminate | |- calm (Err _) => discriminate | |- calm (Undef _) => discriminate
  | |- calm (if ?b then _ else _) => destruct b
  | |- calm (match ?v with _ => _ end) => let G := fresh "G" in destruct v eqn:G end).
Section O.
Variable ev : env.
Hypothesis Q : quiet ev.
Variable objs : nat -> option keyobj.
Notation ci := (e_ci ev).
Lemma init_calm st c k : init_kind c = Some k -> calm (Ops.step ev objs st c).
Proof.
  intros C. destruct c; try discriminate C; cbn [Ops.step]; unfold init_call; (destruct (objs _); [|discriminate]); calm;
    unfold C_EncryptInit, C_DecryptInit, C_SignInit, C_VerifyInit, rsa_noparam, oaep_init, pss_init, cbc_init, gcm_init, hmac_init, ecdsa_init; calm; unfold SetGcmParams; calm.
Qed.
Lemma op_calm st c : (forall u, op_key st = Some u -> objs u <> None) -> calm (Ops.step ev objs st c).
Proof.
  intros K. destruct (call_cases c) as [(k & C)|[(k & C)| ->]].
  - eapply init_calm; exact C.
  - destruct (os_init st =? 0)%Z eqn:Z0.
    { apply Z.eqb_eq in Z0. destruct (wrong_kind_refused ev objs st c k C) as (o & -> & _); [right; rewrite Z0; discriminate|discriminate]. }
    assert (D : forall u, os_curr st = Some u -> calm (deref objs u)).
    { intros u U. unfold deref. specialize (K u). unfold op_key in K. rewrite Z0 in K. destruct (objs u); [discriminate|]. exfalso. apply K; [exact U|reflexivity]. }
    destruct Q as (Q1 & Q2 & Q3 & Q4 & Q5 & Q6).
    assert (R : forall b f, (forall u, os_curr st = Some u -> calm (f u)) -> calm (with_obj st b f)).
    { intros b f F. unfold with_obj, not_init. destruct (os_curr st); [apply F; reflexivity|discriminate]. }
    destruct c; try discriminate C; cbn [Ops.step];
    unfold C_Encrypt, C_EncryptUpdate, C_EncryptFinal, C_Decrypt, C_DecryptUpdate, C_DecryptFinal, C_Sign, C_SignUpdate, C_SignFinal, C_Verify, C_VerifyUpdate, C_VerifyFinal;
    (apply R; intros u U; specialize (D u U)); unfold pk_crypt, pk_sign, pk_verify, need_init, not_init, hmac_update; calm; try exact D; try discriminate;
    unfold get_cbc, get_gcm, get_hmac, get_pk; calm; auto; try discriminate;
    try (match goal with G : _ = Undef ?v |- calm (Undef ?v) => intros J; injection J as J; rewrite J in G; first [apply Q5 in G|apply Q6 in G]; exact G end);
    unfold Cbc.WP11_AesCbcPad_Encrypt, Cbc.WP11_AesCbcPad_Decrypt, Cbc.WP11_AesCbcPad_DecryptFinal, Cbc.WP11_AesCbcPad_DecryptUpdate, Cbc.WP11_AesCbcPad_EncryptFinal, Cbc.WP11_AesCbcPad_EncryptUpdate,
      Cbc.WP11_AesCbc_EncryptUpdate, Cbc.WP11_AesCbc_DecryptUpdate, Cbc.WP11_AesCbc_Encrypt, Cbc.WP11_AesCbc_Decrypt, Cbc.cbc_update, Cbc.wc_AesCbcEncrypt, Cbc.wc_AesCbcDecrypt, gcm_call_enc, gcm_call_dec; calm; auto.
  - cbn [Ops.step]. unfold op_session_final. calm.
Qed.
End O.

(** ** The sessions' operations *)
Definition ukey (x : session) : Z * Z * opst := (ss_h x, ss_use x, ss_op x).
Definition ukeys (s : sys) : list (Z * Z * opst) := map ukey (s_sess s).
Lemma ukeys_h l : map (fun k => fst (fst k)) (map ukey l) = map ss_h l.
Proof. rewrite map_map. reflexivity. Qed.
Lemma uniq_ukeys a b : map ukey a = map ukey b -> uniq a -> uniq b.
Proof. unfold uniq. intros E. rewrite <- !ukeys_h, E. auto. Qed.
Lemma put_ukeys s x : uniq (s_sess s) -> In (ukey x) (ukeys s) -> ukeys (put_sess s x) = ukeys s.
Proof.
  intros U I. apply in_map_iff in I as (y & E & Y). unfold ukeys. cbn [put_sess set_sess s_sess].
  apply (upd_sess_map _ ukey (s_sess s) y x U Y); [|symmetry; exact E]. unfold ukey in E. injection E as E _. symmetry. exact E.
Qed.
Definition cryptop (c : op) : bool := match c with OCrypto _ _ _ | OWrapKey _ _ _ _ _ _ | OUnwrapKey _ _ _ _ _ _ => true | _ => false end.
Section W.
Variable w : world.
Notation se := (w_se w).
Lemma store_ukeys rnd s c s' : store w rnd s = Ok (c, s') -> ukeys s' = ukeys s.
Proof. intros H. apply store_frame in H as (_ & H & _). unfold ukeys. rewrite H. reflexivity. Qed.
Lemma AddToSession_ukeys rnd s x b o c h s' : uniq (s_sess s) -> In (ukey x) (ukeys s) -> AddToSession w rnd s x b o = Ok (c, h, s') -> ukeys s' = ukeys s.
Proof.
  unfold AddToSession. intros U I H. destruct (b =? 0)%N; (destruct (_ <=? _)%Z; [injection H as _ _ <-; reflexivity|]).
  - injection H as _ _ <-. apply put_ukeys; [exact U|exact I].
  - destruct (Encode _ _ _ _) as [[c1 o2]| |]; cbn [bind] in H; try discriminate. destruct (negb _); [injection H as _ _ <-; reflexivity|].
    destruct (store _ _ _) as [[c2 s1]| |] eqn:S; cbn [bind] in H; try discriminate. injection H as _ _ <-. apply store_ukeys in S. exact S.
Qed.
Lemma AddObject_ukeys rnd s x t o c h s' : uniq (s_sess s) -> In (ukey x) (ukeys s) -> AddObject w rnd s x t o = Ok (c, h, s') -> ukeys s' = ukeys s.
Proof.
  unfold AddObject. intros U I H. destruct (tmpl_token t); [|injection H as _ _ <-; reflexivity].
  destruct (AddToSession _ _ _ _ _ _) as [[[c1 h1] s1]| |] eqn:A; cbn [bind] in H; try discriminate. injection H as _ _ <-. eapply AddToSession_ukeys; eauto.
Qed.
Ltac kk H := repeat (unfold rv_, with_object, need_rw in H; cbv beta zeta in H; match type of H with
    | Ok _ = Ok _ => injection H as <- _; try reflexivity
    | Err _ = _ => discriminate H | Undef _ = _ => discriminate H
    | bind ?m _ = _ => let E := fresh "E" in destruct m as [?v| |] eqn:E; cbn [bind] in H; try discriminate H
    | (let '(_, _) := ?v in _) = _ => destruct v; cbn [bind] in H
    | (if ?b then _ else _) = _ => destruct b
    | match ?v with _ => _ end = _ => let E := fresh "D" in destruct v eqn:E end).
Lemma step_ukeys rnd s c s' o h : inv s -> objop c = Some h -> cryptop c = false -> step w rnd s c = Ok (s', o) -> ukeys s' = ukeys s.
Proof.
  intros I O F H. pose proof (inv_uniq s I) as U.
  destruct c; try discriminate O; try discriminate F; cbn [step] in H; unfold with_sess, need_lib in H;
  (destruct (0 <? _)%Z; [|kk H]); (destruct (sess_get s _) as [x|] eqn:G; [|kk H]); apply sess_get_in in G as (G & _);
  assert (K : In (ukey x) (ukeys s)) by (apply in_map; exact G); clear G.
  - kk H.
  - unfold Create in H. kk H; eapply (AddObject_ukeys _ (bump s _)); eassumption.
  - unfold Copy in H. kk H; eapply (AddToSession_ukeys _ (bump s _)); eassumption.
  - unfold need_rw, with_object in H. destruct (is_rw x); [|kk H]. destruct (find_obj _ _ _) as [ob|]; [|kk H].
    destruct (RemoveObject _ _ _ _ _ _) as [s1| |] eqn:E; cbn [bind] in H; try discriminate. unfold rv_ in H. injection H as <- _.
    unfold RemoveObject in E. destruct (obj_free _); cbn [bind] in E; try discriminate. destruct (on_token _); [|injection E as <-; apply put_ukeys; assumption].
    destruct (o_onTok _); [|discriminate]. destruct (no_kind _); [discriminate|]. destruct (store _ _ _) as [[c2 s2]| |] eqn:S; cbn [bind] in E; try discriminate. injection E as <-. apply store_ukeys in S. exact S.
  - kk H.
  - kk H; unfold ukeys; cbn; rewrite map_map; reflexivity.
  - unfold FindInit in H. kk H; (apply put_ukeys; [exact U|exact K]).
  - unfold FindNext in H. kk H; (apply put_ukeys; [exact U|exact K]).
  - kk H; (apply put_ukeys; [exact U|exact K]).
  - unfold GenKey in H. kk H; eapply (AddObject_ukeys _ (bump s _)); eassumption.
  - unfold GenKeyPair in H. destruct (match m with KP_RSA => _ | KP_EC => _ | KP_DH => _ | KP_other => _ end) as [ty|]; [|kk H].
    destruct (NewObject _ _ _ _ _ _) as [[rv [pub|]]| |]; cbn [bind] in H; [|kk H|discriminate..].
    destruct (NewObject _ _ _ _ _ _) as [[rv2 [priv|]]| |]; cbn [bind] in H; [|kk H|discriminate..].
    match type of H with bind ?r _ = _ => destruct r as [[[pub1 priv1]|]| |] end; cbn [bind] in H; [|kk H|discriminate..].
    destruct (AddObject _ _ _ _ _ _) as [[[rv3 h1] s2]| |] eqn:A1; cbn [bind] in H; try discriminate.
    apply AddObject_ukeys in A1; [|exact U|exact K]. destruct (negb _); [kk H; exact A1|].
    destruct (sess_get s2 _) as [x2|] eqn:G2; [|kk H; exact A1]. apply sess_get_in in G2 as (G2 & _).
    destruct (AddObject _ _ _ _ _ _) as [[[rv4 h2] s3]| |] eqn:A2; cbn [bind] in H; try discriminate.
    apply AddObject_ukeys in A2; [|eapply uniq_ukeys; [symmetry; exact A1|exact U]|apply in_map; exact G2]. destruct (_ =? _)%Z; [|discriminate]. injection H as <- _. rewrite A2. exact A1.
  - unfold Derive in H. kk H; eapply (AddObject_ukeys _ (bump s _)); eassumption.
Qed.
(** What the operation of the session itself may become. *)
Definition moved (s : sys) (x : session) (p : opst) : Prop :=
  op_key p = None \/ op_key p = in_op x \/ exists hk o, find_obj s x hk = Some o /\ op_key p = Some (o_uid o).
Lemma init_moved s x c hk o c0 x1 r : find_obj s x hk = Some o -> with_key c0 (o_uid o) = Some c -> run_init w s x c o = Ok (x1, r) -> moved s x (ss_op x1) /\ x1 = set_op x (ss_op x1).
Proof.
  unfold run_init. intros Fo K H. destruct (view _ _) as [ko| |]; cbn [bind] in H; try discriminate. destruct (Ops.step _ _ _ _) as [[p r1]| |] eqn:E; cbn [bind] in H; try discriminate. injection H as <- _.
  split; [|reflexivity]. apply op_step_key in E as [E|[E|(u & A & E)]]; [left; exact E|right; left; exact E| |destruct c0; try discriminate K; injection K as <-; discriminate].
  right; right. exists hk, o. split; [exact Fo|]. cbn [set_op ss_op]. rewrite E. destruct c0; try discriminate K; injection K as <-; cbn in A; injection A as ->; reflexivity.
Qed.
Lemma cont_moved s x c x1 r : with_key c 0 = None -> c <> KReopen -> run_cont w s x c = Ok (x1, r) -> (op_key (ss_op x1) = None \/ op_key (ss_op x1) = in_op x) /\ x1 = set_op x (ss_op x1).
Proof.
  unfold run_cont. intros K NR H. match type of H with bind ?m _ = _ => destruct m as [k| |] end; cbn [bind] in H; try discriminate.
  destruct (Ops.step _ _ _ _) as [[p r1]| |] eqn:E; cbn [bind] in H; try discriminate. injection H as <- _. split; [|reflexivity].
  apply op_step_key in E as [E|[E|(u & A & E)]]; [left; exact E|right; exact E| |exact NR]. exfalso. destruct c; try discriminate K; discriminate A.
Qed.

(** ** Objects stay *)
Lemma upd_in l (x y : session) : In y (upd_sess l x) -> y = x \/ (In y l /\ ss_h y <> ss_h x).
Proof. unfold upd_sess. intros J. apply in_map_iff in J as (z & E & Z). destruct (ss_h z =? ss_h x)%Z eqn:K; [left; auto|right; subst; split; [exact Z|apply Z.eqb_neq; exact K]]. Qed.
Definition held (s : sys) : Prop :=
  forall x u, In x (s_sess s) -> in_op x = Some u -> in_use x = true /\ In u (uids (t_objs (s_tok s) ++ ss_objs x)).
Definition later (s s' : sys) (h : Z) (x x' : session) : Prop :=
  ss_h x = ss_h x' /\ ss_use x = ss_use x' /\ incl (uids (t_objs (s_tok s) ++ ss_objs x)) (uids (t_objs (s_tok s') ++ ss_objs x')) /\ (ss_h x' <> h -> ss_op x' = ss_op x).
Lemma later_refl s s' h x : t_objs (s_tok s') = t_objs (s_tok s) -> later s s' h x x.
Proof. intros E. unfold later. rewrite E. split; [reflexivity|]. split; [reflexivity|]. split; [apply incl_refl|reflexivity]. Qed.
Lemma uids_app a b : uids (a ++ b) = uids a ++ uids b.
Proof. unfold uids. apply map_app. Qed.
Lemma upd_uids l o : uids (upd_objs l o) = uids l.
Proof. unfold uids, upd_objs. rewrite map_map. apply map_ext. intros y. destruct (o_uid y =? o_uid o)%nat eqn:E; [apply Nat.eqb_eq in E; symmetry; exact E|reflexivity]. Qed.
Lemma store_tok_uids rnd s c s' : store w rnd s = Ok (c, s') -> uids (t_objs (s_tok s')) = uids (t_objs (s_tok s)) /\ s_sess s' = s_sess s.
Proof.
  intros H. apply store_frame in H as (_ & S & _ & _ & C). split; [|exact S]. unfold uids.
  apply (f_equal (map o_uid)) in C. rewrite !map_map in C. exact C.
Qed.
Lemma prim_later cl h s s' : inv s -> prim w cl h s s' -> (forall ho, cl <> ODestroyObject h ho) -> forall x', In x' (s_sess s') -> exists x, In x (s_sess s) /\ later s s' h x x'.
Proof.
  intros I P ND x' J. destruct P as [s x y X Ux E1 E2 E3 E4|s n|s x rnd c s' X Rw E1 E2 Cl|s x o X Rw E1 L Iu Nu Hd Ot Mk Cl|s x b o X Rw E1 L Iu Nu Nb Hd Ot Mk Cl|s x o X Rw E1 Io (ho & Cl & _)|s x o X Rw E1 Io Ot (ho & Cl & _)|s x o o' X Rw E1 Io Sid Mk];
  try (exfalso; exact (ND ho Cl)).
  - cbn [put_sess set_sess s_sess] in J. apply upd_in in J as [->|[Z K]].
    + exists x. split; [exact X|]. unfold later. rewrite E1, E2, E3, E4. split; [reflexivity|]. split; [reflexivity|]. split; [apply incl_refl|congruence].
    + exists x'. split; [exact Z|]. apply later_refl; reflexivity.
  - exists x'. split; [exact J|]. apply later_refl; reflexivity.
  - apply store_tok_uids in E2 as (T & S). rewrite S in J. exists x'. split; [exact J|]. split; [reflexivity|]. split; [reflexivity|]. split; [|reflexivity]. rewrite !uids_app, T. apply incl_refl.
  - cbn [put_sess set_sess s_sess] in J. apply upd_in in J as [->|[Z K]].
    + exists x. split; [exact X|]. unfold later. cbn. rewrite !uids_app. cbn. split; [reflexivity|]. split; [reflexivity|]. split; [|reflexivity]. intros a Aa. apply in_app_or in Aa as [Aa|Aa]; apply in_or_app; [left|right; right]; exact Aa.
    + exists x'. split; [exact Z|]. apply later_refl; reflexivity.
  - exists x'. split; [exact J|]. split; [reflexivity|]. split; [reflexivity|]. split; [|reflexivity]. intros a Aa. right. exact Aa.
  - cbn in J. apply in_map_iff in J as (z & Ez & Z). subst x'. exists z. split; [exact Z|]. split; [reflexivity|]. split; [reflexivity|]. split; [|reflexivity]. cbn [put_obj set_sess set_tok s_tok set_objs t_objs set_sobjs ss_objs]. rewrite !uids_app, !upd_uids. apply incl_refl.
Qed.
Lemma prims_later cl h s s' : inv s -> prims w cl h s s' -> (forall ho, cl <> ODestroyObject h ho) -> forall x', In x' (s_sess s') -> exists x, In x (s_sess s) /\ later s s' h x x'.
Proof.
  intros I P ND. revert I. induction P as [s|s s1 s2 P Ps IH]; intros I x' J.
  - exists x'. split; [exact J|]. apply later_refl; reflexivity.
  - destruct (IH (prim_inv w _ _ _ _ P I) x' J) as (x1 & X1 & A1 & A2 & A3 & A4). destruct (prim_later _ _ _ _ I P ND x1 X1) as (x & X & B1 & B2 & B3 & B4).
    exists x. split; [exact X|]. unfold later. split; [congruence|]. split; [congruence|]. split; [intros a Aa; apply A3, B3; exact Aa|]. intros N. rewrite A4 by exact N. apply B4. congruence.
Qed.
(** ** The calls that free no key in use *)
Definition spares (s : sys) (c : op) : Prop :=
  match c with
  | ODestroyObject h ho => forall x o y, sess_get s h = Some x -> find_obj s x ho = Some o -> In y (s_sess s) -> in_op y <> Some (o_uid o)
  | OInitToken _ _ _ => t_init (s_tok s) = true \/ forall y, In y (s_sess s) -> in_op y = None
  | _ => True
  end.
Lemma find_obj_in s x h o : find_obj s x h = Some o -> In (o_uid o) (uids (t_objs (s_tok s) ++ ss_objs x)).
Proof. unfold find_obj. intros H. unfold uids. apply in_map. apply in_or_app. destruct (on_token h); apply find_some in H as [H _]; auto. Qed.
Lemma in_ukeys s s' x' : ukeys s' = ukeys s -> In x' (s_sess s') -> exists x, In x (s_sess s) /\ ukey x = ukey x'.
Proof. intros K X. assert (J : In (ukey x') (ukeys s)) by (rewrite <- K; apply in_map; exact X). apply in_map_iff in J as (x & E & J). eauto. Qed.
Lemma own_moved rnd s c h s' o x x' : inv s -> objop c = Some h -> cryptop c = true -> step w rnd s c = Ok (s', o) -> sess_get s h = Some x ->
  In x' (s_sess s') -> ss_h x' = h -> moved s x (ss_op x').
Proof.
  intros I O F H G X' Hx'. pose proof (inv_uniq s I) as U. pose proof (sess_get_in _ _ _ G) as (X & Hx & _).
  assert (Same : In x' (s_sess s) -> moved s x (ss_op x')).
  { intros J. assert (x' = x) by (apply (NoDup_map_inj _ _ ss_h (s_sess s)); auto; congruence). subst x'. right; left. reflexivity. }
  assert (Put : forall x1, moved s x (ss_op x1) -> x1 = set_op x (ss_op x1) -> In x' (upd_sess (s_sess s) x1) -> moved s x (ss_op x')).
  { intros x1 M E J. apply upd_in in J as [->|[J _]]; auto. }
  assert (Two : forall x1 x2, moved s x (ss_op x1) -> (op_key (ss_op x2) = None \/ op_key (ss_op x2) = in_op x1) -> moved s x (ss_op x2)).
  { intros x1 x2 M [A|A]; [left; exact A|]. unfold moved, in_op in *. rewrite A. exact M. }
  destruct c; try discriminate O; try discriminate F; injection O as ->; cbn [step] in H; unfold with_sess, need_lib in H;
  (destruct (0 <? _)%Z; [|kk H; auto]); rewrite G in H.
  - unfold need_rw in H. destruct (is_rw x); [|kk H; auto]. unfold with_object in H. destruct (find_obj s x hk) as [k|]; [|kk H; auto]. destruct (find_obj s x hw) as [wk|] eqn:Fw; [|kk H; auto].
    unfold Wrap in H. destruct (negb _); [kk H; auto|]. destruct (as_rsa _); cbn [bind] in H; try discriminate. destruct (w_p8 _ _) as [c0 der]. destruct (negb _); [kk H; auto|]. destruct (negb _); [kk H; auto|]. destruct (negb _); [kk H; auto|].
    destruct (run_init _ _ _ _ _) as [[x1 o1]| |] eqn:R1; cbn [bind] in H; try discriminate.
    apply (init_moved _ _ _ hw wk (KEncryptInit m mp 0)) in R1 as (M1 & E1); [|exact Fw|reflexivity].
    destruct (negb _); [unfold rv_ in H; injection H as <- _; eapply Put; eauto|].
    destruct (run_cont _ _ _ _) as [[x2 o2]| |] eqn:R2; cbn [bind] in H; try discriminate. apply cont_moved in R2 as (M2 & E2); [|reflexivity|discriminate].
    injection H as <- _. eapply Put; [eapply Two; [exact M1|exact M2]| |exact X']. rewrite E2, E1. reflexivity.
  - unfold need_rw in H. destruct (is_rw x); [|kk H; auto]. destruct (_ =? _)%Z; [kk H; auto|]. unfold with_object in H. destruct (find_obj s x hu) as [uk|] eqn:Fw; [|kk H; auto].
    unfold Unwrap in H. destruct (negb _); [kk H; auto|]. destruct (find_last _ _); [|kk H; auto]. destruct (tmpl_ulong _); [|kk H; auto]. destruct (negb _); [kk H; auto|].
    destruct (find_last _ _); [|kk H; auto]. destruct (tmpl_ulong _); [|kk H; auto]. destruct (negb _); [kk H; auto|]. destruct (negb _); [kk H; auto|]. destruct (negb _); [kk H; auto|].
    destruct (run_init _ _ _ _ _) as [[x1 o1]| |] eqn:R1; cbn [bind] in H; try discriminate.
    apply (init_moved _ _ _ hu uk (KDecryptInit m mp 0)) in R1 as (M1 & E1); [|exact Fw|reflexivity].
    destruct (negb _); [unfold rv_ in H; injection H as <- _; eapply Put; eauto|].
    destruct (run_cont _ _ _ _) as [[x2 o2]| |] eqn:R2; cbn [bind] in H; try discriminate. apply cont_moved in R2 as (M2 & E2); [|reflexivity|discriminate]. cbv zeta in H.
    assert (P : In x' (upd_sess (s_sess s) x2) -> moved s x (ss_op x')). { intros J. eapply Put; [eapply Two; [exact M1|exact M2]| |exact J]. rewrite E2, E1. reflexivity. }
    destruct (negb _); [kk H; auto|]. destruct (NewObject _ _ _ _ _ _) as [[rv [ob|]]| |]; cbn [bind] in H; [|kk H; auto|discriminate..].
    destruct (w_p8_dec _ _) as [cc r]. destruct (negb _); [kk H; auto|]. destruct (AddObject _ _ _ _ _ _) as [[[rv2 ho] s4]| |] eqn:A; cbn [bind] in H; try discriminate.
    injection H as <- _. assert (X2 : ss_h x2 = ss_h x) by (rewrite E2, E1; reflexivity).
    assert (J2 : In x2 (upd_sess (s_sess s) x2)). { unfold upd_sess. apply in_map_iff. exists x. rewrite X2, Z.eqb_refl. auto. }
    apply AddObject_ukeys in A; [|cbn; unfold uniq; rewrite upd_sess_h; exact U|apply in_map; exact J2].
    destruct (in_ukeys _ _ _ A X') as (y & Y & E). cbn in Y. unfold ukey in E. injection E as Ey _ Ep. apply upd_in in Y as [->|[Y N]]; [|congruence].
    rewrite <- Ep. eapply Two; [exact M1|exact M2].
  - destruct (with_key c 0) as [c1|] eqn:W.
    + unfold with_object in H. destruct (find_obj s x hk) as [k|] eqn:Fk; [|kk H; auto]. destruct (with_key c (o_uid k)) as [c2|] eqn:W2; [|kk H; auto].
      destruct (run_init _ _ _ _ _) as [[x1 o1]| |] eqn:R1; cbn [bind] in H; try discriminate. apply (init_moved _ _ _ hk k c) in R1 as (M1 & E1); [|exact Fk|exact W2]. injection H as <- _. eapply Put; eauto.
    + assert (D : c = KReopen \/ exists x1 r, run_cont w s x c = Ok (x1, r) /\ s' = put_sess s x1 /\ c <> KReopen).
      { destruct c; try discriminate W; auto; right; destruct (run_cont _ _ _ _) as [[x1 r]| |] eqn:R1; cbn [bind] in H; try discriminate; injection H as <- _; exists x1, r; repeat split; discriminate. }
      destruct D as [->|(x1 & r & R1 & -> & NR)]; [kk H; auto|]. apply cont_moved in R1 as (M & E); [|exact W|exact NR]. eapply Put; [|exact E|exact X'].
      destruct M as [M|M]; [left; exact M|right; left; exact M].
Qed.
(** ** The calls that concern no object *)
Lemma final_op x x' : sess_final x = Ok x' -> in_op x' = None.
Proof.
  unfold sess_final. intros H. destruct (free_all _); cbn [bind] in H; try discriminate. destruct (op_session_final _) as [p| |] eqn:E; cbn [bind] in H; try discriminate.
  injection H as <-. apply session_final_curr in E. unfold in_op, op_key. cbn [ss_op]. rewrite E. destruct (_ =? _)%Z; reflexivity.
Qed.
Lemma drop_unused_in l l' y : drop_unused l = Ok l' -> In y l' -> In y l.
Proof. intros H J. apply drop_unused_split in H as (p & -> & _). apply in_or_app. auto. Qed.
Lemma close_in l x l' y : close_sess l x = Ok l' -> In y l' -> in_op y = None \/ In y l.
Proof.
  unfold close_sess. intros H J. destruct (sess_final x) as [x'| |] eqn:E; cbn [bind] in H; try discriminate. apply final_op in E.
  destruct l as [|z r]; [injection H as <-; destruct J|]. destruct (andb _ _).
  - right. right. eapply drop_unused_in; eauto.
  - injection H as <-. apply upd_in in J as [->|[J _]]; auto.
Qed.
Lemma drop_dyn_in l l' y : drop_dyn l = Ok l' -> In y l' -> In y l.
Proof. intros H J. apply drop_dyn_split in H as (p & -> & _). apply in_or_app. auto. Qed.
Lemma final_head_in n l l' y : final_head n l = Ok l' -> In y l' -> in_op y = None \/ In y l.
Proof.
  revert l. induction n as [|n IH]; intros l H J; cbn [final_head] in H; [injection H as <-; auto|]. destruct l as [|x r]; [injection H as <-; auto|].
  destruct (sess_final x) as [x'| |] eqn:E; cbn [bind] in H; try discriminate. apply final_op in E. destruct (IH _ H J) as [A|[<-|A]]; [left; exact A|left; exact E|right; right; exact A].
Qed.
Lemma close_all_in l l' y : close_all l = Ok l' -> In y l' -> in_op y = None \/ In y l.
Proof.
  unfold close_all. intros H J. destruct (drop_dyn l) as [l1| |] eqn:E; cbn [bind] in H; try discriminate.
  destruct (final_head_in _ _ _ _ H J) as [A|A]; [left; exact A|right; eapply drop_dyn_in; eauto].
Qed.
(** Sessions that were there, with the same token objects, or sessions using nothing. *)
Lemma held_from s s' : held s -> (forall y, In y (s_sess s') -> in_op y = None \/ In y (s_sess s)) -> uids (t_objs (s_tok s')) = uids (t_objs (s_tok s)) -> held s'.
Proof.
  intros Hd S T x u X E. destruct (S x X) as [N|J]; [congruence|]. destruct (Hd x u J E) as (A & B). split; [exact A|]. rewrite uids_app, T, <- uids_app. exact B.
Qed.
Lemma ident_uids l l' : map ident l' = map ident l -> uids l' = uids l.
Proof. intros E. apply (f_equal (map o_uid)) in E. rewrite !map_map in E. exact E. Qed.
Theorem step_held rnd s c s' o : inv s -> held s -> spares s c -> step w rnd s c = Ok (s', o) -> held s'.
Proof.
  intros I Hd Sp H. pose proof (inv_uniq s I) as U. destruct (objop c) as [h|] eqn:O.
  - pose proof (objop_prims w _ _ _ _ _ _ I O H) as P. 
    destruct (match c with ODestroyObject _ _ => true | _ => false end) eqn:D.
    + destruct c; try discriminate D. injection O as ->. cbn [spares] in Sp. pose proof (step_ukeys _ _ (ODestroyObject h ho) _ _ h I eq_refl eq_refl H) as K.
      cbn [step] in H; unfold with_sess, need_lib in H. destruct (0 <? _)%Z; [|unfold rv_ in H; injection H as <- _; exact Hd]. destruct (sess_get s h) as [x|] eqn:G; [|unfold rv_ in H; injection H as <- _; exact Hd].
      unfold need_rw, with_object in H. destruct (is_rw x); [|unfold rv_ in H; injection H as <- _; exact Hd]. destruct (find_obj s x ho) as [ob|] eqn:Fo; [|unfold rv_ in H; injection H as <- _; exact Hd].
      destruct (RemoveObject _ _ _ _ _ _) as [s1| |] eqn:E; cbn [bind] in H; try discriminate. unfold rv_ in H. injection H as <- _.
      assert (Keep : forall u l, u <> o_uid ob -> In u (uids l) -> In u (uids (remove_uid (o_uid ob) l))).
      { intros u l N J. unfold uids in *. apply in_map_iff in J as (a & <- & A). apply in_map. clear - N A. induction l as [|b l IH]; [destruct A|]. cbn [remove_uid]. destruct A as [->|A]; (destruct (o_uid _ =? o_uid ob)%nat eqn:Q; [apply Nat.eqb_eq in Q|]); [congruence|left; reflexivity|exact A|right; apply IH; exact A]. }
      intros x' u X' Ux'. destruct (in_ukeys _ _ _ K X') as (y & Y & Ey). unfold ukey in Ey. injection Ey as Ey1 Ey2 Ey3.
      assert (Uy : in_op y = Some u) by (unfold in_op in *; rewrite Ey3; exact Ux'). destruct (Hd y u Y Uy) as (A & B). split; [unfold in_use in *; rewrite <- Ey2; exact A|].
      assert (N : u <> o_uid ob) by (intros ->; apply (Sp x ob y eq_refl Fo Y); exact Uy).
      unfold RemoveObject in E. destruct (obj_free _); cbn [bind] in E; try discriminate. rewrite uids_app in *. destruct (on_token _).
      * destruct (o_onTok _); [|discriminate]. destruct (no_kind _); [discriminate|]. destruct (store _ _ _) as [[c2 s2]| |] eqn:S; cbn [bind] in E; try discriminate. injection E as <-. apply store_tok_uids in S as (T & S). rewrite T. rewrite S in X'. cbn in X'. assert (x' = y) by (apply (NoDup_map_inj _ _ ss_h (s_sess s)); auto). subst x'.
        apply in_app_or in B as [B|B]; apply in_or_app; [left; apply Keep; assumption|right; exact B].
      * injection E as <-. cbn [put_sess set_sess s_sess s_tok] in *. apply upd_in in X' as [->|[X' N2]].
        -- apply sess_get_in in G as (G & _). assert (x = y) by (apply (NoDup_map_inj _ _ ss_h (s_sess s)); auto). subst y. cbn [set_sobjs ss_objs]. apply in_app_or in B as [B|B]; apply in_or_app; [left; exact B|right; apply Keep; assumption].
        -- assert (x' = y) by (apply (NoDup_map_inj _ _ ss_h (s_sess s)); auto). subst x'. exact B.
    + assert (ND : forall ho, c <> ODestroyObject h ho) by (intros ho ->; discriminate D).
      intros x' u X' Ux'. destruct (prims_later _ _ _ _ I P ND x' X') as (x & X & L1 & L2 & L3 & L4).
      assert (Same : in_op x = Some u -> in_use x' = true /\ In u (uids (t_objs (s_tok s') ++ ss_objs x'))).
      { intros Ux. destruct (Hd x u X Ux) as (A & B). split; [unfold in_use in *; rewrite <- L2; exact A|apply L3; exact B]. }
      destruct (cryptop c) eqn:Cr.
      * destruct (Z.eq_dec (ss_h x') h) as [Eh|N]; [|apply Same; unfold in_op in *; rewrite <- L4 by exact N; exact Ux'].
        destruct (sess_get s h) as [y|] eqn:G.
        -- pose proof (sess_get_in _ _ _ G) as (Y & Hy & Uy & _). assert (y = x) by (apply (NoDup_map_inj _ _ ss_h (s_sess s)); auto; congruence). subst y.
           destruct (own_moved _ _ _ _ _ _ _ _ I O Cr H G X' Eh) as [M|[M|(hk & k & Fk & M)]]; unfold in_op in Ux'; [congruence|apply Same; congruence|].
           split; [unfold in_use in *; rewrite <- L2; exact Uy|]. apply L3. replace u with (o_uid k) by congruence. eapply find_obj_in; exact Fk.
        -- assert (s' = s). { destruct c; try discriminate O; try discriminate Cr; injection O as ->; cbn [step] in H; unfold with_sess, need_lib in H; rewrite G in H; destruct (0 <? _)%Z; unfold rv_ in H; injection H as <- _; reflexivity. }
           subst s'. apply (Hd x' u X' Ux').
      * pose proof (step_ukeys _ _ _ _ _ _ I O Cr H) as K. destruct (in_ukeys _ _ _ K X') as (y & Y & Ey). unfold ukey in Ey. injection Ey as Ey1 Ey2 Ey3.
        assert (y = x) by (apply (NoDup_map_inj _ _ ss_h (s_sess s)); auto; congruence). subst y. apply Same. unfold in_op in *. rewrite Ey3. exact Ux'.
  - assert (Same : s_sess s' = s_sess s -> uids (t_objs (s_tok s')) = uids (t_objs (s_tok s)) -> held s') by (intros E; apply held_from; [exact Hd|rewrite E; auto]).
    destruct c; try discriminate O; cbn [step] in H; unfold with_slot, with_sess, need_lib in H; cbn [spares] in Sp.
    + unfold Initialize in H. destruct (_ =? 0)%Z; [|injection H as <- _; exact Hd]. destruct (Token_Load _ _ _); cbn [bind] in H; try discriminate. injection H as <- _.
      intros x u [<-|[<-|[]]] E; discriminate E.
    + unfold Finalize in H. destruct (_ =? 0)%Z; [|injection H as <- _; exact Hd].
      destruct (store w rnd s) as [[c1 s1]| |]; cbn [bind] in H; try discriminate. destruct (final_all _); cbn [bind] in H; try discriminate.
      destruct (free_all _); cbn [bind] in H; try discriminate. injection H as <- _. intros x u [].
    + injection H as <- _. intros x u [].
    + destruct (0 <? _)%Z; [|unfold rv_ in H; injection H as <- _; exact Hd]. destruct (slot_ok slot); [|unfold rv_ in H; injection H as <- _; exact Hd].
      unfold InitToken in H. destruct (negb _); [unfold rv_ in H; injection H as <- _; exact Hd|]. destruct (andb (t_init _) (existsb _ _)) eqn:B; [unfold rv_ in H; injection H as <- _; exact Hd|].
      destruct (andb _ (negb _)); [unfold rv_ in H; injection H as <- _; exact Hd|].
      destruct (TokenReset _ _ _ _ _) as [[c1 s1]| |] eqn:T; cbn [bind] in H; try discriminate. unfold rv_ in H. injection H as <- _.
      unfold TokenReset in T. destruct (free_all _); cbn [bind] in T; try discriminate. destruct (zlen _ <? 32)%Z; [discriminate|]. unfold SetSOPin in T.
      apply store_tok_uids in T as (_ & T). cbn in T. intros x u X E. rewrite T in X. exfalso. destruct Sp as [Sp|Sp]; [|rewrite (Sp x X) in E; discriminate E].
      rewrite Sp in B. cbn [andb] in B. destruct (Hd x u X E) as (A & _). assert (K : existsb in_use (s_sess s) = true) by (apply existsb_exists; exists x; auto). congruence.
    + destruct (0 <? _)%Z; [|unfold rv_ in H; injection H as <- _; exact Hd]. destruct (sess_get s h); [|unfold rv_ in H; injection H as <- _; exact Hd].
      unfold InitPIN in H. repeat match type of H with (if ?b then rv_ _ _ else _) = _ => destruct b; [unfold rv_ in H; injection H as <- _; exact Hd|] end.
      destruct (SetUserPin _ _ _ _) as [[c1 s1]| |] eqn:T; cbn [bind] in H; try discriminate. unfold rv_ in H. injection H as <- _.
      unfold SetUserPin in T. apply store_tok_uids in T as (T1 & T2). apply Same; [exact T2|exact T1].
    + destruct (0 <? _)%Z; [|unfold rv_ in H; injection H as <- _; exact Hd]. destruct (sess_get s h); [|unfold rv_ in H; injection H as <- _; exact Hd].
      unfold SetPIN in H. cbv zeta in H. repeat match type of H with (if ?b then rv_ _ _ else _) = _ => destruct b; [unfold rv_ in H; injection H as <- _; exact Hd|] end.
      match type of H with bind ?r _ = _ => destruct r as [[c1 s1]| |] eqn:T end; cbn [bind] in H; try discriminate.
      unfold rv_ in H. injection H as <- _. destruct (_ =? _)%Z; [unfold SetSOPin in T|unfold SetUserPin in T]; (apply store_tok_uids in T as (T1 & T2); apply Same; [exact T2|exact T1]).
    + destruct (0 <? _)%Z; [|unfold rv_ in H; injection H as <- _; exact Hd]. destruct (slot_ok slot); [|unfold rv_ in H; injection H as <- _; exact Hd].
      assert (Op : forall l x use, (forall y, In y l -> in_op y = None \/ In y (s_sess s)) -> in_op x = None -> held (put_sess (set_sess s l) (set_use x use))).
      { intros l x use L N. apply (held_from s); [exact Hd| |reflexivity]. intros y Y. cbn [put_sess set_sess s_sess] in Y. apply upd_in in Y as [->|[Y _]]; [left; exact N|apply L; exact Y]. }
      unfold OpenSession in H. repeat match type of H with (if ?b then rv_ _ _ else _) = _ => destruct b; [unfold rv_ in H; injection H as <- _; exact Hd|] end. cbv zeta in H.
      repeat match type of H with (if ?b then rv_ _ _ else _) = _ => destruct b; [unfold rv_ in H; injection H as <- _; exact Hd|] end.
      destruct (first_unused (s_sess s)) as [x|] eqn:Fu.
      * injection H as <- _. apply Op; [auto|]. apply find_some in Fu as [X Ux]. apply negb_true_iff in Ux. destruct (in_op x) as [u|] eqn:E; [|reflexivity]. destruct (Hd x u X E). congruence.
      * match type of H with (if ?b then _ else _) = _ => destruct b end; [unfold rv_ in H; injection H as <- _; exact Hd|]. injection H as <- _. apply Op; [|reflexivity].
        intros y [<-|Y]; [left; reflexivity|right; exact Y].
    + destruct (0 <? _)%Z; [|unfold rv_ in H; injection H as <- _; exact Hd]. destruct (sess_get s h) as [y|]; [|unfold rv_ in H; injection H as <- _; exact Hd].
      unfold CloseSession in H. destruct (close_sess _ _) as [l| |] eqn:CL; cbn [bind] in H; try discriminate. apply (held_from s); [exact Hd| |].
      * assert (E : s_sess s' = l). { cbv zeta in H. destruct (existsb in_use l); [unfold rv_ in H; injection H as <- _; reflexivity|]. destruct (Logout _ _) as [t| |] eqn:Lo; cbn [bind] in H; try discriminate. unfold rv_ in H. injection H as <- _. reflexivity. }
        rewrite E. intros z Z. eapply close_in; eauto.
      * cbv zeta in H. destruct (existsb in_use l); [unfold rv_ in H; injection H as <- _; reflexivity|]. destruct (Logout _ _) as [t| |] eqn:Lo; cbn [bind] in H; try discriminate. unfold rv_ in H. injection H as <- _.
        apply Logout_ok in Lo as (_ & Lo & _). apply ident_uids. exact Lo.
    + destruct (0 <? _)%Z; [|unfold rv_ in H; injection H as <- _; exact Hd]. destruct (slot_ok slot); [|unfold rv_ in H; injection H as <- _; exact Hd].
      destruct (close_all _) as [l| |] eqn:CA; cbn [bind] in H; try discriminate. unfold rv_ in H. injection H as <- _. apply (held_from s); [exact Hd| |reflexivity]. intros y Y. eapply close_all_in; eauto.
    + destruct (0 <? _)%Z; [|unfold rv_ in H; injection H as <- _; exact Hd]. destruct (sess_get s h); [|unfold rv_ in H; injection H as <- _; exact Hd].
      unfold Login in H. destruct (negb _); [unfold rv_ in H; injection H as <- _; exact Hd|].
      destruct (ut =? CKU_SO)%Z; [|destruct (ut =? CKU_USER)%Z; [|destruct (ut =? CKU_CONTEXT_SPECIFIC)%Z; unfold rv_ in H; injection H as <- _; exact Hd]].
      * destruct (SOLogin _ _ _ _ _) as [c t] eqn:Lo. unfold rv_ in H. injection H as <- _. apply SOLogin_ok in Lo as (Lo & _). apply Same; [reflexivity|]. cbn. rewrite Lo. reflexivity.
      * destruct (UserLogin _ _ _ _) as [[c t]| |] eqn:Lo; cbn [bind] in H; try discriminate. unfold rv_ in H. injection H as <- _. apply UserLogin_ok in Lo as (Lo & _). apply Same; [reflexivity|]. cbn. apply ident_uids. exact Lo.
    + destruct (0 <? _)%Z; [|unfold rv_ in H; injection H as <- _; exact Hd]. destruct (sess_get s h); [|unfold rv_ in H; injection H as <- _; exact Hd].
      destruct (Logout _ _) as [t| |] eqn:Lo; cbn [bind] in H; try discriminate. unfold rv_ in H. injection H as <- _. apply Logout_ok in Lo as (_ & Lo & _). apply Same; [reflexivity|]. cbn. apply ident_uids. exact Lo.
    + destruct (0 <? _)%Z; [|unfold rv_ in H; injection H as <- _; exact Hd]. destruct (slot_ok slot); [injection H as <- _|unfold rv_ in H; injection H as <- _]; exact Hd.
Qed.
End W.
