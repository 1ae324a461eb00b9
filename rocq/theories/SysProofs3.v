(** Every call that is not about sessions, login or PINs is a sequence of the
    elementary changes. *)
From Verif Require Import Base Ops Object ObjectProofs Store Sys SysProofs SysProofs2.

Section W.
Variable w : world.
Notation oe := (w_oe w).

(** ** Objects made from templates *)
Lemma same_id_refl o : same_id o o.
Proof. repeat split. Qed.
Lemma SetAttributeValue_id rw o t rv o' : SetAttributeValue oe rw o t = Ok (rv, o') ->
  same_id o o' /\ (rv = CKR_OK -> rw = true).
Proof.
  intros H. split; [|intros ->; apply SetAttributeValue_ok in H; apply H].
  unfold SetAttributeValue in H.
  destruct (negb rw); [sinv; apply same_id_refl|].
  destruct (negb _); [sinv; apply same_id_refl|].
  destruct (params_of o); [|sinv; apply same_id_refl].
  destruct (param_vals t l); [|sinv; apply same_id_refl].
  destruct (SetKey oe o l0) as [[c o1]| |] eqn:K; cbn [bind] in H; try discriminate.
  assert (S1 : same_id o o1) by (apply SetKey_frame in K as (d & n & ->); repeat split).
  destruct (c =? MEMORY_E)%Z; [sinv; exact S1|].
  destruct (negb _); [sinv; exact S1|].
  apply set_loop_core in H. unfold same_core, same_id in *. intuition congruence.
Qed.
Lemma NewObject_id rw uid ty cls t rv o : NewObject oe rw uid ty cls t = Ok (rv, Some o) ->
  rw = true /\ o_uid o = uid /\ rv = CKR_OK /\ o_type o = ty /\ o_keyData o = None /\ o_enc o = false.
Proof.
  unfold NewObject. intros H. destruct (SetAttributeValue _ _ _ _) as [[c o1]| |] eqn:E; cbn [bind] in H; try discriminate.
  injection H as -> H. destruct (rv =? CKR_OK)%Z eqn:E1; [|discriminate]. injection H as ->.
  apply SetAttributeValue_id in E as [I R]. apply Z.eqb_eq in E1.
  unfold same_id in I. cbn in I. intuition congruence.
Qed.
Lemma CreateObject_id rw uid t rv o : CreateObject oe rw uid t = Ok (rv, Some o) ->
  rw = true /\ o_uid o = uid /\ rv = CKR_OK /\ o_keyData o = None /\ o_enc o = false.
Proof.
  unfold CreateObject. intros H. sinv; try (apply NewObject_id in H; tauto).
  all: destruct (_ =? CKO_CERTIFICATE)%Z in *; sinv; try (apply NewObject_id in H; tauto).
Qed.
Lemma CopyObject_id rw uid src t rv t' b o : CopyObject oe rw uid src t = Ok (rv, t', Some (b, o)) ->
  rw = true /\ o_uid o = uid /\ rv = CKR_OK /\ tmpl_token t = Some b /\ o_keyData o = None /\ o_enc o = false.
Proof.
  unfold CopyObject. intros H. destruct (tmpl_token t); [|discriminate].
  destruct (GetAttributeValue _ _ _) as [[c1 t1]| |]; cbn [bind] in H; try discriminate.
  destruct (negb _); [discriminate|].
  destruct (SetAttributeValue _ _ _ _) as [[c o1]| |] eqn:E; cbn [bind] in H; try discriminate.
  injection H as -> -> H. destruct (rv =? CKR_OK)%Z eqn:E1; [|discriminate]. injection H as -> ->.
  apply SetAttributeValue_id in E as [I R]. apply Z.eqb_eq in E1.
  unfold same_id in I. cbn in I. intuition congruence.
Qed.

Lemma Encode_id key p o c o' : Encode (w_se w) key p o = Ok (c, o') ->
  o_uid o' = o_uid o /\ o_onTok o' = o_onTok o /\ o_type o' = o_type o /\ o_handle o' = o_handle o /\
  (p = false -> core_obj o' = core_obj o).
Proof.
  unfold Encode. intros H. destruct (is_cert o); [sinv; auto|].
  destruct (EncodeKey _ _ _) as [[c1 o1]| |] eqn:E; cbn [bind] in H; try discriminate.
  apply EncodeKey_core in E.
  assert (F : o_uid o1 = o_uid o /\ o_onTok o1 = o_onTok o /\ o_type o1 = o_type o /\ o_handle o1 = o_handle o).
  { unfold core_obj, set_store in E. injection E; intros. repeat split; assumption. }
  injection H as <- <-. destruct p; cbn [andb].
  - assert (G : forall b : bool, let o2 := if b then protect_key o1 else o1 in
      o_uid o2 = o_uid o1 /\ o_onTok o2 = o_onTok o1 /\ o_type o2 = o_type o1 /\ o_handle o2 = o_handle o1).
    { intros [|]; [|repeat split]. unfold protect_key. repeat match goal with |- context [if ?b then _ else _] => destruct b end; repeat split. }
    specialize (G (c1 =? 0)%Z). cbv zeta in G. intuition (try discriminate; congruence).
  - intuition.
Qed.

(** ** Adding *)
Section Cl.
Variable cl : op.
Hypothesis cr : creates cl = true.
Lemma is_rw_use x : is_rw x = true -> in_use x = true.
Proof. unfold is_rw, in_use. intros E. apply Z.eqb_eq in E. rewrite E. reflexivity. Qed.

Definition fresh_obj (s : sys) (o : obj) : Prop := (o_uid o < s_uid s)%nat /\ ~ In (o_uid o) (uids (live s)).
Lemma AddToSession_prims rnd s x b o c h s' : uniq (s_sess s) -> In x (s_sess s) -> is_rw x = true ->
  fresh_obj s o -> made w o -> AddToSession w rnd s x b o = Ok (c, h, s') ->
  prims w cl (ss_h x) s s' /\ s_uid s' = s_uid s /\
  (forall u, In u (uids (live s')) -> u = o_uid o \/ In u (uids (live s))).
Proof.
  unfold AddToSession. intros U I R [F1 F2] M H. destruct (b =? 0)%N eqn:B.
  - destruct (SESS_OBJ_MAX <=? _)%Z eqn:L; sinv; [split; [apply prs_0|auto]|]. apply N.eqb_eq in B. subst b.
    split; [|split; [reflexivity|]].
    + apply prims_one, pr_adds; auto; [lia|]. exists o. split; [exact M|reflexivity].
    + intros u J. destruct (live_put_sess s x (set_sobjs x (set_handle (set_onTok o (N.odd 0)) (next_handle (ss_objs x) 0) :: ss_objs x)))
        as (l1 & l2 & E1 & E2); auto. rewrite E2 in J. rewrite E1. rewrite !uids_app in *. cbn in J.
      apply in_app_or in J. cbn in J. rewrite !in_app_iff in *. intuition.
  - destruct (TOK_OBJ_MAX <=? _)%Z eqn:L; [sinv; split; [apply prs_0|auto]|]. apply N.eqb_neq in B.
    destruct (Encode _ _ _ _) as [[c2 o2]| |] eqn:E; cbn [bind] in H; try discriminate.
    destruct (negb (c2 =? 0)%Z) eqn:C2; [sinv; split; [apply prs_0|auto]|].
    destruct (store _ _ _) as [[c3 s3]| |] eqn:S; cbn [bind] in H; try discriminate. sinv.
    assert (c2 = 0%Z) by (apply negb_false_iff, Z.eqb_eq in C2; exact C2). subst c2. clear C2.
    pose proof E as E0. apply Encode_id in E as (E1 & E2 & _). cbn in E1, E2.
    split; [|split].
    + eapply prs_1.
      * apply (pr_addt w _ _ s x b (set_handle o2 (next_handle (t_objs (s_tok s)) b))); cbn; auto; try lia; try congruence.
        exists o, o2. split; [exact M|]. split; [exact E0|reflexivity].
      * apply prims_one. eapply (pr_store w _ _ _ x); eauto.
    + apply store_frame in S as (_ & _ & E & _). exact E.
    + intros u J. rewrite (live_store _ _ _ _ _ S) in J. unfold live in J. cbn in J. rewrite E1 in J. unfold live.
      destruct J as [J | J]; auto.
Qed.
Lemma AddObject_prims rnd s x t o c h s' : uniq (s_sess s) -> In x (s_sess s) -> is_rw x = true ->
  fresh_obj s o -> made w o -> AddObject w rnd s x t o = Ok (c, h, s') ->
  prims w cl (ss_h x) s s' /\ s_uid s' = s_uid s /\
  (forall u, In u (uids (live s')) -> u = o_uid o \/ In u (uids (live s))).
Proof.
  unfold AddObject. intros U I R F M H. destruct (tmpl_token t); [|sinv; split; [apply prs_0|auto]].
  destruct (AddToSession _ _ _ _ _ _) as [[[c1 h1] s1]| |] eqn:E; cbn [bind] in H; try discriminate. sinv.
  eapply AddToSession_prims; eauto.
Qed.
Lemma fresh_bump s n k o : uid_ok s -> o_uid o = (s_uid s + k)%nat -> (k < n)%nat -> fresh_obj (bump s n) o.
Proof.
  intros [_ F] E L. split; [cbn; lia|]. intros J. rewrite Forall_forall in F. apply F in J. lia.
Qed.
Lemma Create_prims rnd s x t s' o : inv s -> In x (s_sess s) -> Create w rnd s x t = Ok (s', o) -> prims w cl (ss_h x) s s'.
Proof.
  unfold Create. intros I X H.
  destruct (CreateObject _ _ _ _) as [[rv [ob|]]| |] eqn:E; cbn [bind] in H; try discriminate.
  - pose proof (md_create w _ _ _ _ _ E) as M. apply CreateObject_id in E as (R & U & _).
    destruct (AddObject _ _ _ _ _ _) as [[[c1 h1] s1]| |] eqn:A; cbn [bind] in H; try discriminate. sinv.
    eapply prs_1; [apply (pr_bump w _ _ s 1)|]. eapply AddObject_prims; [| | |apply (fresh_bump s 1 0)| |exact A]; auto.
    + apply (inv_uniq s I). + apply I. + cbn; lia.
  - sinv. apply prims_one, pr_bump.
Qed.
Lemma Copy_prims rnd s x src t s' o : inv s -> In x (s_sess s) -> Copy w rnd s x src t = Ok (s', o) -> prims w cl (ss_h x) s s'.
Proof.
  unfold Copy. intros I X H.
  destruct (CopyObject _ _ _ _ _) as [[[rv t1] [[b ob]|]]| |] eqn:E; cbn [bind] in H; try discriminate.
  - pose proof (md_copy w _ _ _ _ _ _ _ _ E) as M. apply CopyObject_id in E as (R & U & _).
    destruct (AddToSession _ _ _ _ _ _) as [[[c1 h1] s1]| |] eqn:A; cbn [bind] in H; try discriminate. sinv.
    eapply prs_1; [apply (pr_bump w _ _ s 1)|]. eapply AddToSession_prims; [| | |apply (fresh_bump s 1 0)| |exact A]; auto.
    + apply (inv_uniq s I). + apply I. + cbn; lia.
  - sinv. apply prims_one, pr_bump.
Qed.
Lemma GenKey_prims rnd s x t key s' o : inv s -> In x (s_sess s) -> GenKey w rnd s x t key = Ok (s', o) -> prims w cl (ss_h x) s s'.
Proof.
  unfold GenKey. intros I X H.
  destruct (NewObject _ _ _ _ _ _) as [[rv [ob|]]| |] eqn:E; cbn [bind] in H; try discriminate.
  - assert (M : made w ob) by (eapply md_new; [exact E|cbn; tauto]). apply NewObject_id in E as (R & U & _).
    destruct (as_sym ob) as [[l b]| |] eqn:AS; cbn [bind] in H; try discriminate.
    destruct (zlen b <? l)%Z; [discriminate|].
    destruct (AddObject _ _ _ _ _ _) as [[[c1 h1] s1]| |] eqn:A; cbn [bind] in H; try discriminate. sinv.
    eapply prs_1; [apply (pr_bump w _ _ s 1)|]. eapply AddObject_prims; [| | |apply (fresh_bump s 1 0)| |exact A]; auto.
    + apply (inv_uniq s I). + apply I. + cbn; lia. + apply md_gen; assumption.
  - sinv. apply prims_one, pr_bump.
Qed.
Lemma gen_uid m pub priv g p q :
  (match m with KP_RSA => RsaGen pub priv g | KP_EC => EcGen pub priv g | _ => DhGen pub priv g end) = Ok (Some (p, q)) ->
  o_uid p = o_uid pub /\ o_uid q = o_uid priv.
Proof. destruct m; cbn; unfold RsaGen, EcGen, DhGen; intros H; sinv; auto. Qed.

Lemma GenKeyPair_prims rnd s x m tp tq g s' o : inv s -> In x (s_sess s) ->
  GenKeyPair w rnd s x m tp tq g = Ok (s', o) -> prims w cl (ss_h x) s s'.
Proof.
  unfold GenKeyPair. intros I X H.
  destruct (match m with KP_RSA => _ | KP_EC => _ | KP_DH => _ | KP_other => _ end) as [ty|] eqn:TY; [|sinv; apply prs_0].
  assert (TY' : ty = CKK_RSA \/ ty = CKK_EC \/ ty = CKK_DH) by (destruct m; try discriminate; injection TY; auto).
  destruct (NewObject _ _ (s_uid s) _ _ _) as [[rv [pub|]]| |] eqn:E; cbn [bind] in H; try discriminate;
    [|sinv; apply prims_one, pr_bump].
  assert (MP : made w pub) by (eapply md_new; [exact E|cbn; destruct TY' as [-> | [-> | ->]]; tauto]).
  apply NewObject_id in E as (R & U & _).
  destruct (NewObject _ _ (S (s_uid s)) _ _ _) as [[rv2 [priv|]]| |] eqn:E2; cbn [bind] in H; try discriminate;
    [|sinv; apply prims_one, pr_bump].
  assert (MQ : made w priv) by (eapply md_new; [exact E2|cbn; destruct TY' as [-> | [-> | ->]]; tauto]).
  apply NewObject_id in E2 as (_ & U2 & _).
  match type of H with bind ?r _ = _ => destruct r as [[[pub1 priv1]|]| |] eqn:G end; cbn [bind] in H; try discriminate;
    [|sinv; apply prims_one, pr_bump].
  pose proof (md_pair w _ _ _ _ _ _ MP MQ G) as MP1. pose proof (md_pair2 w _ _ _ _ _ _ MP MQ G) as MQ1.
  apply gen_uid in G as [G1 G2].
  destruct (AddObject w rnd _ _ _ _) as [[[rv3 h1] s2]| |] eqn:A; cbn [bind] in H; try discriminate.
  eapply prs_1; [apply (pr_bump w _ _ s 2)|].
  assert (UN : uniq (s_sess (bump s 2))) by apply (inv_uniq s I).
  destruct (AddObject_prims rnd (bump s 2) x tp pub1 rv3 h1 s2) as (P & PU & PL); auto.
  { apply (fresh_bump s 2 0); [apply I|rewrite G1, U; lia|lia]. }
  destruct (negb (rv3 =? CKR_OK)%Z); [sinv; exact P|].
  destruct (sess_get s2 (ss_h x)) as [x2|] eqn:SG; [|sinv; exact P].
  destruct (AddObject w (fun i => rnd (100 + i)) _ _ _ _) as [[[rv4 h2] s3]| |] eqn:A2; cbn [bind] in H; try discriminate.
  destruct (rv4 =? CKR_OK)%Z; sinv.
  apply sess_get_in in SG as (X2 & Hx & Ux & _).
  assert (I1 : inv (bump s 2)) by (eapply prim_inv; [apply (pr_bump w cl 0 s 2)|exact I]).
  destruct (prims_inv w _ _ _ _ P I1) as [I2 (_ & QM & _)].
  eapply prims_trans; [exact P|].
  assert (R2 : is_rw x2 = true).
  { assert (J : In (ss_h x2, ss_use x2) (modes (s_sess s2))) by (unfold modes; apply (in_map (fun x => (ss_h x, ss_use x))); exact X2).
    rewrite QM in J. unfold modes in J. apply in_map_iff in J as (y & Ey & J). injection Ey as Ey1 Ey2.
    assert (y = x) by (apply (NoDup_map_inj _ _ ss_h (s_sess (bump s 2))); auto; congruence). subst y.
    unfold is_rw in *. congruence. }
  rewrite <- Hx. eapply AddObject_prims; [apply (inv_uniq _ I2)|exact X2|exact R2| |exact MQ1|exact A2].
  split.
  - rewrite PU, G2, U2. cbn. lia.
  - intros J. apply PL in J. destruct J as [J | J]; [lia|].
    destruct I as (_ & _ & [_ F] & _). rewrite Forall_forall in F. apply F in J. lia.
Qed.

Lemma run_init_x s x c o x' r : run_init w s x c o = Ok (x', r) -> exists p, x' = set_op x p.
Proof. unfold run_init. intros H. sinv. eauto. Qed.
Lemma run_cont_x s x c x' r : run_cont w s x c = Ok (x', r) -> exists p, x' = set_op x p.
Proof. unfold run_cont. intros H. sinv; eauto. Qed.
Lemma put_op_prims s x p : In x (s_sess s) -> in_use x = true -> prims w cl (ss_h x) s (put_sess s (set_op x p)).
Proof. intros. apply prims_one. eapply pr_sess; eauto. Qed.
Lemma put_find_prims s x b f n : In x (s_sess s) -> in_use x = true -> prims w cl (ss_h x) s (put_sess s (set_find x b f n)).
Proof. intros. apply prims_one. eapply pr_sess; eauto. Qed.

Lemma Wrap_prims s x m mp wk k b s' o : In x (s_sess s) -> in_use x = true ->
  Wrap w s x m mp wk k b = Ok (s', o) -> prims w cl (ss_h x) s s'.
Proof.
  unfold Wrap. intros X U H. sinv; try apply prs_0.
  all: repeat match goal with
  | E : run_init _ _ _ _ _ = _ |- _ => apply run_init_x in E as (? & ->)
  | E : run_cont _ _ _ _ = _ |- _ => apply run_cont_x in E as (? & ->) end;
  try match goal with |- context [set_op (set_op ?y ?a) ?b] => change (set_op (set_op y a) b) with (set_op y b) end;
  apply put_op_prims; auto.
Qed.
Lemma Unwrap_prims rnd s x m mp uk wr t s' o : inv s -> In x (s_sess s) -> in_use x = true ->
  Unwrap w rnd s x m mp uk wr t = Ok (s', o) -> prims w cl (ss_h x) s s'.
Proof.
  unfold Unwrap. intros I X U H.
  repeat match type of H with
  | (if ?b then rv_ _ _ else _) = _ => destruct b; [sinv; apply prs_0|]
  | (match find_last ?a ?b with _ => _ end) = _ => destruct (find_last a b); [|sinv; apply prs_0]
  | (match tmpl_ulong ?a with _ => _ end) = _ => destruct (tmpl_ulong a); [|sinv; apply prs_0]
  end.
  destruct (run_init _ _ _ _ _) as [[x1 o1]| |] eqn:E1; cbn [bind] in H; try discriminate.
  apply run_init_x in E1 as (p1 & ->).
  destruct (negb _); [sinv; apply put_op_prims; auto|].
  destruct (run_cont _ _ _ _) as [[x2 o2]| |] eqn:E2; cbn [bind] in H; try discriminate.
  apply run_cont_x in E2 as (p2 & ->).
  change (set_op (set_op x p1) p2) with (set_op x p2) in *.
  assert (P : prims w cl (ss_h x) s (put_sess s (set_op x p2))) by (apply put_op_prims; auto).
  destruct (negb _); [sinv; exact P|].
  destruct (NewObject _ _ _ _ _ _) as [[rv ob]| |] eqn:E; cbn [bind] in H; try discriminate.
  eapply prims_trans; [exact P|]. destruct (prims_inv w _ _ _ _ P I) as [I2 _].
  eapply prs_1; [apply (pr_bump w _ _ _ 1)|].
  destruct ob as [ob|]; [|sinv; apply prs_0].
  assert (M : made w ob) by (eapply md_new; [exact E|cbn; tauto]).
  apply NewObject_id in E as (R & UU & _).
  destruct (w_p8_dec w (o_out o2)) as [c r].
  destruct (negb _); [sinv; apply prs_0|].
  destruct (AddObject _ _ _ _ _ _) as [[[c1 h1] s1]| |] eqn:A; cbn [bind] in H; try discriminate. sinv.
  change (ss_h x) with (ss_h (set_op x p2)).
  eapply AddObject_prims; [| | |apply (fresh_bump (put_sess s (set_op x p2)) 1 0)|apply md_rsa, M|exact A]; auto.
  - apply (inv_uniq _ I2).
  - cbn. eapply upd_sess_self; eauto.
  - apply I2.
  - cbn in *. lia.
Qed.
Lemma Derive_prims rnd s x m base sec t s' o : inv s -> In x (s_sess s) ->
  Derive w rnd s x m base sec t = Ok (s', o) -> prims w cl (ss_h x) s s'.
Proof.
  unfold Derive. intros I X H.
  assert (G : forall k : res unit,
    bind k (fun _ => match sec with
      | None => rv_ s CKR_FUNCTION_FAILED
      | Some sec0 =>
          '(rv, o) <- CreateObject oe (is_rw x) (s_uid s) t ;;
          let s1 := bump s 1 in
          match o with
          | None => rv_ s1 rv
          | Some o =>
              '(c, _, d) <- GetAttr oe o CKA_VALUE_LEN (Some 8%Z) ;;
              if negb (c =? 0)%Z then rv_ s1 CKR_OK else
              let vl := u32 (ulong_of d) in
              let sl := if andb (0 <? vl)%Z (vl <=? zlen sec0)%Z then vl else zlen sec0 in
              if (sl <? zlen sec0)%Z then Undef UB_read_overflow else
              '(c2, o1) <- SetSecretKey o [None; Some sec0] ;;
              if negb (c2 =? 0)%Z then rv_ s1 CKR_FUNCTION_FAILED else
              '(rv2, h, s2) <- AddObject w rnd s1 x t o1 ;; Ok (s2, OutH rv2 h)
          end
      end) = Ok (s', o) -> prims w cl (ss_h x) s s').
  { clear H. intros k H. destruct k; cbn [bind] in H; try discriminate.
    destruct sec as [sec|]; [|sinv; apply prs_0].
    destruct (CreateObject _ _ _ _) as [[rv [ob|]]| |] eqn:E; cbn [bind] in H; try discriminate;
      [|sinv; apply prims_one, pr_bump].
    pose proof (md_create w _ _ _ _ _ E) as M. apply CreateObject_id in E as (R & U & _).
    destruct (GetAttr _ _ _ _) as [[[c l] d]| |]; cbn [bind] in H; try discriminate.
    eapply prs_1; [apply (pr_bump w _ _ s 1)|].
    destruct (negb _); [sinv; apply prs_0|].
    cbv zeta in H. match type of H with (if ?b then _ else _) = _ => destruct b; [discriminate|] end.
    destruct (SetSecretKey _ _) as [[c2 o1]| |] eqn:E2; cbn [bind] in H; try discriminate.
    destruct (negb _); [sinv; apply prs_0|].
    destruct (AddObject _ _ _ _ _ _) as [[[c1 h1] s1]| |] eqn:A; cbn [bind] in H; try discriminate. sinv.
    apply (md_derive w _ _ _ _ M) in E2 as M2. apply SetSecretKey_frame in E2 as (dd & ->).
    eapply AddObject_prims; [| | |apply (fresh_bump s 1 0)| |exact A]; auto.
    + apply (inv_uniq s I). + apply I. + cbn; lia. }
  destruct m; [apply (G _ H)|apply (G _ H)|sinv; apply prs_0].
Qed.

End Cl.

(** ** All of them *)
Definition objop (c : op) : option Z :=
  match c with
  | OGetSessionInfo h | OCreateObject h _ | OCopyObject h _ _ | ODestroyObject h _ | OGetAttributeValue h _ _
  | OSetAttributeValue h _ _ | OFindObjectsInit h _ | OFindObjects h _ | OFindObjectsFinal h
  | OGenerateKey h _ _ _ | OGenerateKeyPair h _ _ _ _ | OWrapKey h _ _ _ _ _ | OUnwrapKey h _ _ _ _ _
  | ODeriveKey h _ _ _ _ | OCrypto h _ _ => Some h
  | _ => None
  end.
Lemma with_sess_prims cl s h k s' o : 
  (forall x, In x (s_sess s) -> in_use x = true -> ss_h x = h -> k x = Ok (s', o) -> prims w cl (ss_h x) s s') ->
  with_sess s h k = Ok (s', o) -> prims w cl h s s'.
Proof.
  unfold with_sess, need_lib. intros K H. destruct (0 <? _)%Z; [|sinv; apply prs_0].
  destruct (sess_get s h) as [x|] eqn:G; [|sinv; apply prs_0].
  apply sess_get_in in G as (A & B & C & _). subst h. apply K; auto.
Qed.
Lemma find_obj_in s x h o : find_obj s x h = Some o ->
  In o (if on_token h then t_objs (s_tok s) else ss_objs x) /\ o_handle o = h.
Proof. unfold find_obj. intros F. apply find_some in F as [? ?]. split; [assumption|lia]. Qed.
Lemma with_object_inv s x h err k s' o : with_object s x h err k = Ok (s', o) ->
  (s' = s /\ o = OutRv err /\ find_obj s x h = None) \/ (exists ob, find_obj s x h = Some ob /\ k ob = Ok (s', o)).
Proof. unfold with_object. destruct (find_obj s x h) as [ob|]; intros H; [right; eauto|left; sinv; auto]. Qed.
Lemma need_rw_inv s x k s' o : need_rw s x k = Ok (s', o) ->
  (s' = s /\ o = OutRv CKR_SESSION_READ_ONLY /\ is_rw x = false) \/ (is_rw x = true /\ k = Ok (s', o)).
Proof. unfold need_rw. destruct (is_rw x); intros H; [right; auto|left; sinv; auto]. Qed.

Ltac ninv H :=
  first [ apply need_rw_inv in H as [(-> & -> & ?) | [? H]]; [apply prs_0|]
        | apply with_object_inv in H as [(-> & -> & ?) | [? [? H]]]; [apply prs_0|] ].

Lemma objop_prims rnd s c h s' o : inv s -> objop c = Some h -> step w rnd s c = Ok (s', o) -> prims w c h s s'.
Proof.
  intros I O H. destruct c; try discriminate O; injection O as ->; cbn [step] in H;
    revert H; apply with_sess_prims; intros x X U Hx H; subst h.
  - sinv. apply prs_0.
  - ninv H. eapply Create_prims; [reflexivity|eauto..].
  - ninv H. ninv H. eapply Copy_prims; [reflexivity|eauto..].
  - ninv H. ninv H. destruct (RemoveObject _ _ _ _ _ _) eqn:R; cbn [bind] in H; try discriminate. sinv.
    pose proof H1 as F0. apply find_obj_in in H1 as [F1 F2]. unfold RemoveObject in R.
    destruct (obj_free x0); cbn [bind] in R; try discriminate. destruct (on_token ho).
    + destruct (o_onTok x0) eqn:T; [|discriminate]. destruct (no_kind x0); [discriminate|].
      destruct (store _ _ _) as [[c1 s1]| |] eqn:S; cbn [bind] in R; try discriminate. injection R as ->.
      eapply prs_1; [eapply (pr_remt w _ _ s x x0); eauto|]. apply prims_one. eapply (pr_store w _ _ _ x); [exact X|assumption|reflexivity|exact S|right; eauto].
    + injection R as <-. apply prims_one. apply pr_rems; eauto.
  - ninv H. sinv. apply prs_0.
  - ninv H. ninv H. destruct (SetAttributeValue _ _ _ _) as [[rv o1]| |] eqn:E; cbn [bind] in H; try discriminate. sinv.
    pose proof E as E0. apply SetAttributeValue_id in E as [E _]. apply prims_one. eapply pr_set; eauto.
    2: { eexists _, _, _. split; [reflexivity|]. split; [eassumption|]. match goal with R : is_rw x = true |- _ => rewrite R in E0 end. exact E0. }
    apply find_obj_in in H1 as [F1 F2]. apply in_or_app. destruct (on_token ho); auto.
  - unfold FindInit in H. destruct (ss_find x); [sinv; apply prs_0|].
    destruct (find_last _ _).
    + destruct (tmpl_token t); sinv; apply put_find_prims; auto.
    + sinv. apply put_find_prims; auto.
  - unfold FindNext in H. sinv. apply put_find_prims; auto.
  - sinv. apply put_find_prims; auto.
  - destruct aes; [|sinv; apply prs_0]. eapply GenKey_prims; [reflexivity|eauto..].
  - eapply GenKeyPair_prims; [reflexivity|eauto..].
  - ninv H. ninv H. ninv H. eapply Wrap_prims; eauto.
  - ninv H. destruct (_ =? 0)%Z; [sinv; apply prs_0|]. ninv H. eapply Unwrap_prims; [reflexivity|eauto..].
  - ninv H. eapply Derive_prims; [reflexivity|eauto..].
  - destruct (with_key c 0).
    + ninv H. destruct (with_key c (o_uid x0)); [|sinv; apply prs_0].
      destruct (run_init _ _ _ _ _) as [[x1 r]| |] eqn:E; cbn [bind] in H; try discriminate. sinv.
      apply run_init_x in E as (p & ->). apply put_op_prims; auto.
    + assert (G : ('(x1, r) <- run_cont w s x c;; Ok (put_sess s x1, OutC r)) = Ok (s', o) -> prims w (OCrypto (ss_h x) c hk) (ss_h x) s s').
      { clear H. intros G. destruct (run_cont _ _ _ _) as [[x1 r]| |] eqn:E; cbn [bind] in G; try discriminate. sinv.
        apply run_cont_x in E as (p & ->). apply put_op_prims; auto. }
      destruct c; auto. sinv. apply prs_0.
Qed.
End W.
