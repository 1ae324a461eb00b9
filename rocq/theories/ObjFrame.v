(** What the calls do to the lists of objects. *)
From Verif Require Import Base Ops Object ObjectProofs Store Sys SysProofs SysProofs2 SysProofs3 SysProofs4.
From Coq Require Import Permutation.

Lemma sess_get_of s x : uniq (s_sess s) -> In x (s_sess s) -> in_use x = true -> slot_ok (ss_h x / 2^16) = true -> sess_get s (ss_h x) = Some x.
Proof. intros U I Ux Sl. unfold sess_get. rewrite Sl, (find_sess_uniq _ _ U I), Ux. reflexivity. Qed.
Lemma sess_get_same s x y : uniq (s_sess s) -> In x (s_sess s) -> In y (s_sess s) -> ss_h x = ss_h y -> x = y.
Proof. intros U X Y E. apply (NoDup_map_inj _ _ ss_h (s_sess s)); auto. Qed.

(** ** Identities *)
Lemma uids_sess l x y a b : NoDup (uids (all_objs l)) -> In x l -> In y l -> In a (ss_objs x) -> In b (ss_objs y) -> o_uid a = o_uid b -> x = y.
Proof.
  induction l as [|z l IH]; [contradiction|]. cbn [all_objs]. rewrite uids_app. intros N X Y A B E.
  assert (D : forall u, In u (uids (ss_objs z)) -> ~ In u (uids (all_objs l))).
  { clear - N. unfold uids in *. induction (map o_uid (ss_objs z)) as [|v r IHr]; [contradiction|]. cbn in *. inversion N as [|? ? Nv Nr]. subst.
    intros u [<-|I]; [intros J; apply Nv, in_or_app; auto|auto]. }
  assert (N2 : NoDup (uids (all_objs l))) by (apply NoDup_app_mid with (a := uids (ss_objs z)) (c := []); rewrite app_nil_r; exact N).
  assert (M : forall x a, In x l -> In a (ss_objs x) -> In (o_uid a) (uids (all_objs l))) by (intros; apply in_map; eapply all_objs_in; eauto).
  destruct X as [->|X], Y as [->|Y]; auto.
  - exfalso. apply (D (o_uid a)); [apply in_map; exact A|rewrite E; eauto].
  - exfalso. apply (D (o_uid b)); [apply in_map; exact B|rewrite <- E; eauto].
Qed.
Lemma uid_all s : uid_ok s -> NoDup (uids (all_objs (s_sess s))).
Proof. intros [N _]. unfold live in N. rewrite uids_app in N. apply NoDup_app_mid with (a := uids (t_objs (s_tok s))) (c := []). rewrite app_nil_r. exact N. Qed.
Lemma uid_tok_sess s x a b : uid_ok s -> In x (s_sess s) -> In a (t_objs (s_tok s)) -> In b (ss_objs x) -> o_uid a <> o_uid b.
Proof.
  intros [N _] X A B E. unfold live in N. rewrite uids_app in N.
  assert (D : forall u, In u (uids (t_objs (s_tok s))) -> ~ In u (uids (all_objs (s_sess s)))).
  { clear - N. unfold uids in *. induction (map o_uid (t_objs (s_tok s))) as [|v r IHr]; [contradiction|]. cbn in *. inversion N as [|? ? Nv Nr]. subst.
    intros u [<-|I]; [intros J; apply Nv, in_or_app; auto|auto]. }
  apply (D (o_uid a)); [apply in_map; exact A|]. rewrite E. apply in_map. eapply all_objs_in; eauto.
Qed.
Lemma upd_objs_other l o : ~ In (o_uid o) (uids l) -> upd_objs l o = l.
Proof.
  unfold upd_objs. induction l as [|y l IH]; cbn; intros N; [reflexivity|]. destruct (Nat.eqb_spec (o_uid y) (o_uid o)) as [E|E]; [exfalso; apply N; auto|]. rewrite IH; auto.
Qed.
Lemma set_sobjs_id x : set_sobjs x (ss_objs x) = x.
Proof. destruct x; reflexivity. Qed.

(** ** Other sessions *)
Section W.
Variable w : world.
Lemma prim_frame cl h s s' x : inv s -> prim w cl h s s' -> In x (s_sess s) -> ss_h x <> h -> In x (s_sess s').
Proof.
  intros I P Xi N. destruct P as [s y y' Y U E1 E2 E3 E4|s n|s y rnd c s' Y Rw E1 E2 Cl|s y o Y Rw E1 L Iu Nu Hd Ot M Cl|s y b o Y Rw E1 L Iu Nu Nb Hd Ot M Cl|s y o Y Rw E1 Io Cl|s y o Y Rw E1 Io Ot Cl|s y o o' Y Rw E1 Io Sid M].
  - cbn. apply upd_sess_other; [exact Xi|congruence].
  - exact Xi.
  - apply store_frame in E2 as (_ & -> & _). exact Xi.
  - cbn. apply upd_sess_other; [exact Xi|]. cbn. congruence.
  - exact Xi.
  - cbn. apply upd_sess_other; [exact Xi|]. cbn. congruence.
  - exact Xi.
  - cbn. apply in_map_iff. exists x. split; [|exact Xi]. rewrite upd_objs_other; [apply set_sobjs_id|].
    destruct Sid as (-> & _). intros J. apply in_map_iff in J as (z & Ez & Iz). destruct I as (_ & _ & U & _).
    apply in_app_or in Io as [Io|Io].
    + apply (uid_tok_sess s x o z U Xi Io Iz). congruence.
    + assert (x = y) by (eapply (uids_sess (s_sess s)); [apply uid_all; exact U|exact Xi|exact Y|exact Iz|exact Io|exact Ez]). congruence.
Qed.
Lemma prims_frame cl h s s' x : inv s -> prims w cl h s s' -> In x (s_sess s) -> ss_h x <> h -> In x (s_sess s').
Proof. intros I P. induction P as [s|s s1 s2 P Ps IH]; intros X N; [exact X|]. apply IH; [eapply prim_inv; eauto| |exact N]. eapply prim_frame; eauto. Qed.

(** Calls that can end a session other than their own. *)
Definition ends_all (c : op) : bool := match c with OCloseAllSessions _ | OFinalize | ORestart => true | _ => false end.
Lemma step_frame rnd s c s' o h x : inv s -> step w rnd s c = Ok (s', o) -> objop c <> Some h -> c <> OCloseSession h -> ends_all c = false ->
  sess_get s h = Some x -> sess_get s' h = Some x.
Proof.
  intros I H O1 O2 E G. pose proof G as G0. apply sess_get_in in G as (X & Hx & Ux & Sl). pose proof (step_inv w _ _ _ _ _ I H) as I'.
  rewrite <- Hx. rewrite <- Hx in Sl. apply sess_get_of; [apply inv_uniq; exact I'| |exact Ux|exact Sl].
  destruct (objop c) as [h0|] eqn:O.
  { eapply prims_frame; [exact I|eapply objop_prims; eauto|exact X|congruence]. }
  destruct c; try discriminate O; try discriminate E; cbn [step] in H; unfold with_slot, with_sess, need_lib in H.
  - unfold Initialize in H. destruct (s_count s =? 0)%Z eqn:C0.
    + apply Z.eqb_eq in C0. destruct I as (_ & B & _). rewrite B in X by lia. contradiction.
    + sinv. exact X.
  - destruct (0 <? _)%Z; [|sinv; exact X]. destruct (slot_ok slot); [|sinv; exact X].
    unfold InitToken in H. repeat match type of H with (if ?b then rv_ _ _ else _) = _ => destruct b; [sinv; exact X|] end.
    destruct (TokenReset _ _ _ _ _) as [[c s1]| |] eqn:T; cbn [bind] in H; try discriminate. sinv.
    unfold TokenReset in T. destruct (free_all _); cbn [bind] in T; try discriminate. destruct (zlen _ <? 32)%Z; [discriminate|]. unfold SetSOPin in T.
    apply store_frame in T as (_ & -> & _). exact X.
  - destruct (0 <? _)%Z; [|sinv; exact X]. destruct (sess_get s h0); [|sinv; exact X].
    unfold InitPIN in H. repeat match type of H with (if ?b then rv_ _ _ else _) = _ => destruct b; [sinv; exact X|] end.
    destruct (SetUserPin _ _ _ _) as [[c s1]| |] eqn:T; cbn [bind] in H; try discriminate. sinv.
    unfold SetUserPin in T. apply store_frame in T as (_ & -> & _). exact X.
  - destruct (0 <? _)%Z; [|sinv; exact X]. destruct (sess_get s h0); [|sinv; exact X].
    unfold SetPIN in H. cbv zeta in H. repeat match type of H with (if ?b then rv_ _ _ else _) = _ => destruct b; [sinv; exact X|] end.
    match type of H with bind ?r _ = _ => destruct r as [[c s1]| |] eqn:T end; cbn [bind] in H; try discriminate.
    unfold rv_ in H. injection H as <- _. destruct (_ =? _)%Z; [unfold SetSOPin in T|unfold SetUserPin in T]; apply store_frame in T as (_ & -> & _); exact X.
  - destruct (0 <? s_count s)%Z eqn:Cn; [|sinv; exact X]. destruct (slot_ok slot); [|sinv; exact X].
    apply Z.ltb_lt in Cn. apply OpenSession_ok in H as [[-> _] | (l & y & -> & _ & Sk & _ & _ & S1 & S2 & Iy & Uy & _)]; auto.
    cbn. apply upd_sess_other; [apply S2; exact X|]. cbn. intros Q. assert (x = y); [|subst; unfold in_use in Ux; rewrite Uy in Ux; discriminate].
    apply (NoDup_map_inj _ _ ss_h l); auto. apply chain_uniq, Sk.
  - destruct (0 <? s_count s)%Z eqn:Cn; [|sinv; exact X]. destruct (sess_get s h0) as [y|] eqn:G; [|sinv; exact X].
    apply Z.ltb_lt in Cn. apply sess_get_in in G as (Y & Hy & Uy & _).
    unfold CloseSession in H. destruct (close_sess _ _) as [l| |] eqn:CL; cbn [bind] in H; try discriminate.
    apply close_sess_ok in CL as (K1 & K2 & K3); [|apply I; exact Cn|exact Y].
    assert (Xl : In x l) by (apply K3; [exact X|congruence|exact Ux]).
    destruct (existsb in_use l); [sinv; exact Xl|].
    destruct (Logout _ _) as [t| |] eqn:L; cbn [bind] in H; try discriminate. sinv. exact Xl.
  - destruct (0 <? _)%Z; [|sinv; exact X]. destruct (sess_get s h0); [|sinv; exact X].
    unfold Login in H. destruct (negb _); [sinv; exact X|].
    destruct (ut =? CKU_SO)%Z; [|destruct (ut =? CKU_USER)%Z; [|destruct (ut =? CKU_CONTEXT_SPECIFIC)%Z; sinv; exact X]].
    + destruct (SOLogin _ _ _ _ _) as [c t] eqn:L. sinv. exact X.
    + destruct (UserLogin _ _ _ _) as [[c t]| |] eqn:L; cbn [bind] in H; try discriminate. sinv. exact X.
  - destruct (0 <? _)%Z; [|sinv; exact X]. destruct (sess_get s h0); [|sinv; exact X].
    destruct (Logout _ _) as [t| |] eqn:L; cbn [bind] in H; try discriminate. sinv. exact X.
  - destruct (0 <? _)%Z; [|sinv; exact X]. destruct (slot_ok slot); sinv; exact X.
Qed.

(** ** Adding *)
Lemma sess_get_put s x x' h : uniq (s_sess s) -> sess_get s h = Some x -> ss_h x' = ss_h x -> ss_use x' = ss_use x -> sess_get (put_sess s x') h = Some x'.
Proof.
  intros U G E1 E2. apply sess_get_in in G as (X & Hx & Ux & Sl). rewrite <- Hx, <- E1 in *. apply sess_get_of.
  - cbn. unfold uniq. rewrite upd_sess_h. exact U.
  - cbn. eapply upd_sess_self; [exact X|exact E1].
  - unfold in_use in *. rewrite E2. exact Ux.
  - exact Sl.
Qed.
(** The lists and files are the same. *)
Ltac same := split; [|split]; reflexivity.
Definition same_objs (s s' : sys) : Prop := s_tok s' = s_tok s /\ map ss_objs (s_sess s') = map ss_objs (s_sess s) /\ s_fs s' = s_fs s.
Lemma same_objs_refl s : same_objs s s.
Proof. split; [|split]; reflexivity. Qed.
Lemma same_objs_trans a b c : same_objs a b -> same_objs b c -> same_objs a c.
Proof. intros (A & B & C) (D & E & F). split; [|split]; congruence. Qed.
Lemma same_put s x x' : uniq (s_sess s) -> In x (s_sess s) -> ss_h x' = ss_h x -> ss_objs x' = ss_objs x -> same_objs s (put_sess s x').
Proof. intros U X E1 E2. split; [reflexivity|]. split; [|reflexivity]. cbn. eapply upd_sess_map; eauto. Qed.
Lemma upd_sess_rest l (x : session) h : ss_h x = h -> forall y, In y (upd_sess l x) -> ss_h y <> h -> In y l.
Proof. intros <- y Y N. unfold upd_sess in Y. apply in_map_iff in Y as (z & E & Z). destruct (Z.eqb_spec (ss_h z) (ss_h x)); subst y; [contradiction|exact Z]. Qed.
(** A new object at the head of one list, through session [h]. *)
Definition added (h : Z) (b : N) (o : obj) (s s' : sys) : Prop :=
  ~ In (o_uid o) (uids (live s)) /\ o_onTok o = N.odd b /\ (forall y, In y (s_sess s') -> ss_h y <> h -> In y (s_sess s)) /\ exists x x', sess_get s h = Some x /\ sess_get s' h = Some x' /\ is_rw x = true /\
  if (b =? 0)%N then (zlen (ss_objs x) < SESS_OBJ_MAX)%Z /\ o_handle o = next_handle (ss_objs x) 0 /\ ss_objs x' = o :: ss_objs x /\ s_tok s' = s_tok s /\ s_fs s' = s_fs s
  else (zlen (t_objs (s_tok s)) < TOK_OBJ_MAX)%Z /\ o_handle o = next_handle (t_objs (s_tok s)) b /\
       map core_obj (t_objs (s_tok s')) = core_obj o :: map core_obj (t_objs (s_tok s)) /\ ss_objs x' = ss_objs x /\
       exists r s1 c, s_tok s1 = set_objs (s_tok s) (o :: t_objs (s_tok s)) /\ s_fs s1 = s_fs s /\ store w r s1 = Ok (c, s').
Lemma AddToSession_added rnd s h x b o c ho s' : uniq (s_sess s) -> sess_get s h = Some x -> is_rw x = true -> ~ In (o_uid o) (uids (live s)) ->
  AddToSession w rnd s x b o = Ok (c, ho, s') ->
  (c = 0%Z /\ exists o', o_uid o' = o_uid o /\ o_handle o' = ho /\ added h b o' s s') \/ (c <> 0%Z /\ s' = s /\ ho = 0%Z).
Proof.
  unfold AddToSession. intros U G R F H. destruct (b =? 0)%N eqn:B.
  - destruct (SESS_OBJ_MAX <=? _)%Z eqn:L; [right; sinv; split; [discriminate|auto]|left]. sinv. apply N.eqb_eq in B. subst b. split; [reflexivity|].
    exists (set_handle (set_onTok o (N.odd 0)) (next_handle (ss_objs x) 0)). split; [reflexivity|]. split; [reflexivity|]. split; [exact F|]. split; [reflexivity|].
    split; [apply upd_sess_rest with (x := set_sobjs x (set_handle (set_onTok o (N.odd 0)) (next_handle (ss_objs x) 0) :: ss_objs x)); apply sess_get_in in G; cbn; tauto|].
    exists x, (set_sobjs x (set_handle (set_onTok o (N.odd 0)) (next_handle (ss_objs x) 0) :: ss_objs x)). split; [exact G|]. split; [eapply sess_get_put; eauto|]. split; [exact R|].
    cbn. split; [lia|auto].
  - destruct (TOK_OBJ_MAX <=? _)%Z eqn:L; [right; sinv; split; [discriminate|auto]|].
    destruct (Encode _ _ _ _) as [[c2 o2]| |] eqn:E; cbn [bind] in H; try discriminate.
    destruct (negb (c2 =? 0)%Z) eqn:C2; [right; sinv; split; [intros ->; discriminate C2|auto]|left].
    destruct (store _ _ _) as [[c3 s3]| |] eqn:S; cbn [bind] in H; try discriminate. sinv. split; [reflexivity|].
    pose proof S as S0. apply Encode_id in E as (E1 & E2 & _). cbn in E1, E2. apply store_frame in S as (_ & S1 & _ & _ & S2). cbn in S1, S2.
    exists (set_handle o2 (next_handle (t_objs (s_tok s)) b)). split; [exact E1|]. split; [reflexivity|]. split; [cbn; congruence|]. split; [exact E2|]. split; [rewrite S1; auto|].
    exists x, x. split; [exact G|]. split; [unfold sess_get in *; rewrite S1; exact G|]. split; [exact R|]. rewrite B. split; [lia|]. split; [reflexivity|]. split; [exact S2|]. split; [reflexivity|]. eexists _, _, _. split; [|split; [|exact S0]]; reflexivity.
Qed.
Lemma AddObject_added rnd s h x t o c ho s' : uniq (s_sess s) -> sess_get s h = Some x -> is_rw x = true -> ~ In (o_uid o) (uids (live s)) ->
  AddObject w rnd s x t o = Ok (c, ho, s') ->
  (c = CKR_OK /\ exists b o', tmpl_token t = Some b /\ o_uid o' = o_uid o /\ o_handle o' = ho /\ added h b o' s s') \/ (c <> CKR_OK /\ s' = s /\ ho = 0%Z).
Proof.
  unfold AddObject. intros U G R F H. destruct (tmpl_token t) as [b|]; [|right; sinv; split; [discriminate|auto]].
  destruct (AddToSession _ _ _ _ _ _) as [[[c1 h1] s1]| |] eqn:E; cbn [bind] in H; try discriminate. injection H as <- <- <-.
  apply (AddToSession_added _ _ h) in E as [(-> & o' & E1 & E2 & E3) | (E1 & -> & ->)]; try assumption.
  - left. split; [reflexivity|]. exists b, o'. auto.
  - right. destruct (Z.eqb_spec c1 0); [contradiction|]. split; [discriminate|auto].
Qed.
Lemma added_from h b o s s1 s' : uids (live s1) = uids (live s) -> same_objs s s1 -> (forall x1, sess_get s1 h = Some x1 -> exists x, sess_get s h = Some x /\ is_rw x = is_rw x1 /\ ss_objs x = ss_objs x1) -> (forall y, In y (s_sess s1) -> ss_h y <> h -> In y (s_sess s)) ->
  added h b o s1 s' -> added h b o s s'.
Proof.
  intros Eu (St & _ & Sf) Q Fr (F & O & Fr1 & x1 & x' & G1 & G2 & R & K). destruct (Q _ G1) as (x & G & R1 & Eo). split; [congruence|]. split; [exact O|]. split; [intros; apply Fr; auto|]. exists x, x'.
  rewrite Eo, <- St, <- Sf. split; [exact G|]. split; [exact G2|]. split; [congruence|]. exact K.
Qed.
Lemma live_bump s n : live (bump s n) = live s.
Proof. reflexivity. Qed.
Lemma fresh_uid s : uid_ok s -> forall k, ~ In (s_uid s + k)%nat (uids (live s)).
Proof. intros [_ F] k J. rewrite Forall_forall in F. apply F in J. lia. Qed.

(** The calls that create one object. *)
Definition creator (c : op) : option (Z * template) :=
  match c with
  | OCreateObject h t | OCopyObject h _ t | OGenerateKey h _ t _ | OUnwrapKey h _ _ _ _ t | ODeriveKey h _ _ _ t => Some (h, t)
  | _ => None
  end.
Definition new_handle (o : out) : option Z := match o with OutH rv h => if (rv =? CKR_OK)%Z then Some h else None | _ => None end.
Definition created (h : Z) (t : template) (s s' : sys) (o : out) : Prop :=
  (exists ho b ob, new_handle o = Some ho /\ tmpl_token t = Some b /\ o_handle ob = ho /\ added h b ob s s') \/ (new_handle o = None /\ same_objs s s').
Lemma add_created rnd s h x t o c ho s' s0 : uniq (s_sess s0) -> sess_get s0 h = Some x -> is_rw x = true -> ~ In (o_uid o) (uids (live s0)) ->
  AddObject w rnd s0 x t o = Ok (c, ho, s') -> uids (live s0) = uids (live s) -> same_objs s s0 ->
  (forall x1, sess_get s0 h = Some x1 -> exists x, sess_get s h = Some x /\ is_rw x = is_rw x1 /\ ss_objs x = ss_objs x1) -> (forall y, In y (s_sess s0) -> ss_h y <> h -> In y (s_sess s)) -> created h t s s' (OutH c ho).
Proof.
  intros U G R F A E1 E2 E3 E4. apply (AddObject_added _ _ h) in A as [(-> & b & ob & T & A1 & A2 & A3) | (A1 & -> & ->)]; try assumption.
  - left. exists ho, b, ob. split; [reflexivity|]. split; [exact T|]. split; [exact A2|]. eapply added_from; eauto.
  - right. split; [|exact E2]. unfold new_handle. destruct (Z.eqb_spec c CKR_OK); [contradiction|reflexivity].
Qed.
Ltac nothing := right; split; [reflexivity|same].
Lemma bump_sess s n h x1 : sess_get (bump s n) h = Some x1 -> exists x, sess_get s h = Some x /\ is_rw x = is_rw x1 /\ ss_objs x = ss_objs x1.
Proof. intros E. exists x1. auto. Qed.
Lemma step_created rnd s c s' o h t : inv s -> creator c = Some (h, t) -> step w rnd s c = Ok (s', o) -> created h t s s' o.
Proof.
  intros I C H. pose proof (inv_uniq s I) as U.
  assert (Ui : forall n, uniq (s_sess (bump s n))) by (intros n; exact U).
  assert (Ub : uid_ok s) by apply I. 
  destruct c; try discriminate C; injection C as -> ->; cbn [step] in H; unfold with_sess, need_lib in H;
    (destruct (0 <? _)%Z; [|sinv; nothing]); (destruct (sess_get s h) as [x|] eqn:G; [|sinv; nothing]).
  - unfold need_rw in H. destruct (is_rw x) eqn:R; [|sinv; nothing]. unfold Create in H. rewrite R in H.
    destruct (CreateObject _ _ _ _) as [[rv [ob|]]| |] eqn:E; cbn [bind] in H; try discriminate; [|sinv; nothing].
    apply CreateObject_id in E as (_ & Eu & _). destruct (AddObject _ _ _ _ _ _) as [[[c1 h1] s1]| |] eqn:A; cbn [bind] in H; try discriminate. injection H as <- <-.
    eapply (add_created _ s h x t _ _ _ _ (bump s 1)); [|exact G|exact R| |exact A|reflexivity|same|apply bump_sess|intros y Y _; exact Y]; [exact U|]. rewrite Eu, <- (Nat.add_0_r (s_uid s)). apply (fresh_uid s Ub).
  - unfold need_rw in H. destruct (is_rw x) eqn:R; [|sinv; nothing]. unfold with_object in H. destruct (find_obj s x ho) as [src|]; [|sinv; nothing]. unfold Copy in H. rewrite R in H.
    destruct (CopyObject _ _ _ _ _) as [[[rv t1] [[b ob]|]]| |] eqn:E; cbn [bind] in H; try discriminate; [|sinv; nothing].
    apply CopyObject_id in E as (_ & Eu & _ & Et & _). destruct (AddToSession _ _ _ _ _ _) as [[[c1 h1] s1]| |] eqn:A; cbn [bind] in H; try discriminate. injection H as <- <-.
    apply (AddToSession_added _ _ h) in A as [(-> & o' & A1 & A2 & A3) | (A1 & -> & ->)]; [| |exact U|exact G|exact R|rewrite Eu, <- (Nat.add_0_r (s_uid s)); apply (fresh_uid s Ub)].
    + left. exists h1, b, o'. split; [reflexivity|]. split; [exact Et|]. split; [exact A2|]. eapply added_from; [| | | |exact A3]; [reflexivity|same|apply bump_sess|intros y Y _; exact Y].
    + right. split; [|same]. destruct (Z.eqb_spec c1 0); [contradiction|reflexivity].
  - destruct aes; [|sinv; nothing]. unfold GenKey in H.
    destruct (NewObject _ _ _ _ _ _) as [[rv [ob|]]| |] eqn:E; cbn [bind] in H; try discriminate; [|sinv; nothing].
    apply NewObject_id in E as (R & Eu & _). destruct (as_sym ob) as [[l b]| |]; cbn [bind] in H; try discriminate. destruct (_ <? _)%Z; [discriminate|]. cbv zeta in H.
    destruct (AddObject _ _ _ _ _ _) as [[[c1 h1] s1]| |] eqn:A; cbn [bind] in H; try discriminate. injection H as <- <-.
    eapply (add_created _ s h x t _ _ _ _ (bump s 1)); [|exact G|exact R| |exact A|reflexivity|same|apply bump_sess|intros y Y _; exact Y]; [exact U|]. cbn [set_data o_uid]. rewrite Eu, <- (Nat.add_0_r (s_uid s)). apply (fresh_uid s Ub).
  - unfold need_rw in H. destruct (is_rw x) eqn:R; [|sinv; nothing]. destruct (_ =? _)%Z; [sinv; nothing|]. unfold with_object in H. destruct (find_obj s x hu) as [uk|]; [|sinv; nothing].
    unfold Unwrap in H.
    repeat match type of H with
    | (if ?b then rv_ _ _ else _) = _ => destruct b; [sinv; nothing|]
    | (match find_last ?a ?b with _ => _ end) = _ => destruct (find_last a b); [|sinv; nothing]
    | (match tmpl_ulong ?a with _ => _ end) = _ => destruct (tmpl_ulong a); [|sinv; nothing]
    end.
    pose proof G as G0. apply sess_get_in in G0 as (X & _ & _ & _).
    assert (P : forall p, same_objs s (put_sess s (set_op x p))) by (intros p; eapply same_put; [exact U|exact X|reflexivity|reflexivity]).
    destruct (run_init _ _ _ _ _) as [[x1 o1]| |] eqn:E1; cbn [bind] in H; try discriminate.
    apply run_init_x in E1 as (p1 & ->).
    destruct (negb _); [sinv; right; split; [reflexivity|exact (P _)]|].
    destruct (run_cont _ _ _ _) as [[x2 o2]| |] eqn:E2; cbn [bind] in H; try discriminate.
    apply run_cont_x in E2 as (p2 & ->).
    change (set_op (set_op x p1) p2) with (set_op x p2) in *.
    destruct (negb _); [sinv; right; split; [reflexivity|exact (P _)]|].
    destruct (NewObject _ _ _ _ _ _) as [[rv [ob|]]| |] eqn:E; cbn [bind] in H; try discriminate; [|sinv; right; split; [reflexivity|exact (P _)]].
    apply NewObject_id in E as (_ & Eu & _). destruct (w_p8_dec w (o_out o2)) as [c r]. destruct (negb _); [sinv; right; split; [reflexivity|exact (P _)]|].
    destruct (AddObject _ _ _ _ _ _) as [[[c1 h1] s1]| |] eqn:A; cbn [bind] in H; try discriminate. injection H as <- <-.
    assert (Lv : live (put_sess s (set_op x p2)) = live s).
    { destruct (live_put_sess s x (set_op x p2) U X eq_refl) as (l1 & l2 & L1 & L2). rewrite L1, L2. reflexivity. }
    eapply (add_created _ s h (set_op x p2) t _ _ _ _ (bump (put_sess s (set_op x p2)) 1)); [| | | |exact A| |apply (P p2)| |].
    + cbn. unfold uniq. rewrite upd_sess_h. exact U.
    + change (sess_get (put_sess s (set_op x p2)) h = Some (set_op x p2)). eapply sess_get_put; eauto.
    + exact R.
    + cbn [set_data o_uid]. rewrite live_bump, Lv, Eu. cbn [put_sess set_sess s_uid]. rewrite <- (Nat.add_0_r (s_uid s)). apply (fresh_uid s Ub).
    + rewrite live_bump, Lv. reflexivity.
    + intros x1 Gx. exists x. split; [exact G|]. change (sess_get (put_sess s (set_op x p2)) h = Some x1) in Gx.
      rewrite (sess_get_put s x (set_op x p2) h U G eq_refl eq_refl) in Gx. injection Gx as <-. auto.
    + apply sess_get_in in G as (_ & G & _). apply (upd_sess_rest (s_sess s) (set_op x p2)). exact G.
  - unfold with_object in H. destruct (find_obj s x hb) as [base|]; [|sinv; nothing]. unfold Derive in H.
    assert (K : forall k : res unit,
    bind k (fun _ => match secret with
      | None => rv_ s CKR_FUNCTION_FAILED
      | Some sec0 =>
          '(rv, o) <- CreateObject (w_oe w) (is_rw x) (s_uid s) t ;;
          let s1 := bump s 1 in
          match o with
          | None => rv_ s1 rv
          | Some o =>
              '(c, _, d) <- GetAttr (w_oe w) o CKA_VALUE_LEN (Some 8%Z) ;;
              if negb (c =? 0)%Z then rv_ s1 CKR_OK else
              let vl := u32 (ulong_of d) in
              let sl := if andb (0 <? vl)%Z (vl <=? zlen sec0)%Z then vl else zlen sec0 in
              if (sl <? zlen sec0)%Z then Undef UB_read_overflow else
              '(c2, o1) <- SetSecretKey o [None; Some sec0] ;;
              if negb (c2 =? 0)%Z then rv_ s1 CKR_FUNCTION_FAILED else
              '(rv2, h, s2) <- AddObject w rnd s1 x t o1 ;; Ok (s2, OutH rv2 h)
          end
      end) = Ok (s', o) -> created h t s s' o).
    { clear H. intros k H. destruct k; cbn [bind] in H; try discriminate. destruct secret as [sec|]; [|sinv; nothing].
      destruct (CreateObject _ _ _ _) as [[rv [ob|]]| |] eqn:E; cbn [bind] in H; try discriminate; [|sinv; nothing].
      apply CreateObject_id in E as (R & Eu & _). destruct (GetAttr _ _ _ _) as [[[c l] d]| |]; cbn [bind] in H; try discriminate.
      destruct (negb _); [sinv; nothing|]. cbv zeta in H. match type of H with (if ?b then _ else _) = _ => destruct b; [discriminate|] end.
      destruct (SetSecretKey _ _) as [[c2 o1]| |] eqn:E2; cbn [bind] in H; try discriminate. destruct (negb _); [sinv; nothing|].
      apply SetSecretKey_frame in E2 as (dd & ->).
      destruct (AddObject _ _ _ _ _ _) as [[[c1 h1] s1]| |] eqn:A; cbn [bind] in H; try discriminate. injection H as <- <-.
      eapply (add_created _ s h x t _ _ _ _ (bump s 1)); [|exact G|exact R| |exact A|reflexivity|same|apply bump_sess|intros y Y _; exact Y]; [exact U|]. cbn [set_data o_uid]. rewrite Eu, <- (Nat.add_0_r (s_uid s)). apply (fresh_uid s Ub). }
    destruct m; [apply (K _ H)|apply (K _ H)|sinv; nothing].
Qed.
End W.
