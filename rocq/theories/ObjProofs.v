(** What the calls do to the identities of the objects in each list. *)
From Verif Require Import Base Ops Object ObjectProofs Store Sys SysProofs SysProofs2 SysProofs3 SysProofs4 ObjFrame.
From Coq Require Import Permutation.

Ltac same := split; [|split]; reflexivity.

(** ** Sublists *)
Inductive sub {A} : list A -> list A -> Prop :=
  | sub_nil : sub [] []
  | sub_keep a l l' : sub l l' -> sub (a :: l) (a :: l')
  | sub_drop a l l' : sub l l' -> sub l (a :: l').
Lemma sub_refl A (l : list A) : sub l l.
Proof. induction l; constructor; auto. Qed.
Lemma sub_empty A (l : list A) : sub [] l.
Proof. induction l; constructor; auto. Qed.
Lemma sub_trans A (b c : list A) : sub b c -> forall a, sub a b -> sub a c.
Proof.
  induction 1 as [|x l l' S IH|x l l' S IH]; intros a T; [exact T| |constructor; auto].
  inversion T; subst; constructor; auto.
Qed.
Lemma sub_in A (a b : list A) x : sub a b -> In x a -> In x b.
Proof. induction 1; cbn; [auto| |]; intuition. Qed.
Lemma sub_Forall A (P : A -> Prop) a b : sub a b -> Forall P b -> Forall P a.
Proof. intros S F. rewrite Forall_forall in *. intros x I. apply F. eapply sub_in; eauto. Qed.
Lemma sub_map A B (f : A -> B) a b : sub a b -> sub (map f a) (map f b).
Proof. induction 1; cbn; constructor; auto. Qed.
Lemma sub_len A (a b : list A) : sub a b -> (length a <= length b)%nat.
Proof. induction 1; cbn; lia. Qed.

(** ** Tags *)
Definition tag (o : obj) : nat * Z * bool := (o_uid o, o_handle o, o_onTok o).
Definition tags (l : list obj) := map tag l.
Lemma tags_core a b : map core_obj a = map core_obj b -> tags a = tags b.
Proof.
  intros E. assert (F : forall l, tags l = map tag (map core_obj l)) by (intros l; unfold tags; rewrite map_map; reflexivity).
  rewrite (F a), (F b), E. reflexivity.
Qed.
Lemma tags_ident a b : map ident a = map ident b -> tags a = tags b.
Proof.
  intros E. assert (F : forall l, tags l = map tag (map ident l)) by (intros l; unfold tags; rewrite map_map; reflexivity).
  rewrite (F a), (F b), E. reflexivity.
Qed.
Lemma remove_sub u l : sub (remove_uid u l) l.
Proof. induction l as [|o l IH]; cbn; [constructor|]. destruct (_ =? _)%nat; constructor; [apply sub_refl|exact IH]. Qed.
Lemma upd_tags l o o' : In o l -> NoDup (uids l) -> same_id o o' -> tags (upd_objs l o') = tags l.
Proof.
  intros I N (E1 & _ & E2 & E3 & _). unfold tags, upd_objs. rewrite map_map. apply map_ext_in. intros y Y.
  destruct (Nat.eqb_spec (o_uid y) (o_uid o')) as [E|E]; [|reflexivity].
  assert (y = o) by (apply (NoDup_map_inj _ _ o_uid l); auto; congruence). subst y. unfold tag. congruence.
Qed.
Lemma upd_tags_not l o' : ~ In (o_uid o') (uids l) -> tags (upd_objs l o') = tags l.
Proof. intros N. rewrite upd_objs_other by exact N. reflexivity. Qed.

(** Every list is, up to the content of objects, a part of what it was. *)
Definition smaller (s s' : sys) : Prop :=
  sub (tags (t_objs (s_tok s'))) (tags (t_objs (s_tok s))) /\
  forall x', In x' (s_sess s') -> ss_objs x' = [] \/ exists x, In x (s_sess s) /\ ss_h x = ss_h x' /\ sub (tags (ss_objs x')) (tags (ss_objs x)).
Lemma smaller_refl s : smaller s s.
Proof. split; [apply sub_refl|]. intros x X. right. exists x. auto using sub_refl. Qed.
Lemma smaller_trans a b c : smaller a b -> smaller b c -> smaller a c.
Proof.
  intros [A1 A2] [B1 B2]. split; [eapply sub_trans; eauto|]. intros x X. destruct (B2 x X) as [E | (y & Y & Ey & Sy)]; [auto|].
  destruct (A2 y Y) as [E | (z & Z & Ez & Sz)].
  - left. rewrite E in Sy. destruct (ss_objs x); [reflexivity|inversion Sy].
  - right. exists z. split; [exact Z|]. split; [congruence|]. eapply sub_trans; eauto.
Qed.
Lemma smaller_same s s' : t_objs (s_tok s') = t_objs (s_tok s) -> s_sess s' = s_sess s -> smaller s s'.
Proof. intros A B. unfold smaller. rewrite A, B. apply smaller_refl. Qed.
Lemma smaller_sess s s' : sub (tags (t_objs (s_tok s'))) (tags (t_objs (s_tok s))) -> s_sess s' = s_sess s -> smaller s s'.
Proof. intros A B. split; [exact A|]. rewrite B. apply smaller_refl. Qed.
Lemma smaller_put s x x' : uniq (s_sess s) -> In x (s_sess s) -> ss_h x' = ss_h x -> sub (tags (ss_objs x')) (tags (ss_objs x)) -> smaller s (put_sess s x').
Proof.
  intros U X E S. split; [apply sub_refl|]. cbn. intros y Y. unfold upd_sess in Y. apply in_map_iff in Y as (z & Ez & Z).
  destruct (ss_h z =? ss_h x')%Z eqn:Q; subst y; right; [exists x|exists z]; auto using sub_refl.
Qed.

Section W.
Variable w : world.
Lemma prim_smaller cl h s s' : inv s -> creates cl = false -> prim w cl h s s' -> smaller s s'.
Proof.
  intros I C P. pose proof (inv_uniq s I) as U. assert (Ud : uid_ok s) by apply I.
  destruct P as [s x x' X Ux E1 E2 E3 E4|s n|s x rnd c s' X Rw E1 E2 Cl|s x o X Rw E1 L Iu Nu Hd Ot M Cl|s x b o X Rw E1 L Iu Nu Nb Hd Ot M Cl|s x o X Rw E1 Io Cl|s x o X Rw E1 Io Ot Cl|s x o o' X Rw E1 Io Sid M].
  - eapply smaller_put; [exact U|exact X|congruence|rewrite E4; apply sub_refl].
  - apply smaller_same; reflexivity.
  - apply store_frame in E2 as (_ & A & _ & _ & B). apply smaller_sess; [|exact A]. rewrite (tags_core _ _ B). apply sub_refl.
  - congruence.
  - congruence.
  - eapply smaller_put; [exact U|exact X|reflexivity|]. cbn. apply sub_map, remove_sub.
  - apply smaller_sess; [|reflexivity]. cbn. apply sub_map, remove_sub.
  - assert (Q : forall l, sub l (live s) -> tags (upd_objs l o') = tags l).
    { intros l Sl. assert (N : NoDup (uids l)).
      { destruct Ud as [N _]. clear - N Sl. unfold uids in *. induction Sl as [|a l l' S IH|a l l' S IH]; cbn in *; [constructor| |].
        - inversion N as [|? ? A B]. subst. constructor; [|auto]. intros J. apply A. eapply sub_in; [apply sub_map; exact S|exact J].
        - inversion N. auto. }
      destruct (in_dec Nat.eq_dec (o_uid o') (uids l)) as [J|J]; [|apply upd_tags_not; exact J].
      apply in_map_iff in J as (y & Ey & Y).
      assert (Io' : In o (live s)) by (unfold live; apply in_or_app; apply in_app_or in Io as [Io|Io]; [left; exact Io|right; eapply all_objs_in; eauto]).
      assert (y = o). { apply (NoDup_map_inj _ _ o_uid (live s)); [apply Ud|eapply sub_in; eauto|exact Io'|]. destruct Sid as (E & _). congruence. }
      subst y. eapply upd_tags; eauto. }
    assert (S1 : sub (t_objs (s_tok s)) (live s)).
    { unfold live. clear. induction (t_objs (s_tok s)) as [|a l IH]; cbn; [apply sub_empty|constructor; exact IH]. }
    assert (S2 : forall y, In y (s_sess s) -> sub (ss_objs y) (live s)).
    { intros y Y. unfold live. clear - Y.
      assert (A : sub (ss_objs y) (all_objs (s_sess s))).
      { induction (s_sess s) as [|z l IH]; [contradiction|]. cbn [all_objs]. destruct Y as [->|Y].
        - clear. induction (ss_objs y) as [|a r IH]; cbn; [apply sub_empty|constructor; exact IH].
        - specialize (IH Y). induction (ss_objs z) as [|a r IHr]; cbn; [exact IH|constructor; exact IHr]. }
      induction (t_objs (s_tok s)) as [|a r IHr]; cbn; [exact A|constructor; exact IHr]. }
    split; [change (t_objs (s_tok (put_obj s o'))) with (upd_objs (t_objs (s_tok s)) o'); rewrite (Q _ S1); apply sub_refl|]. intros y Y.
    change (s_sess (put_obj s o')) with (map (fun x => set_sobjs x (upd_objs (ss_objs x) o')) (s_sess s)) in Y. apply in_map_iff in Y as (z & <- & Z). right. exists z.
    split; [exact Z|]. split; [reflexivity|]. change (ss_objs (set_sobjs z ?l)) with l. rewrite (Q _ (S2 z Z)). apply sub_refl.
Qed.
Lemma prims_smaller cl h s s' : inv s -> creates cl = false -> prims w cl h s s' -> smaller s s'.
Proof.
  intros I C P. induction P as [s|s s1 s2 P Ps IH]; [apply smaller_refl|].
  eapply smaller_trans; [eapply prim_smaller; eauto|]. apply IH. eapply prim_inv; eauto.
Qed.
(** A call that creates nothing and does not load the token. *)
Definition loads (s : sys) (c : op) : bool := match c with OInitialize => (s_count s =? 0)%Z | _ => false end.
Theorem step_smaller rnd s c s' o : inv s -> step w rnd s c = Ok (s', o) -> creates c = false -> loads s c = false -> smaller s s'.
Proof.
  intros I H C L. destruct (objop c) as [h|] eqn:O.
  { eapply prims_smaller; [exact I|exact C|eapply objop_prims; eauto]. }
  assert (N : smaller s s) by apply smaller_refl.
  assert (B : forall s', t_objs (s_tok s') = [] -> s_sess s' = [] -> smaller s s').
  { intros s1 A B. split; [rewrite A; apply sub_empty|]. rewrite B. contradiction. }
  assert (Set_ : forall rnd s1 c1 s2, store w rnd s1 = Ok (c1, s2) -> s_sess s1 = s_sess s -> sub (tags (t_objs (s_tok s1))) (tags (t_objs (s_tok s))) -> smaller s s2).
  { intros r s1 c1 s2 E A S. apply store_frame in E as (_ & E1 & _ & _ & E2). apply smaller_sess; [|congruence]. rewrite (tags_core _ _ E2). exact S. }
  assert (Cl : forall l y t, (0 < s_count s)%Z -> In y (s_sess s) -> close_sess (s_sess s) y = Ok l -> sub (tags (t_objs t)) (tags (t_objs (s_tok s))) -> smaller s (set_tok (set_sess s l) t)).
  { intros l y t Cn Y CL S. apply close_sess_ok in CL as (K1 & K2 & K3); [|apply I; exact Cn|exact Y]. split; [exact S|]. cbn. intros z Z.
    destruct (K2 z Z) as [[Z1 Z2] | (_ & _ & E)]; [right; exists z; auto using sub_refl|auto]. }
  destruct c; try discriminate O; try discriminate L; cbn [step] in H; unfold with_slot, with_sess, need_lib in H; cbn [loads] in L.
  - unfold Initialize in H. rewrite L in H. sinv. apply smaller_same; reflexivity.
  - unfold Finalize in H. destruct (_ =? 0)%Z; [|sinv; apply smaller_same; reflexivity].
    destruct (store w rnd s) as [[c1 s1]| |]; cbn [bind] in H; try discriminate. destruct (final_all _); cbn [bind] in H; try discriminate.
    destruct (free_all _); cbn [bind] in H; try discriminate. injection H as <- _. apply B; reflexivity.
  - sinv. apply B; reflexivity.
  - destruct (0 <? _)%Z; [|sinv; exact N]. destruct (slot_ok slot); [|sinv; exact N].
    unfold InitToken in H. repeat match type of H with (if ?b then rv_ _ _ else _) = _ => destruct b; [sinv; exact N|] end.
    destruct (TokenReset _ _ _ _ _) as [[c1 s1]| |] eqn:T; cbn [bind] in H; try discriminate. unfold rv_ in H. injection H as <- _.
    unfold TokenReset in T. destruct (free_all _); cbn [bind] in T; try discriminate. destruct (zlen _ <? 32)%Z; [discriminate|]. unfold SetSOPin in T.
    eapply Set_; [exact T|reflexivity|apply sub_empty].
  - destruct (0 <? _)%Z; [|sinv; exact N]. destruct (sess_get s h); [|sinv; exact N].
    unfold InitPIN in H. repeat match type of H with (if ?b then rv_ _ _ else _) = _ => destruct b; [sinv; exact N|] end.
    destruct (SetUserPin _ _ _ _) as [[c1 s1]| |] eqn:T; cbn [bind] in H; try discriminate. unfold rv_ in H. injection H as <- _.
    unfold SetUserPin in T. eapply Set_; [exact T|reflexivity|apply sub_refl].
  - destruct (0 <? _)%Z; [|sinv; exact N]. destruct (sess_get s h); [|sinv; exact N].
    unfold SetPIN in H. cbv zeta in H. repeat match type of H with (if ?b then rv_ _ _ else _) = _ => destruct b; [sinv; exact N|] end.
    match type of H with bind ?r _ = _ => destruct r as [[c1 s1]| |] eqn:T end; cbn [bind] in H; try discriminate.
    unfold rv_ in H. injection H as <- _. destruct (_ =? _)%Z; [unfold SetSOPin in T|unfold SetUserPin in T]; (eapply Set_; [exact T|reflexivity|apply sub_refl]).
  - destruct (0 <? s_count s)%Z eqn:Cn; [|sinv; exact N]. destruct (slot_ok slot); [|sinv; exact N].
    apply Z.ltb_lt in Cn. apply OpenSession_ok in H as [[-> _] | (l & y & -> & _ & Sk & Ao & _ & S1 & S2 & Iy & Uy & Fy)]; auto.
    assert (Oy : ss_objs y = []).
    { destruct Sk as (_ & _ & F). rewrite Forall_forall in F. apply (F y Iy). unfold is_rw. rewrite Uy. reflexivity. }
    split; [apply sub_refl|]. cbn. intros z Z. unfold upd_sess in Z. apply in_map_iff in Z as (v & Ez & V).
    destruct (ss_h v =? _)%Z; subst z; [left; exact Oy|]. destruct (S1 v V) as [V1 | ->]; [|left; exact Oy]. right. exists v. auto using sub_refl.
  - destruct (0 <? s_count s)%Z eqn:Cn; [|sinv; exact N]. destruct (sess_get s h) as [y|] eqn:G; [|sinv; exact N].
    apply Z.ltb_lt in Cn. apply sess_get_in in G as (Y & _).
    unfold CloseSession in H. destruct (close_sess _ _) as [l| |] eqn:CL; cbn [bind] in H; try discriminate.
    destruct (existsb in_use l); [sinv; apply (Cl _ _ (s_tok s) Cn Y CL), sub_refl|].
    destruct (Logout _ _) as [t| |] eqn:Lo; cbn [bind] in H; try discriminate. unfold rv_ in H. injection H as <- _.
    apply (Cl _ _ t Cn Y CL). apply Logout_ok in Lo as (_ & Lo & _). cbn in Lo. rewrite (tags_ident _ _ Lo). apply sub_refl.
  - destruct (0 <? s_count s)%Z eqn:Cn; [|sinv; exact N]. destruct (slot_ok slot); [|sinv; exact N].
    destruct (close_all _) as [l| |] eqn:CA; cbn [bind] in H; try discriminate. unfold rv_ in H. injection H as <- _. apply Z.ltb_lt in Cn.
    apply close_all_ok in CA as (p & b & a & b' & E1 & E2 & _ & _ & _ & _ & E3 & _); [|apply I; exact Cn].
    split; [apply sub_refl|]. cbn. rewrite E2. intros z [<- | [<- | []]]; [auto|]. right. exists a. split; [rewrite E1; apply in_or_app; right; right; left; reflexivity|auto using sub_refl].
  - destruct (0 <? _)%Z; [|sinv; exact N]. destruct (sess_get s h); [|sinv; exact N].
    unfold Login in H. destruct (negb _); [sinv; exact N|].
    destruct (ut =? CKU_SO)%Z; [|destruct (ut =? CKU_USER)%Z; [|destruct (ut =? CKU_CONTEXT_SPECIFIC)%Z; sinv; exact N]].
    + destruct (SOLogin _ _ _ _ _) as [c t] eqn:Lo. unfold rv_ in H. injection H as <- _. apply SOLogin_ok in Lo as (Lo & _). apply smaller_same; [exact Lo|reflexivity].
    + destruct (UserLogin _ _ _ _) as [[c t]| |] eqn:Lo; cbn [bind] in H; try discriminate. unfold rv_ in H. injection H as <- _.
      apply UserLogin_ok in Lo as (Lo & _). apply smaller_sess; [|reflexivity]. cbn. rewrite (tags_ident _ _ Lo). apply sub_refl.
  - destruct (0 <? _)%Z; [|sinv; exact N]. destruct (sess_get s h); [|sinv; exact N].
    destruct (Logout _ _) as [t| |] eqn:Lo; cbn [bind] in H; try discriminate. unfold rv_ in H. injection H as <- _.
    apply Logout_ok in Lo as (_ & Lo & _). apply smaller_sess; [|reflexivity]. cbn. rewrite (tags_ident _ _ Lo). apply sub_refl.
  - destruct (0 <? _)%Z; [|sinv; exact N]. destruct (slot_ok slot); sinv; exact N.
Qed.

(** ** Key pairs *)
Lemma added_sess h b o s s' : added w h b o s s' -> exists x, sess_get s' h = Some x /\ (forall x0, sess_get s h = Some x0 -> is_rw x0 = true).
Proof. intros (_ & _ & _ & x & x' & G & G' & R & _). exists x'. split; [exact G'|]. intros x0 E. congruence. Qed.
Definition created2 (h : Z) (tp tq : template) (s s' : sys) (o : out) : Prop :=
  (exists h1 h2 b1 b2 o1 o2 s1, o = OutH2 CKR_OK h1 h2 /\ tmpl_token tp = Some b1 /\ tmpl_token tq = Some b2 /\
     o_handle o1 = h1 /\ o_handle o2 = h2 /\ added w h b1 o1 s s1 /\ added w h b2 o2 s1 s' /\ inv s1 /\ ~ In (o_uid o2) (uids (live s))) \/
  (exists rv, o = OutRv rv /\ same_objs s s').
Lemma pair_created rnd s h m tp tq g s' o : inv s -> step w rnd s (OGenerateKeyPair h m tp tq g) = Ok (s', o) -> created2 h tp tq s s' o.
Proof.
  intros I H. cbn [step] in H. unfold with_sess, need_lib in H.
  assert (No : forall rv k, o = OutRv rv -> s' = bump s k -> created2 h tp tq s s' o) by (intros rv k -> ->; right; exists rv; split; [reflexivity|same]).
  assert (No0 : forall rv, o = OutRv rv -> s' = s -> created2 h tp tq s s' o) by (intros rv -> ->; right; exists rv; split; [reflexivity|same]).
  destruct (0 <? _)%Z; [|unfold rv_ in H; injection H as <- <-; eapply No0; reflexivity].
  destruct (sess_get s h) as [x|] eqn:G; [|unfold rv_ in H; injection H as <- <-; eapply No0; reflexivity].
  unfold GenKeyPair in H. destruct (match m with KP_RSA => _ | KP_EC => _ | KP_DH => _ | KP_other => _ end) as [ty|] eqn:TY; [|unfold rv_ in H; injection H as <- <-; eapply No0; reflexivity].
  assert (TY' : ty = CKK_RSA \/ ty = CKK_EC \/ ty = CKK_DH) by (destruct m; try discriminate; injection TY; auto).
  destruct (NewObject _ _ (s_uid s) _ _ _) as [[rv [pub|]]| |] eqn:E; cbn [bind] in H; try discriminate; [|unfold rv_ in H; injection H as <- <-; eapply No; reflexivity].
  assert (MP : made w pub) by (eapply md_new; [exact E|cbn; destruct TY' as [-> | [-> | ->]]; tauto]).
  apply NewObject_id in E as (R & U & _).
  destruct (NewObject _ _ (S (s_uid s)) _ _ _) as [[rv2 [priv|]]| |] eqn:E2; cbn [bind] in H; try discriminate; [|unfold rv_ in H; injection H as <- <-; eapply No; reflexivity].
  assert (MQ : made w priv) by (eapply md_new; [exact E2|cbn; destruct TY' as [-> | [-> | ->]]; tauto]).
  apply NewObject_id in E2 as (_ & U2 & _).
  match type of H with bind ?r _ = _ => destruct r as [[[pub1 priv1]|]| |] eqn:Gn end; cbn [bind] in H; try discriminate; [|unfold rv_ in H; injection H as <- <-; eapply No; reflexivity].
  destruct (AddObject w rnd _ _ _ _) as [[[rv3 h1] s2]| |] eqn:A; cbn [bind] in H; try discriminate.
  assert (Hx : ss_h x = h) by (apply sess_get_in in G; tauto). pose proof G as G0. apply sess_get_in in G0 as (X & _).
  assert (I1 : inv (bump s 2)) by (eapply prim_inv; [apply (pr_bump w (OGenerateKeyPair h m tp tq g) 0 s 2)|exact I]).
  pose proof (md_pair w _ _ _ _ _ _ MP MQ Gn) as MP1. apply gen_uid in Gn as [G1 G2].
  destruct (AddObject_prims w (OGenerateKeyPair h m tp tq g) eq_refl rnd (bump s 2) x tp pub1 rv3 h1 s2) as (P & PU & PL); auto; [apply (inv_uniq s I)|..].
  { apply (fresh_bump (OGenerateKeyPair h m tp tq g) eq_refl s 2 0); [apply I|rewrite G1, U; lia|lia]. }
  destruct (prims_inv w _ _ _ _ P I1) as [I2 (_ & QM & _)].
  apply (AddObject_added _ _ _ h) in A as [(-> & b1 & o1 & T1 & A1 & A2 & A3) | (A1 & -> & ->)];
    [| |apply (inv_uniq s I)|exact G|exact R|rewrite G1, U, <- (Nat.add_0_r (s_uid s)); apply (fresh_uid s (proj1 (proj2 (proj2 I))))].
  2:{ destruct (Z.eqb_spec rv3 CKR_OK) as [->|_]; [contradiction|]. cbn [negb] in H. unfold rv_ in H. injection H as <- <-. eapply No; reflexivity. }
  cbn [negb Z.eqb] in H. change (negb (CKR_OK =? CKR_OK)%Z) with false in H. cbv iota in H. destruct A3 as (F1 & O1 & Fr1 & y & y' & Y1 & Y2 & Y3 & Y4).
  rewrite Hx, Y2 in H. destruct (AddObject w (fun i => rnd (100 + i)) _ _ _ _) as [[[rv4 h2] s3]| |] eqn:B; cbn [bind] in H; try discriminate.
  destruct (Z.eqb_spec rv4 CKR_OK) as [->|]; [|discriminate]. injection H as <- <-.
  assert (R2 : is_rw y' = true).
  { pose proof Y2 as Y0. apply sess_get_in in Y0 as (Y5 & Y6 & _). assert (J : In (ss_h y', ss_use y') (modes (s_sess s2))) by (unfold modes; apply (in_map (fun x => (ss_h x, ss_use x))); exact Y5).
    rewrite QM in J. unfold modes in J. apply in_map_iff in J as (z & Ez & J). injection Ez as Ez1 Ez2.
    assert (z = x) by (apply (NoDup_map_inj _ _ ss_h (s_sess (bump s 2))); [apply (inv_uniq s I)|exact J|exact X|congruence]). subst z. unfold is_rw in *. congruence. }
  apply (AddObject_added _ _ _ h) in B as [(_ & b2 & o2 & T2 & B1 & B2 & B3) | (B1 & _ & _)]; [|congruence|apply (inv_uniq _ I2)|exact Y2|exact R2|].
  2:{ rewrite G2, U2. intros J. apply PL in J. rewrite G1, U in J. destruct J as [J | J]; [lia|]. destruct I as (_ & _ & [_ F] & _). rewrite Forall_forall in F. apply F in J. lia. }
  left. exists h1, h2, b1, b2, o1, o2, s2. split; [reflexivity|]. split; [exact T1|]. split; [exact T2|]. split; [exact A2|]. split; [exact B2|].
  split; [|split; [exact B3|split; [exact I2|]]].
  2:{ rewrite B1, G2, U2. replace (S (s_uid s)) with (s_uid s + 1)%nat by lia. apply (fresh_uid s (proj1 (proj2 (proj2 I)))). }
  eapply added_from; [| | | |split; [exact F1|split; [exact O1|split; [exact Fr1|exists y, y'; auto]]]]; [reflexivity|same|apply bump_sess|intros z Z _; exact Z].
Qed.
End W.
