(** A session's own calls change nothing outside it; keys held by an operation are not in another session. *)
From Verif Require Import Base Ops OpsSpec OpsProofs Object ObjectProofs Store Sys SysProofs SysProofs2 SysProofs3 SysProofs4 UseProofs Isolate.

Section A.
Variable A : Z -> bool.
Notation mask := (mask A).
Notation clr := (clr A).
Variable w : world.

(** ** Calls of a session for itself *)
Definition inside (s s' : sys) : Prop := mask s' = set_uid (mask s) (s_uid s') /\ (s_uid s <= s_uid s')%nat.
Lemma inside_refl s : inside s s.
Proof. split; [reflexivity|lia]. Qed.
Lemma inside_trans a b c : inside a b -> inside b c -> inside a c.
Proof. intros [E L] [E' L']. split; [rewrite E', E; reflexivity|lia]. Qed.
Lemma inside_bump s n : inside s (bump s n).
Proof. split; [reflexivity|cbn; lia]. Qed.
Lemma inside_put s x x' : uniq (s_sess s) -> In x (s_sess s) -> A (ss_h x) = true -> ss_h x' = ss_h x -> ss_use x' = ss_use x -> inside s (put_sess s x').
Proof.
  intros U X Ax E1 E2. split; [|cbn; lia]. unfold Isolate.mask, put_sess. cbn [set_sess s_sess s_count s_tok s_fs s_log s_uid set_uid].
  replace (map clr (upd_sess (s_sess s) x')) with (map clr (s_sess s)); [reflexivity|].
  unfold upd_sess. rewrite map_map. apply map_ext_in. intros y Y. destruct (ss_h y =? ss_h x')%Z eqn:E; [|reflexivity]. apply Z.eqb_eq in E.
  assert (y = x) by (apply (NoDup_map_inj _ _ ss_h (s_sess s)); auto; congruence). subst y. unfold Isolate.clr, blank. rewrite E1, Ax, E2. reflexivity.
Qed.
Lemma AddToSession_own rnd s x o c h s' : uniq (s_sess s) -> In x (s_sess s) -> A (ss_h x) = true -> AddToSession w rnd s x 0 o = Ok (c, h, s') -> inside s s'.
Proof.
  unfold AddToSession. cbn [N.eqb]. intros U X Ax H. destruct (_ <=? _)%Z; injection H as _ _ <-; [apply inside_refl|]. eapply inside_put; eauto.
Qed.
Lemma AddObject_own rnd s x t o c h s' : uniq (s_sess s) -> In x (s_sess s) -> A (ss_h x) = true -> plain t -> AddObject w rnd s x t o = Ok (c, h, s') -> inside s s'.
Proof.
  unfold AddObject. intros U X Ax P H. rewrite (plain_token t P) in H. destruct (AddToSession _ _ _ _ _ _) as [[[c1 h1] s1]| |] eqn:E; cbn [bind] in H; try discriminate.
  injection H as _ _ <-. eapply AddToSession_own; eassumption.
Qed.
Lemma put_sess_in s x x' : In x (s_sess s) -> ss_h x' = ss_h x -> In x' (s_sess (put_sess s x')).
Proof. intros X E. cbn. unfold upd_sess. apply in_map_iff. exists x. rewrite E, Z.eqb_refl. auto. Qed.
Lemma put_uniq s x : uniq (s_sess s) -> uniq (s_sess (put_sess s x)).
Proof. intros U. cbn. unfold uniq. rewrite upd_sess_h. exact U. Qed.
(** Changing an object of the session. *)
Lemma put_obj_own s x o o' : inv s -> In x (s_sess s) -> A (ss_h x) = true -> In o (ss_objs x) -> o_uid o' = o_uid o -> inside s (put_obj s o').
Proof.
  intros I X Ax Ho Eu. pose proof (inv_uniq s I) as U. destruct I as (_ & _ & [N _] & _). unfold live in N. rewrite SysProofs2.uids_app in N.
  assert (Hu : In (o_uid o') (uids (ss_objs x))) by (rewrite Eu; unfold uids; apply in_map; exact Ho).
  assert (No : forall l, ~ In (o_uid o') (uids l) -> upd_objs l o' = l).
  { intros l K. unfold upd_objs. rewrite <- (map_id l) at 2. apply map_ext_in. intros y Y. destruct (o_uid y =? o_uid o')%nat eqn:E; [|reflexivity]. apply Nat.eqb_eq in E. destruct K. rewrite <- E. unfold uids. apply in_map. exact Y. }
  assert (Ha : In (o_uid o') (uids (all_objs (s_sess s)))). { rewrite Eu. unfold uids. apply in_map. eapply all_objs_in; eassumption. }
  assert (T : upd_objs (t_objs (s_tok s)) o' = t_objs (s_tok s)). { apply No. intros K. eapply nodup_split; [exact N|exact K|exact Ha]. }
  split; [|cbn; lia]. unfold Isolate.mask, put_obj. cbn [set_sess set_tok s_sess s_count s_tok s_fs s_log s_uid set_uid]. rewrite T.
  replace (set_objs (s_tok s) (t_objs (s_tok s))) with (s_tok s) by (destruct (s_tok s); reflexivity).
  match goal with |- set_sess _ ?a = set_uid (set_sess _ ?b) _ => replace a with b; [reflexivity|] end.
  rewrite map_map. apply map_ext_in. intros y Y. unfold Isolate.clr. cbn [set_sobjs ss_h]. destruct (A (ss_h y)) eqn:Ay; [reflexivity|].
  rewrite No; [destruct y; reflexivity|]. apply (other_objs (s_sess s) x y); auto; [eapply nodup_r; exact N|congruence].
Qed.
Ltac same H := unfold rv_ in H; injection H as <- _; apply inside_refl.
Ltac bumped H := unfold rv_ in H; injection H as <- _; apply inside_bump.
Theorem own_step rnd s c h s' o : inv s -> objop c = Some h -> A h = true -> own c -> step w rnd s c = Ok (s', o) -> inside s s'.
Proof.
  intros I O Ah Ow H. pose proof (inv_uniq s I) as U.
  destruct c; try discriminate O; injection O as ->; cbn [own] in Ow; cbn [step] in H; unfold with_sess, need_lib in H;
  (destruct (0 <? _)%Z; [|same H]); (destruct (sess_get s h) as [x|] eqn:G; [|same H]); apply sess_get_in in G as (X & Ex & _); assert (Ax : A (ss_h x) = true) by congruence; unfold need_rw, with_object in H.
  - injection H as <- _. apply inside_refl.
  - destruct (is_rw x) eqn:Rw; [|same H]. unfold Create in H. rewrite Rw in H. destruct (CreateObject _ _ _ _) as [[rv [ob|]]| |]; cbn [bind] in H; [|bumped H|discriminate..]. cbv zeta in H.
    destruct (AddObject _ _ _ _ _ _) as [[[rv2 ho] s2]| |] eqn:E; cbn [bind] in H; try discriminate. injection H as <- _. eapply inside_trans; [apply (inside_bump s 1)|]. eapply AddObject_own; [..|exact E]; eassumption.
  - destruct (is_rw x) eqn:Rw; [|same H]. destruct (find_obj s x ho) as [src|]; [|same H]. unfold Copy in H. rewrite Rw in H. destruct (CopyObject _ _ _ _ _) as [[[rv t1] [[b ob]|]]| |] eqn:Cp; cbn [bind] in H; [|bumped H|discriminate..]. cbv zeta in H.
    assert (b = 0%N). { unfold CopyObject in Cp. rewrite (plain_token t Ow) in Cp. destruct (GetAttributeValue _ _ _) as [[rv0 t0]| |]; cbn [bind] in Cp; try discriminate.
      destruct (negb _); [discriminate|]. destruct (SetAttributeValue _ _ _ _) as [[rv2 o2]| |]; cbn [bind] in Cp; try discriminate. destruct (_ =? _)%Z; [|discriminate]. injection Cp as _ _ <- _. reflexivity. }
    subst b. destruct (AddToSession _ _ _ _ _ _) as [[[rv2 hn] s2]| |] eqn:E; cbn [bind] in H; try discriminate. injection H as <- _. eapply inside_trans; [apply (inside_bump s 1)|]. eapply AddToSession_own; [..|exact E]; eassumption.
  - destruct (is_rw x); [|same H]. destruct (find_obj s x ho) as [ob|]; [|same H]. destruct (RemoveObject _ _ _ _ _ _) as [s1| |] eqn:E; cbn [bind] in H; try discriminate. unfold rv_ in H. injection H as <- _.
    unfold RemoveObject in E. destruct (obj_free _); cbn [bind] in E; try discriminate. rewrite (small_token ho Ow) in E. injection E as <-. eapply inside_put; eauto.
  - destruct (find_obj s x ho) as [ob|]; [|same H]. destruct (GetAttributeValue _ _ _) as [[rv t1]| |]; cbn [bind] in H; try discriminate. injection H as <- _. apply inside_refl.
  - destruct (is_rw x); [|same H]. destruct (find_obj s x ho) as [ob|] eqn:F; [|same H]. destruct (SetAttributeValue _ _ _ _) as [[rv o1]| |] eqn:E; cbn [bind] in H; try discriminate. unfold rv_ in H. injection H as <- _.
    apply SysProofs3.find_obj_in in F as [F _]. rewrite (small_token ho Ow) in F. apply SetAttributeValue_id in E. eapply put_obj_own; eauto. apply E.
  - unfold FindInit in H. destruct (ss_find x); [same H|]. cbv zeta in H. destruct (find_last _ _); [destruct (tmpl_token t)|];
    try (destruct (Find _ _ _ _ _); cbn [bind] in H; try discriminate); unfold rv_ in H; injection H as <- _; eapply inside_put; eauto.
  - unfold FindNext in H. injection H as <- _. eapply inside_put; eauto.
  - unfold rv_ in H. injection H as <- _. eapply inside_put; eauto.
  - destruct aes; [|same H]. unfold GenKey in H. destruct (NewObject _ _ _ _ _ _) as [[rv [ob|]]| |]; cbn [bind] in H; [|bumped H|discriminate..]. cbv zeta in H.
    destruct (as_sym ob) as [[l b]| |]; cbn [bind] in H; try discriminate. destruct (_ <? _)%Z; [discriminate|].
    destruct (AddObject _ _ _ _ _ _) as [[[rv2 ho] s2]| |] eqn:E; cbn [bind] in H; try discriminate. injection H as <- _. eapply inside_trans; [apply (inside_bump s 1)|]. eapply AddObject_own; [..|exact E]; eassumption.
  - destruct Ow as [O1 O2]. unfold GenKeyPair in H. destruct (match m with KP_RSA => _ | KP_EC => _ | KP_DH => _ | KP_other => _ end) as [ty|]; [|same H].
    destruct (NewObject _ _ (s_uid s) _ _ _) as [[rv [pub|]]| |]; cbn [bind] in H; [|bumped H|discriminate..]. cbv zeta in H.
    destruct (NewObject _ _ _ _ _ _) as [[rv2 [priv|]]| |]; cbn [bind] in H; [|bumped H|discriminate..].
    match type of H with bind ?r _ = _ => destruct r as [[[pub1 priv1]|]| |] end; cbn [bind] in H; [|bumped H|discriminate..].
    destruct (AddObject _ _ _ _ _ _) as [[[rv3 h1] s2]| |] eqn:A1; cbn [bind] in H; try discriminate.
    assert (S2 : uniq (s_sess s2)). { eapply uniq_ukeys; [|exact U]. symmetry. eapply (AddObject_ukeys w rnd (bump s 2)); [exact U|apply in_map; exact X|exact A1]. }
    apply AddObject_own in A1; [|exact U|exact X|exact Ax|exact O1]. assert (B : inside s s2) by (eapply inside_trans; [apply (inside_bump s 2)|exact A1]).
    destruct (negb _); [unfold rv_ in H; injection H as <- _; exact B|]. destruct (sess_get s2 _) as [x2|] eqn:G2; [|unfold rv_ in H; injection H as <- _; exact B].
    apply sess_get_in in G2 as (X2 & E2 & _). destruct (AddObject _ _ _ _ _ _) as [[[rv4 h2] s3]| |] eqn:A2; cbn [bind] in H; try discriminate.
    destruct (_ =? _)%Z; [|discriminate]. injection H as <- _. eapply inside_trans; [exact B|]. eapply AddObject_own; [..|exact A2]; try eassumption. congruence.
  - destruct (is_rw x); [|same H]. destruct (find_obj s x hk) as [k|]; [|same H]. destruct (find_obj s x hw) as [wk|]; [|same H].
    unfold Wrap in H. destruct (negb _); [same H|]. destruct (as_rsa _); cbn [bind] in H; try discriminate. destruct (w_p8 _ _) as [c0 der]. destruct (negb _); [same H|]. destruct (negb _); [same H|]. destruct (negb _); [same H|].
    destruct (run_init _ _ _ _ _) as [[x1 o1]| |] eqn:R1; cbn [bind] in H; try discriminate. apply run_init_x in R1 as [p ->].
    destruct (negb _); [unfold rv_ in H; injection H as <- _; eapply inside_put; eauto|].
    destruct (run_cont _ _ _ _) as [[x2 o2]| |] eqn:R2; cbn [bind] in H; try discriminate. apply run_cont_x in R2 as [p2 ->]. injection H as <- _. eapply inside_put; eauto.
  - destruct (is_rw x) eqn:Rw; [|same H]. destruct (_ =? _)%Z; [same H|]. destruct (find_obj s x hu) as [uk|]; [|same H].
    unfold Unwrap in H. destruct (negb _); [same H|]. cbv zeta in H. destruct (find_last _ _); [|same H]. destruct (tmpl_ulong _); [|same H]. destruct (negb _); [same H|].
    destruct (find_last _ _); [|same H]. destruct (tmpl_ulong _); [|same H]. destruct (negb _); [same H|]. destruct (negb _); [same H|]. destruct (negb _); [same H|].
    destruct (run_init _ _ _ _ _) as [[x1 o1]| |] eqn:R1; cbn [bind] in H; try discriminate. apply run_init_x in R1 as [p ->].
    destruct (negb _); [unfold rv_ in H; injection H as <- _; eapply inside_put; eauto|].
    destruct (run_cont _ _ _ _) as [[x2 o2]| |] eqn:R2; cbn [bind] in H; try discriminate. apply run_cont_x in R2 as [p2 ->].
    set (x2 := set_op (set_op x p) p2) in *. assert (B : inside s (put_sess s x2)) by (eapply inside_put; eauto).
    destruct (negb _); [unfold rv_ in H; injection H as <- _; exact B|].
    destruct (NewObject _ _ _ _ _ _) as [[rv [ob|]]| |]; cbn [bind] in H; [|unfold rv_ in H; injection H as <- _; eapply inside_trans; [exact B|apply inside_bump]|discriminate..].
    destruct (w_p8_dec _ _) as [cc r]. destruct (negb _); [unfold rv_ in H; injection H as <- _; eapply inside_trans; [exact B|apply inside_bump]|].
    destruct (AddObject _ _ _ _ _ _) as [[[rv2 ho] s4]| |] eqn:E; cbn [bind] in H; try discriminate. injection H as <- _.
    eapply inside_trans; [exact B|]. eapply inside_trans; [apply (inside_bump _ 1)|]. eapply AddObject_own; [..|exact E]; try eassumption; [apply (put_uniq s x2 U)|apply (put_sess_in s x x2 X eq_refl)].
  - destruct (find_obj s x hb) as [b|]; [|same H]. unfold Derive in H. destruct m; [| |same H];
    (match type of H with bind ?r _ = _ => destruct r as [u| |] end; cbn [bind] in H; try discriminate; destruct secret as [sec|]; [|same H];
     destruct (CreateObject _ _ _ _) as [[rv [ob|]]| |]; cbn [bind] in H; [|bumped H|discriminate..]; destruct (GetAttr _ _ _ _) as [[[c0 c1] d]| |]; cbn [bind] in H; try discriminate;
     destruct (negb _); [bumped H|]; cbv zeta in H; match type of H with (if ?b then Undef _ else _) = _ => destruct b end; [discriminate|];
     destruct (SetSecretKey _ _) as [[c2 o1]| |]; cbn [bind] in H; try discriminate; destruct (negb _); [bumped H|];
     destruct (AddObject _ _ _ _ _ _) as [[[rv2 ho] s2]| |] eqn:E; cbn [bind] in H; try discriminate; injection H as <- _; eapply inside_trans; [apply (inside_bump s 1)|]; eapply AddObject_own; [..|exact E]; eassumption).
  - destruct (with_key c 0) as [c0|] eqn:K.
    + destruct (find_obj s x hk) as [k|]; [|same H]. destruct (with_key c (o_uid k)); [|same H]. destruct (run_init _ _ _ _ _) as [[x1 r]| |] eqn:R1; cbn [bind] in H; try discriminate. apply run_init_x in R1 as [p ->]. injection H as <- _. eapply inside_put; eauto.
    + assert (D : s' = s \/ exists x1 r, run_cont w s x c = Ok (x1, r) /\ s' = put_sess s x1).
      { destruct c; try discriminate K; try (left; unfold rv_ in H; injection H as <- _; reflexivity); right; destruct (run_cont _ _ _ _) as [[x1 r]| |] eqn:R1; cbn [bind] in H; try discriminate; injection H as <- _; exists x1, r; split; reflexivity. }
      destruct D as [->|(x1 & r & R & ->)]; [apply inside_refl|]. apply run_cont_x in R as [p ->]. eapply inside_put; eauto.
Qed.
End A.
