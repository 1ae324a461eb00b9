(** What an operation holds on to stays out of the other sessions. *)
From Verif Require Import Base Ops OpsSpec OpsProofs Object ObjectProofs Store Sys SysProofs SysProofs2 SysProofs3 SysProofs4 UseProofs Isolate IsolateProofs.

(** ** What the operations hold on to stays out of the other sessions *)
Section B.
Variable w : world.
Definition cur (x : session) : option nat := os_curr (ss_op x).
Definition okx (s0 : sys) (x' : session) : Prop :=
  exists x, In x (s_sess s0) /\ ss_h x = ss_h x' /\
    (cur x' = cur x \/ exists hk o, find_obj s0 x hk = Some o /\ cur x' = Some (o_uid o)) /\
    (forall u, In u (uids (ss_objs x')) -> (s_uid s0 <= u)%nat \/ In u (uids (ss_objs x))).
Definition evolve (s0 s' : sys) : Prop := (forall x, In x (s_sess s') -> okx s0 x) /\ (s_uid s0 <= s_uid s')%nat.
Lemma okx_refl s x : In x (s_sess s) -> okx s x.
Proof. intros X. exists x. repeat split; auto. Qed.
Lemma evolve_refl s : evolve s s.
Proof. split; [apply okx_refl|lia]. Qed.
Lemma evolve_bump s0 s n : evolve s0 s -> evolve s0 (bump s n).
Proof. intros [E L]. split; [exact E|cbn; lia]. Qed.
Lemma evolve_put s0 s x : evolve s0 s -> okx s0 x -> evolve s0 (put_sess s x).
Proof. intros [E L] K. split; [|exact L]. intros y Y. cbn in Y. apply upd_in in Y as [->|[Y _]]; auto. Qed.
Lemma evolve_tok s0 s t : evolve s0 s -> evolve s0 (set_tok s t).
Proof. intros E. exact E. Qed.
Lemma evolve_store s0 s rnd c s' : evolve s0 s -> store w rnd s = Ok (c, s') -> evolve s0 s'.
Proof. intros [E L] H. apply store_frame in H as (_ & S & Un & _). split; [rewrite S; exact E|rewrite Un; exact L]. Qed.
Lemma okx_objs s0 x l : okx s0 x -> (forall u, In u (uids l) -> (s_uid s0 <= u)%nat \/ In u (uids (ss_objs x))) -> okx s0 (set_sobjs x l).
Proof. intros (y & Y & E & C & O) K. exists y. repeat split; auto. intros u J. destruct (K u J) as [|J2]; auto. Qed.
Lemma okx_find s0 x b f n : okx s0 x -> okx s0 (set_find x b f n).
Proof. intros K. exact K. Qed.
Lemma okx_op s0 x p : okx s0 x -> os_curr p = cur x -> okx s0 (set_op x p).
Proof. intros (y & Y & E & C & O) K. exists y. repeat split; auto. unfold cur in *. cbn [set_op ss_op]. rewrite K. exact C. Qed.
Lemma okx_key s0 x p hk o : In x (s_sess s0) -> find_obj s0 x hk = Some o -> os_curr p = cur x \/ os_curr p = Some (o_uid o) -> okx s0 (set_op x p).
Proof. intros X F K. exists x. repeat split; auto. destruct K as [K|K]; [left; exact K|right; exists hk, o; auto]. Qed.
Lemma AddToSession_ev s0 rnd s x b o c h s' : evolve s0 s -> okx s0 x -> (s_uid s0 <= o_uid o)%nat -> AddToSession w rnd s x b o = Ok (c, h, s') -> evolve s0 s'.
Proof.
  unfold AddToSession. intros E K L H. destruct (b =? 0)%N; (destruct (_ <=? _)%Z; [injection H as _ _ <-; exact E|]).
  - injection H as _ _ <-. apply evolve_put; [exact E|]. apply okx_objs; [exact K|]. cbn. intros u [<-|J]; auto.
  - destruct (Encode _ _ _ _) as [[c1 o2]| |]; cbn [bind] in H; try discriminate. destruct (negb _); [injection H as _ _ <-; exact E|].
    destruct (store _ _ _) as [[c2 s1]| |] eqn:S; cbn [bind] in H; try discriminate. injection H as _ _ <-. eapply evolve_store; [|exact S]. exact E.
Qed.
Lemma AddObject_ev s0 rnd s x t o c h s' : evolve s0 s -> okx s0 x -> (s_uid s0 <= o_uid o)%nat -> AddObject w rnd s x t o = Ok (c, h, s') -> evolve s0 s'.
Proof.
  unfold AddObject. intros E K L H. destruct (tmpl_token t); [|injection H as _ _ <-; exact E].
  destruct (AddToSession _ _ _ _ _ _) as [[[c1 h1] s1]| |] eqn:S; cbn [bind] in H; try discriminate. injection H as _ _ <-. eapply AddToSession_ev; eassumption.
Qed.
Lemma evolve_obj s o : evolve s (put_obj s o).
Proof.
  split; [|cbn; lia]. intros x X. cbn in X. apply in_map_iff in X as (y & <- & Y). exists y. repeat split; auto. cbn [set_sobjs ss_objs]. intros u. rewrite UseProofs.upd_uids. auto.
Qed.
Lemma remove_uids u0 l u : In u (uids (remove_uid u0 l)) -> In u (uids l).
Proof. unfold uids. induction l as [|o l IH]; cbn; [auto|]. destruct (_ =? _)%nat; cbn; intuition. Qed.
Ltac same H := unfold rv_ in H; injection H as <- _; apply evolve_refl.
Ltac bumped H := unfold rv_ in H; injection H as <- _; apply evolve_bump, evolve_refl.
Theorem step_evolve rnd s c h s' o : inv s -> objop c = Some h -> step w rnd s c = Ok (s', o) -> evolve s s'.
Proof.
  intros I O H. pose proof (inv_uniq s I) as U.
  destruct c; try discriminate O; injection O as ->; cbn [step] in H; unfold with_sess, need_lib in H;
  (destruct (0 <? _)%Z; [|same H]); (destruct (sess_get s h) as [x|] eqn:G; [|same H]); apply sess_get_in in G as (X & Ex & _); pose proof (okx_refl s x X) as K; unfold need_rw, with_object in H.
  - injection H as <- _. apply evolve_refl.
  - destruct (is_rw x) eqn:Rw; [|same H]. unfold Create in H. rewrite Rw in H. destruct (CreateObject _ _ _ _) as [[rv [ob|]]| |] eqn:Co; cbn [bind] in H; [|bumped H|discriminate..]. cbv zeta in H. apply CreateObject_id in Co as (_ & Co & _).
    destruct (AddObject _ _ _ _ _ _) as [[[rv2 ho] s2]| |] eqn:E; cbn [bind] in H; try discriminate. injection H as <- _. eapply AddObject_ev; [| | |exact E]; [apply (evolve_bump s s 1), evolve_refl|exact K|rewrite Co; lia].
  - destruct (is_rw x) eqn:Rw; [|same H]. destruct (find_obj s x ho) as [src|]; [|same H]. unfold Copy in H. rewrite Rw in H. destruct (CopyObject _ _ _ _ _) as [[[rv t1] [[b ob]|]]| |] eqn:Cp; cbn [bind] in H; [|bumped H|discriminate..]. cbv zeta in H.
    apply CopyObject_id in Cp as (_ & Cp & _). destruct (AddToSession _ _ _ _ _ _) as [[[rv2 hn] s2]| |] eqn:E; cbn [bind] in H; try discriminate. injection H as <- _. eapply AddToSession_ev; [| | |exact E]; [apply (evolve_bump s s 1), evolve_refl|exact K|rewrite Cp; lia].
  - destruct (is_rw x); [|same H]. destruct (find_obj s x ho) as [ob|]; [|same H]. destruct (RemoveObject _ _ _ _ _ _) as [s1| |] eqn:E; cbn [bind] in H; try discriminate. unfold rv_ in H. injection H as <- _.
    unfold RemoveObject in E. destruct (obj_free _); cbn [bind] in E; try discriminate. destruct (on_token ho).
    + destruct (o_onTok ob); [|discriminate]. destruct (no_kind ob); [discriminate|]. destruct (store _ _ _) as [[c2 s2]| |] eqn:S; cbn [bind] in E; try discriminate. injection E as <-. eapply evolve_store; [|exact S]. split; [exact (okx_refl s)|cbn; lia].
    + injection E as <-. apply evolve_put; [apply evolve_refl|]. apply okx_objs; [exact K|]. intros u J. right. eapply remove_uids; exact J.
  - destruct (find_obj s x ho) as [ob|]; [|same H]. destruct (GetAttributeValue _ _ _) as [[rv t1]| |]; cbn [bind] in H; try discriminate. injection H as <- _. apply evolve_refl.
  - destruct (is_rw x); [|same H]. destruct (find_obj s x ho) as [ob|] eqn:F; [|same H]. destruct (SetAttributeValue _ _ _ _) as [[rv o1]| |] eqn:E; cbn [bind] in H; try discriminate. unfold rv_ in H. injection H as <- _.
    apply evolve_obj.
  - unfold FindInit in H. destruct (ss_find x); [same H|]. cbv zeta in H. destruct (find_last _ _); [destruct (tmpl_token t)|];
    try (destruct (Find _ _ _ _ _); cbn [bind] in H; try discriminate); unfold rv_ in H; injection H as <- _; (apply evolve_put; [apply evolve_refl|apply okx_find; exact K]).
  - unfold FindNext in H. injection H as <- _. apply evolve_put; [apply evolve_refl|apply okx_find; exact K].
  - unfold rv_ in H. injection H as <- _. apply evolve_put; [apply evolve_refl|apply okx_find; exact K].
  - destruct aes; [|same H]. unfold GenKey in H. destruct (NewObject _ _ _ _ _ _) as [[rv [ob|]]| |] eqn:Co; cbn [bind] in H; [|bumped H|discriminate..]. cbv zeta in H. apply NewObject_id in Co as (_ & Co & _).
    destruct (as_sym ob) as [[l b]| |]; cbn [bind] in H; try discriminate. destruct (_ <? _)%Z; [discriminate|].
    destruct (AddObject _ _ _ _ _ _) as [[[rv2 ho] s2]| |] eqn:E; cbn [bind] in H; try discriminate. injection H as <- _. eapply AddObject_ev; [| | |exact E]; [apply (evolve_bump s s 1), evolve_refl|exact K|cbn [set_data o_uid]; rewrite Co; lia].
  - unfold GenKeyPair in H. destruct (match m with KP_RSA => _ | KP_EC => _ | KP_DH => _ | KP_other => _ end) as [ty|]; [|same H].
    destruct (NewObject _ _ (s_uid s) _ _ _) as [[rv [pub|]]| |] eqn:N1; cbn [bind] in H; [|bumped H|discriminate..]. cbv zeta in H. apply NewObject_id in N1 as (_ & N1 & _).
    destruct (NewObject _ _ _ _ _ _) as [[rv2 [priv|]]| |] eqn:N2; cbn [bind] in H; [|bumped H|discriminate..]. apply NewObject_id in N2 as (_ & N2 & _).
    match type of H with bind ?r _ = _ => destruct r as [[[pub1 priv1]|]| |] eqn:Gn end; cbn [bind] in H; [|bumped H|discriminate..]. apply gen_uid in Gn as [G1 G2].
    destruct (AddObject _ _ _ _ _ _) as [[[rv3 h1] s2]| |] eqn:A1; cbn [bind] in H; try discriminate.
    apply (AddObject_ev s) in A1; [|apply evolve_bump, evolve_refl|exact K|rewrite G1, N1; lia].
    destruct (negb _); [unfold rv_ in H; injection H as <- _; exact A1|]. destruct (sess_get s2 _) as [x2|] eqn:Gs; [|unfold rv_ in H; injection H as <- _; exact A1].
    apply sess_get_in in Gs as (X2 & E2 & _). destruct (AddObject _ _ _ _ _ _) as [[[rv4 h2] s3]| |] eqn:A2; cbn [bind] in H; try discriminate.
    destruct (_ =? _)%Z; [|discriminate]. injection H as <- _. eapply AddObject_ev; [| | |exact A2]; [exact A1|apply (proj1 A1); exact X2|rewrite G2, N2; lia].
  - destruct (is_rw x); [|same H]. destruct (find_obj s x hk) as [k|]; [|same H]. destruct (find_obj s x hw) as [wk|] eqn:Fw; [|same H].
    unfold Wrap in H. destruct (negb _); [same H|]. destruct (as_rsa _); cbn [bind] in H; try discriminate. destruct (w_p8 _ _) as [c0 der]. destruct (negb _); [same H|]. destruct (negb _); [same H|]. destruct (negb _); [same H|].
    destruct (run_init _ _ _ _ _) as [[x1 o1]| |] eqn:R1; cbn [bind] in H; try discriminate. apply (init_cur w _ _ _ _ (KEncryptInit m mp 0)) in R1 as [E1 R1]; [|reflexivity].
    assert (K1 : okx s x1) by (rewrite E1; eapply okx_key; [exact X|exact Fw|exact R1]).
    destruct (negb _); [unfold rv_ in H; injection H as <- _; apply evolve_put; [apply evolve_refl|exact K1]|].
    destruct (run_cont _ _ _ _) as [[x2 o2]| |] eqn:R2; cbn [bind] in H; try discriminate. apply cont_cur in R2 as [E2 R2]; [|reflexivity|discriminate]. injection H as <- _.
    apply evolve_put; [apply evolve_refl|]. rewrite E2. apply okx_op; [exact K1|exact R2].
  - destruct (is_rw x) eqn:Rw; [|same H]. destruct (_ =? _)%Z; [same H|]. destruct (find_obj s x hu) as [uk|] eqn:Fw; [|same H].
    unfold Unwrap in H. destruct (negb _); [same H|]. cbv zeta in H. destruct (find_last _ _); [|same H]. destruct (tmpl_ulong _); [|same H]. destruct (negb _); [same H|].
    destruct (find_last _ _); [|same H]. destruct (tmpl_ulong _); [|same H]. destruct (negb _); [same H|]. destruct (negb _); [same H|]. destruct (negb _); [same H|].
    destruct (run_init _ _ _ _ _) as [[x1 o1]| |] eqn:R1; cbn [bind] in H; try discriminate. apply (init_cur w _ _ _ _ (KDecryptInit m mp 0)) in R1 as [E1 R1]; [|reflexivity].
    assert (K1 : okx s x1) by (rewrite E1; eapply okx_key; [exact X|exact Fw|exact R1]).
    destruct (negb _); [unfold rv_ in H; injection H as <- _; apply evolve_put; [apply evolve_refl|exact K1]|].
    destruct (run_cont _ _ _ _) as [[x2 o2]| |] eqn:R2; cbn [bind] in H; try discriminate. apply cont_cur in R2 as [E2 R2]; [|reflexivity|discriminate].
    assert (K2 : okx s x2) by (rewrite E2; apply okx_op; [exact K1|exact R2]). assert (B : evolve s (put_sess s x2)) by (apply evolve_put; [apply evolve_refl|exact K2]).
    destruct (negb _); [unfold rv_ in H; injection H as <- _; exact B|].
    destruct (NewObject _ _ _ _ _ _) as [[rv [ob|]]| |] eqn:Co; cbn [bind] in H; [|unfold rv_ in H; injection H as <- _; apply evolve_bump; exact B|discriminate..]. apply NewObject_id in Co as (_ & Co & _).
    destruct (w_p8_dec _ _) as [cc r]. destruct (negb _); [unfold rv_ in H; injection H as <- _; apply evolve_bump; exact B|].
    destruct (AddObject _ _ _ _ _ _) as [[[rv2 ho] s4]| |] eqn:E; cbn [bind] in H; try discriminate. injection H as <- _.
    eapply AddObject_ev; [| | |exact E]; [apply evolve_bump; exact B|exact K2|cbn [set_data o_uid]; rewrite Co; cbn; lia].
  - destruct (find_obj s x hb) as [b|]; [|same H]. unfold Derive in H. destruct m; [| |same H];
    (match type of H with bind ?r _ = _ => destruct r as [u| |] end; cbn [bind] in H; try discriminate; destruct secret as [sec|]; [|same H];
     destruct (CreateObject _ _ _ _) as [[rv [ob|]]| |] eqn:Co; cbn [bind] in H; [|bumped H|discriminate..]; apply CreateObject_id in Co as (_ & Co & _); destruct (GetAttr _ _ _ _) as [[[c0 c1] d]| |]; cbn [bind] in H; try discriminate;
     destruct (negb _); [bumped H|]; cbv zeta in H; match type of H with (if ?b then Undef _ else _) = _ => destruct b end; [discriminate|];
     destruct (SetSecretKey _ _) as [[c2 o1]| |] eqn:Sk; cbn [bind] in H; try discriminate; apply SetSecretKey_frame in Sk as (dd & Sk); destruct (negb _); [bumped H|];
     destruct (AddObject _ _ _ _ _ _) as [[[rv2 ho] s2]| |] eqn:E; cbn [bind] in H; try discriminate; injection H as <- _; eapply AddObject_ev; [| | |exact E]; [apply (evolve_bump s s 1), evolve_refl|exact K|rewrite Sk; cbn [set_data o_uid]; rewrite Co; lia]).
  - destruct (with_key c 0) as [c0|] eqn:Wk.
    + destruct (find_obj s x hk) as [k|] eqn:Fk; [|same H]. destruct (with_key c (o_uid k)) eqn:Wk2; [|same H]. destruct (run_init _ _ _ _ _) as [[x1 r]| |] eqn:R1; cbn [bind] in H; try discriminate.
      apply (init_cur w _ _ _ _ c) in R1 as [E1 R1]; [|exact Wk2]. injection H as <- _. apply evolve_put; [apply evolve_refl|]. rewrite E1. eapply okx_key; [exact X|exact Fk|exact R1].
    + assert (D : s' = s \/ exists x1 r, run_cont w s x c = Ok (x1, r) /\ s' = put_sess s x1 /\ c <> KReopen).
      { destruct c; try discriminate Wk; try (left; unfold rv_ in H; injection H as <- _; reflexivity); right; destruct (run_cont _ _ _ _) as [[x1 r]| |] eqn:R1; cbn [bind] in H; try discriminate; injection H as <- _; exists x1, r; repeat split; discriminate. }
      destruct D as [->|(x1 & r & R & -> & NR)]; [apply evolve_refl|]. apply cont_cur in R as [E1 R]; [|exact Wk|exact NR]. apply evolve_put; [apply evolve_refl|]. rewrite E1. apply okx_op; [exact K|exact R].
Qed.

(** The calls that concern no object. *)
Definition okl (s : sys) (x' : session) : Prop :=
  (cur x' = None \/ exists x, In x (s_sess s) /\ ss_h x = ss_h x' /\ (cur x' = cur x \/ exists hk o, find_obj s x hk = Some o /\ cur x' = Some (o_uid o))) /\
  (forall u, In u (uids (ss_objs x')) -> (s_uid s <= u)%nat \/ exists x, In x (s_sess s) /\ ss_h x = ss_h x' /\ In u (uids (ss_objs x))).
Definition settled (s s' : sys) : Prop := (forall x, In x (s_sess s') -> okl s x) /\ (s_uid s <= s_uid s')%nat.
Lemma okx_okl s x : okx s x -> okl s x.
Proof. intros (y & Y & E & C & O). split; [right; exists y; auto|]. intros u J. destruct (O u J) as [L|L]; [left; exact L|right; exists y; auto]. Qed.
Lemma okl_refl s x : In x (s_sess s) -> okl s x.
Proof. intros X. apply okx_okl, okx_refl, X. Qed.
Lemma okl_new s l : okl s (new_sess l).
Proof. split; [left; reflexivity|]. intros u []. Qed.
Lemma okl_use s x n : okl s x -> okl s (set_use x n).
Proof. intros K. exact K. Qed.
Lemma settled_same s s' : s_sess s' = s_sess s -> s_uid s' = s_uid s -> settled s s'.
Proof. intros E Un. split; [|lia]. rewrite E. intros x X. apply okl_refl. exact X. Qed.
Lemma okl_final s x x' : okl s x -> sess_final x = Ok x' -> okl s x'.
Proof.
  intros [_ K] H. unfold sess_final in H. destruct (free_all _); cbn [bind] in H; try discriminate. destruct (op_session_final _) as [p| |] eqn:E; cbn [bind] in H; try discriminate.
  injection H as <-. apply session_final_curr in E. split; [left; exact E|]. cbn [ss_objs ss_h]. destruct (in_use x); [intros u []|exact K].
Qed.
Lemma okl_drop s l l' : Forall (okl s) l -> drop_unused l = Ok l' -> Forall (okl s) l'.
Proof.
  revert l'. induction l as [|x l IH]; intros l' F H; cbn [drop_unused] in H; [injection H as <-; exact F|]. destruct (andb _ _); [|injection H as <-; exact F].
  destruct (sess_final x); cbn [bind] in H; try discriminate. inversion F; subst. apply IH; assumption.
Qed.
Lemma okl_close s l x l' : Forall (okl s) l -> okl s x -> close_sess l x = Ok l' -> Forall (okl s) l'.
Proof.
  unfold close_sess. intros F K H. destruct (sess_final x) as [x'| |] eqn:E; cbn [bind] in H; try discriminate. apply (okl_final s) in E; [|exact K].
  destruct l as [|y l]; [injection H as <-; constructor|]. destruct (andb _ _); [inversion F; subst; eapply okl_drop; eassumption|]. injection H as <-.
  apply Forall_forall. intros z Z. apply upd_in in Z as [->|[Z _]]; [exact E|]. rewrite Forall_forall in F. auto.
Qed.
Lemma okl_dyn s l l' : Forall (okl s) l -> drop_dyn l = Ok l' -> Forall (okl s) l'.
Proof.
  revert l'. induction l as [|x l IH]; intros l' F H; cbn [drop_dyn] in H; [injection H as <-; exact F|]. destruct (_ <? _)%Z; [|injection H as <-; exact F].
  destruct (sess_final x); cbn [bind] in H; try discriminate. inversion F; subst. apply IH; assumption.
Qed.
Lemma okl_head s n : forall l l', Forall (okl s) l -> final_head n l = Ok l' -> Forall (okl s) l'.
Proof.
  induction n as [|n IH]; intros l l' F H; cbn [final_head] in H; [injection H as <-; exact F|]. destruct l as [|x l]; [injection H as <-; exact F|].
  destruct (sess_final x) as [x'| |] eqn:E; cbn [bind] in H; try discriminate. inversion F; subst. eapply IH; [|exact H]. constructor; [|assumption]. eapply okl_final; eassumption.
Qed.
Lemma okl_close_all s l l' : Forall (okl s) l -> close_all l = Ok l' -> Forall (okl s) l'.
Proof. unfold close_all. intros F H. destruct (drop_dyn l) as [l1| |] eqn:E; cbn [bind] in H; try discriminate. eapply okl_head; [|exact H]. eapply okl_dyn; eassumption. Qed.
Lemma okl_all s : Forall (okl s) (s_sess s).
Proof. apply Forall_forall. intros x. apply okl_refl. Qed.
Lemma settled_all s s' : Forall (okl s) (s_sess s') -> s_uid s' = s_uid s -> settled s s'.
Proof. intros F Un. split; [|lia]. apply Forall_forall. exact F. Qed.
Lemma store_settled s s0 rnd c s' : s_sess s0 = s_sess s -> s_uid s0 = s_uid s -> store w rnd s0 = Ok (c, s') -> settled s s'.
Proof. intros E1 E2 H. apply store_frame in H as (_ & S & Un & _). apply settled_same; congruence. Qed.
Ltac stay H := unfold rv_ in H; injection H as <- _; apply settled_same; reflexivity.
Theorem step_settled rnd s c s' o : inv s -> step w rnd s c = Ok (s', o) -> settled s s'.
Proof.
  intros I H. destruct (objop c) as [h0|] eqn:O.
  { destruct (step_evolve rnd s c h0 s' o I O H) as [E L]. split; [|exact L]. intros x X. apply okx_okl, E, X. }
  destruct c; try discriminate O; clear O; cbn [step] in H; unfold with_sess, with_slot, need_lib in H.
  - unfold Initialize in H. destruct (_ =? 0)%Z; [|stay H]. destruct (Token_Load _ _ _) as [t| |]; cbn [bind] in H; try discriminate. injection H as <- _.
    split; [|cbn; lia]. cbn [s_sess add_sess]. intros x [<-|[<-|[]]]; apply okl_new.
  - unfold Finalize in H. destruct (_ =? 0)%Z; [|stay H]. destruct (store w rnd s) as [[c1 s1]| |] eqn:S; cbn [bind] in H; try discriminate. destruct (final_all _); cbn [bind] in H; try discriminate. destruct (free_all _); cbn [bind] in H; try discriminate.
    injection H as <- _. apply store_frame in S as (_ & _ & Un & _). apply settled_all; [constructor|exact Un].
  - injection H as <- _. apply settled_all; [constructor|reflexivity].
  - destruct (0 <? _)%Z; [|stay H]. destruct (slot_ok slot); [|stay H]. unfold InitToken in H. cbv zeta in H. destruct (negb (pin_len_ok pin)); [stay H|]. destruct (andb _ (existsb _ _)); [stay H|]. destruct (andb _ (negb _)); [stay H|].
    unfold TokenReset in H. destruct (free_all _); cbn [bind] in H; try discriminate. destruct (zlen label <? 32)%Z; [discriminate|]. unfold SetSOPin in H. cbv zeta in H.
    destruct (store _ _ _) as [[c1 s1]| |] eqn:S; cbn [bind] in H; try discriminate. unfold rv_ in H. injection H as <- _. eapply store_settled; [..|exact S]; reflexivity.
  - destruct (0 <? _)%Z; [|stay H]. destruct (sess_get s h) as [x|]; [|stay H]. unfold InitPIN in H. destruct (negb _); [stay H|]. destruct (negb _); [stay H|]. unfold SetUserPin in H. cbv zeta in H.
    destruct (store _ _ _) as [[c1 s1]| |] eqn:S; cbn [bind] in H; try discriminate. unfold rv_ in H. injection H as <- _. eapply store_settled; [..|exact S]; reflexivity.
  - destruct (0 <? _)%Z; [|stay H]. destruct (sess_get s h) as [x|]; [|stay H]. unfold SetPIN in H. cbv zeta in H. destruct (negb _); [stay H|]. destruct (negb _); [stay H|]. destruct (negb _); [stay H|]. destruct (_ =? PIN_NOT_SET_E)%Z; [stay H|]. destruct (negb _); [stay H|].
    destruct (_ =? RW_SO)%Z; unfold SetSOPin, SetUserPin in H; cbv zeta in H;
    (destruct (store _ _ _) as [[c1 s1]| |] eqn:S; cbn [bind] in H; try discriminate; unfold rv_ in H; injection H as <- _; eapply store_settled; [..|exact S]; reflexivity).
  - destruct (0 <? _)%Z; [|stay H]. destruct (slot_ok slot); [|stay H]. unfold OpenSession in H. destruct (_ =? 0)%Z; [stay H|]. cbv zeta in H. destruct (andb _ _); [stay H|].
    assert (Put : forall l x m, Forall (okl s) l -> okl s x -> settled s (put_sess (set_sess s l) (set_use x m))).
    { intros l x m F K. apply settled_all; [|reflexivity]. apply Forall_forall. intros z Z. cbn in Z. apply upd_in in Z as [->|[Z _]]; [apply okl_use, K|]. rewrite Forall_forall in F. auto. }
    destruct (first_unused (s_sess s)) as [x|] eqn:Fu.
    + injection H as <- _. apply Put; [apply okl_all|]. apply okl_refl. apply find_some in Fu. apply Fu.
    + destruct (match s_sess s with [] => false | _ => _ end); [stay H|]. injection H as <- _. apply Put; [constructor; [apply okl_new|apply okl_all]|apply okl_new].
  - destruct (0 <? _)%Z; [|stay H]. destruct (sess_get s h) as [x|] eqn:G; [|stay H]. apply sess_get_in in G as (X & _). unfold CloseSession in H. destruct (close_sess _ _) as [l| |] eqn:C; cbn [bind] in H; try discriminate. cbv zeta in H.
    apply (okl_close s) in C; [|apply okl_all|apply okl_refl, X]. destruct (existsb _ _); [|destruct (Logout _ _); cbn [bind] in H; try discriminate]; unfold rv_ in H; injection H as <- _; apply settled_all; (exact C || reflexivity).
  - destruct (0 <? _)%Z; [|stay H]. destruct (slot_ok slot); [|stay H]. destruct (close_all _) as [l| |] eqn:C; cbn [bind] in H; try discriminate. apply (okl_close_all s) in C; [|apply okl_all]. unfold rv_ in H. injection H as <- _. apply settled_all; [exact C|reflexivity].
  - destruct (0 <? _)%Z; [|stay H]. destruct (sess_get s h) as [x|]; [|stay H]. unfold Login in H. destruct (negb _); [stay H|]. destruct (ut =? CKU_SO)%Z.
    + destruct (SOLogin w (s_sess s) (s_tok s) pin now) as [c t]. stay H.
    + destruct (ut =? CKU_USER)%Z; [|destruct (_ =? _)%Z; stay H]. destruct (UserLogin _ _ _ _) as [[c t]| |]; cbn [bind] in H; try discriminate. stay H.
  - destruct (0 <? _)%Z; [|stay H]. destruct (sess_get s h) as [x|]; [|stay H]. destruct (Logout _ _); cbn [bind] in H; try discriminate. stay H.
  - destruct (0 <? _)%Z; [|stay H]. destruct (slot_ok slot); [|stay H]. injection H as <- _. apply settled_same; reflexivity.
Qed.

(** A key that one session's operation refers to is never an object of another session. *)
Definition apart (s : sys) : Prop :=
  (forall x u, In x (s_sess s) -> cur x = Some u -> (u < s_uid s)%nat) /\
  (forall x y u, In x (s_sess s) -> In y (s_sess s) -> ss_h x <> ss_h y -> cur x = Some u -> ~ In u (uids (ss_objs y))).
Lemma live_below s x hk o : inv s -> In x (s_sess s) -> find_obj s x hk = Some o -> (o_uid o < s_uid s)%nat.
Proof.
  intros (_ & _ & [_ F] & _) X Fo. rewrite Forall_forall in F. apply F. unfold live. unfold uids. apply in_map. apply SysProofs3.find_obj_in in Fo as [Fo _].
  apply in_or_app. destruct (on_token hk); [left; exact Fo|right]. eapply all_objs_in; eassumption.
Qed.
Theorem step_apart rnd s c s' o : inv s -> apart s -> step w rnd s c = Ok (s', o) -> apart s'.
Proof.
  intros I [P Q] H. destruct (step_settled rnd s c s' o I H) as [E L].
  assert (P' : forall x u, In x (s_sess s') -> cur x = Some u -> (u < s_uid s)%nat).
  { intros x u X C. destruct (E x X) as [[N|(y & Y & _ & [C2|(hk & ob & F & C2)])] _]; [congruence| |].
    - apply (P y u Y). congruence.
    - assert (u = o_uid ob) by congruence. subst u. eapply live_below; eassumption. }
  split; [intros x u X C; specialize (P' x u X C); lia|].
  intros x y u X Y D C J. specialize (P' x u X C). destruct (E y Y) as [_ O]. destruct (O u J) as [G|(y0 & Y0 & Ey & J0)]; [lia|].
  destruct (E x X) as [[N|(x0 & X0 & Ex & [C2|(hk & ob & F & C2)])] _]; [congruence| |].
  - apply (Q x0 y0 u); auto; congruence.
  - assert (u = o_uid ob) by congruence. subst u. apply (reachable_key (fun h => h =? ss_h y0)%Z s x0 hk ob I X0) with (y := y0); auto; [|lia]. apply Z.eqb_neq. congruence.
Qed.
Lemma apart_stranger A s x : apart s -> In x (s_sess s) -> A (ss_h x) = false -> stranger A s x.
Proof. intros [_ Q] X N u y C Y Ay. apply (Q x y u); auto. congruence. Qed.
Lemma apart0 d : apart (sys0 d).
Proof. split; [intros x u []|intros x y u []]. Qed.
End B.
