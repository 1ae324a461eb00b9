(** What every operation state satisfies, every session of the library satisfies: a predicate that
    holds of a new operation state and is kept by the functions of Ops.v, with whatever objects,
    holds of the operation states of all sessions of the library at all times. *)
From Verif Require Import Base Cbc Ops Object Store Sys SysProofs SysProofs2 SysProofs3 SysProofs4 WfProofs ObjFrame ObjProofs HandleProofs FindState UseProofs.
From Coq Require Import Bool.
Local Open Scope list_scope.

Section W.
Variable w : world.
Variable P : opst -> Prop.
Hypothesis P0 : P op_zero.
Hypothesis P1 : forall objs st c st' o, P st -> Ops.step (w_ev w) objs st c = Ok (st', o) -> P st'.
Definition opall (s : sys) : Prop := forall x, In x (s_sess s) -> P (ss_op x).
Lemma lift_final x x' : P (ss_op x) -> sess_final x = Ok x' -> P (ss_op x').
Proof.
  unfold sess_final. intros Px H. destruct (free_all _); cbn [bind] in H; try discriminate. destruct (op_session_final _) as [p| |] eqn:E; cbn [bind] in H; try discriminate.
  injection H as <-. cbn [ss_op]. apply (P1 (fun _ => None) (ss_op x) KReopen p (fail Query CKR_OK) Px). cbn [Ops.step]. rewrite E. reflexivity.
Qed.
Lemma lift_init s x c o x1 r : P (ss_op x) -> run_init w s x c o = Ok (x1, r) -> P (ss_op x1) /\ x1 = set_op x (ss_op x1).
Proof.
  unfold run_init. intros Px H. destruct (view _ _) as [ko| |]; cbn [bind] in H; try discriminate. destruct (Ops.step _ _ _ _) as [[p r1]| |] eqn:E; cbn [bind] in H; try discriminate. injection H as <- _.
  split; [|reflexivity]. exact (P1 _ _ _ _ _ Px E).
Qed.
Lemma lift_cont s x c x1 r : P (ss_op x) -> run_cont w s x c = Ok (x1, r) -> P (ss_op x1) /\ x1 = set_op x (ss_op x1).
Proof.
  unfold run_cont. intros Px H. match type of H with bind ?m _ = _ => destruct m as [k| |] end; cbn [bind] in H; try discriminate.
  destruct (Ops.step _ _ _ _) as [[p r1]| |] eqn:E; cbn [bind] in H; try discriminate. injection H as <- _. split; [|reflexivity]. exact (P1 _ _ _ _ _ Px E).
Qed.
Lemma close_lift l x l' : (forall y, In y l -> P (ss_op y)) -> P (ss_op x) -> close_sess l x = Ok l' -> forall y, In y l' -> P (ss_op y).
Proof.
  unfold close_sess. intros A Px H y J. destruct (sess_final x) as [x'| |] eqn:E; cbn [bind] in H; try discriminate. apply lift_final in E; [|exact Px].
  destruct l as [|z r]; [injection H as <-; destruct J|]. destruct (andb _ _).
  - apply A. right. eapply drop_unused_in; eauto.
  - injection H as <-. apply upd_in in J as [->|[J _]]; auto.
Qed.
Lemma head_lift n l l' : (forall y, In y l -> P (ss_op y)) -> final_head n l = Ok l' -> forall y, In y l' -> P (ss_op y).
Proof.
  revert l l'. induction n as [|n IH]; intros l l' A H y J; cbn [final_head] in H; [injection H as <-; auto|]. destruct l as [|x r]; [injection H as <-; auto|].
  destruct (sess_final x) as [x'| |] eqn:E; cbn [bind] in H; try discriminate. apply lift_final in E; [|apply A; left; reflexivity].
  eapply IH; [|exact H|exact J]. intros z [<-|Z]; [exact E|apply A; right; exact Z].
Qed.
Ltac kk H := repeat (unfold rv_, with_object, need_rw in H; cbv beta zeta in H; match type of H with
    | Ok _ = Ok _ => injection H as <- _; try assumption
    | Err _ = _ => discriminate H | Undef _ = _ => discriminate H
    | bind ?m _ = _ => let E := fresh "E" in destruct m as [?v| |] eqn:E; cbn [bind] in H; try discriminate H
    | (let '(_, _) := ?v in _) = _ => destruct v; cbn [bind] in H
    | (if ?b then _ else _) = _ => destruct b
    | match ?v with _ => _ end = _ => let E := fresh "D" in destruct v eqn:E end).
Lemma put_lift s x : opall s -> P (ss_op x) -> opall (put_sess s x).
Proof. intros A Px y J. cbn [put_sess set_sess s_sess] in J. apply upd_in in J as [->|[J _]]; auto. Qed.
Lemma ukeys_lift s s' : opall s -> ukeys s' = ukeys s -> opall s'.
Proof. intros A K x X. destruct (in_ukeys _ _ _ K X) as (y & Y & E). unfold ukey in E. injection E as _ _ E. rewrite <- E. apply A, Y. Qed.
Lemma crypt_lift rnd s c h s' o : inv s -> opall s -> objop c = Some h -> cryptop c = true -> step w rnd s c = Ok (s', o) -> opall s'.
Proof.
  intros I A O F H. pose proof (inv_uniq s I) as U.
  destruct c; try discriminate O; try discriminate F; injection O as ->; cbn [step] in H; unfold with_sess, need_lib in H;
  (destruct (0 <? _)%Z; [|kk H]); (destruct (sess_get s h) as [x|] eqn:G; [|kk H]); pose proof (sess_get_in _ _ _ G) as (X & Hx & _); pose proof (A x X) as Px.
  - unfold need_rw in H. destruct (is_rw x); [|kk H]. unfold with_object in H. destruct (find_obj s x hk) as [k|]; [|kk H]. destruct (find_obj s x hw) as [wk|] eqn:Fw; [|kk H].
    unfold Wrap in H. destruct (negb _); [kk H|]. destruct (as_rsa _); cbn [bind] in H; try discriminate. destruct (w_p8 _ _) as [c0 der]. destruct (negb _); [kk H|]. destruct (negb _); [kk H|]. destruct (negb _); [kk H|].
    destruct (run_init _ _ _ _ _) as [[x1 o1]| |] eqn:R1; cbn [bind] in H; try discriminate. apply lift_init in R1 as (M1 & E1); [|exact Px].
    destruct (negb _); [unfold rv_ in H; injection H as <- _; apply put_lift; auto|].
    destruct (run_cont _ _ _ _) as [[x2 o2]| |] eqn:R2; cbn [bind] in H; try discriminate. apply lift_cont in R2 as (M2 & E2); [|exact M1].
    injection H as <- _. apply put_lift; auto.
  - unfold need_rw in H. destruct (is_rw x); [|kk H]. destruct (_ =? _)%Z; [kk H|]. unfold with_object in H. destruct (find_obj s x hu) as [uk|] eqn:Fw; [|kk H].
    unfold Unwrap in H. destruct (negb _); [kk H|]. destruct (find_last _ _); [|kk H]. destruct (tmpl_ulong _); [|kk H]. destruct (negb _); [kk H|].
    destruct (find_last _ _); [|kk H]. destruct (tmpl_ulong _); [|kk H]. destruct (negb _); [kk H|]. destruct (negb _); [kk H|]. destruct (negb _); [kk H|].
    destruct (run_init _ _ _ _ _) as [[x1 o1]| |] eqn:R1; cbn [bind] in H; try discriminate. apply lift_init in R1 as (M1 & E1); [|exact Px].
    destruct (negb _); [unfold rv_ in H; injection H as <- _; apply put_lift; auto|].
    destruct (run_cont _ _ _ _) as [[x2 o2]| |] eqn:R2; cbn [bind] in H; try discriminate. apply lift_cont in R2 as (M2 & E2); [|exact M1]. cbv zeta in H.
    pose proof (put_lift s x2 A M2) as Q. assert (X2 : ss_h x2 = ss_h x) by (rewrite E2, E1; reflexivity).
    assert (J2 : In x2 (upd_sess (s_sess s) x2)). { unfold upd_sess. apply in_map_iff. exists x. rewrite X2, Z.eqb_refl. auto. }
    destruct (negb _); [kk H|]. destruct (NewObject _ _ _ _ _ _) as [[rv [ob|]]| |]; cbn [bind] in H; [|kk H|discriminate..].
    destruct (w_p8_dec _ _) as [cc r]. destruct (negb _); [kk H|]. destruct (AddObject _ _ _ _ _ _) as [[[rv2 ho] s4]| |] eqn:Ad; cbn [bind] in H; try discriminate.
    injection H as <- _. apply AddObject_ukeys in Ad; [|cbn; unfold uniq; rewrite upd_sess_h; exact U|apply in_map; exact J2].
    eapply ukeys_lift; [exact Q|]. exact Ad.
  - destruct (with_key c 0) as [c1|] eqn:W.
    + unfold with_object in H. destruct (find_obj s x hk) as [k|] eqn:Fk; [|kk H]. destruct (with_key c (o_uid k)) as [c2|] eqn:W2; [|kk H].
      destruct (run_init _ _ _ _ _) as [[x1 o1]| |] eqn:R1; cbn [bind] in H; try discriminate. apply lift_init in R1 as (M1 & E1); [|exact Px]. injection H as <- _. apply put_lift; auto.
    + assert (D : c = KReopen \/ exists x1 r, run_cont w s x c = Ok (x1, r) /\ s' = put_sess s x1).
      { destruct c; try discriminate W; auto; right; destruct (run_cont _ _ _ _) as [[x1 r]| |] eqn:R1; cbn [bind] in H; try discriminate; injection H as <- _; exists x1, r; split; reflexivity. }
      destruct D as [->|(x1 & r & R1 & ->)]; [kk H|]. apply lift_cont in R1 as (M & E); [|exact Px]. apply put_lift; auto.
Qed.
Theorem lift_step rnd s c s' o : inv s -> opall s -> step w rnd s c = Ok (s', o) -> opall s'.
Proof.
  intros I A H. destruct (objop c) as [h|] eqn:O.
  { destruct (cryptop c) eqn:F; [eapply crypt_lift; eauto|]. eapply ukeys_lift; [exact A|]. eapply step_ukeys; eauto. }
  assert (Same : s_sess s' = s_sess s -> opall s') by (intros E; unfold opall; rewrite E; exact A).
  destruct c; try discriminate O; cbn [step] in H; unfold with_slot, with_sess, need_lib in H.
  - unfold Initialize in H. destruct (_ =? 0)%Z; [|injection H as <- _; exact A]. destruct (Token_Load _ _ _); cbn [bind] in H; try discriminate. injection H as <- _.
    intros x [<-|[<-|[]]]; exact P0.
  - unfold Finalize in H. destruct (_ =? 0)%Z; [|injection H as <- _; exact A].
    destruct (store w rnd s) as [[c1 s1]| |]; cbn [bind] in H; try discriminate. destruct (final_all _); cbn [bind] in H; try discriminate.
    destruct (free_all _); cbn [bind] in H; try discriminate. injection H as <- _. intros x [].
  - injection H as <- _. intros x [].
  - destruct (0 <? _)%Z; [|kk H]. destruct (slot_ok slot); [|kk H].
    unfold InitToken in H. destruct (negb _); [kk H|]. destruct (andb (t_init _) (existsb _ _)) eqn:B; [kk H|]. destruct (andb _ (negb _)); [kk H|].
    destruct (TokenReset _ _ _ _ _) as [[c1 s1]| |] eqn:T; cbn [bind] in H; try discriminate. unfold rv_ in H. injection H as <- _.
    unfold TokenReset in T. destruct (free_all _); cbn [bind] in T; try discriminate. destruct (zlen _ <? 32)%Z; [discriminate|]. unfold SetSOPin in T.
    apply store_tok_uids in T as (_ & T). cbn in T. apply Same. exact T.
  - destruct (0 <? _)%Z; [|kk H]. destruct (sess_get s h); [|kk H].
    unfold InitPIN in H. repeat match type of H with (if ?b then rv_ _ _ else _) = _ => destruct b; [unfold rv_ in H; injection H as <- _; exact A|] end.
    destruct (SetUserPin _ _ _ _) as [[c1 s1]| |] eqn:T; cbn [bind] in H; try discriminate. unfold rv_ in H. injection H as <- _.
    unfold SetUserPin in T. apply store_tok_uids in T as (T1 & T2). apply Same; exact T2.
  - destruct (0 <? _)%Z; [|kk H]. destruct (sess_get s h); [|kk H].
    unfold SetPIN in H. cbv zeta in H. repeat match type of H with (if ?b then rv_ _ _ else _) = _ => destruct b; [unfold rv_ in H; injection H as <- _; exact A|] end.
    match type of H with bind ?r _ = _ => destruct r as [[c1 s1]| |] eqn:T end; cbn [bind] in H; try discriminate.
    unfold rv_ in H. injection H as <- _. destruct (_ =? _)%Z; [unfold SetSOPin in T|unfold SetUserPin in T]; (apply store_tok_uids in T as (T1 & T2); apply Same; exact T2).
  - destruct (0 <? _)%Z; [|kk H]. destruct (slot_ok slot); [|kk H].
    unfold OpenSession in H. repeat match type of H with (if ?b then rv_ _ _ else _) = _ => destruct b; [unfold rv_ in H; injection H as <- _; exact A|] end. cbv zeta in H.
    repeat match type of H with (if ?b then rv_ _ _ else _) = _ => destruct b; [unfold rv_ in H; injection H as <- _; exact A|] end.
    destruct (first_unused (s_sess s)) as [x|] eqn:Fu.
    + injection H as <- _. apply put_lift; [exact A|]. apply find_some in Fu as [X Ux]. exact (A x X).
    + match type of H with (if ?b then _ else _) = _ => destruct b end; [kk H|]. injection H as <- _. apply put_lift; [|exact P0].
      intros y [<-|Y]; [exact P0|exact (A y Y)].
  - destruct (0 <? _)%Z; [|kk H]. destruct (sess_get s h) as [y|] eqn:G; [|kk H]. apply sess_get_in in G as (G & _).
    unfold CloseSession in H. destruct (close_sess _ _) as [l| |] eqn:CL; cbn [bind] in H; try discriminate.
    assert (E : s_sess s' = l). { cbv zeta in H. destruct (existsb in_use l); [unfold rv_ in H; injection H as <- _; reflexivity|]. destruct (Logout _ _) as [t| |] eqn:Lo; cbn [bind] in H; try discriminate. unfold rv_ in H. injection H as <- _. reflexivity. }
    unfold opall. rewrite E. eapply close_lift; [exact A|exact (A y G)|exact CL].
  - destruct (0 <? _)%Z; [|kk H]. destruct (slot_ok slot); [|kk H].
    destruct (close_all _) as [l| |] eqn:CA; cbn [bind] in H; try discriminate. unfold rv_ in H. injection H as <- _.
    unfold close_all in CA. destruct (drop_dyn _) as [l1| |] eqn:E; cbn [bind] in CA; try discriminate. unfold opall. cbn [set_sess s_sess].
    eapply head_lift; [|exact CA]. intros z Z. apply A. eapply drop_dyn_in; eauto.
  - destruct (0 <? _)%Z; [|kk H]. destruct (sess_get s h); [|kk H].
    unfold Login in H. destruct (negb _); [kk H|]. kk H; apply Same; reflexivity.
  - destruct (0 <? _)%Z; [|kk H]. destruct (sess_get s h); [|kk H]. kk H; apply Same; reflexivity.
  - kk H.
Qed.
Theorem lift_reach d s : reach w (sys0 d) s -> opall s.
Proof.
  induction 1 as [|s rnd c s' o R IH St]; [intros x []|]. eapply lift_step; [eapply reach_inv; exact R|exact IH|exact St].
Qed.
End W.
