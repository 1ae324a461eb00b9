(** C122: a session that is closed has no operation left. wp11_Session_Final (internal.c 580-624) forgets the key and
    frees the AES-CBC key schedule, and no later call brings either back until the session is opened again. *)
From Verif Require Import Base Cbc Ops Object Store Sys SysProofs SysProofs2 SysProofs3 SysProofs4 WfProofs ObjFrame ObjProofs HandleProofs FindState UseProofs ToyEnv ToySys PropSys1 PropSys2 PropSys3 PropKeys PropMsg.
From Coq Require Import List Bool.
Import ListNotations.
Local Open Scope list_scope.

(** No key is in use and no AES-CBC key schedule is set up. *)
Definition ended (p : opst) : Prop := os_curr p = None /\ (os_mech p = M_AES_CBC \/ os_mech p = M_AES_CBC_PAD -> os_init p = 0%Z).
(** Every session that is not open has ended. *)
Definition quiet (x : session) : Prop := ss_use x = 0%Z -> ended (ss_op x).
Definition still (s : sys) : Prop := forall x, In x (s_sess s) -> quiet x.

Section W.
Variable w : world.
Lemma final_ended x x' : sess_final x = Ok x' -> ended (ss_op x').
Proof.
  unfold sess_final. intros H. destruct (free_all _); cbn [bind] in H; try discriminate. destruct (op_session_final _) as [p| |] eqn:E; cbn [bind] in H; try discriminate.
  injection H as <-. cbn [ss_op]. unfold op_session_final in E. unfold ended.
  destruct (os_mech (ss_op x)) eqn:M; try (injection E as <-; cbn; rewrite ?M; split; [reflexivity|intros [Q|Q]; discriminate Q]).
  1: destruct (os_params (ss_op x)); try discriminate E; injection E as <-; cbn; rewrite ?M; split; [reflexivity|intros [Q|Q]; discriminate Q].
  1,2: injection E as <-; destruct (Z.eqb_spec (os_init (ss_op x)) 0); cbn; auto.
  destruct (os_params (ss_op x)); try discriminate E; injection E as <-; cbn; rewrite ?M; split; [reflexivity|intros [Q|Q]; discriminate Q].
Qed.
Lemma lift_init s x c o x1 r : run_init w s x c o = Ok (x1, r) -> x1 = set_op x (ss_op x1).
Proof.
  unfold run_init. intros H. destruct (view _ _) as [ko| |]; cbn [bind] in H; try discriminate. destruct (Ops.step _ _ _ _) as [[p r1]| |]; cbn [bind] in H; try discriminate. injection H as <- _. reflexivity.
Qed.
Lemma lift_cont s x c x1 r : run_cont w s x c = Ok (x1, r) -> x1 = set_op x (ss_op x1).
Proof.
  unfold run_cont. intros H. match type of H with bind ?m _ = _ => destruct m as [k| |] end; cbn [bind] in H; try discriminate.
  destruct (Ops.step _ _ _ _) as [[p r1]| |]; cbn [bind] in H; try discriminate. injection H as <- _. reflexivity.
Qed.
Lemma close_lift l x l' : (forall y, In y l -> quiet y) -> close_sess l x = Ok l' -> forall y, In y l' -> quiet y.
Proof.
  unfold close_sess. intros A H y J. destruct (sess_final x) as [x'| |] eqn:E; cbn [bind] in H; try discriminate. apply final_ended in E.
  destruct l as [|z r]; [injection H as <-; destruct J|]. destruct (andb _ _).
  - apply A. right. eapply drop_unused_in; eauto.
  - injection H as <-. apply upd_in in J as [->|[J _]]; [intros _; exact E|auto].
Qed.
Lemma head_lift n l l' : (forall y, In y l -> quiet y) -> final_head n l = Ok l' -> forall y, In y l' -> quiet y.
Proof.
  revert l l'. induction n as [|n IH]; intros l l' A H y J; cbn [final_head] in H; [injection H as <-; auto|]. destruct l as [|x r]; [injection H as <-; auto|].
  destruct (sess_final x) as [x'| |] eqn:E; cbn [bind] in H; try discriminate. apply final_ended in E.
  eapply IH; [|exact H|exact J]. intros z [<-|Z]; [intros _; exact E|apply A; right; exact Z].
Qed.
Lemma put_lift s x : still s -> quiet x -> still (put_sess s x).
Proof. intros A Px y J. cbn [put_sess set_sess s_sess] in J. apply upd_in in J as [->|[J _]]; auto. Qed.
Lemma open_quiet x p : ss_use x <> 0%Z -> quiet (set_op x p).
Proof. intros N E. contradiction. Qed.
Lemma ukeys_lift s s' : still s -> ukeys s' = ukeys s -> still s'.
Proof. intros A K x X. destruct (in_ukeys _ _ _ K X) as (y & Y & E). unfold ukey in E. injection E as E1 E2 E3. unfold quiet. rewrite <- ?E2, <- ?E3. apply A, Y. Qed.
Ltac kk H := repeat (unfold rv_, with_object, need_rw in H; cbv beta zeta in H; match type of H with
    | Ok _ = Ok _ => injection H as <- _; try assumption
    | Err _ = _ => discriminate H | Undef _ = _ => discriminate H
    | bind ?m _ = _ => let E := fresh "E" in destruct m as [?v| |] eqn:E; cbn [bind] in H; try discriminate H
    | (let '(_, _) := ?v in _) = _ => destruct v; cbn [bind] in H
    | (if ?b then _ else _) = _ => destruct b
    | match ?v with _ => _ end = _ => let E := fresh "D" in destruct v eqn:E end).
Lemma crypt_lift rnd s c h s' o : inv s -> still s -> objop c = Some h -> cryptop c = true -> step w rnd s c = Ok (s', o) -> still s'.
Proof.
  intros I A O F H. pose proof (inv_uniq s I) as U.
  destruct c; try discriminate O; try discriminate F; injection O as ->; cbn [step] in H; unfold with_sess, need_lib in H;
  (destruct (0 <? _)%Z; [|kk H]); (destruct (sess_get s h) as [x|] eqn:G; [|kk H]); pose proof (sess_get_in _ _ _ G) as (X & Hx & Iu & _); assert (Nu : ss_use x <> 0%Z) by (unfold in_use in Iu; destruct (Z.eqb_spec (ss_use x) 0); [discriminate Iu|assumption]).
  - unfold need_rw in H. destruct (is_rw x); [|kk H]. unfold with_object in H. destruct (find_obj s x hk) as [k|]; [|kk H]. destruct (find_obj s x hw) as [wk|] eqn:Fw; [|kk H].
    unfold Wrap in H. destruct (negb _); [kk H|]. destruct (as_rsa _); cbn [bind] in H; try discriminate. destruct (w_p8 _ _) as [c0 der]. destruct (negb _); [kk H|]. destruct (negb _); [kk H|]. destruct (negb _); [kk H|].
    destruct (run_init _ _ _ _ _) as [[x1 o1]| |] eqn:R1; cbn [bind] in H; try discriminate. apply lift_init in R1 as E1.
    destruct (negb _); [unfold rv_ in H; injection H as <- _; apply put_lift; [exact A|rewrite E1; apply open_quiet; exact Nu]|].
    destruct (run_cont _ _ _ _) as [[x2 o2]| |] eqn:R2; cbn [bind] in H; try discriminate. apply lift_cont in R2 as E2. assert (M2 : quiet x2) by (rewrite E2, E1; apply (open_quiet _ _ Nu)).
    injection H as <- _. apply put_lift; auto.
  - unfold need_rw in H. destruct (is_rw x); [|kk H]. destruct (_ =? _)%Z; [kk H|]. unfold with_object in H. destruct (find_obj s x hu) as [uk|] eqn:Fw; [|kk H].
    unfold Unwrap in H. destruct (negb _); [kk H|]. destruct (find_last _ _); [|kk H]. destruct (tmpl_ulong _); [|kk H]. destruct (negb _); [kk H|].
    destruct (find_last _ _); [|kk H]. destruct (tmpl_ulong _); [|kk H]. destruct (negb _); [kk H|]. destruct (negb _); [kk H|]. destruct (negb _); [kk H|].
    destruct (run_init _ _ _ _ _) as [[x1 o1]| |] eqn:R1; cbn [bind] in H; try discriminate. apply lift_init in R1 as E1.
    destruct (negb _); [unfold rv_ in H; injection H as <- _; apply put_lift; [exact A|rewrite E1; apply open_quiet; exact Nu]|].
    destruct (run_cont _ _ _ _) as [[x2 o2]| |] eqn:R2; cbn [bind] in H; try discriminate. apply lift_cont in R2 as E2. assert (M2 : quiet x2) by (rewrite E2, E1; apply (open_quiet _ _ Nu)). cbv zeta in H.
    pose proof (put_lift s x2 A M2) as Q. assert (X2 : ss_h x2 = ss_h x) by (rewrite E2, E1; reflexivity).
    assert (J2 : In x2 (upd_sess (s_sess s) x2)). { unfold upd_sess. apply in_map_iff. exists x. rewrite X2, Z.eqb_refl. auto. }
    destruct (negb _); [kk H|]. destruct (NewObject _ _ _ _ _ _) as [[rv [ob|]]| |]; cbn [bind] in H; [|kk H|discriminate..].
    destruct (w_p8_dec _ _) as [cc r]. destruct (negb _); [kk H|]. destruct (AddObject _ _ _ _ _ _) as [[[rv2 ho] s4]| |] eqn:Ad; cbn [bind] in H; try discriminate.
    injection H as <- _. apply AddObject_ukeys in Ad; [|cbn; unfold uniq; rewrite upd_sess_h; exact U|apply in_map; exact J2].
    eapply ukeys_lift; [exact Q|]. exact Ad.
  - destruct (with_key c 0) as [c1|] eqn:W.
    + unfold with_object in H. destruct (find_obj s x hk) as [k|] eqn:Fk; [|kk H]. destruct (with_key c (o_uid k)) as [c2|] eqn:W2; [|kk H].
      destruct (run_init _ _ _ _ _) as [[x1 o1]| |] eqn:R1; cbn [bind] in H; try discriminate. apply lift_init in R1 as E1. injection H as <- _. apply put_lift; [exact A|rewrite E1; apply open_quiet; exact Nu].
    + assert (D : c = KReopen \/ exists x1 r, run_cont w s x c = Ok (x1, r) /\ s' = put_sess s x1).
      { destruct c; try discriminate W; auto; right; destruct (run_cont _ _ _ _) as [[x1 r]| |] eqn:R1; cbn [bind] in H; try discriminate; injection H as <- _; exists x1, r; split; reflexivity. }
      destruct D as [->|(x1 & r & R1 & ->)]; [kk H|]. apply lift_cont in R1 as ->. apply put_lift; [exact A|apply open_quiet; exact Nu].
Qed.
Lemma lift_step rnd s c s' o : inv s -> still s -> step w rnd s c = Ok (s', o) -> still s'.
Proof.
  intros I A H. destruct (objop c) as [h|] eqn:O.
  { destruct (cryptop c) eqn:F; [eapply crypt_lift; eauto|]. eapply ukeys_lift; [exact A|]. eapply step_ukeys; eauto. }
  assert (Same : s_sess s' = s_sess s -> still s') by (intros E; unfold still; rewrite E; exact A).
  destruct c; try discriminate O; cbn [step] in H; unfold with_slot, with_sess, need_lib in H.
  - unfold Initialize in H. destruct (_ =? 0)%Z; [|injection H as <- _; exact A]. destruct (Token_Load _ _ _); cbn [bind] in H; try discriminate. injection H as <- _.
    intros x [<-|[<-|[]]] _; (split; [reflexivity|intros _; reflexivity]).
  - unfold Finalize in H. destruct (_ =? 0)%Z; [|injection H as <- _; exact A].
    destruct (store w rnd s) as [[c1 s1]| |]; cbn [bind] in H; try discriminate. destruct (final_all _); cbn [bind] in H; try discriminate.
    destruct (free_all _); cbn [bind] in H; try discriminate. injection H as <- _. intros x [].
  - injection H as <- _. intros x [].
  - destruct (0 <? _)%Z; [|kk H]. destruct (slot_ok slot); [|kk H].
    unfold InitToken in H. destruct (negb _); [kk H|]. destruct (andb (t_init _) (existsb _ _)) eqn:B; [kk H|]. destruct (andb _ (negb _)); [kk H|].
    destruct (TokenReset _ _ _ _ _) as [[c1 s1]| |] eqn:T; cbn [bind] in H; try discriminate. unfold rv_ in H. injection H as <- _.
    unfold TokenReset in T. destruct (free_all _); cbn [bind] in T; try discriminate. destruct (zlen _ <? 32)%Z; [discriminate|]. unfold SetSOPin in T.
    apply store_tok_uids in T as (_ & T). cbn in T. apply Same. exact T.
  - destruct (0 <? _)%Z; [|kk H]. destruct (sess_get s h); [|kk H].
    unfold InitPIN in H. repeat match type of H with (if ?b then rv_ _ _ else _) = _ => destruct b; [unfold rv_ in H; injection H as <- _; exact A|] end.
    destruct (SetUserPin _ _ _ _) as [[c1 s1]| |] eqn:T; cbn [bind] in H; try discriminate. unfold rv_ in H. injection H as <- _.
    unfold SetUserPin in T. apply store_tok_uids in T as (T1 & T2). apply Same; exact T2.
  - destruct (0 <? _)%Z; [|kk H]. destruct (sess_get s h); [|kk H].
    unfold SetPIN in H. cbv zeta in H. repeat match type of H with (if ?b then rv_ _ _ else _) = _ => destruct b; [unfold rv_ in H; injection H as <- _; exact A|] end.
    match type of H with bind ?r _ = _ => destruct r as [[c1 s1]| |] eqn:T end; cbn [bind] in H; try discriminate.
    unfold rv_ in H. injection H as <- _. destruct (_ =? _)%Z; [unfold SetSOPin in T|unfold SetUserPin in T]; (apply store_tok_uids in T as (T1 & T2); apply Same; exact T2).
  - destruct (0 <? _)%Z; [|kk H]. destruct (slot_ok slot); [|kk H].
    unfold OpenSession in H. repeat match type of H with (if ?b then rv_ _ _ else _) = _ => destruct b; [unfold rv_ in H; injection H as <- _; exact A|] end. cbv zeta in H.
    repeat match type of H with (if ?b then rv_ _ _ else _) = _ => destruct b; [unfold rv_ in H; injection H as <- _; exact A|] end.
    destruct (first_unused (s_sess s)) as [x|] eqn:Fu.
    + injection H as <- _. apply put_lift; [exact A|]. intros E. exfalso. destruct (negb _) in E; discriminate E.
    + match type of H with (if ?b then _ else _) = _ => destruct b end; [kk H|]. injection H as <- _. apply put_lift; [|intros E; split; [reflexivity|intros _; reflexivity]].
      intros y [<-|Y]; [intros _; split; [reflexivity|intros _; reflexivity]|exact (A y Y)].
  - destruct (0 <? _)%Z; [|kk H]. destruct (sess_get s h) as [y|] eqn:G; [|kk H]. apply sess_get_in in G as (G & _).
    unfold CloseSession in H. destruct (close_sess _ _) as [l| |] eqn:CL; cbn [bind] in H; try discriminate.
    assert (E : s_sess s' = l). { cbv zeta in H. destruct (existsb in_use l); [unfold rv_ in H; injection H as <- _; reflexivity|]. destruct (Logout _ _) as [t| |] eqn:Lo; cbn [bind] in H; try discriminate. unfold rv_ in H. injection H as <- _. reflexivity. }
    unfold still. rewrite E. eapply close_lift; [exact A|exact CL].
  - destruct (0 <? _)%Z; [|kk H]. destruct (slot_ok slot); [|kk H].
    destruct (close_all _) as [l| |] eqn:CA; cbn [bind] in H; try discriminate. unfold rv_ in H. injection H as <- _.
    unfold close_all in CA. destruct (drop_dyn _) as [l1| |] eqn:E; cbn [bind] in CA; try discriminate. unfold still. cbn [set_sess s_sess].
    eapply head_lift; [|exact CA]. intros z Z. apply A. eapply drop_dyn_in; eauto.
  - destruct (0 <? _)%Z; [|kk H]. destruct (sess_get s h); [|kk H].
    unfold Login in H. destruct (negb _); [kk H|]. kk H; apply Same; reflexivity.
  - destruct (0 <? _)%Z; [|kk H]. destruct (sess_get s h); [|kk H]. kk H; apply Same; reflexivity.
  - kk H.
Qed.
Lemma lift_reach d s : reach w (sys0 d) s -> still s.
Proof.
  induction 1 as [|s rnd c s' o R IH St]; [intros x []|]. eapply lift_step; [eapply reach_inv; exact R|exact IH|exact St].
Qed.
End W.
Theorem C122_closed : forall w d s x, reach w (sys0 d) s -> In x (s_sess s) -> ss_use x = 0%Z -> ended (ss_op x).
Proof. intros w d s x R J U. exact (lift_reach w d s R x J U). Qed.
Print Assumptions C122_closed.

(** A session closed in the middle of an AES-CBC encryption: before the key schedule is set up and a part is waiting; afterwards the session is still in the list, not open, with the mechanism it had. *)
Definition cut_short : list op := idle_keys ++ [OCrypto H2 (KEncryptInit M_AES_CBC iv0 0) 1; OCrypto H2 (KEncryptUpdate [1; 2; 3]%N (Buf 16)) 0].
Definition seen (l : list op) : list (Z * mech * bool * bool) :=
  map (fun x => (ss_use x, os_mech (ss_op x), (os_init (ss_op x) =? 0)%Z, match os_curr (ss_op x) with None => true | _ => false end)) (filter (fun x => ss_h x =? H2)%Z (s_sess (after l))).
Example C122_closed_case : reach tw (sys0 nofiles) (after (cut_short ++ [OCloseSession H2])) /\ seen cut_short = [(SESSION_RW, M_AES_CBC, false, false)] /\ seen (cut_short ++ [OCloseSession H2]) = [(0%Z, M_AES_CBC, true, true)].
Proof. split; [apply after_reach; vm_compute; exact Logic.I|]. split; vm_compute; reflexivity. Qed.
