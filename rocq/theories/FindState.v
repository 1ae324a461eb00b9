(** What the searches need about sessions: which calls leave the search of a
    session alone, and the dates of session objects. *)
From Verif Require Import Base Ops Object ObjectProofs Store Sys SysProofs SysProofs2 SysProofs3 SysProofs4 WfProofs ObjFrame ObjProofs HandleProofs.

Definition key (x : session) : Z * Z * (bool * list Z * nat) := (ss_h x, ss_use x, (ss_find x, ss_found x, ss_cur x)).
Definition keys (s : sys) : list (Z * Z * (bool * list Z * nat)) := map key (s_sess s).
Lemma keys_h l : map (fun k => fst (fst k)) (map key l) = map ss_h l.
Proof. rewrite map_map. reflexivity. Qed.
Lemma uniq_keys a b : map key a = map key b -> uniq a -> uniq b.
Proof. unfold uniq. intros E. rewrite <- !keys_h, E. auto. Qed.
Lemma put_keys s x : uniq (s_sess s) -> In (key x) (keys s) -> keys (put_sess s x) = keys s.
Proof.
  intros U I. apply in_map_iff in I as (y & E & Y). unfold keys. cbn [put_sess set_sess s_sess].
  apply (upd_sess_map _ key (s_sess s) y x U Y); [|symmetry; exact E]. unfold key in E. injection E as E _. symmetry. exact E.
Qed.
Section W.
Variable w : world.
Notation se := (w_se w).
Lemma store_keys rnd s c s' : store w rnd s = Ok (c, s') -> keys s' = keys s.
Proof. intros H. apply store_frame in H as (_ & H & _). unfold keys. rewrite H. reflexivity. Qed.
Lemma AddToSession_keys rnd s x b o c h s' : uniq (s_sess s) -> In (key x) (keys s) -> AddToSession w rnd s x b o = Ok (c, h, s') -> keys s' = keys s.
Proof.
  unfold AddToSession. intros U I H. destruct (b =? 0)%N; (destruct (_ <=? _)%Z; [injection H as _ _ <-; reflexivity|]).
  - injection H as _ _ <-. apply put_keys; [exact U|exact I].
  - destruct (Encode _ _ _ _) as [[c1 o2]| |]; cbn [bind] in H; try discriminate. destruct (negb _); [injection H as _ _ <-; reflexivity|].
    destruct (store _ _ _) as [[c2 s1]| |] eqn:S; cbn [bind] in H; try discriminate. injection H as _ _ <-. apply store_keys in S. exact S.
Qed.
Lemma AddObject_keys rnd s x t o c h s' : uniq (s_sess s) -> In (key x) (keys s) -> AddObject w rnd s x t o = Ok (c, h, s') -> keys s' = keys s.
Proof.
  unfold AddObject. intros U I H. destruct (tmpl_token t); [|injection H as _ _ <-; reflexivity].
  destruct (AddToSession _ _ _ _ _ _) as [[[c1 h1] s1]| |] eqn:A; cbn [bind] in H; try discriminate. injection H as _ _ <-. eapply AddToSession_keys; eauto.
Qed.
Lemma init_key s x c o x1 r : run_init w s x c o = Ok (x1, r) -> key x1 = key x.
Proof. unfold run_init. intros H. destruct (view _ _); cbn [bind] in H; try discriminate. destruct (Ops.step _ _ _ _) as [[p r1]| |]; cbn [bind] in H; try discriminate. injection H as <- _. reflexivity. Qed.
Lemma cont_key s x c x1 r : run_cont w s x c = Ok (x1, r) -> key x1 = key x.
Proof.
  unfold run_cont. intros H. match type of H with bind ?m _ = _ => destruct m as [k| |] end; cbn [bind] in H; try discriminate.
  destruct (Ops.step _ _ _ _) as [[p r1]| |]; cbn [bind] in H; try discriminate. injection H as <- _. reflexivity.
Qed.
(** The calls on a session that have nothing to do with its search. *)
Definition findop (c : op) : bool :=
  match c with OFindObjectsInit _ _ | OFindObjects _ _ | OFindObjectsFinal _ => true | _ => false end.
Ltac kk H := repeat (unfold rv_, with_object, need_rw in H; cbv beta zeta in H; match type of H with
    | Ok _ = Ok _ => injection H as <- _; try reflexivity
    | Err _ = _ => discriminate H | Undef _ = _ => discriminate H
    | bind ?m _ = _ => let E := fresh "E" in destruct m as [?v| |] eqn:E; cbn [bind] in H; try discriminate H
    | (let '(_, _) := ?v in _) = _ => destruct v; cbn [bind] in H
    | (if ?b then _ else _) = _ => destruct b
    | match ?v with _ => _ end = _ => let E := fresh "D" in destruct v eqn:E end).
Lemma step_keys rnd s c s' o h : inv s -> objop c = Some h -> findop c = false -> step w rnd s c = Ok (s', o) -> keys s' = keys s.
Proof.
  intros I O F H. pose proof (inv_uniq s I) as U.
  destruct c; try discriminate O; try discriminate F; cbn [step] in H; unfold with_sess, need_lib in H;
  (destruct (0 <? _)%Z; [|kk H]); (destruct (sess_get s _) as [x|] eqn:G; [|kk H]); apply sess_get_in in G as (G & _);
  assert (K : In (key x) (keys s)) by (apply in_map; exact G); clear G.
  - kk H.
  - unfold Create in H. kk H; eapply (AddObject_keys _ (bump s _)); eassumption.
  - unfold Copy in H. kk H; eapply (AddToSession_keys _ (bump s _)); eassumption.
  - unfold need_rw, with_object in H. destruct (is_rw x); [|kk H]. destruct (find_obj _ _ _) as [ob|]; [|kk H].
    destruct (RemoveObject _ _ _ _ _ _) as [s1| |] eqn:E; cbn [bind] in H; try discriminate. unfold rv_ in H. injection H as <- _.
    unfold RemoveObject in E. destruct (obj_free _); cbn [bind] in E; try discriminate. destruct (on_token _); [|injection E as <-; apply put_keys; assumption].
    destruct (o_onTok _); [|discriminate]. destruct (no_kind _); [discriminate|]. destruct (store _ _ _) as [[c2 s2]| |] eqn:S; cbn [bind] in E; try discriminate. injection E as <-. apply store_keys in S. exact S.
  - kk H.
  - kk H; unfold keys; cbn; rewrite map_map; reflexivity.
  - unfold GenKey in H. kk H; eapply (AddObject_keys _ (bump s _)); eassumption.
  - unfold GenKeyPair in H. destruct (match m with KP_RSA => _ | KP_EC => _ | KP_DH => _ | KP_other => _ end) as [ty|]; [|kk H].
    destruct (NewObject _ _ _ _ _ _) as [[rv [pub|]]| |]; cbn [bind] in H; [|kk H|discriminate..].
    destruct (NewObject _ _ _ _ _ _) as [[rv2 [priv|]]| |]; cbn [bind] in H; [|kk H|discriminate..].
    match type of H with bind ?r _ = _ => destruct r as [[[pub1 priv1]|]| |] end; cbn [bind] in H; [|kk H|discriminate..].
    destruct (AddObject _ _ _ _ _ _) as [[[rv3 h1] s2]| |] eqn:A1; cbn [bind] in H; try discriminate.
    apply AddObject_keys in A1; [|exact U|exact K]. destruct (negb _); [kk H; exact A1|].
    destruct (sess_get s2 _) as [x2|] eqn:G2; [|kk H; exact A1]. apply sess_get_in in G2 as (G2 & _).
    destruct (AddObject _ _ _ _ _ _) as [[[rv4 h2] s3]| |] eqn:A2; cbn [bind] in H; try discriminate.
    apply AddObject_keys in A2; [|eapply uniq_keys; [symmetry; exact A1|exact U]|apply in_map; exact G2]. destruct (_ =? _)%Z; [|discriminate]. injection H as <- _. rewrite A2. exact A1.
  - unfold Wrap in H. kk H; (apply put_keys; [exact U|]).
    + match goal with E : run_init _ _ _ _ _ = Ok _ |- _ => apply init_key in E; rewrite E; exact K end.
    + match goal with E : run_init _ _ _ _ _ = Ok _, E2 : run_cont _ _ _ _ = Ok _ |- _ => apply init_key in E; apply cont_key in E2; rewrite E2, E; exact K end.
  - destruct (need_rw _ _ _) eqn:E in H; try discriminate. injection H as ->. unfold need_rw in E. destruct (is_rw x); [|kk E]. destruct (_ =? _)%Z; [kk E|]. unfold with_object in E. destruct (find_obj _ _ _); [|kk E].
    unfold Unwrap in E. destruct (negb _); [kk E|]. destruct (find_last _ _); [|kk E]. destruct (tmpl_ulong _); [|kk E]. destruct (negb _); [kk E|].
    destruct (find_last _ _); [|kk E]. destruct (tmpl_ulong _); [|kk E]. destruct (negb _); [kk E|]. destruct (negb _); [kk E|]. destruct (negb _); [kk E|].
    destruct (run_init _ _ _ _ _) as [[x1 o1]| |] eqn:R1; cbn [bind] in E; try discriminate. apply init_key in R1.
    destruct (negb _); [kk E; apply put_keys; [exact U|rewrite R1; exact K]|].
    destruct (run_cont _ _ _ _) as [[x2 o2]| |] eqn:R2; cbn [bind] in E; try discriminate. apply cont_key in R2. cbv zeta in E.
    assert (P : keys (put_sess s x2) = keys s) by (apply put_keys; [exact U|rewrite R2, R1; exact K]).
    destruct (negb _); [kk E; exact P|]. destruct (NewObject _ _ _ _ _ _) as [[rv [ob|]]| |]; cbn [bind] in E; [|kk E; exact P|discriminate..].
    destruct (w_p8_dec _ _) as [c r]. destruct (negb _); [kk E; exact P|]. destruct (AddObject _ _ _ _ _ _) as [[[rv2 ho] s4]| |] eqn:A; cbn [bind] in E; try discriminate.
    injection E as <- _. apply AddObject_keys in A; [rewrite A; exact P|eapply uniq_keys; [symmetry; exact P|exact U]|]. change (In (key x2) (keys (put_sess s x2))). rewrite P, R2, R1. exact K.
  - unfold Derive in H. kk H; eapply (AddObject_keys _ (bump s _)); eassumption.
  - kk H; (apply put_keys; [exact U|]); first [match goal with E : run_init _ _ _ _ _ = Ok _ |- _ => apply init_key in E; rewrite E; exact K end | match goal with E : run_cont _ _ _ _ = Ok _ |- _ => apply cont_key in E; rewrite E; exact K end].
Qed.
Lemma keys_get s s' h x : inv s -> inv s' -> keys s' = keys s -> sess_get s h = Some x -> exists x', sess_get s' h = Some x' /\ key x' = key x.
Proof.
  intros I I' K G. apply sess_get_in in G as (X & Hx & Ux & Sl). assert (J : In (key x) (keys s')) by (rewrite K; apply in_map; exact X).
  apply in_map_iff in J as (y & E & Y). exists y. split; [|exact E]. unfold key in E. injection E as E1 E2 _. subst h. rewrite <- E1. apply sess_get_of; [apply inv_uniq; exact I'|exact Y|unfold in_use in *; rewrite E2; exact Ux|rewrite E1; exact Sl].
Qed.
(** The calls that leave alone the search of session [h]. *)
Definition leaves (h : Z) (c : op) : Prop :=
  (findop c = true -> objop c <> Some h) /\ c <> OCloseSession h /\ ends_all c = false.
Lemma step_leaves rnd s c s' o h x : inv s -> leaves h c -> step w rnd s c = Ok (s', o) -> sess_get s h = Some x ->
  exists x', sess_get s' h = Some x' /\ key x' = key x.
Proof.
  intros I (L1 & L2 & L3) H G. pose proof (step_inv w _ _ _ _ _ I H) as I'. destruct (objop c) as [h0|] eqn:O.
  - destruct (Z.eq_dec h0 h) as [->|N].
    + destruct (findop c) eqn:F; [exfalso; apply L1; auto|]. apply (keys_get s s' h x I I'); [|exact G]. eapply step_keys; eauto.
    + exists x. split; [|reflexivity]. apply (step_frame w _ _ _ _ _ _ _ I H); [rewrite O; congruence|exact L2|exact L3|exact G].
  - exists x. split; [|reflexivity]. apply (step_frame w _ _ _ _ _ _ _ I H); [rewrite O; congruence|exact L2|exact L3|exact G].
Qed.

(** ** Session objects *)
Definition sinvs (s : sys) : Prop := Forall (fun x => Forall oinv (ss_objs x)) (s_sess s).
Lemma upd_sess_Forall (P : session -> Prop) l x : Forall P l -> P x -> Forall P (upd_sess l x).
Proof. intros F H. unfold upd_sess. apply Forall_map. eapply Forall_impl; [|exact F]. cbn. intros y Y. destruct (_ =? _)%Z; assumption. Qed.
Lemma sess_sinv s x : sinvs s -> In x (s_sess s) -> Forall oinv (ss_objs x).
Proof. unfold sinvs. rewrite Forall_forall. intros F X. apply F. exact X. Qed.
Lemma prim_sinv cl h s s' : inv s -> sinvs s -> prim w cl h s s' -> ginv (s_tok s) -> sinvs s'.
Proof.
  intros I F P G. destruct P as [s x x' X Ux E1 E2 E3 E4|s n|s x rnd c s' X Rw E1 E2 Cl|s x o X Rw E1 L Iu Nu Hd Ot Mk Cl|s x b o X Rw E1 L Iu Nu Nb Hd Ot Mk Cl|s x o X Rw E1 Io Cl|s x o X Rw E1 Io Ot Cl|s x o o' X Rw E1 Io Sid Mk]; try exact F.
  - apply upd_sess_Forall; [exact F|]. rewrite E4. eapply sess_sinv; eauto.
  - apply store_frame in E2 as (_ & E2 & _). unfold sinvs. rewrite E2. exact F.
  - apply upd_sess_Forall; [exact F|]. destruct Mk as (o1 & M & ->). apply made_oinv in M. cbn [set_sobjs ss_objs]. constructor; [|eapply sess_sinv; eauto].
    unfold oinv in *. cbn. assert (u64r (next_handle (ss_objs x) 0)); [|tauto]. unfold next_handle, obj_handle. destruct (ss_objs x); apply u64_r.
  - apply upd_sess_Forall; [exact F|]. cbn [set_sobjs ss_objs]. apply remove_Forall. eapply sess_sinv; eauto.
  - destruct Mk as (ho & t & rv & _ & _ & M).
    assert (O : oinv o). { apply in_app_or in Io as [Io|Io]; [pose proof (proj2 (proj2 (proj2 (proj2 (proj2 G))))) as G1|pose proof (sess_sinv _ _ F X) as G1]; rewrite Forall_forall in G1; apply G1; exact Io. }
    apply (SetAV_oinv _ _ _ _ _ _ O) in M. unfold sinvs. cbn. apply Forall_map. eapply Forall_impl; [|exact F]. intros y Y. cbn [set_sobjs ss_objs]. apply upd_oinv; assumption.
Qed.
Lemma prims_sinv cl h s s' : inv s -> sinvs s -> prims w cl h s s' -> ginv (s_tok s) -> sinvs s'.
Proof. intros I F P. revert I F. induction P as [s|s s1 s2 P Ps IH]; intros I F G; [exact F|]. apply IH; [eapply prim_inv; eauto|eapply prim_sinv; eauto|eapply prim_ginv; eauto]. Qed.
Lemma sinv_from s s' : sinvs s -> (forall y, In y (s_sess s') -> ss_objs y = [] \/ In y (s_sess s)) -> sinvs s'.
Proof. intros F K. unfold sinvs. apply Forall_forall. intros y Y. destruct (K y Y) as [->|J]; [constructor|eapply sess_sinv; eauto]. Qed.
Lemma all_objs_inv l ob : In ob (all_objs l) -> exists x, In x l /\ In ob (ss_objs x).
Proof. induction l as [|y l IH]; cbn; [contradiction|]. intros J. apply in_app_or in J as [J|J]; [exists y; auto|]. destruct (IH J) as (x & X & Y). exists x. auto. Qed.
Theorem step_sinv rnd s c s' o : inv s -> ginv (s_tok s) -> sinvs s -> step w rnd s c = Ok (s', o) -> sinvs s'.
Proof.
  intros I G F H. destruct (objop c) as [h|] eqn:O.
  { eapply prims_sinv; eauto. eapply objop_prims; eauto. }
  destruct (loads s c) eqn:L.
  { apply (sinv_from s); [exact F|]. intros y Y. left. pose proof (load_sess w _ _ _ _ _ L H) as K. rewrite Forall_forall in K. apply K. exact Y. }
  assert (Same : s_sess s' = s_sess s -> sinvs s') by (intros E; unfold sinvs; rewrite E; exact F).
  destruct c; try discriminate O; cbn [step] in H; unfold with_slot, with_sess, need_lib in H; cbn [loads] in L.
  - unfold Initialize in H. rewrite L in H. sinv. exact F.
  - unfold Finalize in H. destruct (_ =? 0)%Z; [|sinv; exact F].
    destruct (store w rnd s) as [[c1 s1]| |]; cbn [bind] in H; try discriminate. destruct (final_all _); cbn [bind] in H; try discriminate.
    destruct (free_all _); cbn [bind] in H; try discriminate. injection H as <- _. constructor.
  - injection H as <- _. constructor.
  - apply Same. destruct (0 <? _)%Z; [|sinv; reflexivity]. destruct (slot_ok slot); [|sinv; reflexivity].
    unfold InitToken in H. repeat match type of H with (if ?b then rv_ _ _ else _) = _ => destruct b; [sinv; reflexivity|] end.
    destruct (TokenReset _ _ _ _ _) as [[c1 s1]| |] eqn:T; cbn [bind] in H; try discriminate. unfold rv_ in H. injection H as <- _.
    unfold TokenReset in T. destruct (free_all _); cbn [bind] in T; try discriminate. destruct (zlen _ <? 32)%Z eqn:LL; [discriminate|]. unfold SetSOPin in T.
    apply store_frame in T as (_ & T & _). exact T.
  - apply Same. destruct (0 <? _)%Z; [|sinv; reflexivity]. destruct (sess_get s h); [|sinv; reflexivity].
    unfold InitPIN in H. repeat match type of H with (if ?b then rv_ _ _ else _) = _ => destruct b; [sinv; reflexivity|] end.
    destruct (SetUserPin _ _ _ _) as [[c1 s1]| |] eqn:T; cbn [bind] in H; try discriminate. unfold rv_ in H. injection H as <- _.
    unfold SetUserPin in T. apply store_frame in T as (_ & T & _). exact T.
  - apply Same. destruct (0 <? _)%Z; [|sinv; reflexivity]. destruct (sess_get s h); [|sinv; reflexivity].
    unfold SetPIN in H. cbv zeta in H. repeat match type of H with (if ?b then rv_ _ _ else _) = _ => destruct b; [sinv; reflexivity|] end.
    match type of H with bind ?r _ = _ => destruct r as [[c1 s1]| |] eqn:T end; cbn [bind] in H; try discriminate.
    unfold rv_ in H. injection H as <- _. destruct (_ =? _)%Z; [unfold SetSOPin in T|unfold SetUserPin in T]; (apply store_frame in T as (_ & T & _); exact T).
  - destruct (0 <? s_count s)%Z eqn:Cn; [|sinv; exact F]. destruct (slot_ok slot); [|sinv; exact F].
    apply Z.ltb_lt in Cn. apply OpenSession_ok in H as [[-> _] | (l & y & -> & _ & _ & E & _ & K & _ & Yi & _)]; auto.
    assert (A : forall z, In z l -> Forall oinv (ss_objs z)).
    { intros z Z. apply Forall_forall. intros ob Ob. pose proof (all_objs_in _ _ _ Z Ob) as J. rewrite E in J. apply all_objs_inv in J as (u & Uu & J). pose proof (sess_sinv _ _ F Uu) as Q. rewrite Forall_forall in Q. apply Q. exact J. }
    apply upd_sess_Forall; [apply Forall_forall; exact A|]. apply (A y Yi).
  - destruct (0 <? s_count s)%Z eqn:Cn; [|sinv; exact F]. destruct (sess_get s h) as [y|] eqn:Gs; [|sinv; exact F].
    unfold CloseSession in H. destruct (close_sess _ _) as [l| |] eqn:CL; cbn [bind] in H; try discriminate.
    apply Z.ltb_lt in Cn. pose proof I as (I1 & _). specialize (I1 Cn). apply sess_get_in in Gs as (Xi & _). pose proof (close_sess_ok _ _ _ I1 Xi CL) as (_ & CO & _).
    apply (sinv_from s); [exact F|]. assert (E : s_sess s' = l).
    { destruct (existsb in_use l); [sinv; reflexivity|]. destruct (Logout _ _) as [t| |] eqn:Lo; cbn [bind] in H; try discriminate. unfold rv_ in H. injection H as <- _. reflexivity. }
    rewrite E. intros z Z. destruct (CO z Z) as [[Y1 _]|(_ & _ & Y3)]; auto.
  - destruct (0 <? s_count s)%Z eqn:Cn; [|sinv; exact F]. destruct (slot_ok slot); [|sinv; exact F].
    destruct (close_all _) as [l| |] eqn:CA; cbn [bind] in H; try discriminate. unfold rv_ in H. injection H as <- _. apply Z.ltb_lt in Cn. pose proof I as (I1 & _). specialize (I1 Cn).
    apply (close_all_ok _ _ I1) in CA as (p & b & a & b' & E & -> & _ & _ & _ & _ & Eb & _). apply (sinv_from s); [exact F|]. cbn. rewrite E. intros y [<- | [<- | []]]; [left; exact Eb|right; apply in_or_app; right; right; left; reflexivity].
  - apply Same. destruct (0 <? _)%Z; [|sinv; reflexivity]. destruct (sess_get s h); [|sinv; reflexivity].
    unfold Login in H. destruct (negb _); [sinv; reflexivity|].
    destruct (ut =? CKU_SO)%Z; [|destruct (ut =? CKU_USER)%Z; [|destruct (ut =? CKU_CONTEXT_SPECIFIC)%Z; sinv; reflexivity]].
    + destruct (SOLogin _ _ _ _ _) as [c t] eqn:Lo. unfold rv_ in H. injection H as <- _. reflexivity.
    + destruct (UserLogin _ _ _ _) as [[c t]| |] eqn:Lo; cbn [bind] in H; try discriminate. unfold rv_ in H. injection H as <- _. reflexivity.
  - apply Same. destruct (0 <? _)%Z; [|sinv; reflexivity]. destruct (sess_get s h); [|sinv; reflexivity].
    destruct (Logout _ _) as [t| |] eqn:Lo; cbn [bind] in H; try discriminate. unfold rv_ in H. injection H as <- _. reflexivity.
  - apply Same. destruct (0 <? _)%Z; [|sinv; reflexivity]. destruct (slot_ok slot); sinv; reflexivity.
Qed.
Theorem reach_sinv d s : (forall p b, length (se_hash se p b) = 32%nat) -> reach w (sys0 d) s -> sinvs s.
Proof.
  intros h32 R. induction R as [|s rnd c s' o R IH H]; [constructor|]. eapply step_sinv; [| |exact IH|exact H]; [eapply reach_inv; eauto|eapply reach_ginv; eauto].
Qed.
End W.
