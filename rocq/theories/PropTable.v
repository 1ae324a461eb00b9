(** C120: object handles follow the reference machine of Table.v in every history. *)
From Verif Require Import Base Ops Object ObjectProofs Store StoreSpec Sys SysProofs SysProofs2 SysProofs3 SysProofs4 WfProofs LoginProofs ToySys PropSys1 PropSys2
  ObjFrame ObjProofs HandleProofs DiskHandles PropObject PropStore PropObj PropObj2 Device DeviceProofs PropDevice Table TableProofs.
From Coq Require Import Sorted.

(** ** A handle stands for an object exactly when it is listed *)
Lemma listed_find m s b h x ho : good True m s -> (m < 2^28)%Z -> tsim s b -> sess_get s h = Some x -> listed b h ho = match find_obj s x ho with Some _ => true | None => false end.
Proof.
  intros G M (_ & T & S) X. specialize (S h). unfold objs_of in S. rewrite X in S. unfold listed. rewrite <- T, <- S. unfold handles. rewrite <- map_app.
  destruct (find_obj s x ho) as [o|] eqn:F.
  - apply existsb_exists. exists ho. split; [|apply Z.eqb_refl]. unfold find_obj in F. apply find_some in F as [F E]. apply Z.eqb_eq in E. rewrite <- E.
    apply in_map. apply in_or_app. destruct (on_token ho); auto.
  - destruct (existsb _ _) eqn:E; [|reflexivity]. apply existsb_exists in E as (y & Y & E). apply Z.eqb_eq in E. subst y. apply in_map_iff in Y as (o & E & Y).
    rewrite <- E, (good_finds True m s h x o Logic.I G M X Y) in F. discriminate.
Qed.
Lemma good_weak m s : good True m s -> good False m s.
Proof. intros [(r & (R1 & R2) & G) Gs]. split; [|exact Gs]. exists r. split; [|exact G]. split; [exact R1|contradiction]. Qed.

(** ** New objects *)
Definition osim (s : sys) (b : table) (h : Z) : Prop := handles (t_objs (s_tok s)) = b_tok b /\ handles (objs_of s h) = b_of b h.
Lemma zlen_handles l : zlen (handles l) = zlen l.
Proof. unfold zlen, handles. rewrite map_length. reflexivity. Qed.
Lemma next_following r m l b first : (0 <= r < 2^36)%Z -> hs_good r m (handles l) -> (0 <= m)%Z -> (m + 1 < 2^28)%Z -> obj_handle b = first -> next_handle l b = following first (handles l).
Proof.
  intros R [_ F] M0 M E. destruct l as [|o l]; [exact E|]. cbn [next_handle handles map following]. inversion F as [|? ? F1 _]. subst. unfold u64. apply Z.mod_small. lia.
Qed.
Lemma added_osim w m h t b ob s s' tb : good True m s -> (0 <= m)%Z -> (m + 1 < 2^28)%Z -> tmpl_token t = Some b -> b = 0%N \/ b = 1%N -> added w h b ob s s' -> osim s tb h ->
  osim s' (put_new tb h t (o_handle ob)) h /\ new_for tb h t (o_handle ob) /\ mode s h = Some true.
Proof.
  intros [(r & (Rr & _) & Gt) Gs] M0 M T B (_ & _ & _ & x & x' & X & X' & Rw & K) [St Sh]. unfold osim, objs_of in *. rewrite X in Sh. rewrite X'.
  unfold put_new, new_for. rewrite (wants_token_byte _ _ T B). assert (Md : mode s h = Some true) by (unfold mode; rewrite X, Rw; reflexivity).
  destruct B as [->| ->]; cbn [negb N.eqb] in *.
  - change ((0 =? 0)%N) with true in *. cbv iota in *. destruct K as (K1 & K2 & K3 & K4 & _). rewrite K3, K4. cbn [b_tok b_of]. unfold with_of. rewrite Z.eqb_refl.
    split; [split; [exact St|cbn [handles map]; change (map o_handle (ss_objs x)) with (handles (ss_objs x)); rewrite Sh; reflexivity]|]. split; [|exact Md].
    rewrite <- Sh, zlen_handles. split; [|exact K1]. rewrite K2. rewrite Forall_forall in Gs. apply sess_get_in in X as (X & _). eapply (next_following 0 m); [lia|apply Gs; exact X|lia|lia|reflexivity].
  - change ((1 =? 0)%N) with false in *. cbn [negb]. cbv iota in *. destruct K as (K1 & K2 & K3 & K4 & _). apply (handles_core _ (ob :: t_objs (s_tok s))) in K3. rewrite K3, K4. cbn [b_tok b_of handles map].
    split; [split; [change (map o_handle (t_objs (s_tok s))) with (handles (t_objs (s_tok s))); rewrite St; reflexivity|exact Sh]|]. split; [|exact Md].
    rewrite <- St, zlen_handles. split; [|exact K1]. rewrite K2. eapply (next_following r m); [exact Rr|exact Gt|lia|lia|reflexivity].
Qed.
Lemma put_new_other b h t ho h' : h' <> h -> b_of (put_new b h t ho) h' = b_of b h'.
Proof. intros N. unfold put_new. destruct (wants_token t); cbn; [reflexivity|]. unfold with_of. apply Z.eqb_neq in N. rewrite N. reflexivity. Qed.
Lemma same_osim s s' b h : same_objs s s' -> (forall h, mode s' h = mode s h) -> modes (s_sess s') = modes (s_sess s) -> osim s b h -> osim s' b h.
Proof.
  intros (A & B & _) M Md [S1 S2]. split; [rewrite A; exact S1|]. rewrite <- S2. f_equal. unfold objs_of.
  assert (K : forall l l', modes l' = modes l -> map ss_objs l' = map ss_objs l -> match find_sess l' h with Some x => Some (ss_objs x) | None => None end = match find_sess l h with Some x => Some (ss_objs x) | None => None end).
  { induction l as [|x l IH]; intros [|y l'] E1 E2; try discriminate; [reflexivity|]. cbn in E1, E2. injection E1 as E1 _ E1'. injection E2 as E2 E2'. unfold find_sess in *. cbn [find]. rewrite E1. destruct (_ =? _)%Z; [rewrite E2; reflexivity|]. apply IH; assumption. }
  specialize (K _ _ Md B). specialize (M h). unfold mode, sess_get in *. destruct (slot_ok _); [|reflexivity].
  destruct (find_sess (s_sess s') h) as [x'|], (find_sess (s_sess s) h) as [x|]; try discriminate K; [|reflexivity]. injection K as K.
  destruct (in_use x'), (in_use x); try discriminate M; congruence.
Qed.
(** ** Destroyed objects *)
Lemma without_handles u ho l : (forall p, In p l -> (o_uid p = u <-> o_handle p = ho)) -> handles (without u l) = without_h ho (handles l).
Proof.
  unfold without, without_h, handles. induction l as [|p l IH]; intros K; [reflexivity|]. cbn [filter map].
  specialize (IH (fun q Q => K q (or_intror Q))). specialize (K p (or_introl eq_refl)).
  destruct (Nat.eqb_spec (o_uid p) u) as [E|E]; destruct (Z.eqb_spec (o_handle p) ho) as [F|F]; cbn [negb map]; try tauto. rewrite IH. reflexivity.
Qed.
Lemma without_nothing ho l : ~ In ho l -> without_h ho l = l.
Proof.
  unfold without_h. induction l as [|a l IH]; intros N; [reflexivity|]. cbn. destruct (Z.eqb_spec a ho) as [->|E]; [exfalso; apply N; left; reflexivity|]. cbn. rewrite IH; [reflexivity|]. intros J. apply N. right. exact J.
Qed.
Lemma destroyed_osim w m rnd s h ho s' b : inv s -> good True m s -> (m < 2^28)%Z -> step w rnd s (ODestroyObject h ho) = Ok (s', OutRv CKR_OK) -> osim s b h ->
  osim s' (Table (b_dev b) (without_h ho (b_tok b)) (with_of (b_of b) h (without_h ho (b_of b h)))) h.
Proof.
  intros I G M E [S1 S2]. destruct (destroy_step w m rnd s h ho s' I (good_weak _ _ G) E) as (x & x' & o & X & F & X' & _ & _ & _ & T & Hs & Os & _).
  assert (Ud : uid_ok s) by apply I. pose proof X as X0. apply sess_get_in in X0 as (Xi & Xh & _).
  assert (Io : In o (t_objs (s_tok s) ++ ss_objs x) /\ o_handle o = ho).
  { unfold find_obj in F. apply find_some in F as [F E1]. split; [|lia]. apply in_or_app. destruct (on_token ho); auto. }
  destruct Io as [Io Eo].
  assert (K : forall p, In p (t_objs (s_tok s) ++ ss_objs x) -> (o_uid p = o_uid o <-> o_handle p = ho)).
  { intros p P. split; intros Q.
    - assert (p = o); [|congruence]. apply (NoDup_map_inj _ _ o_uid (live s)); [apply Ud| | |exact Q]; unfold live; apply in_or_app.
      + apply in_app_or in P as [P|P]; [left; exact P|right; eapply all_objs_in; eauto].
      + apply in_app_or in Io as [P'|P']; [left; exact P'|right; eapply all_objs_in; eauto].
    - pose proof (good_finds True m s h x p Logic.I G M X P) as Q2. rewrite Q in Q2. congruence. }
  split; cbn [b_tok b_of].
  - rewrite <- S1. rewrite <- (without_handles (o_uid o)); [|intros p P; apply K; apply in_or_app; left; exact P]. apply handles_core. exact T.
  - unfold with_of. rewrite Z.eqb_refl, <- S2. unfold objs_of. rewrite X, X'. rewrite <- (without_handles (o_uid o)); [|intros p P; apply K; apply in_or_app; right; exact P].
    f_equal. apply sess_get_in in X' as (Xi' & Xh' & _). assert (Q : forall l l', map ss_h l' = map ss_h l -> map ss_objs l' = map (fun y => without (o_uid o) (ss_objs y)) l -> NoDup (map ss_h l) -> In x l -> In x' l' -> ss_h x' = ss_h x -> ss_objs x' = without (o_uid o) (ss_objs x)).
    { clear. induction l as [|y l IH]; intros [|y' l'] E1 E2 N J J' Eh; try discriminate; [contradiction|]. cbn in E1, E2, N. injection E1 as E1 E1'. injection E2 as E2 E2'. inversion N as [|? ? N1 N2]. subst.
      destruct J as [->|J], J' as [->|J']; [exact E2| | |eapply IH; eauto].
      - exfalso. apply N1. rewrite <- E1', <- Eh. apply in_map. exact J'.
      - exfalso. apply N1. rewrite <- E1, Eh. apply in_map. exact J. }
    eapply Q; [exact Hs|exact Os|exact (inv_uniq _ I)|exact Xi|exact Xi'|congruence].
Qed.

(** ** One call *)
Lemma mode_get s b h rw : sim s (b_dev b) -> d_mode (b_dev b) h = Some rw -> exists x, sess_get s h = Some x /\ is_rw x = rw.
Proof. intros (_ & M & _) E. rewrite <- M in E. unfold mode in E. destruct (sess_get s h) as [x|]; [|discriminate]. injection E as E. eauto. Qed.
Lemma names_said w m rnd s b c s' o h rw : good True m s -> (m < 2^28)%Z -> tsim s b -> step w rnd s c = Ok (s', o) ->
  through c = Some h -> (0 < d_count (b_dev b))%Z -> d_mode (b_dev b) h = Some rw -> (needs_rw c = true -> rw = true) -> lookup_says b h c o.
Proof.
  intros G M S E Th Cn Md Rw. destruct (mode_get s b h rw ltac:(apply S) Md) as (x & X & Rx). assert (C0 : (0 <? s_count s)%Z = true) by (destruct S as ((Sc & _) & _); rewrite Sc; lia).
  assert (L : forall ho, listed b h ho = match find_obj s x ho with Some _ => true | None => false end) by (intros ho; eapply listed_find; eauto).
  unfold lookup_says. destruct c; try discriminate Th; injection Th as ->; cbn [names refusal needs_rw] in *; try exact Logic.I;
    cbn [step] in E; unfold with_sess, need_lib, need_rw in E; rewrite C0, X in E; rewrite ?Rx in E; try rewrite (Rw eq_refl) in E; unfold with_object in E; rewrite ?L.
  - destruct (find_obj s x ho); [exact Logic.I|]. unfold rv_ in E. injection E as _ <-. reflexivity.
  - destruct (find_obj s x ho); [|unfold rv_ in E; injection E as _ <-; reflexivity]. destruct (RemoveObject _ _ _ _ _ _); cbn [bind] in E; try discriminate. unfold rv_ in E. injection E as _ <-. reflexivity.
  - destruct (find_obj s x ho); [|unfold rv_ in E; injection E as _ <-; reflexivity]. destruct (GetAttributeValue _ _ _) as [[rv t1]| |]; cbn [bind] in E; try discriminate. injection E as _ <-. eauto.
  - destruct (find_obj s x ho); [exact Logic.I|]. unfold rv_ in E. injection E as _ <-. reflexivity.
  - destruct (find_obj s x hk); [|unfold rv_ in E; injection E as _ <-; reflexivity]. destruct (find_obj s x hw); [exact Logic.I|]. unfold rv_ in E. injection E as _ <-. reflexivity.
  - destruct wrapped as [|a r]; [exact Logic.I|]. assert (Z0 : (zlen (a :: r) =? 0)%Z = false) by (unfold zlen; cbn [length]; lia). rewrite Z0 in E. cbn [refusal]. rewrite L.
    destruct (find_obj s x hu); [exact Logic.I|]. unfold rv_ in E. injection E as _ <-. reflexivity.
  - destruct (find_obj s x hb); [exact Logic.I|]. unfold rv_ in E. injection E as _ <-. reflexivity.
  - destruct (begins c) eqn:B; [|exact Logic.I]. cbn [refusal]. rewrite L. destruct c; try discriminate B; cbn [with_key] in E;
      (destruct (find_obj s x hk); [exact Logic.I|]; unfold rv_ in E; injection E as _ <-; reflexivity).
Qed.
Lemma objop_modes w rnd s c s' o h : inv s -> objop c = Some h -> step w rnd s c = Ok (s', o) -> modes (s_sess s') = modes (s_sess s).
Proof. intros I O E. pose proof (step_modes _ _ _ _ _ _ I E) as M. destruct c; try discriminate O; apply M. Qed.
(** The list of the session through which the call is made, and that of the token. *)
Lemma own_step w m rnd s b c s' o h : inv s -> good True m s -> (0 <= m)%Z -> (m + uses c < 2^28)%Z -> bool_call c -> osim s b h -> step w rnd s c = Ok (s', o) -> objop c = Some h ->
  osim s' (table_next [] b c o) h /\
  (forall h' t ho, makes c = Some (h', t) -> o = OutH CKR_OK ho -> mode s h' = Some true /\ new_for b h' t ho) /\
  (forall h' k tp tq g rv h1 h2, c = OGenerateKeyPair h' k tp tq g -> o = OutH2 rv h1 h2 ->
     rv = CKR_OK /\ mode s h' = Some true /\ new_for b h' tp h1 /\ new_for (put_new b h' tp h1) h' tq h2).
Proof.
  intros I G M0 M B S E O. pose proof (objop_modes _ _ _ _ _ _ _ I O E) as Md. pose proof (mode_modes _ _ Md) as Mo.
  destruct (makes c) as [[h0 t]|] eqn:Mk.
  - assert (Cr : creator c = Some (h0, t) /\ h0 = h /\ In t (templates c) /\ uses c = 1%Z) by (destruct c; try discriminate Mk; injection Mk as -> ->; injection O as ->; repeat split; left; reflexivity).
    destruct Cr as (Cr & -> & It & Us). split; [|split; [|intros; subst c; discriminate Mk]].
    + destruct (step_created w _ _ _ _ _ _ _ I Cr E) as [(ho & bt & ob & Nh & Tb & Eh & A) | (Nh & Sm)].
      * assert (Bb := bool_byte c t bt B It Tb). assert (Eo : o = OutH CKR_OK ho) by (destruct o; try discriminate Nh; cbn in Nh; destruct (Z.eqb_spec rv CKR_OK) as [->|]; [injection Nh as ->; reflexivity|discriminate]).
        destruct (added_osim w m h t bt ob s s' b G M0 ltac:(lia) Tb Bb A S) as ([A1 A2] & _). rewrite Eh in A1, A2. subst o.
        assert (Tn : b_tok (table_next [] b c (OutH CKR_OK ho)) = b_tok (put_new b h t ho) /\ b_of (table_next [] b c (OutH CKR_OK ho)) h = b_of (put_new b h t ho) h).
        { destruct c; try discriminate Mk; injection Mk as -> ->; cbn [table_next makes]; change (CKR_OK =? CKR_OK)%Z with true; cbv iota; unfold put_new; destruct (wants_token t); split; reflexivity. }
        destruct Tn as [T1 T2]. split; congruence.
      * assert (Tn : table_next [] b c o = on_dev b (next (b_dev b) c o)).
        { destruct c; try discriminate Mk; cbn [table_next makes]; (destruct o; try reflexivity; cbn in Nh; destruct (_ =? _)%Z; [discriminate|reflexivity]). }
        rewrite Tn. apply (same_osim s s' (on_dev b _) h Sm Mo Md). exact S.
    + intros h' t' ho K Eo. injection K as <- <-. destruct (step_created w _ _ _ _ _ _ _ I Cr E) as [(ho' & bt & ob & Nh & Tb & Eh & A) | (Nh & Sm)].
      * assert (Bb := bool_byte c t bt B It Tb). destruct (added_osim w m h t bt ob s s' b G M0 ltac:(lia) Tb Bb A S) as (_ & A1 & A2).
        subst o. cbn in Nh. injection Nh as <-. rewrite Eh in A1. auto.
      * subst o. discriminate Nh.
  - assert (MkN : forall h' t ho, None = Some (h', t) -> o = OutH CKR_OK ho -> mode s h' = Some true /\ new_for b h' t ho) by discriminate.
    destruct (creates c) eqn:Cs.
    + destruct c; try discriminate Cs; try discriminate Mk. injection O as ->. change (uses _) with 2%Z in M.
      destruct (pair_created w _ _ _ _ _ _ _ _ _ I E) as [(h1 & h2 & b1 & b2 & o1 & o2 & s1 & Eo & T1 & T2 & E1 & E2 & A1 & A2 & I1 & _) | (rv & Eo & Sm)].
      * assert (B1 := bool_byte _ tpub b1 B (or_introl eq_refl) T1). assert (B2 := bool_byte _ tpriv b2 B (or_intror (or_introl eq_refl)) T2).
        destruct (added_osim w m h tpub b1 o1 s s1 b G M0 ltac:(lia) T1 B1 A1 S) as (S1 & N1 & Mh). rewrite E1 in S1, N1.
        assert (G1 : good True (m + 1) s1).
        { eapply added_good; [apply inv_uniq; exact I1|exact G|lia|lia| |exact A1]. destruct B1 as [->| ->]; (split; [reflexivity|]); intros _; [left; reflexivity|right; discriminate]. }
        destruct (added_osim w (m + 1) h tpriv b2 o2 s1 s' (put_new b h tpub h1) G1 ltac:(lia) ltac:(lia) T2 B2 A2 S1) as (S2 & N2 & _). rewrite E2 in S2, N2.
        split; [|split; [exact MkN|intros h' k tp tq g' rv k1 k2 Ec Eo'; injection Ec as -> -> -> -> ->; rewrite Eo in Eo'; injection Eo' as <- <- <-; auto]].
        subst o. cbn [table_next]. change (CKR_OK =? CKR_OK)%Z with true. cbv iota. destruct S2 as [S2 S3]. unfold osim. unfold put_new in *. destruct (wants_token tpub), (wants_token tpriv); split; assumption.
      * split; [|split; [exact MkN|intros; subst o; discriminate]]. subst o. cbn [table_next]. apply (same_osim s s' (on_dev b _) h Sm Mo Md). exact S.
    + split; [|split; [exact MkN|intros; subst c; discriminate Cs]].
      destruct (match c with ODestroyObject _ _ => true | _ => false end) eqn:Ds.
      * destruct c; try discriminate Ds. injection O as ->. cbn [table_next]. destruct (out_rv o =? CKR_OK)%Z eqn:Rv.
        -- assert (Eo : o = OutRv CKR_OK).
           { cbn [step] in E. unfold with_sess, need_lib, need_rw, with_object, rv_ in E. destruct (0 <? _)%Z; [|injection E as _ <-; discriminate Rv]. destruct (sess_get s h) as [x|]; [|injection E as _ <-; discriminate Rv].
             destruct (is_rw x); [|injection E as _ <-; discriminate Rv]. destruct (find_obj s x ho); [|injection E as _ <-; discriminate Rv]. destruct (RemoveObject _ _ _ _ _ _); cbn [bind] in E; try discriminate. injection E as _ <-. reflexivity. }
           subst o. apply (destroyed_osim w m rnd s h ho s' (on_dev b _) I G); [|exact E|exact S]. pose proof (uses_pos (ODestroyObject h ho)). lia.
        -- assert (Es : s' = s).
           { cbn [step] in E. unfold with_sess, need_lib, need_rw, with_object, rv_ in E. destruct (0 <? _)%Z; [|injection E as <- _; reflexivity]. destruct (sess_get s h) as [x|]; [|injection E as <- _; reflexivity].
             destruct (is_rw x); [|injection E as <- _; reflexivity]. destruct (find_obj s x ho); [|injection E as <- _; reflexivity]. destruct (RemoveObject _ _ _ _ _ _); cbn [bind] in E; try discriminate. injection E as _ <-. discriminate Rv. }
           subst s'. exact S.
      * assert (Tn : table_next [] b c o = on_dev b (next (b_dev b) c o)) by (destruct c; try discriminate O; try discriminate Cs; try discriminate Ds; reflexivity).
        rewrite Tn. assert (St : stays s s').
        { eapply prims_stays; [exact I|exact Cs| |eapply objop_prims; eauto]. intros ho Ec. subst c. discriminate Ds. }
        destruct S as [S1 S2]. split; cbn [on_dev b_tok b_of]; [rewrite <- S1; apply St|]. rewrite <- S2. apply get_objs; assumption.
Qed.
Lemma other_of b c o h h' : objop c = Some h -> h' <> h -> b_of (table_next [] b c o) h' = b_of b h'.
Proof.
  intros O N.
  destruct c; try discriminate O; injection O as ->; cbn [table_next makes]; try reflexivity;
    try (destruct o; try reflexivity; try match goal with |- context [(?a =? CKR_OK)%Z] => destruct (a =? CKR_OK)%Z; try reflexivity end; rewrite ?put_new_other by exact N; reflexivity).
  destruct (_ =? _)%Z; [|reflexivity]. cbn. unfold with_of. apply Z.eqb_neq in N. rewrite N. reflexivity.
Qed.
Lemma next_dev stored b c o : b_dev (table_next stored b c o) = next (b_dev b) c o.
Proof.
  unfold table_next. destruct c; try reflexivity; cbn [makes];
    repeat match goal with |- context [match ?x with _ => _ end] => first [is_var x; destruct x | destruct (x : bool)] end; try reflexivity;
    unfold put_new; repeat match goal with |- context [wants_token ?t] => destruct (wants_token t) end; reflexivity.
Qed.
Lemma store_handles w rnd s c s' : store w rnd s = Ok (c, s') -> handles (t_objs (s_tok s')) = handles (t_objs (s_tok s)).
Proof. intros T. apply store_frame in T as (_ & _ & _ & _ & T). apply handles_core. exact T. Qed.
Lemma tok_stay s s' b : handles (t_objs (s_tok s')) = handles (t_objs (s_tok s)) -> tsim s b -> handles (t_objs (s_tok s')) = b_tok b.
Proof. intros E (_ & T & _). congruence. Qed.
(** Leave the first test of [E]; the branch that refuses changes nothing. *)
Ltac skip := match goal with E : _ = Ok (?s', ?o) |- _ =>
  match type of E with
  | (if ?b then _ else _) = _ => destruct b; try (unfold rv_ in E; injection E as <- _; reflexivity)
  | (match ?b with Some _ => _ | None => _ end) = _ => destruct b; try (unfold rv_ in E; injection E as <- _; reflexivity)
  end end.
Theorem C120_step w m rnd s b c s' o : inv s -> good True m s -> (0 <= m)%Z -> (m + uses c < 2^28)%Z -> bool_call c -> tsim s b -> step w rnd s c = Ok (s', o) ->
  table_says b c o /\ exists stored, tsim s' (table_next stored b c o).
Proof.
  intros I G M0 M B S E. pose proof S as (Sd & St & Ss). destruct (C118_step w rnd s _ c s' o I Sd E) as [Sy Nx]. pose proof (uses_pos c) as Up. pose proof (step_inv _ _ _ _ _ _ I E) as I'.
  assert (Mm : forall h, mode s h = d_mode (b_dev b) h) by apply Sd.
  destruct (objop c) as [h|] eqn:O.
  - destruct (own_step w m rnd s b c s' o h I G M0 M B (conj St (Ss h)) E O) as ([O1 O2] & O3 & O4). split.
    + split; [exact Sy|]. split; [intros; eapply names_said; eauto; lia|]. split.
      * intros h' t ho Mk Eo. rewrite <- Mm. eauto.
      * intros h' k tp tq g rv h1 h2 Ec Eo. rewrite <- Mm. eauto.
    + exists []. split; [rewrite next_dev; exact Nx|]. split; [exact O1|]. intros h'. destruct (Z.eq_dec h' h) as [->|N]; [exact O2|].
      rewrite (other_of b c o h h' O N), <- Ss. f_equal. eapply others_objs; eauto; try (destruct c; discriminate + reflexivity). rewrite O. congruence.
  - assert (Q : exists stored, handles (t_objs (s_tok s')) = b_tok (table_next stored b c o) /\ forall h, handles (objs_of s' h) = b_of (table_next stored b c o) h).
    { clear Sy Nx. assert (Cn : s_count s = d_count (b_dev b)) by apply Sd.
      assert (OTH : forall h, c <> OCloseSession h -> ends_all c = false -> c <> OInitialize -> handles (objs_of s' h) = b_of b h).
      { intros h A1 A2 A3. rewrite <- Ss. f_equal. eapply others_objs; eauto. rewrite O. discriminate. }
      destruct c; try discriminate O; cbn [table_next makes]; clear O.
      - (* C_Initialize *)
        cbn [step] in E. unfold Initialize in E. rewrite <- Cn. destruct (s_count s =? 0)%Z eqn:C0.
        + exists (handles (t_objs (s_tok s'))). split; [reflexivity|]. cbn [b_of]. destruct (Token_Load _ _ _) as [t| |] eqn:T; cbn [bind] in E; try discriminate. injection E as <- <-.
          intros h. unfold objs_of, sess_get. destruct (slot_ok _); [|reflexivity]. cbn [s_sess add_sess find_sess find].
          destruct (_ =? h)%Z; [reflexivity|]. destruct (_ =? h)%Z; reflexivity.
        + exists []. injection E as <- <-. split; [exact St|exact Ss].
      - (* C_Finalize *)
        exists []. cbn [step] in E. unfold Finalize in E. rewrite <- Cn. destruct (s_count s - 1 =? 0)%Z eqn:C0.
        + destruct (Z.eqb_spec (s_count s) 1); [|lia].
          destruct (store _ _ _) as [[c1 s1]| |]; cbn [bind] in E; try discriminate. destruct (final_all _); cbn [bind] in E; try discriminate.
          destruct (free_all _); cbn [bind] in E; try discriminate. injection E as <- <-. split; [reflexivity|]. intros h. unfold objs_of, sess_get. destruct (slot_ok _); reflexivity.
        + destruct (Z.eqb_spec (s_count s) 1); [lia|]. injection E as <- <-. split; [exact St|exact Ss].
      - (* the process ends *)
        exists []. cbn [step] in E. injection E as <- <-. split; [reflexivity|]. intros h. unfold objs_of, sess_get. destruct (slot_ok _); reflexivity.
      - (* C_InitToken *)
        exists []. cbn [step] in E. assert (OT : forall h, handles (objs_of s' h) = b_of b h) by (intros h; apply OTH; [discriminate|reflexivity|discriminate]).
        unfold with_slot, need_lib in E. destruct (0 <? _)%Z; [|unfold rv_ in E; injection E as <- <-; split; [exact St|exact OT]].
        destruct (slot_ok slot); [|unfold rv_ in E; injection E as <- <-; split; [exact St|exact OT]].
        unfold InitToken in E. destruct (negb (pin_len_ok pin)); [unfold rv_ in E; injection E as <- <-; split; [exact St|exact OT]|].
        match type of E with (if ?b then _ else _) = _ => destruct b end; [unfold rv_ in E; injection E as <- <-; split; [exact St|exact OT]|].
        match type of E with (if ?b then _ else _) = _ => destruct b end; [unfold rv_ in E; injection E as <- <-; split; [exact St|exact OT]|].
        destruct (TokenReset _ _ _ _ _) as [[c1 s1]| |] eqn:T; cbn [bind] in E; try discriminate. unfold rv_ in E. injection E as <- <-.
        unfold TokenReset in T. destruct (free_all _); cbn [bind] in T; try discriminate. destruct (zlen _ <? 32)%Z; [discriminate|].
        unfold SetSOPin in T. apply store_handles in T. change (handles (t_objs (s_tok s1)) = []) in T.
        rewrite T. assert (Rb : orb (out_rv (OutRv (if (c1 =? 0)%Z then CKR_OK else CKR_FUNCTION_FAILED)) =? CKR_OK)%Z (out_rv (OutRv (if (c1 =? 0)%Z then CKR_OK else CKR_FUNCTION_FAILED)) =? CKR_FUNCTION_FAILED)%Z = true) by (destruct (c1 =? 0)%Z; reflexivity).
        rewrite Rb. split; [reflexivity|exact OT].
      - (* C_InitPIN *)
        exists []. split; [|intros h'; apply OTH; [discriminate|reflexivity|discriminate]]. apply (tok_stay s s' b); [|exact S].
        cbn [step] in E. unfold with_sess, need_lib, InitPIN in E. skip. skip. skip. skip.
        destruct (SetUserPin _ _ _ _) as [[c1 s1]| |] eqn:T; cbn [bind] in E; try discriminate. unfold rv_ in E. injection E as <- <-. unfold SetUserPin in T. apply store_handles in T. exact T.
      - (* C_SetPIN *)
        exists []. split; [|intros h'; apply OTH; [discriminate|reflexivity|discriminate]]. apply (tok_stay s s' b); [|exact S].
        cbn [step] in E. unfold with_sess, need_lib, SetPIN in E. skip. skip. cbv zeta in E. skip. skip. skip. skip. skip.
        match type of E with bind (if ?b then _ else _) _ = _ => destruct b end.
        + destruct (SetSOPin _ _ _ _) as [[c1 s1]| |] eqn:T; cbn [bind] in E; try discriminate. unfold rv_ in E. injection E as <- <-. unfold SetSOPin in T. apply store_handles in T. exact T.
        + destruct (SetUserPin _ _ _ _) as [[c1 s1]| |] eqn:T; cbn [bind] in E; try discriminate. unfold rv_ in E. injection E as <- <-. unfold SetUserPin in T. apply store_handles in T. exact T.
      - (* C_OpenSession *)
        exists []. assert (OT : forall h, handles (objs_of s' h) = b_of b h) by (intros h; apply OTH; [discriminate|reflexivity|discriminate]).
        assert (Tb : b_tok (match o with OutH rv ho => on_dev b (next (b_dev b) (OOpenSession slot flags) o) | _ => on_dev b (next (b_dev b) (OOpenSession slot flags) o) end) = b_tok b) by (destruct o; reflexivity).
        split; [|exact OT]. apply (tok_stay s s' b); [|exact S]. cbn [step] in E. unfold with_slot, need_lib in E. destruct (0 <? s_count s)%Z eqn:Cp; [|unfold rv_ in E; injection E as <- _; reflexivity]. skip.
        apply OpenSession_ok in E as [(-> & _)|(l & x & K)]; [reflexivity| |exact I|lia]. cbv zeta in K. destruct K as (-> & _). reflexivity.
      - (* C_CloseSession *)
        exists []. cbn [step] in E. assert (OT : forall h', h' <> h -> handles (objs_of s' h') = b_of b h') by (intros h' N; apply OTH; [congruence|reflexivity|discriminate]).
        unfold with_sess, need_lib in E. destruct (0 <? s_count s)%Z eqn:Cp; [|unfold rv_ in E; injection E as <- <-; split; [exact St|exact Ss]].
        destruct (sess_get s h) as [x|] eqn:X; [|unfold rv_ in E; injection E as <- <-; split; [exact St|exact Ss]].
        unfold CloseSession in E. destruct (close_sess _ _) as [l| |] eqn:CL; cbn [bind] in E; try discriminate. apply sess_get_in in X as (X & Hx & _).
        apply close_sess_ok in CL as (_ & CL & _); [|apply I; lia|exact X].
        assert (T : o = OutRv CKR_OK /\ handles (t_objs (s_tok s')) = handles (t_objs (s_tok s)) /\ s_sess s' = l).
        { destruct (existsb in_use l); [unfold rv_ in E; injection E as <- <-; repeat split|]. destruct (Logout _ _) as [t| |] eqn:Lo; cbn [bind] in E; try discriminate.
          unfold rv_ in E. injection E as <- <-. apply Logout_ok in Lo as (_ & Lo & _). split; [reflexivity|]. split; [|reflexivity]. apply ident_handles. exact Lo. }
        destruct T as (-> & T1 & T2). change (out_rv (OutRv CKR_OK) =? CKR_OK)%Z with true. cbv iota. cbn [b_tok b_of]. split; [congruence|]. intros h'. unfold with_of.
        destruct (Z.eqb_spec h' h) as [->|N]; [|apply OT; exact N]. unfold objs_of. destruct (sess_get s' h) as [y|] eqn:Y; [|reflexivity]. apply sess_get_in in Y as (Y & Hy & _). rewrite T2 in Y.
        destruct (CL y Y) as [[_ Y2]|(_ & _ & ->)]; [congruence|reflexivity].
      - (* C_CloseAllSessions *)
        exists []. cbn [step] in E. unfold with_slot, need_lib in E. destruct (0 <? s_count s)%Z eqn:Cp; [|unfold rv_ in E; injection E as <- <-; split; [exact St|exact Ss]].
        destruct (slot_ok slot); [|unfold rv_ in E; injection E as <- <-; split; [exact St|exact Ss]].
        destruct (close_all _) as [l| |] eqn:CL; cbn [bind] in E; try discriminate. unfold rv_ in E. injection E as <- <-. change (out_rv (OutRv CKR_OK) =? CKR_OK)%Z with true. cbv iota. cbn [b_tok b_of].
        split; [exact St|]. apply close_all_ok in CL as (p & y & a & y' & E1 & -> & E3 & E4 & E5 & E6 & E7 & E8); [|apply I; lia].
        intros h. change (H 1) with (sess_handle 1). unfold objs_of. destruct (Z.eqb_spec h (sess_handle 1)) as [->|N].
        + rewrite <- Ss. unfold objs_of. assert (Gs : sess_get (set_sess s [y'; a]) (sess_handle 1) = sess_get s (sess_handle 1)); [|rewrite Gs; reflexivity].
          rewrite <- E3. unfold sess_get. match goal with |- context [slot_ok ?q] => destruct (slot_ok q) end; [|reflexivity].
          cbn [set_sess s_sess]. rewrite (find_sess_uniq [y'; a] a); [|apply chain_uniq; apply E8|right; left; reflexivity].
          rewrite (find_sess_uniq (s_sess s) a); [reflexivity|apply inv_uniq; exact I|].
          rewrite E1. apply in_or_app. right; right; left; reflexivity.
        + destruct (sess_get _ h) as [z|] eqn:Gz; [|reflexivity]. apply sess_get_in in Gz as (Zi & Ez & Uz & _).
          destruct Zi as [<-|[<-|[]]]; [rewrite E7; reflexivity|congruence].
      - (* C_Login *)
        exists []. split; [|intros h'; apply OTH; [discriminate|reflexivity|discriminate]]. apply (tok_stay s s' b); [|exact S].
        cbn [step] in E. unfold with_sess, need_lib, Login in E. skip. skip. skip.
        destruct (ut =? CKU_SO)%Z.
        + destruct (SOLogin _ _ _ _ _) as [c1 t] eqn:L. unfold rv_ in E. injection E as <- <-. apply SOLogin_ok in L as (L & _). cbn. rewrite L. reflexivity.
        + destruct (ut =? CKU_USER)%Z; [|skip; unfold rv_ in E; injection E as <- _; reflexivity].
          destruct (UserLogin _ _ _ _) as [[c1 t]| |] eqn:L; cbn [bind] in E; try discriminate. unfold rv_ in E. injection E as <- <-. apply UserLogin_ok in L as (L & _). apply ident_handles. exact L.
      - (* C_Logout *)
        exists []. split; [|intros h'; apply OTH; [discriminate|reflexivity|discriminate]]. apply (tok_stay s s' b); [|exact S].
        cbn [step] in E. unfold with_sess, need_lib in E. skip. skip.
        destruct (Logout _ _) as [t| |] eqn:L; cbn [bind] in E; try discriminate. unfold rv_ in E. injection E as <- <-. apply Logout_ok in L as (_ & L & _). apply ident_handles. exact L.
      - (* C_GetTokenInfo *)
        exists []. split; [|intros h'; apply OTH; [discriminate|reflexivity|discriminate]]. apply (tok_stay s s' b); [|exact S].
        cbn [step] in E. unfold with_slot, need_lib in E. skip. skip. }
    destruct Q as (stored & Q1 & Q2). split.
    + split; [exact Sy|]. split; [intros h rw Th; exfalso; destruct c; discriminate|]. split; intros; exfalso; destruct c; discriminate.
    + exists stored. split; [rewrite next_dev; exact Nx|]. split; assumption.
Qed.
Print Assumptions C120_step.

(** ** Histories *)
Lemma run_tables w (L : laws (w_se w)) d l : forall m s b s' os, orderly w True d m s -> (m + 2 * zlen l < 2^28)%Z -> tsim s b -> run w s l = Ok (s', os) -> Forall (fun c => bool_call (fst c)) l ->
  exists b' m', tables b (map fst l) os b' /\ tsim s' b' /\ orderly w True d m' s' /\ (m' <= m + 2 * zlen l)%Z.
Proof.
  induction l as [|[c rnd] l IH]; intros m s b s' os O M S R F; cbn [run] in R.
  - injection R as <- <-. exists b, m. split; [constructor|]. split; [exact S|]. split; [exact O|unfold zlen; cbn; lia].
  - destruct (step _ _ _ _) as [[s1 o1]| |] eqn:E; cbn [bind] in R; try discriminate. destruct (run _ _ _) as [[s2 os2]| |] eqn:R2; cbn [bind] in R; try discriminate. injection R as <- <-.
    inversion F as [|? ? F1 F2]. subst. cbn [fst] in F1. pose proof (uses_two c) as U2. pose proof (uses_pos c) as U0. pose proof (orderly_pos _ _ _ _ _ O) as P.
    assert (Z1 : zlen ((c, rnd) :: l) = (zlen l + 1)%Z) by (unfold zlen; cbn [length]; lia). rewrite Z1 in *. assert (Z2 : (0 <= zlen l)%Z) by (unfold zlen; lia).
    destruct (orderly_kept w True (l_hash _ L) _ _ _ O) as [G _]; [lia|].
    destruct (C120_step w m rnd s b c s1 o1 (reach_inv w _ _ (orderly_reach _ _ _ _ _ O)) G P ltac:(lia) F1 S E) as (Sy & st & S1).
    assert (O1 : orderly w True d (m + uses c) s1) by (econstructor; [exact O|exact E|apply usual_bytes, bool_usual; exact F1]).
    destruct (IH (m + uses c)%Z s1 _ s2 os2 O1 ltac:(lia) S1 R2 F2) as (b' & m' & T & S' & O' & M'). exists b', m'.
    split; [econstructor; eassumption|]. split; [exact S'|]. split; [exact O'|lia].
Qed.
Lemma tsim0 d : tsim (sys0 d) table0.
Proof. split; [apply sim0|]. split; [reflexivity|]. intros h. unfold objs_of, sess_get. destruct (slot_ok _); reflexivity. Qed.
(** Every history from an empty storage, with CKA_TOKEN true or false in the templates, is one of the machine; *)
Theorem C120_follows : forall w d l s os, laws (w_se w) -> d (F_TOKEN, 0%nat) = None -> (2 * zlen l < 2^28)%Z -> Forall (fun c => bool_call (fst c)) l ->
  run w (sys0 d) l = Ok (s, os) ->
  exists b, tables table0 (map fst l) os b /\
    (* and its table says what the handles stand for. *)
    (forall h, is_open (b_dev b) h = true <-> exists x, sess_get s h = Some x) /\
    (forall h x ho, sess_get s h = Some x -> (listed b h ho = true <-> exists o, find_obj s x ho = Some o)) /\
    (forall h x o, sess_get s h = Some x -> In o (t_objs (s_tok s) ++ ss_objs x) -> listed b h (o_handle o) = true).
Proof.
  intros w d l s os L D M F R. destruct (run_tables w L d l 0 (sys0 d) table0 s os (od_0 w True d D) M (tsim0 d) R F) as (b & m & T & S & O & Lm).
  destruct (orderly_kept w True (l_hash _ L) _ _ _ O) as [G _]; [lia|]. exists b. split; [exact T|]. split; [|split].
  - intros h. destruct S as ((_ & Mo & _) & _). unfold is_open. rewrite <- Mo. unfold mode. destruct (sess_get s h) as [x|]; split; intros K; try reflexivity; [eauto|discriminate|destruct K; discriminate].
  - intros h x ho X. rewrite (listed_find m s b h x ho G ltac:(lia) S X). destruct (find_obj s x ho) as [o|]; split; intros K; try reflexivity; [eauto|discriminate|destruct K; discriminate].
  - intros h x o X J. rewrite (listed_find m s b h x _ G ltac:(lia) S X). rewrite (good_finds True m s h x o Logic.I G ltac:(lia) X J). reflexivity.
Qed.
Print Assumptions C120_follows.

(** *** A destroyed object's handle is refused until it is given out again *)
Lemma tables_app cs : forall b os cs' os' b', length cs = length os -> tables b (cs ++ cs') (os ++ os') b' -> exists b1, tables b cs os b1 /\ tables b1 cs' os' b'.
Proof.
  induction cs as [|c cs IH]; intros b [|o os] cs' os' b' Le T; try discriminate; cbn in T.
  - exists b. split; [constructor|exact T].
  - inversion T as [|? ? ? st ? ? ? Sy T' E1 E2 E3]. subst. destruct (IH _ os cs' os' b' ltac:(cbn in Le; congruence) T') as (b1 & A & B). exists b1. split; [econstructor; eauto|exact B].
Qed.
Lemma listed_not b h ho : listed b h ho = false <-> ~ In ho (b_tok b ++ b_of b h).
Proof.
  unfold listed. destruct (existsb _ _) eqn:E; split; intros K; try discriminate; try reflexivity.
  - exfalso. apply K. apply existsb_exists in E as (y & Y & E). apply Z.eqb_eq in E. subst y. exact Y.
  - intros J. assert (Q : existsb (Z.eqb ho) (b_tok b ++ b_of b h) = true); [|congruence]. apply existsb_exists. exists ho. split; [exact J|apply Z.eqb_refl].
Qed.
Lemma not_put b h t ho h' k : k <> ho -> ~ In k (b_tok b ++ b_of b h') -> ~ In k (b_tok (put_new b h t ho) ++ b_of (put_new b h t ho) h').
Proof.
  intros N K J. unfold put_new in J. destruct (wants_token t); cbn [b_tok b_of] in J.
  - cbn in J. destruct J as [J|J]; [congruence|contradiction].
  - unfold with_of in J. destruct (Z.eqb_spec h' h) as [->|E]; [|contradiction]. apply in_app_or in J as [J|[J|J]]; [apply K, in_or_app; auto|congruence|apply K, in_or_app; auto].
Qed.
Lemma without_incl ho l : incl (without_h ho l) l.
Proof. intros x X. apply filter_In in X. tauto. Qed.
Lemma unlisted_step st b c o h ho : listed b h ho = false -> c <> OInitialize -> ~ In ho (new_handles o) -> listed (table_next st b c o) h ho = false.
Proof.
  rewrite !listed_not. intros K Ni Nh. assert (Kd : forall d, ~ In ho (b_tok (on_dev b d) ++ b_of (on_dev b d) h)) by (intros; exact K).
  assert (MK : forall h' t, match o with OutH rv ho' => ~ In ho (b_tok (if (rv =? CKR_OK)%Z then put_new (on_dev b (next (b_dev b) c o)) h' t ho' else on_dev b (next (b_dev b) c o)) ++ b_of (if (rv =? CKR_OK)%Z then put_new (on_dev b (next (b_dev b) c o)) h' t ho' else on_dev b (next (b_dev b) c o)) h) | _ => True end).
  { intros h' t. destruct o; try exact Logic.I. cbn in Nh. destruct (rv =? CKR_OK)%Z; [|apply Kd]. apply not_put; [|apply Kd]. intros ->. apply Nh. left. reflexivity. }
  destruct c; cbn [table_next makes]; try congruence; try (apply Kd); try (specialize (MK h0 t); destruct o; try apply Kd; exact MK); clear MK.
  - destruct (_ =? _)%Z; [intros []|apply Kd].
  - intros [].
  - destruct (orb _ _); [|apply Kd]. cbn [b_tok b_of]. intros J. apply K. apply in_or_app. right. exact J.
  - destruct (_ =? _)%Z; [|apply Kd]. cbn [b_tok b_of]. intros J. apply K. apply in_or_app. apply in_app_or in J as [J|J]; [left; exact J|]. unfold with_of in J. destruct (_ =? _)%Z; [destruct J|right; exact J].
  - destruct (_ =? _)%Z; [|apply Kd]. cbn [b_tok b_of]. intros J. apply K. apply in_or_app. apply in_app_or in J as [J|J]; [left; exact J|]. destruct (_ =? _)%Z; [right; exact J|destruct J].
  - destruct (_ =? _)%Z; [|apply Kd]. cbn [b_tok b_of]. intros J. apply K. apply in_or_app. apply in_app_or in J as [J|J]; [left; exact (without_incl _ _ _ J)|]. unfold with_of in J. destruct (Z.eqb_spec h h0) as [->|]; [right; exact (without_incl _ _ _ J)|right; exact J].
  - destruct o; try apply Kd. cbn in Nh. destruct (rv =? CKR_OK)%Z; [|apply Kd]. apply not_put; [intros ->; apply Nh; right; left; reflexivity|]. apply not_put; [intros ->; apply Nh; left; reflexivity|apply Kd].
Qed.

Lemma unlisted_tables b cs os b' h ho : tables b cs os b' -> listed b h ho = false -> Forall (fun c => c <> OInitialize) cs -> Forall (fun o => ~ In ho (new_handles o)) os -> listed b' h ho = false.
Proof.
  induction 1 as [b|b c o st cs os b' Sy T IH]; intros K F1 F2; [exact K|]. inversion F1 as [|? ? A1 A2]; inversion F2 as [|? ? B1 B2]; subst. apply IH; auto. apply unlisted_step; assumption.
Qed.
Lemma unlisted_destroyed st b h ho : listed (table_next st b (ODestroyObject h ho) (OutRv CKR_OK)) h ho = false.
Proof.
  rewrite listed_not. cbn [table_next]. change (out_rv (OutRv CKR_OK) =? CKR_OK)%Z with true. cbv iota. cbn [b_tok b_of]. unfold with_of. rewrite Z.eqb_refl.
  assert (N : forall l, ~ In ho (without_h ho l)) by (intros l J; apply filter_In in J as [_ J]; rewrite Z.eqb_refl in J; discriminate).
  intros J. apply in_app_or in J as [J|J]; exact (N _ J).
Qed.
Theorem C120_gone : forall w d l1 r1 l2 c r2 s os1 os2 o h ho rv more, laws (w_se w) -> d (F_TOKEN, 0%nat) = None ->
  run w (sys0 d) (l1 ++ (ODestroyObject h ho, r1) :: l2 ++ [(c, r2)]) = Ok (s, os1 ++ OutRv CKR_OK :: os2 ++ [o]) ->
  length os1 = length l1 -> length os2 = length l2 -> (2 * (zlen l1 + zlen l2 + 2) < 2^28)%Z ->
  Forall (fun c => bool_call (fst c)) (l1 ++ l2 ++ [(c, r2)]) ->
  (* the library is not started again, and the handle not given out again; *)
  Forall (fun c => fst c <> OInitialize) l2 -> Forall (fun o => ~ In ho (new_handles o)) os2 ->
  (* then a call through this session that names it is refused. *)
  through c = Some h -> names c = (ho, rv) :: more ->
  In o [OutRv rv; OutRv CKR_CRYPTOKI_NOT_INITIALIZED; OutRv CKR_SESSION_HANDLE_INVALID; OutRv CKR_SESSION_READ_ONLY].
Proof.
  intros w d l1 r1 l2 c r2 s os1 os2 o h ho rv more L D R Le1 Le2 M F Ni Nh Th Nm.
  assert (Fb : Forall (fun c => bool_call (fst c)) (l1 ++ (ODestroyObject h ho, r1) :: l2 ++ [(c, r2)])).
  { apply Forall_app in F as [F1 F2]. apply Forall_app. split; [exact F1|]. constructor; [|exact F2]. intros t b []. }
  assert (Lm : (0 + 2 * zlen (l1 ++ (ODestroyObject h ho, r1) :: l2 ++ [(c, r2)]) < 2^28)%Z) by (unfold zlen in *; rewrite app_length; cbn [length]; rewrite app_length; cbn [length]; lia).
  destruct (run_tables w L d _ 0 (sys0 d) table0 s _ (od_0 w True d D) Lm (tsim0 d) R Fb) as (b' & m & T & _).
  rewrite map_app in T. cbn [map fst] in T. rewrite map_app in T. cbn [map fst] in T.
  apply tables_app in T as (b1 & T1 & T); [|rewrite map_length; congruence]. inversion T as [|? ? ? st ? ? ? Sy1 T2]. subst.
  apply tables_app in T2 as (b2 & T2 & T3); [|rewrite map_length; congruence]. inversion T3 as [|? ? ? st2 ? ? ? Sy2 _]. subst.
  assert (U : listed b2 h ho = false).
  { eapply unlisted_tables; [exact T2|apply unlisted_destroyed| |exact Nh]. apply Forall_forall. intros q J. apply in_map_iff in J as (p & <- & J). rewrite Forall_forall in Ni. exact (Ni p J). }
  destruct Sy2 as (Sd & Sn & _). specialize (Sn h).
  assert (Os : forall P : bool -> Prop, on_session (b_dev b2) h o P -> In o [OutRv CKR_CRYPTOKI_NOT_INITIALIZED; OutRv CKR_SESSION_HANDLE_INVALID] \/ exists rw, (0 < d_count (b_dev b2))%Z /\ d_mode (b_dev b2) h = Some rw /\ P rw).
  { intros P K. unfold on_session in K. destruct (Z.leb_spec (d_count (b_dev b2)) 0); [left; left; symmetry; exact K|]. destruct (d_mode (b_dev b2) h) as [rw|]; [right; eauto|left; right; left; symmetry; exact K]. }
  assert (LK : lookup_says b2 h c o -> o = OutRv rv) by (unfold lookup_says; rewrite Nm; cbn [refusal]; rewrite U; auto).
  assert (Fin : forall rw, (0 < d_count (b_dev b2))%Z -> d_mode (b_dev b2) h = Some rw -> (needs_rw c = true -> rw = true \/ o = OutRv CKR_SESSION_READ_ONLY) -> In o [OutRv rv; OutRv CKR_CRYPTOKI_NOT_INITIALIZED; OutRv CKR_SESSION_HANDLE_INVALID; OutRv CKR_SESSION_READ_ONLY]).
  { intros rw Cn Md Rw. destruct (needs_rw c).
    - destruct (Rw eq_refl) as [-> | ->]; [left; symmetry; apply LK; apply (Sn true Th Cn Md); auto|cbn; auto].
    - left. symmetry. apply LK. apply (Sn rw Th Cn Md). discriminate. }
  destruct c; try discriminate Nm; injection Th as ->; cbn [says] in Sd; (destruct (Os _ Sd) as [K|(rw & Cn & Md & K)]; [right; destruct K as [K|[K|[]]]; rewrite <- K; cbn; auto|]; apply (Fin rw Cn Md); cbn [needs_rw]; intros Nr; try discriminate Nr; destruct rw; auto).
Qed.
Print Assumptions C120_gone.

(** ** A history with two sessions: handles given out, destroyed, refused, given out again, gone with their session *)
Definition bool_attr (a : attr) : bool := if is_token a then match a_val a with AV [b] => orb (b =? 0)%N (b =? 1)%N | _ => true end else true.
Lemma bool_calls l : forallb (fun c => forallb (forallb bool_attr) (templates c)) (map fst l) = true -> Forall (fun c : op * (nat -> list N) => bool_call (fst c)) l.
Proof.
  intros K. apply Forall_forall. intros c C t b T J. rewrite forallb_forall in K. specialize (K (fst c) (in_map fst _ _ C)). rewrite forallb_forall in K. specialize (K t T).
  rewrite forallb_forall in K. specialize (K _ J). unfold bool_attr, is_token in K. cbn [a_type a_val] in K. rewrite Z.eqb_refl in K. apply orb_prop in K as [K|K]; apply N.eqb_eq in K; auto.
Qed.
Definition handles_used : list op := setup ++
  [OOpenSession 1 RW; userlogin upin; OCreateObject H2 aes_tmpl; OCreateObject H2 aes_tmpl; OCreateObject H2 (tokenly aes_tmpl);
   OOpenSession 1 RW; OCreateObject H1 aes_tmpl; OCreateObject H1 (tokenly aes_tmpl); ODestroyObject H2 2; OCopyObject H2 2 [];
   OCreateObject H2 aes_tmpl; ODestroyObject H1 268435457; OGetAttributeValue H2 268435457 []; OCreateObject H2 (tokenly aes_tmpl);
   OCloseSession H2; OOpenSession 1 RW; ODestroyObject H2 1; ODestroyObject H1 1; ODestroyObject H2 268435459].
Example C120_case : (exists s, run tw (sys0 nofiles) (numbered 1 handles_used) = Ok (s, outs handles_used)) /\ laws (w_se tw) /\ (2 * zlen (numbered 1 handles_used) < 2^28)%Z /\
  Forall (fun c => bool_call (fst c)) (numbered 1 handles_used) /\
  skipn 9 (outs handles_used) = [OutH CKR_OK 1; OutH CKR_OK 2; OutH CKR_OK 268435457; OutH CKR_OK H1; OutH CKR_OK 1; OutH CKR_OK 268435458;
    OutRv CKR_OK; OutRv CKR_OBJECT_HANDLE_INVALID; OutH CKR_OK 2; OutRv CKR_OK; OutRv CKR_OBJECT_HANDLE_INVALID; OutH CKR_OK 268435459;
    OutRv CKR_OK; OutH CKR_OK H2; OutRv CKR_OBJECT_HANDLE_INVALID; OutRv CKR_OK; OutRv CKR_OK].
Proof.
  split; [exists (after handles_used); vm_compute; reflexivity|]. split; [exact toy_laws|]. split; [vm_compute; reflexivity|].
  split; [apply bool_calls; vm_compute; reflexivity|]. vm_compute. reflexivity.
Qed.
