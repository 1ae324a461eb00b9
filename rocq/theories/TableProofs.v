(** The object lists of the library follow the tables of Table.v. *)
From Verif Require Import Base Ops Object ObjectProofs Store StoreSpec Sys SysProofs SysProofs2 SysProofs3 SysProofs4 WfProofs LoginProofs ToySys PropSys1 PropSys2
  ObjFrame ObjProofs HandleProofs DiskHandles PropObj PropObj2 Device DeviceProofs PropDevice Table.
From Coq Require Import Sorted.

(** The session objects of session handle [h]. *)
Definition objs_of (s : sys) (h : Z) : list obj := match sess_get s h with Some x => ss_objs x | None => [] end.
Definition tsim (s : sys) (b : table) : Prop :=
  sim s (b_dev b) /\ handles (t_objs (s_tok s)) = b_tok b /\ forall h, handles (objs_of s h) = b_of b h.
Definition bool_call (c : op) : Prop := forall t b, In t (templates c) -> In (mkA CKA_TOKEN (AV [b])) t -> b = 0%N \/ b = 1%N.
Lemma bool_usual c : bool_call c -> usual_call c.
Proof. intros B t b T J. destruct (B t b T J) as [->| ->]; (split; [reflexivity|]); [left; reflexivity|right; discriminate]. Qed.
(** The byte of a template. *)
Lemma token_last t : tmpl_token t = match find is_token (rev t) with None => Some 0%N | Some a => match a_val a with AV [b] => Some b | _ => None end end.
Proof. reflexivity. Qed.
Lemma find_rev_none {A} (f : A -> bool) l : existsb f l = false -> find f (rev l) = None.
Proof.
  intros E. destruct (find f (rev l)) as [a|] eqn:F; [|reflexivity]. apply find_some in F as [F1 F2]. apply in_rev in F1.
  assert (K : existsb f l = true) by (apply existsb_exists; eauto). congruence.
Qed.
Lemma find_app_ {A} (f : A -> bool) l r : find f (l ++ r) = match find f l with Some a => Some a | None => find f r end.
Proof. induction l as [|a l IH]; cbn; [reflexivity|]. destruct (f a); auto. Qed.
Lemma find_rev_some {A} (f : A -> bool) l : existsb f l = true -> find f (rev l) <> None.
Proof.
  intros E F. apply existsb_exists in E as (a & I & E). apply in_rev in I. apply (find_none f) with (x := a) in F; [congruence|exact I].
Qed.
Lemma wants_token_byte t b : tmpl_token t = Some b -> b = 0%N \/ b = 1%N -> wants_token t = negb (b =? 0)%N.
Proof.
  rewrite token_last. intros E B. induction t as [|a r IH]; cbn [wants_token].
  - cbn in E. injection E as <-. reflexivity.
  - cbn [rev] in E. rewrite find_app_ in E. destruct (existsb is_token r) eqn:X.
    + apply IH. destruct (find _ (rev r)) eqn:F; [exact E|]. exfalso. exact (find_rev_some _ _ X F).
    + rewrite (find_rev_none _ _ X) in E. cbn [find] in E. destruct (is_token a); cbn [andb].
      * destruct (a_val a) as [[|b1 [|? ?]]| |]; try discriminate. injection E as ->. destruct B as [->| ->]; reflexivity.
      * injection E as <-. reflexivity.
Qed.
Lemma bool_byte c t b : bool_call c -> In t (templates c) -> tmpl_token t = Some b -> b = 0%N \/ b = 1%N.
Proof.
  intros B T E. unfold tmpl_token in E. destruct (find_last t CKA_TOKEN) as [[ty v]|] eqn:F; [|injection E as <-; auto].
  apply last_in in F as [I Ty]. cbn in Ty. subst ty. cbn in E. destruct v as [[|b1 [|? ?]]| |]; try discriminate. injection E as ->. exact (B t b T I).
Qed.

(** ** Lists that stay *)
Definition stays (s s' : sys) : Prop :=
  handles (t_objs (s_tok s')) = handles (t_objs (s_tok s)) /\
  forall x', In x' (s_sess s') -> exists x, In x (s_sess s) /\ ss_h x' = ss_h x /\ ss_use x' = ss_use x /\ handles (ss_objs x') = handles (ss_objs x).
Lemma stays_refl s : stays s s.
Proof. split; [reflexivity|]. eauto. Qed.
Lemma stays_trans a b c : stays a b -> stays b c -> stays a c.
Proof.
  intros [A1 A2] [B1 B2]. split; [congruence|]. intros x X. destruct (B2 x X) as (y & Y & E1 & E2 & E3). destruct (A2 y Y) as (z & Z & F1 & F2 & F3).
  exists z. repeat split; congruence.
Qed.
Lemma stays_sess s s' : handles (t_objs (s_tok s')) = handles (t_objs (s_tok s)) -> s_sess s' = s_sess s -> stays s s'.
Proof. intros A B. split; [exact A|]. rewrite B. eauto. Qed.
Lemma stays_put s x x' : uniq (s_sess s) -> In x (s_sess s) -> ss_h x' = ss_h x -> ss_use x' = ss_use x -> handles (ss_objs x') = handles (ss_objs x) -> stays s (put_sess s x').
Proof.
  intros U X E1 E2 E3. split; [reflexivity|]. intros y Y. cbn in Y. unfold upd_sess in Y. apply in_map_iff in Y as (z & Ez & Z).
  destruct (Z.eqb_spec (ss_h z) (ss_h x')) as [E|E]; subst y; [exists x; auto|exists z; auto].
Qed.
Lemma get_objs s s' : inv s -> (forall h, mode s' h = mode s h) -> stays s s' -> forall h, handles (objs_of s' h) = handles (objs_of s h).
Proof.
  intros I M [_ K] h. unfold objs_of. specialize (M h). unfold mode in M. destruct (sess_get s' h) as [x'|] eqn:G'; destruct (sess_get s h) as [x|] eqn:G; try discriminate M; [|reflexivity].
  apply sess_get_in in G' as (X' & E' & _). apply sess_get_in in G as (X & E & _). destruct (K x' X') as (y & Y & F1 & F2 & F3).
  rewrite F3. f_equal. f_equal. eapply sess_get_same; [apply inv_uniq; exact I|exact Y|exact X|congruence].
Qed.
Section W.
Variable w : world.
Lemma prim_stays cl h s s' : inv s -> creates cl = false -> (forall ho, cl <> ODestroyObject h ho) -> prim w cl h s s' -> stays s s'.
Proof.
  intros I C D P. pose proof (inv_uniq s I) as U. assert (Ud : uid_ok s) by apply I.
  destruct P as [s x x' X Ux E1 E2 E3 E4|s n|s x rnd c s' X Rw E1 E2 Cl|s x o X Rw E1 L Iu Nu Hd Ot M Cl|s x b o X Rw E1 L Iu Nu Nb Hd Ot M Cl|s x o X Rw E1 Io Cl|s x o X Rw E1 Io Ot Cl|s x o o' X Rw E1 Io Sid M].
  - eapply stays_put; [exact U|exact X|congruence|exact E3|rewrite E4; reflexivity].
  - apply stays_sess; reflexivity.
  - apply store_frame in E2 as (_ & A & _ & _ & B). apply stays_sess; [|exact A]. apply handles_core. exact B.
  - congruence.
  - congruence.
  - destruct Cl as (ho & -> & _). exfalso. eapply D. reflexivity.
  - destruct Cl as (ho & -> & _). exfalso. eapply D. reflexivity.
  - assert (Q : forall l, sub l (live s) -> tags (upd_objs l o') = tags l).
    { intros l Sl. assert (N : NoDup (uids l)).
      { destruct Ud as [N _]. clear - N Sl. unfold uids in *. induction Sl as [|a l l' S IH|a l l' S IH]; cbn in *; [constructor| |].
        - inversion N as [|? ? A B]. subst. constructor; [|auto]. intros J. apply A. eapply sub_in; [apply sub_map; exact S|exact J].
        - inversion N. auto. }
      destruct (in_dec Nat.eq_dec (o_uid o') (uids l)) as [J|J]; [|apply upd_tags_not; exact J].
      apply in_map_iff in J as (y & Ey & Y).
      assert (Io' : In o (live s)) by (unfold live; apply in_or_app; apply in_app_or in Io as [Io|Io]; [left; exact Io|right; eapply all_objs_in; eauto]).
      assert (y = o). { apply (NoDup_map_inj _ _ o_uid (live s)); [apply Ud|eapply sub_in; eauto|exact Io'|]. destruct Sid as (E & _). congruence. }
      subst y. eapply upd_tags; eauto. }
    assert (S1 : sub (t_objs (s_tok s)) (live s)).
    { unfold live. clear. induction (t_objs (s_tok s)) as [|a l IH]; cbn; [apply sub_empty|constructor; exact IH]. }
    assert (S2 : forall y, In y (s_sess s) -> sub (ss_objs y) (live s)).
    { intros y Y. unfold live. clear - Y.
      assert (A : sub (ss_objs y) (all_objs (s_sess s))).
      { induction (s_sess s) as [|z l IH]; [contradiction|]. cbn [all_objs]. destruct Y as [->|Y].
        - clear. induction (ss_objs y) as [|a r IH]; cbn; [apply sub_empty|constructor; exact IH].
        - specialize (IH Y). induction (ss_objs z) as [|a r IHr]; cbn; [exact IH|constructor; exact IHr]. }
      induction (t_objs (s_tok s)) as [|a r IHr]; cbn; [exact A|constructor; exact IHr]. }
    split; [change (t_objs (s_tok (put_obj s o'))) with (upd_objs (t_objs (s_tok s)) o'); rewrite !handles_tags, (Q _ S1); reflexivity|]. intros y Y.
    change (s_sess (put_obj s o')) with (map (fun x => set_sobjs x (upd_objs (ss_objs x) o')) (s_sess s)) in Y. apply in_map_iff in Y as (z & <- & Z). exists z.
    split; [exact Z|]. split; [reflexivity|]. split; [reflexivity|]. change (ss_objs (set_sobjs z ?l)) with l. rewrite !handles_tags, (Q _ (S2 z Z)). reflexivity.
Qed.
Lemma prims_stays cl h s s' : inv s -> creates cl = false -> (forall ho, cl <> ODestroyObject h ho) -> prims w cl h s s' -> stays s s'.
Proof.
  intros I C D P. induction P as [s|s s1 s2 P Ps IH]; [apply stays_refl|].
  eapply stays_trans; [eapply prim_stays; eauto|]. apply IH. eapply prim_inv; eauto.
Qed.

(** ** Other sessions *)
Lemma others_objs rnd s c s' o h : inv s -> inv s' -> step w rnd s c = Ok (s', o) -> objop c <> Some h -> c <> OCloseSession h -> ends_all c = false -> c <> OInitialize ->
  objs_of s' h = objs_of s h.
Proof.
  intros I I' E O Cl En Ni. unfold objs_of. destruct (sess_get s h) as [x|] eqn:G.
  - rewrite (step_frame w _ _ _ _ _ _ _ I E O Cl En G). reflexivity.
  - destruct (sess_get s' h) as [x'|] eqn:G'; [|reflexivity].
    destruct (match c with OOpenSession _ _ | OCloseSession _ => true | _ => false end) eqn:Op.
    + destruct c; try discriminate Op.
      * cbn [step] in E. unfold with_slot, need_lib in E. destruct (0 <? s_count s)%Z eqn:Cn; [|unfold rv_ in E; injection E as <- _; congruence].
        destruct (slot_ok slot); [|unfold rv_ in E; injection E as <- _; congruence]. apply OpenSession_ok in E as [(-> & _)|(l & x & K)]; [congruence| |exact I|lia].
        cbv zeta in K. destruct K as (-> & _ & OK & _ & _ & Sub1 & Sub2 & X & Ux & _).
        apply sess_get_in in G' as (X' & E' & U' & Sl). cbn in X'. unfold upd_sess in X'. apply in_map_iff in X' as (y & Ey & Y). cbn in Ey.
        destruct (Z.eqb_spec (ss_h y) (ss_h x)) as [Eq|Ne]; subst x'.
        -- cbn. destruct OK as (_ & _ & F). rewrite Forall_forall in F. apply (F x X). unfold is_rw. rewrite Ux. reflexivity.
        -- exfalso. destruct (Sub1 y Y) as [Y1| ->]; [|congruence].
           rewrite <- E', (sess_get_of s y (inv_uniq _ I) Y1 U') in G; [discriminate|]. rewrite E'. exact Sl.
      * assert (K : h0 <> h) by congruence. clear Op Cl O.
        cbn [step] in E. unfold with_sess, need_lib in E. destruct (0 <? s_count s)%Z eqn:Cn; [|unfold rv_ in E; injection E as <- _; congruence].
        destruct (sess_get s h0) as [x|] eqn:G0; [|unfold rv_ in E; injection E as <- _; congruence]. unfold CloseSession in E.
        destruct (close_sess _ _) as [l| |] eqn:CL; cbn [bind] in E; try discriminate. apply sess_get_in in G0 as (X & Hx & _).
        apply close_sess_ok in CL as (_ & CL & _); [|apply I; lia|exact X].
        assert (T : s_sess s' = l).
        { destruct (existsb in_use l); [unfold rv_ in E; injection E as <-; reflexivity|]. destruct (Logout _ _) as [t| |] eqn:Lo; cbn [bind] in E; try discriminate. unfold rv_ in E. injection E as <-. reflexivity. }
        apply sess_get_in in G' as (X' & E' & U' & Sl). rewrite T in X'. destruct (CL x' X') as [[Y _]|(_ & Z & Z2)]; [|exact Z2].
        exfalso. rewrite <- E', (sess_get_of s x' (inv_uniq _ I) Y U') in G; [discriminate|]. rewrite E'. exact Sl.
    + exfalso. pose proof (step_modes _ _ _ _ _ _ I E) as M. assert (Md : modes (s_sess s') = modes (s_sess s)) by (destruct c; try discriminate Op; try discriminate En; try congruence; apply M).
      pose proof (mode_modes _ _ Md h) as K. unfold mode in K. rewrite G, G' in K. discriminate.
Qed.
End W.
