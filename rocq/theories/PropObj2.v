(** Object properties: C17, C18, C20, C63. *)
From Verif Require Import Base Codec Ops ToyEnv Object PropObject Store StoreSpec Sys SysProofs SysProofs2 SysProofs3 SysProofs4
  WfProofs ToySys PropStore PropStore2 ObjFrame ObjProofs HandleProofs QuotaProofs DiskHandles PropObj.

(** ** C17: session objects belong to one session and die with it *)
(** A template asking for a session object. *)
Definition session_tmpl (t : template) : Prop := forall v, In (mkA CKA_TOKEN v) t -> v = AV [0%N].
Lemma session_byte t : session_tmpl t -> tmpl_token t = Some 0%N.
Proof.
  intros S. unfold tmpl_token. destruct (find_last t CKA_TOKEN) as [[ty v]|] eqn:F; [|reflexivity]. apply last_in in F as [I E]. cbn in E. subst ty.
  cbn. rewrite (S v I). reflexivity.
Qed.
(** Object [u] is in reach of session [h]: it is what some handle names, or it is
    in one of the lists the session searches. *)
Definition in_reach (s : sys) (h : Z) (u : nat) : Prop :=
  exists x, sess_get s h = Some x /\ ((exists o, In o (within s x) /\ o_uid o = u) \/ exists ho o, find_obj s x ho = Some o /\ o_uid o = u).
Lemma in_reach_within s h u : in_reach s h u -> exists x o, sess_get s h = Some x /\ In o (within s x) /\ o_uid o = u.
Proof.
  intros (x & X & [(o & I & U) | (ho & o & F & U)]); exists x, o; (split; [exact X|]); (split; [|exact U]); [exact I|].
  unfold find_obj in F. apply find_some in F as [F _]. unfold within. apply in_or_app. destruct (on_token ho); auto.
Qed.
(** A session object, of session [h]. *)
Definition session_obj (s : sys) (h : Z) (o : obj) : Prop := exists x, sess_get s h = Some x /\ In o (ss_objs x).
(** The calls that take a session handle. *)
Definition session_of (c : op) : option Z :=
  match c with
  | OInitPIN h _ | OSetPIN h _ _ | OCloseSession h | OGetSessionInfo h | OLogin h _ _ _ | OLogout h
  | OCreateObject h _ | OCopyObject h _ _ | ODestroyObject h _ | OGetAttributeValue h _ _
  | OSetAttributeValue h _ _ | OFindObjectsInit h _ | OFindObjects h _ | OFindObjectsFinal h
  | OGenerateKey h _ _ _ | OGenerateKeyPair h _ _ _ _ | OWrapKey h _ _ _ _ _ | OUnwrapKey h _ _ _ _ _
  | ODeriveKey h _ _ _ _ | OCrypto h _ _ => Some h
  | _ => None
  end.

(** Only its session can reach a session object. *)
Theorem C17_only w d s h h' o : reach w (sys0 d) s -> session_obj s h o -> in_reach s h' (o_uid o) -> h' = h.
Proof.
  intros R (x & X & Io) J. apply in_reach_within in J as (y & p & Y & Ip & U). pose proof (reach_inv _ _ _ R) as I. destruct I as (_ & _ & Ud & _).
  apply sess_get_in in X as (X & Hx & _). apply sess_get_in in Y as (Y & Hy & _). unfold within in Ip. apply in_app_or in Ip as [Ip|Ip].
  - exfalso. exact (uid_tok_sess s x p o Ud X Ip Io U).
  - assert (y = x) by (eapply (uids_sess (s_sess s)); [apply uid_all; exact Ud|exact Y|exact X|exact Ip|exact Io|exact U]). congruence.
Qed.
Print Assumptions C17_only.
(** What is created with CKA_TOKEN false or absent is a session object of the
    calling session. *)
Theorem C17_created w d rnd s c h t s' o ho : reach w (sys0 d) s -> creator c = Some (h, t) -> session_tmpl t -> step w rnd s c = Ok (s', o) -> In ho (new_handles o) ->
  exists ob, session_obj s' h ob /\ o_handle ob = ho /\ ~ In (o_uid ob) (uids (live s)).
Proof.
  intros R Cr S H I. destruct (step_created w _ _ _ _ _ _ _ (reach_inv _ _ _ R) Cr H) as [(ho' & b & ob & Nh & Tb & Eh & A) | (Nh & _)].
  - rewrite (session_byte _ S) in Tb. injection Tb as <-. pose proof A as (F & _ & _ & x & x' & _ & X' & _ & _ & _ & E & _). exists ob. split; [exists x'; split; [exact X'|rewrite E; left; reflexivity]|].
    split; [|exact F]. destruct o; try discriminate Nh. cbn in Nh, I. destruct (_ =? _)%Z; [|contradiction]. destruct I as [<-|[]]. congruence.
  - exfalso. assert (O : objop c = Some h) by (destruct c; try discriminate Cr; injection Cr as <- _; reflexivity). pose proof (step_out _ _ _ _ _ _ _ O H) as K.
    destruct o; try contradiction; cbn in Nh, I, K; [destruct (_ =? _)%Z; [discriminate|contradiction]|]. destruct K. congruence.
Qed.
Print Assumptions C17_created.
Theorem C17_created_pair w d rnd s h m tp tq g s' rv h1 h2 : reach w (sys0 d) s -> step w rnd s (OGenerateKeyPair h m tp tq g) = Ok (s', OutH2 rv h1 h2) ->
  (session_tmpl tp -> exists ob, session_obj s' h ob /\ o_handle ob = h1 /\ ~ In (o_uid ob) (uids (live s))) /\
  (session_tmpl tq -> exists ob, session_obj s' h ob /\ o_handle ob = h2 /\ ~ In (o_uid ob) (uids (live s))).
Proof.
  intros R H. destruct (pair_created w _ _ _ _ _ _ _ _ _ (reach_inv _ _ _ R) H) as [(k1 & k2 & b1 & b2 & o1 & o2 & s1 & E & T1 & T2 & E1 & E2 & A1 & A2 & I1 & Fr) | (r & E & _)]; [|discriminate E].
  injection E as _ <- <-. pose proof A1 as (F1 & _ & _ & x & x1 & X & X1 & _ & K1). pose proof A2 as (F2 & _ & _ & x1' & x' & X1' & X' & _ & K2). assert (x1' = x1) by congruence. subst x1'. split; intros S.
  - rewrite (session_byte _ S) in T1. injection T1 as <-. destruct K1 as (_ & _ & K1 & _). exists o1. split; [|auto]. exists x'. split; [exact X'|].
    destruct (b2 =? 0)%N; [destruct K2 as (_ & _ & K2 & _); rewrite K2, K1; right; left; reflexivity|destruct K2 as (_ & _ & _ & K2 & _); rewrite K2, K1; left; reflexivity].
  - rewrite (session_byte _ S) in T2. injection T2 as <-. destruct K2 as (_ & _ & K2 & _). exists o2. split; [|auto]. exists x'. split; [exact X'|rewrite K2; left; reflexivity].
Qed.
Print Assumptions C17_created_pair.
(** Closing the session removes its objects. *)
Theorem C17_closed w d rnd s h o s' : reach w (sys0 d) s -> session_obj s h o -> step w rnd s (OCloseSession h) = Ok (s', OutRv CKR_OK) ->
  ~ In (o_uid o) (uids (live s')) /\ forall h', ~ in_reach s' h' (o_uid o).
Proof.
  intros R (x & X & Io) H. pose proof (reach_inv _ _ _ R) as I. pose proof (step_inv w _ _ _ _ _ I H) as I'.
  assert (G : ~ In (o_uid o) (uids (live s'))).
  { cbn [step] in H. unfold with_sess, need_lib in H. destruct (0 <? s_count s)%Z eqn:Cn; [|discriminate H]. rewrite X in H. unfold CloseSession in H.
    destruct (close_sess _ _) as [l| |] eqn:CL; cbn [bind] in H; try discriminate. pose proof X as X0. apply sess_get_in in X as (X & Hx & _).
    apply close_sess_ok in CL as (_ & CL & _); [|apply I; lia|exact X]. pose proof I as (_ & _ & Ud & _).
    assert (T : uids (t_objs (s_tok s')) = uids (t_objs (s_tok s)) /\ s_sess s' = l).
    { destruct (existsb in_use l); [unfold rv_ in H; injection H as <-; split; reflexivity|]. destruct (Logout _ _) as [t| |] eqn:Lo; cbn [bind] in H; try discriminate.
      unfold rv_ in H. injection H as <-. apply Logout_ok in Lo as (_ & Lo & _). split; [|reflexivity]. change (uids (t_objs t) = uids (t_objs (s_tok s))). change (s_tok (set_sess s l)) with (s_tok s) in Lo.
      unfold uids. apply tags_ident in Lo. apply (f_equal (map (fun g => fst (fst g)))) in Lo. unfold tags in Lo. rewrite !map_map in Lo. exact Lo. }
    destruct T as [T1 T2]. unfold live. rewrite uids_app, T1, T2. intros J. apply in_app_or in J as [J|J].
    - apply in_map_iff in J as (p & E & J). exact (uid_tok_sess s x p o Ud X J Io E).
    - apply in_map_iff in J as (p & E & J). assert (K : exists y, In y l /\ In p (ss_objs y)).
      { clear - J. induction l as [|y l IH]; [contradiction|]. cbn in J. apply in_app_or in J as [J|J]; [exists y; cbn; auto|]. destruct (IH J) as (z & A & B). exists z. cbn. auto. }
      destruct K as (y & Y & Ip). destruct (CL y Y) as [[Y1 Y2]|(_ & _ & Y3)]; [|rewrite Y3 in Ip; contradiction].
      apply Y2. f_equal. eapply (uids_sess (s_sess s)); [apply uid_all; exact Ud|exact Y1|exact X|exact Ip|exact Io|exact E]. }
  split; [exact G|]. intros h' J. apply in_reach_within in J as (y & p & Y & Ip & U). apply G. rewrite <- U. unfold uids, live. apply in_map. apply in_or_app.
  unfold within in Ip. apply in_app_or in Ip as [Ip|Ip]; [left; exact Ip|right]. apply sess_get_in in Y as (Y & _). eapply all_objs_in; eauto.
Qed.
Print Assumptions C17_closed.
(** Calls through other sessions leave it untouched, as do calls without session
    other than those which end all sessions. *)
Theorem C17_others w d rnd s c s' out h o : reach w (sys0 d) s -> session_obj s h o -> step w rnd s c = Ok (s', out) -> session_of c <> Some h ->
  (forall slot, c <> OCloseAllSessions slot) -> c <> OFinalize -> c <> ORestart -> session_obj s' h o.
Proof.
  intros R (x & X & Io) H N1 N2 N3 N4. exists x. split; [|exact Io]. eapply step_frame; [eapply reach_inv; exact R|exact H| | | |exact X].
  - intros E. apply N1. destruct c; try discriminate E; exact E.
  - intros ->. apply N1. reflexivity.
  - destruct c; try reflexivity; exfalso; [apply N3|apply N4|eapply N2]; reflexivity.
Qed.
Print Assumptions C17_others.
(** Two sessions, each with its own object; one is closed. *)
Definition two_sess : list op := setup ++ [OOpenSession 1 RW; OOpenSession 1 RW; OCreateObject H2 aes_tmpl; OCreateObject H1 aes_tmpl; OCreateObject H1 aes_tmpl].
Definition of_session (s : sys) (h : Z) : list nat := match sess_get s h with Some x => uids (ss_objs x) | None => [] end.
Example C17_case : session_tmpl aes_tmpl /\ forallb (fun r => r =? CKR_OK)%Z (rvs (two_sess ++ [OCloseSession H2])) = true /\
  of_session (after two_sess) H2 = [0%nat] /\ of_session (after two_sess) H1 = [2%nat; 1%nat] /\
  of_session (after (two_sess ++ [OCloseSession H2])) H2 = [] /\ of_session (after (two_sess ++ [OCloseSession H2])) H1 = [2%nat; 1%nat].
Proof. split; [intros v I; cbn in I; decompose [or] I; try discriminate; contradiction|]. vm_compute. auto. Qed.

(** ** C18: C_DestroyObject removes exactly one object *)
(** The bytes of the templates are bytes. *)
Definition byte_call (c : op) : Prop := forall t b, In t (templates c) -> In (mkA CKA_TOKEN (AV [b])) t -> (b < 256)%N.
Lemma byte_bytes c : byte_call c -> bytes_ok False c.
Proof.
  intros U t b T E. unfold tmpl_token in E. destruct (find_last t CKA_TOKEN) as [[ty v]|] eqn:F; [|injection E as <-; split; [lia|contradiction]].
  apply last_in in F as [I Ty]. cbn in Ty. subst ty. cbn in E. destruct v as [[|b1 [|? ?]]| |]; try discriminate. injection E as ->.
  split; [exact (U t b T I)|contradiction].
Qed.
Lemma run_bytes w d l : forall m s s' os, orderly w False d m s -> run w s l = Ok (s', os) -> Forall (fun c => byte_call (fst c)) l ->
  exists m', orderly w False d m' s' /\ (m' <= m + 2 * zlen l)%Z.
Proof.
  induction l as [|[c rnd] l IH]; intros m s s' os O H F; cbn [run] in H.
  - injection H as <- _. exists m. split; [exact O|unfold zlen; cbn; lia].
  - destruct (step _ _ _ _) as [[s1 o1]| |] eqn:E; cbn [bind] in H; try discriminate. destruct (run _ _ _) as [[s2 os2]| |] eqn:R; cbn [bind] in H; try discriminate. injection H as <- _.
    inversion F as [|? ? F1 F2]. subst. destruct (IH (m + uses c)%Z s1 s2 os2) as (m' & A & B); [econstructor; [exact O|exact E|apply byte_bytes; exact F1]|exact R|exact F2|].
    exists m'. split; [exact A|]. pose proof (uses_two c). unfold zlen in *. cbn [length]. lia.
Qed.

Definition without (u : nat) (l : list obj) : list obj := filter (fun o => negb (o_uid o =? u)%nat) l.
Lemma without_all u l : ~ In u (uids l) -> without u l = l.
Proof.
  unfold without. induction l as [|o l IH]; cbn; intros N; [reflexivity|]. destruct (Nat.eqb_spec (o_uid o) u); [exfalso; apply N; auto|]. cbn. f_equal. apply IH. intros J. apply N. auto.
Qed.
Lemma remove_without u l : NoDup (uids l) -> remove_uid u l = without u l.
Proof.
  induction l as [|o l IH]; cbn; intros N; [reflexivity|]. inversion N as [|? ? N1 N2]; subst. unfold without. cbn. destruct (Nat.eqb_spec (o_uid o) u) as [E|E]; cbn.
  - subst u. symmetry. apply without_all. exact N1.
  - f_equal. apply IH. exact N2.
Qed.
Lemma find_without P u l p : find P l = Some p -> o_uid p <> u -> find P (without u l) = Some p.
Proof.
  unfold without. induction l as [|o l IH]; cbn; intros F N; [discriminate|]. destruct (P o) eqn:E.
  - injection F as ->. destruct (Nat.eqb_spec (o_uid p) u); [contradiction|]. cbn. rewrite E. reflexivity.
  - destruct (negb _); [cbn; rewrite E|]; auto.
Qed.
(** What an object is, apart from the state of its stored form. *)
Definition content (o : obj) : obj := core_obj o.
Lemma find_core h a : forall b p, map core_obj a = map core_obj b -> find (fun o => o_handle o =? h)%Z a = Some p ->
  exists p', find (fun o => o_handle o =? h)%Z b = Some p' /\ content p' = content p.
Proof.
  induction a as [|o a IH]; intros [|q b] p E F; try discriminate. cbn [map] in E. assert (E1 : core_obj o = core_obj q) by exact (f_equal (hd (core_obj o)) E). assert (E2 : map core_obj a = map core_obj b) by exact (f_equal (@tl _) E). clear E.
  assert (Hh : o_handle q = o_handle o) by (change (o_handle (core_obj q) = o_handle (core_obj o)); congruence). cbn [find] in *. rewrite Hh.
  destruct (_ =? _)%Z; [|apply IH; assumption]. injection F as <-. exists q. split; [reflexivity|symmetry; exact E1].
Qed.

Definition destroyed_only (s s' : sys) (h ho : Z) : Prop :=
  exists x x' o, sess_get s h = Some x /\ find_obj s x ho = Some o /\ sess_get s' h = Some x' /\
  (* the object is gone *)
  find_obj s' x' ho = None /\ ~ In (o_uid o) (uids (live s')) /\
  (on_token ho = true -> forall h1 y, sess_get s' h1 = Some y -> find_obj s' y ho = None) /\
  (* the others are still there, *)
  map content (t_objs (s_tok s')) = map content (without (o_uid o) (t_objs (s_tok s))) /\
  map ss_h (s_sess s') = map ss_h (s_sess s) /\
  map ss_objs (s_sess s') = map (fun y => without (o_uid o) (ss_objs y)) (s_sess s) /\
  (* under their handles *)
  forall h1 y h2 p, sess_get s h1 = Some y -> find_obj s y h2 = Some p -> o_uid p <> o_uid o ->
    exists y' p', sess_get s' h1 = Some y' /\ find_obj s' y' h2 = Some p' /\ content p' = content p.

Lemma not_in_without u l : ~ In u (uids (without u l)).
Proof. intros J. apply in_map_iff in J as (o & <- & J). apply filter_In in J as [_ J]. rewrite Nat.eqb_refl in J. discriminate. Qed.
Lemma uids_core a b : map core_obj a = map core_obj b -> uids a = uids b.
Proof. intros E. apply tags_core in E. apply (f_equal (map (fun g => fst (fst g)))) in E. unfold tags in E. rewrite !map_map in E. exact E. Qed.
Lemma sess_nodup s x : uid_ok s -> In x (s_sess s) -> NoDup (uids (ss_objs x)).
Proof.
  intros U X. apply uid_all in U. induction (s_sess s) as [|y l IH]; [contradiction|]. cbn [all_objs] in U. rewrite uids_app in U. destruct X as [->|X].
  - apply NoDup_app_mid with (a := []) (c := uids (all_objs l)). exact U.
  - apply IH; [|exact X]. apply NoDup_app_mid with (a := uids (ss_objs y)) (c := []). rewrite app_nil_r. exact U.
Qed.
Lemma all_objs_of l p : In p (all_objs l) -> exists a, In a (map ss_objs l) /\ In p a.
Proof. intros J. apply in_all_objs in J as (x & X & I). exists (ss_objs x). split; [apply in_map; exact X|exact I]. Qed.
Lemma sess_get_put_other s x' h y : uniq (s_sess s) -> sess_get s h = Some y -> ss_h x' <> h -> sess_get (put_sess s x') h = Some y.
Proof.
  intros U G N. apply sess_get_in in G as (Y & Hy & Uy & Sl). subst h. apply sess_get_of; [cbn; unfold uniq; rewrite upd_sess_h; exact U| |exact Uy|exact Sl].
  cbn. apply upd_sess_other; [exact Y|congruence].
Qed.
Lemma sess_get_ext s s' h : s_sess s' = s_sess s -> sess_get s' h = sess_get s h.
Proof. intros E. unfold sess_get. rewrite E. reflexivity. Qed.
Lemma destroy_step w m rnd s h ho s' : inv s -> good False m s -> step w rnd s (ODestroyObject h ho) = Ok (s', OutRv CKR_OK) -> destroyed_only s s' h ho.
Proof.
  intros I G H.
  pose proof (step_inv w _ _ _ _ _ I H) as I'.
  cbn [step] in H. unfold with_sess, need_lib in H. destruct (0 <? s_count s)%Z eqn:Cn; [|discriminate H]. destruct (sess_get s h) as [x|] eqn:X; [|discriminate H].
  unfold need_rw in H. destruct (is_rw x) eqn:Rw; [|discriminate H]. unfold with_object in H. destruct (find_obj s x ho) as [o|] eqn:F; [|discriminate H].
  destruct (RemoveObject _ _ _ _ _ _) as [s1| |] eqn:R; cbn [bind] in H; try discriminate. unfold rv_ in H. injection H as H. subst s1.
  pose proof (good_unique False m s h x ho o G X F) as Un. pose proof I as (_ & _ & Ud & _). pose proof (inv_uniq _ I) as Uq. pose proof X as X0. apply sess_get_in in X0 as (Xi & Xh & _).
  unfold RemoveObject in R. destruct (obj_free o) as [[]| |]; cbn [bind] in R; try discriminate. pose proof F as F0. unfold find_obj in F0. destruct (on_token ho) eqn:T.
  - destruct (o_onTok o); [|discriminate R]. destruct (no_kind o); [discriminate R|]. destruct (store _ _ _) as [[c s2]| |] eqn:E; cbn [bind] in R; try discriminate. injection R as R. subst s2. apply store_frame in E as (_ & Es & _ & _ & Et).
    change (s_sess s' = s_sess s) in Es. change (map core_obj (t_objs (s_tok s')) = map core_obj (remove_uid (o_uid o) (t_objs (s_tok s)))) in Et.
    assert (Nd : NoDup (uids (t_objs (s_tok s)))) by (destruct Ud as [Nd _]; unfold live in Nd; rewrite uids_app in Nd; apply NoDup_app_mid with (a := []) (c := uids (all_objs (s_sess s))); exact Nd).
    rewrite (remove_without _ _ Nd) in Et. apply find_some in F0 as [Io Eo].
    assert (N : forall y, In y (s_sess s) -> without (o_uid o) (ss_objs y) = ss_objs y).
    { intros y Y. apply without_all. intros J. apply in_map_iff in J as (p & Ep & Ip). exact (uid_tok_sess s y o p Ud Y Io Ip (eq_sym Ep)). }
    assert (Fn : forall h1 y, sess_get s' h1 = Some y -> find_obj s' y ho = None).
    { intros h1 y _. unfold find_obj. rewrite T. destruct (find _ _) as [p|] eqn:Fp; [|reflexivity]. exfalso. destruct (find_core _ _ _ _ Et Fp) as (p' & Fp' & _).
      apply find_some in Fp' as [Ip Eh]. pose proof Ip as Iw. apply filter_In in Ip as [Ip _]. rewrite (Un p' Ip) in Iw by lia. exact (not_in_without (o_uid o) _ (in_map o_uid _ _ Iw)). }
    exists x, x, o. split; [exact X|]. split; [exact F|]. split; [rewrite (sess_get_ext _ _ _ Es); exact X|]. split; [apply (Fn h); rewrite (sess_get_ext _ _ _ Es); exact X|].
    split; [|split; [intros _; exact Fn|split; [exact Et|split; [rewrite Es; reflexivity|split]]]].
    + unfold live. rewrite uids_app, (uids_core _ _ Et), Es. intros J. apply in_app_or in J as [J|J]; [exact (not_in_without _ _ J)|]. destruct Ud as [Nd2 _]. unfold live in Nd2. rewrite uids_app in Nd2.
      assert (K : exists a b, uids (t_objs (s_tok s)) = a ++ o_uid o :: b) by (apply in_split; apply in_map; exact Io). destruct K as (a & b & K). rewrite K, <- app_assoc in Nd2. apply NoDup_remove_2 in Nd2.
      apply Nd2. apply in_or_app. right. apply in_or_app. right. exact J.
    + rewrite Es. apply map_ext_in. intros y Y. symmetry. apply N. exact Y.
    + intros h1 y h2 p Y Fp Np. rewrite <- (sess_get_ext _ s' h1 Es) in Y. unfold find_obj in Fp. destruct (on_token h2) eqn:T2.
      * apply (find_without _ (o_uid o)) in Fp; [|exact Np]. destruct (find_core h2 _ _ p (eq_sym Et) Fp) as (p' & Fp' & Ep). exists y, p'. split; [exact Y|]. unfold find_obj. rewrite T2. auto.
      * exists y, p. split; [exact Y|]. unfold find_obj. rewrite T2. auto.
  - injection R as <-. apply find_some in F0 as [Io Eo].
    assert (Nd : NoDup (uids (ss_objs x))) by (eapply sess_nodup; eauto).
    set (x' := set_sobjs x (remove_uid (o_uid o) (ss_objs x))). assert (X' : sess_get (put_sess s x') h = Some x') by (eapply sess_get_put; eauto).
    assert (Ex : ss_objs x' = without (o_uid o) (ss_objs x)) by (apply remove_without; exact Nd).
    assert (N : forall y, In y (s_sess s) -> y <> x -> without (o_uid o) (ss_objs y) = ss_objs y).
    { intros y Y Ny. apply without_all. intros J. apply in_map_iff in J as (p & Ep & Ip). apply Ny. eapply (uids_sess (s_sess s)); [apply uid_all; exact Ud|exact Y|exact Xi|exact Ip|exact Io|exact Ep]. }
    exists x, x', o. split; [exact X|]. split; [exact F|]. split; [exact X'|].
    assert (Em : map ss_objs (s_sess (put_sess s x')) = map (fun y => without (o_uid o) (ss_objs y)) (s_sess s)).
    { cbn [put_sess s_sess set_sess]. unfold upd_sess. rewrite map_map. apply map_ext_in. intros y Y. destruct (Z.eqb_spec (ss_h y) (ss_h x')) as [E|E].
      - rewrite (sess_get_same s y x Uq Y Xi E). exact Ex.
      - symmetry. apply N; [exact Y|]. intros ->. apply E. reflexivity. }
    split; [|split; [|split; [intros K; congruence|split; [|split; [|split]]]]].
    + unfold find_obj. rewrite T, Ex. destruct (find _ _) as [p|] eqn:Fp; [|reflexivity]. exfalso. apply find_some in Fp as [Ip Eh]. pose proof Ip as Iw. apply filter_In in Ip as [Ip _].
      rewrite (Un p Ip) in Iw by lia. exact (not_in_without (o_uid o) _ (in_map o_uid _ _ Iw)).
    + unfold live. rewrite uids_app. intros J. apply in_app_or in J as [J|J].
      * apply in_map_iff in J as (p & Ep & Ip). exact (uid_tok_sess s x p o Ud Xi Ip Io Ep).
      * apply in_map_iff in J as (p & Ep & Ip). apply all_objs_of in Ip as (l1 & L1 & Ip). rewrite Em in L1. apply in_map_iff in L1 as (y & <- & _). apply (not_in_without (o_uid o) (ss_objs y)). apply in_map_iff. exists p. auto.
    + cbn [put_sess s_tok set_sess]. rewrite without_all; [reflexivity|]. intros J. apply in_map_iff in J as (p & Ep & Ip). exact (uid_tok_sess s x p o Ud Xi Ip Io Ep).
    + cbn [put_sess s_sess set_sess]. eapply upd_sess_map; [exact Uq|exact Xi|reflexivity|reflexivity].
    + exact Em.
    + intros h1 y h2 p Y Fp Np. destruct (Z.eq_dec h1 h) as [->|Nh].
      * assert (y = x) by congruence. subst y. unfold find_obj in Fp. destruct (on_token h2) eqn:T2.
        -- exists x', p. split; [exact X'|]. unfold find_obj. rewrite T2. auto.
        -- exists x', p. split; [exact X'|]. unfold find_obj. rewrite T2, Ex. split; [apply find_without; assumption|reflexivity].
      * assert (Y' : sess_get (put_sess s x') h1 = Some y). { apply sess_get_put_other; [exact Uq|exact Y|]. change (ss_h x <> h1). congruence. } exists y, p. split; [exact Y'|]. split; [exact Fp|reflexivity].
Qed.
Theorem C18_destroy w d l s os rnd h ho s' : laws (w_se w) -> d (F_TOKEN, 0%nat) = None -> run w (sys0 d) l = Ok (s, os) -> (2 * zlen l < 2^28)%Z ->
  Forall (fun c => byte_call (fst c)) l -> step w rnd s (ODestroyObject h ho) = Ok (s', OutRv CKR_OK) -> destroyed_only s s' h ho.
Proof.
  intros L D Rn Lm B H. destruct (run_bytes w d l 0 (sys0 d) s os (od_0 w False d D) Rn B) as (m & O & Hm).
  pose proof (reach_inv w _ _ (orderly_reach _ _ _ _ _ O)) as I. destruct (orderly_kept w False (l_hash _ L) _ _ _ O) as [G _]; [lia|].
  eapply destroy_step; eauto.
Qed.
Print Assumptions C18_destroy.
(** A token object and a session object among others are destroyed; afterwards
    the token has its other objects, and so has the session. *)
Definition some_objs : list op :=
  setup ++ [OOpenSession 1 RW; userlogin upin; OCreateObject H2 (tokenly aes_tmpl); OCreateObject H2 (tokenly aes_tmpl); OCreateObject H2 (tokenly aes_tmpl); OCreateObject H2 aes_tmpl; OCreateObject H2 aes_tmpl].
Definition byteb (c : op) : bool :=
  forallb (forallb (fun a => negb (andb (a_type a =? CKA_TOKEN)%Z (match a_val a with AV [b] => negb (b <? 256)%N | _ => false end)))) (templates c).
Lemma byteb_ok c : byteb c = true -> byte_call c.
Proof.
  unfold byteb. intros H t b T I. rewrite forallb_forall in H. specialize (H t T). rewrite forallb_forall in H. specialize (H _ I). cbn [a_type a_val] in H.
  rewrite Z.eqb_refl in H. cbn in H. rewrite negb_involutive in H. lia.
Qed.
Example C18_case : forallb (fun r => r =? CKR_OK)%Z (rvs (some_objs ++ [ODestroyObject H2 (2^28 + 2); ODestroyObject H2 1])) = true /\
  forallb (fun c => byteb (fst c)) (numbered 1 some_objs) = true /\
  (let s := after (some_objs ++ [ODestroyObject H2 (2^28 + 2); ODestroyObject H2 1]) in map o_handle (t_objs (s_tok s)) = [2^28 + 3; 2^28 + 1]%Z /\ of_session s H2 = [4%nat]).
Proof. vm_compute. auto. Qed.
Example C18_meets : exists s', step tw (rnd 0) (after some_objs) (ODestroyObject H2 (2^28 + 2)) = Ok (s', OutRv CKR_OK) /\ destroyed_only (after some_objs) s' H2 (2^28 + 2).
Proof.
  destruct (hist some_objs) as [[s os]| |] eqn:E; [|vm_compute in E; discriminate..].
  destruct (step tw (rnd 0) (after some_objs) (ODestroyObject H2 (2^28 + 2))) as [[s1 o1]| |] eqn:E1; [|vm_compute in E1; discriminate..].
  assert (O1 : o1 = OutRv CKR_OK) by (vm_compute in E1; injection E1 as _ <-; reflexivity). subst o1.
  exists s1. split; [reflexivity|]. rewrite (hist_is _ _ _ E) in *.
  apply (C18_destroy tw nofiles (numbered 1 some_objs) s os (rnd 0) H2 (2^28 + 2)%Z s1 toy_laws eq_refl (hist_run _ _ _ E)); [vm_compute; reflexivity| |exact E1].
  apply Forall_forall. intros c I. apply byteb_ok. assert (B : forallb (fun c => byteb (fst c)) (numbered 1 some_objs) = true) by (vm_compute; reflexivity).
  rewrite forallb_forall in B. apply B. exact I.
Qed.
