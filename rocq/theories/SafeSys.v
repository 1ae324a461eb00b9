(** Careful use of the whole library has no undefined behaviour. *)
From Verif Require Import Base Codec Ops Object Store StoreSpec Sys SysProofs SysProofs2 SysProofs4 WfProofs SafeSpec SafeOps SafeObj SafeStore.

Definition ssafe (x : session) : Prop := Forall osafe (ss_objs x) /\ opsafe (ss_op x).
Definition safe (s : sys) : Prop := hsafe (s_tok s) /\ Forall tsafe (t_objs (s_tok s)) /\ Forall ssafe (s_sess s).

Lemma Forall_imp {A} (P Q : A -> Prop) l : Forall P l -> (forall a, P a -> Q a) -> Forall Q l.
Proof. intros F H. eapply Forall_impl; [|exact F]. exact H. Qed.
Lemma tsafe_osafe l : Forall tsafe l -> Forall osafe l.
Proof. intros F. eapply Forall_imp; [exact F|]. intros a (H & _). exact H. Qed.

(** ** Sessions *)
Lemma upd_sess_safe l x : Forall ssafe l -> ssafe x -> Forall ssafe (upd_sess l x).
Proof. intros F X. unfold upd_sess. apply Forall_map. eapply Forall_imp; [exact F|]. intros y Y. destruct (_ =? _)%Z; auto. Qed.
Lemma put_safe s x : safe s -> ssafe x -> safe (put_sess s x).
Proof. intros (H & T & F) X. split; [exact H|]. split; [exact T|]. apply upd_sess_safe; auto. Qed.
Lemma get_in s h x : sess_get s h = Some x -> In x (s_sess s) /\ ss_h x = h /\ in_use x = true.
Proof.
  unfold sess_get. destruct (slot_ok _); [|discriminate]. destruct (find_sess _ _) as [y|] eqn:F; [|discriminate]. apply find_some in F as [I E]. apply Z.eqb_eq in E.
  destruct (in_use y) eqn:U; [|discriminate]. intros [= <-]. auto.
Qed.
Lemma get_safe s h x : safe s -> sess_get s h = Some x -> ssafe x.
Proof. intros (_ & _ & F) G. apply get_in in G as [I _]. rewrite Forall_forall in F. auto. Qed.
Lemma obj_in s x h o : find_obj s x h = Some o -> In o (if on_token h then t_objs (s_tok s) else ss_objs x).
Proof. unfold find_obj. intros F. apply find_some in F. apply F. Qed.
Lemma obj_safe s x h o : safe s -> ssafe x -> find_obj s x h = Some o -> osafe o.
Proof.
  intros (_ & T & _) (F & _) H. apply obj_in in H. destruct (on_token h).
  - apply tsafe_osafe in T. rewrite Forall_forall in T. auto.
  - rewrite Forall_forall in F. auto.
Qed.
Lemma all_safe l : Forall ssafe l -> Forall osafe (all_objs l).
Proof. induction 1 as [|x l X F IH]; cbn; [constructor|]. apply Forall_app. split; [apply X|exact IH]. Qed.
Lemma live_safe s : safe s -> Forall osafe (live s).
Proof. intros (_ & T & F). apply Forall_app. split; [apply tsafe_osafe, T|apply all_safe, F]. Qed.
Lemma uid_found s u o : safe s -> find_uid s u = Some o -> osafe o /\ In o (live s) /\ o_uid o = u.
Proof.
  intros S H. apply find_some in H as [I E]. apply Nat.eqb_eq in E. split; [|auto]. pose proof (live_safe s S) as F. rewrite Forall_forall in F. auto.
Qed.
Lemma final_sess_safe x : ssafe x -> good ssafe (sess_final x).
Proof.
  intros (F & O). unfold sess_final. eapply good_bind; [apply free_all_safe; destruct (in_use x); auto|]. intros _ _. eapply good_bind; [apply final_safe; exact O|].
  intros p P. cbn. split; [|exact P]. cbn. destruct (in_use x); auto.
Qed.
Lemma drop_unused_safe l : Forall ssafe l -> good (Forall ssafe) (drop_unused l).
Proof.
  induction 1 as [|x l X F IH]; cbn [drop_unused]; [constructor|]. destruct (andb _ _); [|constructor; auto]. eapply good_bind; [apply final_sess_safe, X|]. intros; exact IH.
Qed.
Lemma close_sess_safe l x : Forall ssafe l -> ssafe x -> good (Forall ssafe) (close_sess l x).
Proof.
  intros F X. unfold close_sess. eapply good_bind; [apply final_sess_safe, X|]. intros x' X'. destruct l as [|y l]; [constructor|]. destruct (andb _ _).
  - apply drop_unused_safe. inversion F; auto.
  - apply upd_sess_safe; auto.
Qed.
Lemma drop_dyn_safe l : Forall ssafe l -> good (Forall ssafe) (drop_dyn l).
Proof.
  induction 1 as [|x l X F IH]; cbn [drop_dyn]; [constructor|]. destruct (_ <? _)%Z; [|constructor; auto]. eapply good_bind; [apply final_sess_safe, X|]. intros; exact IH.
Qed.
Lemma final_head_safe n : forall l, Forall ssafe l -> good (Forall ssafe) (final_head n l).
Proof.
  induction n as [|n IH]; intros l F; cbn [final_head]; [exact F|]. destruct l as [|x l]; [constructor|]. inversion F; subst. eapply good_bind; [apply final_sess_safe; assumption|]. intros x' X'. apply IH. constructor; auto.
Qed.
Lemma close_all_safe l : Forall ssafe l -> good (Forall ssafe) (close_all l).
Proof. intros F. unfold close_all. eapply good_bind; [apply drop_dyn_safe, F|]. intros l1 F1. apply final_head_safe, F1. Qed.
Lemma final_all_safe l : Forall ssafe l -> good (fun _ => True) (final_all l).
Proof. induction 1 as [|x l X F IH]; cbn [final_all]; [exact I|]. eapply good_bind; [apply final_sess_safe, X|]. intros; exact IH. Qed.

Section W.
Variable w : world.
Hypothesis L : laws (w_se w).
Hypothesis D : forall k iv c, (16 <= zlen c)%Z -> fst (se_dec (w_se w) k iv c) = 0%Z -> zlen (snd (se_dec (w_se w) k iv c)) = (zlen c - 16)%Z.
Hypothesis OK : oklaws (w_oe w).
Hypothesis Nu : (forall key iv aad asz p t u, e_gcm_enc (w_ev w) key iv aad asz p t <> Undef u) /\
            (forall key iv aad asz c t u, e_gcm_dec (w_ev w) key iv aad asz c t <> Undef u) /\
            (forall m k p r d u, e_pk_enc (w_ev w) m k p r d <> Undef u) /\
            (forall m k p r d u, e_pk_dec (w_ev w) m k p r d <> Undef u) /\
            (forall m k p r d u, e_pk_sign (w_ev w) m k p r d <> Undef u).
Hypothesis Nv : forall m k p g d u, e_pk_verify (w_ev w) m k p g d <> Undef u.
Hypothesis h32 : forall p s, length (se_hash (w_se w) p s) = 32%nat.
Notation se := (w_se w).
Notation oe := (w_oe w).

(** ** Token *)
Lemma decode_all_safe key l : Forall tsafe l -> good (fun p => Forall tsafe (snd p)) (decode_all w key l).
Proof.
  induction 1 as [|o l T F IH]; cbn [decode_all]; [constructor|]. eapply good_bind; [apply (Decode_safe se D key o T)|]. intros [c o1] [T1 _]. cbn [snd] in T1.
  destruct (negb _); [constructor; auto|]. eapply good_bind; [exact IH|]. intros [c2 r] R. constructor; auto.
Qed.
Lemma tsafe_kc o : tsafe o -> is_cert o = false -> keyclass (o_class o) (o_type o).
Proof. intros (_ & _ & E) C. destruct E as [E|[E _]]; [|exact E]. unfold is_cert in C. rewrite E in C. discriminate. Qed.
Lemma encode_all_safe key l : Forall tsafe l -> good (Forall tsafe) (encode_all w key l).
Proof.
  induction 1 as [|o l T F IH]; cbn [encode_all]; [constructor|]. eapply good_bind; [apply (Encode_safe se L D key true o); [apply T|apply tsafe_kc, T]|].
  intros [c o1] (S1 & A1 & E1). cbn [snd] in *. assert (T1 : tsafe o1) by (split; [exact S1|split; [destruct A1 as (_ & _ & _ & -> & _); apply T|exact E1]]).
  destruct (negb _); [constructor; auto|]. eapply good_bind; [exact IH|]. intros r R. constructor; auto.
Qed.
Definition tk (t : token) : Prop := hsafe t /\ Forall tsafe (t_objs t).
Lemma lock_pinv p n q : lock_check p n = Some q -> pinv p -> pinv q.
Proof. unfold lock_check. destruct (_ =? _)%Z; [destruct (_ <? _)%Z; [|discriminate]|]; intros [= <-]; auto. Qed.
Lemma fail_pinv p n k : pinv p -> pinv (count_fail p n k).
Proof. unfold count_fail. destruct (_ =? _)%Z; auto. Qed.
Lemma UserLogin_safe t a now : tk t -> good (fun p => tk (snd p)) (UserLogin w t a now).
Proof.
  intros T. unfold UserLogin. destruct now as [n|]; [|exact T]. destruct (logged_in _); [exact T|]. destruct (lock_check (t_user t) n) as [p|] eqn:K; [|exact T].
  destruct T as ((H1 & H2 & H3 & H4) & F). pose proof (lock_pinv _ _ _ K H3) as P. cbv zeta.
  destruct (_ =? _)%Z; [split; [|exact F]; unfold hsafe; cbn; auto using fail_pinv|]. destruct (_ =? _)%Z.
  - eapply good_bind; [apply decode_all_safe; exact F|]. intros [c l] Fl. cbn [snd] in Fl. assert (Q : pinv (reset_fail p)) by exact P.
    destruct (_ =? _)%Z; (split; [|exact Fl]); unfold hsafe; cbn; auto.
  - split; [|exact F]. unfold hsafe; cbn; auto.
Qed.
Lemma SOLogin_safe l t a now : tk t -> tk (snd (SOLogin w l t a now)).
Proof.
  intros T. unfold SOLogin. destruct now as [n|]; [|exact T]. destruct (logged_in _); [exact T|]. destruct (lock_check (t_so t) n) as [p|] eqn:K; [|exact T].
  destruct T as ((H1 & H2 & H3 & H4) & F). pose proof (lock_pinv _ _ _ K H2) as P. cbv zeta. assert (Q : pinv (reset_fail p)) by exact P.
  destruct (existsb _ _); [split; [|exact F]; unfold hsafe; cbn; auto|].
  destruct (_ =? _)%Z; [split; [|exact F]; unfold hsafe; cbn; auto using fail_pinv|]. destruct (_ =? _)%Z; (split; [|exact F]); unfold hsafe; cbn; auto.
Qed.
Lemma Logout_safe t : tk t -> good tk (Logout w t).
Proof.
  intros (H & F). unfold Logout. destruct (orb _ _); [|split; [exact H|exact F]]. eapply good_bind; [apply encode_all_safe, F|]. intros l Fl. split; [exact H|exact Fl].
Qed.
Notation spost s := (fun p : Z * sys => safe (snd p) /\ s_sess (snd p) = s_sess s /\ length (t_objs (s_tok (snd p))) = length (t_objs (s_tok s))).
Lemma store_safe rnd s : safe s -> good (spost s) (store w rnd s).
Proof.
  intros (H & T & F). unfold store. eapply good_bind; [apply (Token_Store_safe se L D); assumption|]. intros [[c t] ws] (H1 & T1 & A & _). cbn [fst snd] in *. cbn [good snd].
  split; [split; [exact H1|split; [exact T1|exact F]]|]. split; [reflexivity|]. symmetry. cbn. clear - A. induction A; cbn; auto.
Qed.
Lemma SetSOPin_safe rnd s new : safe s -> good (fun p => safe (snd p)) (SetSOPin w rnd s new).
Proof.
  intros ((H1 & H2 & H3 & H4) & T & F). unfold SetSOPin. eapply good_imp; [apply store_safe|intros p (P & _); exact P]. split; [|split; [exact T|exact F]].
  split; [exact H1|]. split; [apply (hash_pinv w h32), rbytes_len|]. split; [exact H3|exact H4].
Qed.
Lemma SetUserPin_safe rnd s new : safe s -> good (fun p => safe (snd p)) (SetUserPin w rnd s new).
Proof.
  intros ((H1 & H2 & H3 & H4) & T & F). unfold SetUserPin. eapply good_imp; [apply store_safe|intros p (P & _); exact P]. split; [|split; [exact T|exact F]].
  split; [exact H1|]. split; [exact H2|]. split; [apply (hash_pinv w h32), rbytes_len|apply rbytes_len].
Qed.

(** ** Adding objects *)
Definition xpost (s : sys) (x : session) (p : Z * Z * sys) : Prop := safe (snd p) /\ (zlen (t_objs (s_tok (snd p))) <= zlen (t_objs (s_tok s)) + 1)%Z /\
  (s_sess (snd p) = s_sess s \/ exists o, s_sess (snd p) = upd_sess (s_sess s) (set_sobjs x (o :: ss_objs x))).
Lemma AddToSession_safe rnd s x b o : safe s -> ssafe x -> osafe o -> (b = 0%N \/ (N.odd b = true /\ keyclass (o_class o) (o_type o))) ->
  good (xpost s x) (AddToSession w rnd s x b o).
Proof.
  intros S X O B. unfold AddToSession. cbv zeta.
  assert (Y : xpost s x (OBJ_COUNT_E, 0%Z, s)) by (split; [exact S|split; [cbn [snd]; lia|auto]]).
  assert (O1 : osafe (set_onTok o (N.odd b))) by exact O.
  destruct (N.eqb_spec b 0) as [Eb|Eb].
  - destruct (_ <=? _)%Z; [exact Y|]. cbn [good snd]. split; [|split; [apply Z.le_succ_diag_r|right; eexists; reflexivity]]. apply put_safe; [exact S|]. split; [|apply X]. cbn. constructor; [exact O1|apply X].
  - destruct B as [B|[B1 B2]]; [contradiction|]. destruct (_ <=? _)%Z; [exact Y|].
    eapply good_bind; [apply (Encode_safe se L D (t_key (s_tok s)) false _ O1); intros _; exact B2|]. intros [c o2] (S2 & A2 & E2). cbn [snd] in *.
    destruct (negb _). { split; [exact S|]. split; [apply Z.le_succ_diag_r|auto]. }
    assert (T2 : forall h, tsafe (set_handle o2 h)).
    { intros h. split; [exact S2|]. split; [|exact E2]. cbn. destruct A2 as (_ & _ & _ & -> & _). exact B1. }
    destruct S as (H & T & F). eapply good_bind; [apply store_safe; split; [exact H|]; split; [constructor; [apply T2|exact T]|exact F]|].
    intros [c2 s1] (P1 & P2 & P3). cbn [good snd] in *. split; [exact P1|]. split; [|left; exact P2]. unfold zlen. cbn [snd]. rewrite P3. cbn [set_tok set_objs s_tok t_objs length]. lia.
Qed.
Lemma AddObject_safe rnd s x t o : safe s -> ssafe x -> osafe o -> placed (o_class o) (o_type o) t -> good (xpost s x) (AddObject w rnd s x t o).
Proof.
  intros S X O P. unfold AddObject. destruct (tmpl_token t) as [b|] eqn:T; [|split; [exact S|split; [cbn [snd]; lia|auto]]].
  eapply good_bind; [apply AddToSession_safe; auto|]. intros [[c h] s1] H. exact H.
Qed.
(** Adding succeeds where there is room and the key can be encoded. *)
Lemma Add_ok rnd s x t o b : tmpl_token t = Some b -> (zlen (t_objs (s_tok s)) < TOK_OBJ_MAX)%Z -> (zlen (ss_objs x) < SESS_OBJ_MAX)%Z ->
  (forall c o', Encode se (t_key (s_tok s)) false (set_onTok o (N.odd b)) = Ok (c, o') -> c = 0%Z) ->
  forall rv h s', AddObject w rnd s x t o = Ok (rv, h, s') -> rv = CKR_OK.
Proof.
  intros T R1 R2 E rv h s'. unfold AddObject. rewrite T. unfold AddToSession. cbv zeta. destruct (b =? 0)%N.
  - destruct (Z.leb_spec SESS_OBJ_MAX (zlen (ss_objs x))); [lia|]. cbn. intros [= <- _ _]. reflexivity.
  - destruct (Z.leb_spec TOK_OBJ_MAX (zlen (t_objs (s_tok s)))); [lia|]. destruct (Encode se (t_key (s_tok s)) false (set_onTok o (N.odd b))) as [[c o2]| |]; cbn [bind]; try discriminate.
    rewrite (E _ _ eq_refl). cbn -[store]. match goal with |- context [store w rnd ?a] => destruct (store w rnd a) as [[? ?]| |] end; cbn; try discriminate. intros [= <- _ _]. reflexivity.
Qed.
(** The session after adding. *)
Lemma get_put s h x y : sess_get s h = Some x -> ss_h y = ss_h x -> ss_use y = ss_use x -> forall s', s_sess s' = upd_sess (s_sess s) y -> sess_get s' h = Some y.
Proof.
  intros G Ey Eu s' E. unfold sess_get in *. destruct (slot_ok _); [|discriminate]. rewrite E. unfold find_sess, upd_sess in *. clear E.
  assert (Gx : exists z, find (fun z => (ss_h z =? h)%Z) (s_sess s) = Some z /\ z = x /\ in_use x = true).
  { destruct (find _ _) as [z|]; [|discriminate]. exists z. destruct (in_use z) eqn:U; [|discriminate]. injection G as ->. auto. }
  destruct Gx as (z & F & -> & U). assert (Hx : ss_h x = h) by (apply find_some in F as [_ F]; apply Z.eqb_eq in F; exact F). clear G.
  assert (X : find (fun z => (ss_h z =? h)%Z) (map (fun z => if (ss_h z =? ss_h y)%Z then y else z) (s_sess s)) = Some y).
  { assert (Hy : ss_h y = h) by congruence. rewrite Hy. clear - F Hy. induction (s_sess s) as [|a l IH]; [discriminate|]. cbn in F |- *. destruct (ss_h a =? h)%Z eqn:A.
    - rewrite Hy, Z.eqb_refl. reflexivity.
    - rewrite A. apply IH, F. }
  rewrite X. unfold in_use in *. rewrite Eu, U. reflexivity.
Qed.

(** ** Searching *)
Lemma match_safe o t : osafe o -> given t -> (forall a, In a t -> readable oe o a) -> good (fun _ => True) (match_all w o t).
Proof.
  intros S. induction t as [|a t IH]; intros G R; cbn [match_all]; [exact I|]. destruct (G a (or_introl eq_refl)) as (b & E).
  eapply good_bind; [apply (Match_safe oe OK o a b E S); apply R; left; reflexivity|]. intros m _. destruct m; [|exact I]. apply IH; intros ? J; [apply G|apply R]; right; exact J.
Qed.
Lemma find_loop_safe tok t l : Forall osafe l -> given t -> (forall o a, In o l -> visible tok o = true -> In a t -> readable oe o a) -> forall acc, good (fun _ => True) (find_loop w tok t l acc).
Proof.
  intros F G. induction F as [|o l S F IH]; intros R acc; cbn [find_loop]; [exact I|].
  assert (R' : forall o a, In o l -> visible tok o = true -> In a t -> readable oe o a) by (intros; apply R; auto; right; auto).
  destruct (visible tok o) eqn:Vs; [|apply IH, R']. eapply good_bind; [apply match_safe; auto; intros; apply R; auto; left; auto|]. intros m _. destruct m; [|apply IH, R']. destruct (_ =? _)%nat; [exact I|apply IH, R'].
Qed.
Lemma loops_no l : Forall tsafe l -> loops l = false.
Proof. intros F. unfold loops. apply Forall_rev in F. destruct F as [|o r (_ & T & _) _]; [reflexivity|]. rewrite T. reflexivity. Qed.
Lemma Find_safe tok x b t : Forall tsafe (t_objs tok) -> Forall osafe (ss_objs x) -> given t -> (forall o a, In o (t_objs tok ++ ss_objs x) -> visible tok o = true -> In a t -> readable oe o a) ->
  good (fun _ => True) (Find w tok x b t).
Proof.
  intros T F G R. unfold Find. eapply good_bind; [apply find_loop_safe; auto; intros; apply R; auto; apply in_or_app; auto|]. intros [acc full] _. destruct (orb _ _); [exact I|].
  eapply good_bind; [|intros; exact I]. cbn [find_tok]. eapply good_bind; [apply find_loop_safe; auto using tsafe_osafe; intros; apply R; auto; apply in_or_app; auto|]. intros [acc1 f1] _.
  destruct f1; [exact I|]. rewrite loops_no by exact T. exact I.
Qed.
Lemma in_all x l : In x l -> forall o, In o (ss_objs x) -> In o (all_objs l).
Proof. induction l as [|y l IH]; [intros []|]. intros [->|H] o O; cbn; apply in_or_app; auto. Qed.

(** ** Crypto operations *)
Lemma view_safe o : osafe o -> is_cert o = false -> good (fun k => ko_data k = key_of o) (view w o).
Proof.
  intros S C. unfold view. rewrite is_sym_type. pose proof (osafe_d o S) as Ds. rewrite C in Ds. destruct (types o C S) as [T|[T|[T|T]]].
  - rewrite T in *. cbn -[as_rsa key_of]. eapply good_bind; [apply rsa_view; assumption|]. intros r _. cbn in Ds |- *. unfold key_of. destruct (o_data o); try contradiction; reflexivity.
  - rewrite T in *. cbn -[as_ec key_of]. eapply good_bind; [apply ec_view; assumption|]. intros r _. cbn in Ds |- *. unfold key_of. destruct (o_data o); try contradiction; reflexivity.
  - rewrite T in *. cbn in Ds |- *. unfold key_of. destruct (o_data o); try contradiction; reflexivity.
  - assert (X : (o_type o =? CKK_RSA)%Z = false /\ (o_type o =? CKK_EC)%Z = false) by (apply sym_cases in T as [->| ->]; auto).
    destruct X as (X1 & X2). rewrite X1, X2, T. pose proof (sym_view o C T S) as V. unfold as_sym in *. destruct (o_data o) eqn:E; try contradiction; cbn [bind good fst snd] in *.
    + eapply good_bind; [apply take_good; exact V|]. intros d [-> _]. cbn. unfold key_of. rewrite E. cbn. reflexivity.
    + eapply good_bind; [apply take_good; exact V|]. intros d [-> _]. cbn. unfold key_of. rewrite E. reflexivity.
Qed.
Definition xs (p : session * outc) (x : session) : Prop := ssafe (fst p) /\ ss_objs (fst p) = ss_objs x /\ ss_h (fst p) = ss_h x /\ ss_use (fst p) = ss_use x.
Lemma run_init_safe s x c o m mp : ssafe x -> osafe o -> is_cert o = false -> init_of c = Some (m, mp) -> fit (w_ev w) (ss_op x) m mp (key_of o) ->
  good (fun p => xs p x) (run_init w s x c o).
Proof.
  intros (X1 & X2) S C Ic Fit. unfold run_init. eapply good_bind; [apply view_safe; assumption|]. intros ko K.
  eapply good_bind; [eapply (init_safe (w_ev w) _ _ _ m mp Ic X2)|].
  - intros u k E. destruct (_ =? _)%nat; [|discriminate]. injection E as <-. rewrite K. exact Fit.
  - intros [p r] P. cbn [fst] in P. cbn [good]. split; [split; [exact X1|exact P]|auto].
Qed.
Lemma run_cont_safe s x c : safe s -> ssafe x -> init_of c = None -> fed (ss_op x) c ->
  (forall u, os_curr (ss_op x) = Some u -> (os_init (ss_op x) <> 0%Z -> find_uid s u <> None) /\ (forall o, find_uid s u = Some o -> is_cert o = false)) ->
  good (fun p => xs p x) (run_cont w s x c).
Proof.
  intros S (X1 & X2) Ic Fd K. unfold run_cont.
  eapply (good_bind (fun ko => forall u, os_curr (ss_op x) = Some u -> os_init (ss_op x) <> 0%Z -> ko <> None)).
  - destruct (os_curr (ss_op x)) as [u|] eqn:E; [|cbn; congruence]. destruct (K u eq_refl) as [K1 K2]. destruct (find_uid s u) as [o|] eqn:Fu.
    + eapply good_bind; [apply view_safe; [eapply uid_found; eauto|apply K2; reflexivity]|]. intros k _. cbn. discriminate.
    + cbn. intros v [= <-] N. exfalso. apply (K1 N). reflexivity.
  - intros ko H. eapply good_bind; [apply (use_safe (w_ev w) _ Nu Nv); auto|]. intros [p r] P. cbn [fst] in P. cbn [good]. split; [split; [exact X1|exact P]|auto].
Qed.
(** A padded CBC operation just started uses the key it was given. *)
Lemma cbc_curr ev objs st c u mp p r : c = KEncryptInit M_AES_CBC_PAD mp u \/ c = KDecryptInit M_AES_CBC_PAD mp u -> Ops.step ev objs st c = Ok (p, r) -> o_rv r = CKR_OK ->
  os_curr p = Some u /\ os_mech p = M_AES_CBC_PAD.
Proof.
  intros C E R. assert (X : exists i, exists ko, cbc_init ev st M_AES_CBC_PAD u ko mp i = (p, CKR_OK)).
  { destruct C as [-> | ->]; cbn [Ops.step] in E; unfold init_call in E; (destruct (objs u) as [ko|]; [|injection E as _ <-; discriminate R]); cbn in E;
    match type of E with context [cbc_init _ _ _ _ _ _ ?i] => exists i end; exists ko; destruct (cbc_init _ _ _ _ _ _ _) as [p' rv]; cbn in E; injection E as <- <-; cbn in R; congruence. }
  destruct X as (i & ko & X). unfold cbc_init in X. destruct (negb _); [discriminate|]. destruct mp; try discriminate. destruct (negb _); [discriminate|]. destruct (SetCbcParams _ _ _) as [[] q]; [|discriminate]. injection X as <-. cbn. auto.
Qed.
Lemma run_init_curr s x c o m mp x1 r : m = M_AES_CBC_PAD -> c = KEncryptInit m mp (o_uid o) \/ c = KDecryptInit m mp (o_uid o) -> run_init w s x c o = Ok (x1, r) -> o_rv r = CKR_OK ->
  os_curr (ss_op x1) = Some (o_uid o) /\ os_mech (ss_op x1) = M_AES_CBC_PAD.
Proof.
  intros -> C E R. unfold run_init in E. destruct (view w o) as [ko| |]; cbn [bind] in E; try discriminate. destruct (Ops.step _ _ _ _) as [[p q]| |] eqn:St; cbn [bind] in E; try discriminate. injection E as <- <-.
  exact (cbc_curr _ _ _ _ _ _ _ _ C St R).
Qed.
Lemma uid_same s o u : inv s -> In o (live s) -> find_uid s (o_uid o) = Some u -> u = o.
Proof.
  intros (_ & _ & (N & _) & _) I F. apply find_some in F as [J E]. apply Nat.eqb_eq in E. unfold uids in N. clear - N I J E. induction (live s) as [|y l IH]; [contradiction|].
  cbn in N. inversion N as [|? ? N1 N2]; subst. destruct I as [->|I], J as [->|J]; auto.
  - exfalso. apply N1. rewrite <- E. apply in_map, J.
  - exfalso. apply N1. rewrite E. apply in_map, I.
Qed.
Lemma found_live s x h o : In x (s_sess s) -> find_obj s x h = Some o -> In o (live s).
Proof. intros X F. apply obj_in in F. unfold live. apply in_or_app. destruct (on_token h); [auto|right; eapply in_all; eauto]. Qed.
Lemma uid_some s o : In o (live s) -> find_uid s (o_uid o) <> None.
Proof. intros I F. apply (find_none _ _ F) in I. rewrite Nat.eqb_refl in I. discriminate. Qed.
Lemma cert_no o : ~ cert o <-> is_cert o = false.
Proof. unfold cert, is_cert. rewrite Z.eqb_neq. tauto. Qed.

(** ** The calls *)
Notation post := (fun p : sys * out => safe (fst p)).
Lemma lib_safe s k : safe s -> good post k -> good post (need_lib s k).
Proof. intros S K. unfold need_lib. destruct (_ <? _)%Z; [exact K|exact S]. Qed.
Lemma slot_safe s i k : safe s -> good post k -> good post (with_slot s i k).
Proof. intros S K. unfold with_slot. apply lib_safe; [exact S|]. destruct (slot_ok i); [exact K|exact S]. Qed.
Lemma sess_safe s h k : safe s -> (forall x, sess_get s h = Some x -> good post (k x)) -> good post (with_sess s h k).
Proof. intros S K. unfold with_sess. apply lib_safe; [exact S|]. destruct (sess_get s h); [apply K; reflexivity|exact S]. Qed.
Lemma rw_safe s x k : safe s -> good post k -> good post (need_rw s x k).
Proof. intros S K. unfold need_rw. destruct (is_rw x); [exact K|exact S]. Qed.
Lemma object_safe s x h e k : safe s -> (forall o, find_obj s x h = Some o -> good post (k o)) -> good post (with_object s x h e k).
Proof. intros S K. unfold with_object. destruct (find_obj s x h); [apply K; reflexivity|exact S]. Qed.
Lemma tok_safe s t : safe s -> tk t -> safe (set_tok s t).
Proof. intros (_ & _ & F) (H & T). split; [exact H|split; [exact T|exact F]]. Qed.
Lemma safe_tk s : safe s -> tk (s_tok s).
Proof. intros (H & T & _). split; auto. Qed.
Lemma bump_safe s n : safe s -> safe (bump s n).
Proof. auto. Qed.
Lemma new_sess_safe l : Forall ssafe l -> Forall ssafe (add_sess l).
Proof. intros F. constructor; [|exact F]. split; [constructor|apply opsafe_zero]. Qed.
Lemma fresh_safe c d l u : safe (mkSys c [] tok_fresh d l u).
Proof. destruct fresh_ginv as (H1 & H2 & H3 & H4 & _). split; [unfold hsafe; auto|]. split; constructor. Qed.

Lemma Initialize_safe s : safe s -> (s_count s = 0%Z -> files_ok w s) -> good post (Initialize w s).
Proof.
  intros S Fo. unfold Initialize. destruct (Z.eqb_spec (s_count s) 0) as [E|E]; [|exact S]. specialize (Fo E). pose proof (Token_Load_safe w (s_fs s) (s_uid s)) as G.
  destruct (Token_Load se (s_fs s) (s_uid s)) as [t| |] eqn:T; cbn [bind]; try exact G. cbn [good] in G. destruct G as [G1 G2]. specialize (Fo _ _ T).
  cbn [good]. split; [exact G2|]. split; [|apply new_sess_safe, new_sess_safe; constructor]. cbn. rewrite Forall_forall in *. intros o J. destruct (Fo o J) as [F1 F2]. split; [auto|split; auto].
Qed.
Lemma Finalize_safe rnd s : safe s -> good post (Finalize w rnd s).
Proof.
  intros S. unfold Finalize. destruct (_ =? _)%Z; [|exact S]. eapply good_bind; [apply store_safe, S|]. intros [c s1] (S1 & _). cbn [snd] in S1.
  eapply good_bind; [apply final_all_safe, S1|]. intros _ _. eapply good_bind; [apply free_all_safe, tsafe_osafe, S1|]. intros _ _. apply fresh_safe.
Qed.
Lemma InitToken_safe rnd s pin label : safe s -> (32 <= zlen label)%Z -> good post (InitToken w rnd s pin label).
Proof.
  intros S Ll. unfold InitToken. cbv zeta. destruct (negb _); [exact S|]. destruct (andb _ _); [exact S|]. destruct (andb _ _); [exact S|].
  eapply (good_bind (fun p => safe (snd p))); [|intros [c s1] P; exact P]. unfold TokenReset. eapply good_bind; [apply free_all_safe, tsafe_osafe, S|]. intros _ _.
  destruct (Z.ltb_spec (zlen label) 32); [lia|]. apply SetSOPin_safe. apply tok_safe; [exact S|]. destruct fresh_ginv as (_ & H2 & H3 & H4 & _).
  split; [|constructor]. split; [|split; [exact H2|split; [exact H3|exact H4]]]. cbn [tok_init t_label]. rewrite firstn_length. unfold zlen in Ll. lia.
Qed.
Lemma InitPIN_safe rnd s x pin : safe s -> good post (InitPIN w rnd s x pin).
Proof. intros S. unfold InitPIN. destruct (negb _); [exact S|]. destruct (negb _); [exact S|]. eapply good_bind; [apply SetUserPin_safe, S|]. intros [c s1] P. exact P. Qed.
Lemma SetPIN_safe rnd s x old new : safe s -> good post (SetPIN w rnd s x old new).
Proof.
  intros S. unfold SetPIN. cbv zeta. destruct (negb _); [exact S|]. destruct (negb _); [exact S|]. destruct (negb _); [exact S|]. destruct (_ =? PIN_NOT_SET_E)%Z; [exact S|]. destruct (negb _); [exact S|].
  eapply (good_bind (fun p => safe (snd p))); [|intros [c s1] P; exact P]. destruct (_ =? _)%Z; [apply SetSOPin_safe, S|apply SetUserPin_safe, S].
Qed.
Lemma OpenSession_safe s flags : safe s -> good post (OpenSession s flags).
Proof.
  intros S. unfold OpenSession. cbv zeta. destruct (_ =? _)%Z; [exact S|]. destruct (andb _ _); [exact S|]. destruct (first_unused (s_sess s)) as [x|] eqn:F.
  - cbn [good fst]. apply find_some in F as [J _]. apply put_safe; [exact S|]. destruct S as (_ & _ & S). rewrite Forall_forall in S. exact (S x J).
  - destruct (match s_sess s with [] => _ | _ => _ end); [exact S|]. cbn [good fst]. destruct S as (H & T & F2). apply put_safe; [split; [exact H|split; [exact T|apply new_sess_safe, F2]]|]. split; [constructor|apply opsafe_zero].
Qed.
Lemma CloseSession_safe s x : safe s -> ssafe x -> good post (CloseSession w s x).
Proof.
  intros S X. unfold CloseSession. eapply good_bind; [apply close_sess_safe; [apply S|exact X]|]. intros l F. cbv zeta.
  assert (S1 : safe (set_sess s l)) by (destruct S as (H & T & _); split; [exact H|split; [exact T|exact F]]).
  destruct (existsb _ _); [exact S1|]. eapply good_bind; [apply Logout_safe, safe_tk, S1|]. intros t T. apply tok_safe; auto.
Qed.
Lemma Login_safe s ut pin now : safe s -> good post (Login w s ut pin now).
Proof.
  intros S. unfold Login. destruct (negb _); [exact S|]. destruct (_ =? _)%Z.
  { pose proof (SOLogin_safe (s_sess s) (s_tok s) pin now (safe_tk s S)) as G. destruct (SOLogin _ _ _ _ _) as [c t]. apply tok_safe; auto. }
  destruct (_ =? _)%Z; [|destruct (_ =? _)%Z; exact S]. eapply good_bind; [apply UserLogin_safe, safe_tk, S|]. intros [c t] T. apply tok_safe; auto.
Qed.
Lemma made_parts t u ty cls o : made t u ty cls o -> osafe o /\ o_type o = ty /\ o_class o = cls.
Proof. intros (A & _ & B & C & _). auto. Qed.
Lemma Create_safe rnd s x t : safe s -> ssafe x -> create_ok t -> good post (Create w rnd s x t).
Proof.
  intros S X C. unfold Create. eapply good_bind; [apply (CreateObject_safe oe OK (is_rw x) (s_uid s) t C)|]. intros [rv [o|]] H; cbv zeta; [|exact S]. destruct (H o eq_refl) as (cls & ty & A & M).
  apply made_parts in M as (M1 & M2 & M3). eapply good_bind; [apply (AddObject_safe rnd (bump s 1) x t o S X M1)|].
  - rewrite M2, M3. apply (C _ _ A).
  - intros [[c h] s2] P. apply P.
Qed.
Lemma Copy_safe rnd s x src t : safe s -> ssafe x -> osafe src -> is_cert src = false -> given t -> (forall a, In a t -> readable oe src a) ->
  (o_type src = CKK_EC -> has t CKA_EC_POINT -> has t CKA_EC_PARAMS) -> placed (o_class src) (o_type src) t ->
  (forall b, tmpl_token t = Some b -> b <> 0%N -> o_type src = CKK_RSA \/ o_type src = CKK_EC -> has t CKA_CLASS) -> good post (Copy w rnd s x src t).
Proof.
  intros S X So C G R Pt Pl Hc. unfold Copy. eapply good_bind; [apply (CopyObject_safe oe OK (is_rw x) (s_uid s) src t So C G R Pt)|].
  intros [[rv t1] [[b o]|]] H; cbv zeta; [|exact S]. destruct (H b o eq_refl) as (T & O & _ & Ty & _ & Cl).
  eapply good_bind; [apply (AddToSession_safe rnd (bump s 1) x b o S X O)|intros [[c h] s2] P; apply P].
  destruct (Pl b T) as [B|[B1 B2]]; [auto|]. right. split; [exact B1|]. intros Q. rewrite Ty in Q.
  assert (Nb : b <> 0%N) by (intros ->; discriminate). specialize (Cl (Hc b T Nb Q)). rewrite Cl. exact (B2 Q).
Qed.
Lemma osafe_kind o : osafe o -> no_kind o = false.
Proof.
  intros (_ & _ & _ & _ & _ & _ & Dd). unfold no_kind, key_kind, is_sym. unfold dsafe in Dd. destruct (is_cert o); [reflexivity|].
  destruct (o_type o =? CKK_RSA)%Z; [reflexivity|]. destruct (o_type o =? CKK_EC)%Z; [reflexivity|]. destruct (o_type o =? CKK_DH)%Z; [reflexivity|].
  destruct (orb _ _); [reflexivity|destruct Dd].
Qed.
Lemma Remove_safe rnd s x h o : safe s -> ssafe x -> find_obj s x h = Some o -> good safe (RemoveObject w rnd s x h o).
Proof.
  intros S X F. unfold RemoveObject. eapply good_bind; [apply free_safe; eapply obj_safe; eauto|]. intros _ _. apply obj_in in F. destruct (on_token h) eqn:E.
  - destruct S as (H & T & Fs). assert (To : o_onTok o = true) by (rewrite Forall_forall in T; apply (T o F)). rewrite To. rewrite (osafe_kind o) by (rewrite Forall_forall in T; apply (T o F)). cbv zeta.
    eapply good_bind; [apply store_safe; split; [exact H|split; [|exact Fs]]|intros [c s1] (P & _); exact P]. cbn. clear - T. induction T as [|y l Y T IH]; cbn; [constructor|]. destruct (_ =? _)%nat; [exact T|constructor; auto].
  - cbn [good]. apply put_safe; [exact S|]. destruct X as [X1 X2]. split; [|exact X2]. cbn. clear - X1. induction X1 as [|y l Y T IH]; cbn; [constructor|]. destruct (_ =? _)%nat; [exact T|constructor; auto].
Qed.
Lemma upd_safe (P : obj -> Prop) l o : Forall P l -> P o -> Forall P (upd_objs l o).
Proof. intros F Q. unfold upd_objs. apply Forall_map. eapply Forall_imp; [exact F|]. intros y Y. destruct (_ =? _)%nat; auto. Qed.
Lemma Set_safe rw s x h o t : inv s -> safe s -> In x (s_sess s) -> find_obj s x h = Some o -> apt (o_class o) (o_type o) t ->
  good post ('(rv, o1) <- SetAttributeValue oe rw o t ;; rv_ (put_obj s o1) rv).
Proof.
  intros I0 S X F A. assert (Xs : ssafe x) by (destruct S as (_ & _ & S); rewrite Forall_forall in S; auto).
  eapply good_bind; [apply (SetAV_safe oe OK rw o t (obj_safe _ _ _ _ S Xs F)); intros _; exact (apt_okt _ _ _ A)|].
  intros [rv o1]. cbn [fst snd]. intros (S1 & (K1 & K2 & K3 & K4) & _ & Q & _). cbn [good fst rv_].
  assert (Cl : o_class o1 = o_class o) by (destruct Q as [Q|(b & J & Q)]; [exact Q|rewrite Q; apply (apt_class _ _ _ A b J)]).
  pose proof (found_live _ _ _ _ X F) as Lv. apply obj_in in F. destruct S as (H & T & Fs). split; [exact H|]. split; cbn [put_obj set_sess set_tok set_objs s_tok t_objs s_sess].
  - destruct (on_token h).
    + apply upd_safe; [exact T|]. rewrite Forall_forall in T. destruct (T o F) as (_ & T2 & T3). split; [exact S1|]. split; [congruence|]. unfold encoded_ok in *. rewrite Cl, K2, K4. exact T3.
    + rewrite upd_absent; [exact T|]. rewrite K1. intros J. destruct I0 as (_ & _ & [ND _] & _). unfold live in ND. rewrite uids_app in ND.
      apply (NoDup_app_disj _ _ _ ND (o_uid o) J). apply in_map. eapply in_all; eauto.
  - apply Forall_map. eapply Forall_imp; [exact Fs|]. intros y [Y1 Y2]. split; [|exact Y2]. cbn. apply upd_safe; auto.
Qed.
Lemma FindInit_safe s x t : safe s -> In x (s_sess s) -> given t -> (forall o a, In o (t_objs (s_tok s) ++ ss_objs x) -> visible (s_tok s) o = true -> In a t -> readable oe o a) -> good post (FindInit w s x t).
Proof.
  intros S X G R. assert (Xs : ssafe x) by (destruct S as (_ & _ & S); rewrite Forall_forall in S; auto).
  unfold FindInit. cbv zeta. destruct (ss_find x); [exact S|].
  assert (Y : forall b, good post (l <- Find w (s_tok s) x b t;; rv_ (put_sess s (set_find x true l 0)) CKR_OK)).
  { intros b. eapply good_bind; [apply Find_safe; [apply S|apply Xs|exact G|exact R]|].
    intros l _. apply put_safe; [exact S|exact Xs]. }
  destruct (find_last t CKA_TOKEN); [|apply Y]. destruct (tmpl_token t); [apply Y|]. apply put_safe; [exact S|exact Xs].
Qed.
Lemma GenKey_safe rnd s x t key : safe s -> ssafe x -> apt CKO_SECRET_KEY CKK_AES t -> placed CKO_SECRET_KEY CKK_AES t -> good post (GenKey w rnd s x t key).
Proof.
  intros S X A P. unfold GenKey. eapply good_bind; [apply (NewObject_safe oe OK (is_rw x) (s_uid s) CKK_AES CKO_SECRET_KEY t); [unfold CKO_SECRET_KEY; lia|exact I|exact A]|].
  intros [rv [o|]] H; cbv zeta; [|exact S]. destruct (made_parts _ _ _ _ _ (H o eq_refl)) as (M1 & M2 & M3). assert (Ci : is_cert o = false) by (unfold is_cert; rewrite M3; reflexivity).
  eapply good_bind; [apply sym_view; [exact Ci|rewrite M2; reflexivity|exact M1]|]. intros [l b] [B1 B2]. cbn [fst snd] in B1, B2.
  destruct (Z.ltb_spec (zlen b) l) as [Y|Y]; [unfold zlen in Y; lia|].
  eapply good_bind; [apply (AddObject_safe rnd (bump s 1) x t _ S X)|intros [[c h] s2] Q; apply Q].
  - apply data_safe; [exact M1|]. rewrite Ci, M2. cbn. split; [exact B1|]. apply overlay_len; [exact B2|]. rewrite firstn_length. lia.
  - cbn. rewrite M2, M3. exact P.
Qed.

(** Key pairs: what is generated, and that the private key can be encoded. *)
Definition genpost (g : option gen) (pub priv : obj) (r : option (obj * obj)) : Prop :=
  forall p q, r = Some (p, q) -> osafe p /\ o_class p = o_class pub /\ o_type p = o_type pub /\ osafe q /\ o_class q = o_class priv /\ o_type q = o_type priv /\
    (exports w g -> forall b key c o', Encode se key false (set_onTok q b) = Ok (c, o') -> c = 0%Z).
Lemma set_gen_safe o d n : osafe o -> dsafe (is_cert o) (o_type o) d -> osafe (set_gen (set_data o d) n).
Proof. intros S H. exact (data_safe o d S H). Qed.
Lemma RsaGen_safe pub priv g : osafe pub -> osafe priv -> o_class pub = CKO_PUBLIC_KEY -> o_class priv = CKO_PRIVATE_KEY -> o_type pub = CKK_RSA -> o_type priv = CKK_RSA ->
  good (genpost g pub priv) (RsaGen pub priv g).
Proof.
  intros S1 S2 C1 C2 T1 T2. assert (Ci1 : is_cert pub = false) by (unfold is_cert; rewrite C1; reflexivity). assert (Ci2 : is_cert priv = false) by (unfold is_cert; rewrite C2; reflexivity).
  unfold RsaGen. eapply good_bind; [apply rsa_view; assumption|]. intros rp _. cbv zeta. destruct (_ <? _)%Z; [discriminate|]. destruct g as [[r|k pt|a b]|]; try discriminate.
  intros p q [= <- <-]. split; [apply set_gen_safe; [exact S1|rewrite Ci1, T1; exact I]|]. split; [reflexivity|]. split; [reflexivity|]. split; [apply set_gen_safe; [exact S2|rewrite Ci2, T2; exact I]|].
  split; [reflexivity|]. split; [reflexivity|]. intros Ex b key c o' E. unfold Encode in E. change (is_cert (set_onTok (set_gen (set_data priv (KRsa r)) 0) b)) with (is_cert priv) in E. rewrite Ci2 in E.
  unfold EncodeKey in E. change (o_type (set_onTok (set_gen (set_data priv (KRsa r)) 0) b)) with (o_type priv) in E. rewrite T2 in E. cbn -[enc_asym] in E. unfold enc_asym, is_priv in E.
  change (o_class (set_onTok (set_gen (set_data priv (KRsa r)) 0) b)) with (o_class priv) in E. rewrite C2 in E. cbn in Ex. change (CKO_PRIVATE_KEY =? CKO_PRIVATE_KEY)%Z with true in E. cbn in E.
  destruct (se_rsa_priv se r) as [c0 der]. cbn in Ex. destruct (Z.ltb_spec c0 0); [lia|]. cbn in E. congruence.
Qed.
Lemma EcGen_safe pub priv g : osafe pub -> osafe priv -> o_class pub = CKO_PUBLIC_KEY -> o_class priv = CKO_PRIVATE_KEY -> o_type pub = CKK_EC -> o_type priv = CKK_EC ->
  (exists k, o_data pub = KEc k /\ ec_curve k <> None) -> good (genpost g pub priv) (EcGen pub priv g).
Proof.
  intros S1 S2 C1 C2 T1 T2 (k0 & Ek & Nk). assert (Ci1 : is_cert pub = false) by (unfold is_cert; rewrite C1; reflexivity). assert (Ci2 : is_cert priv = false) by (unfold is_cert; rewrite C2; reflexivity).
  unfold EcGen, as_ec. rewrite Ek. cbn [bind]. destruct (ec_curve k0) as [cv|]; [|contradiction]. destruct g as [[r|k pt|a b]|]; try discriminate.
  intros p q [= <- <-]. split; [apply set_gen_safe; [exact S1|rewrite Ci1, T1; exact I]|]. split; [reflexivity|]. split; [reflexivity|]. split; [apply set_gen_safe; [exact S2|rewrite Ci2, T2; exact I]|].
  split; [reflexivity|]. split; [reflexivity|]. intros Ex b key c o' E. unfold Encode in E. set (q := set_gen _ _) in E. change (is_cert (set_onTok q b)) with (is_cert priv) in E. rewrite Ci2 in E.
  unfold EncodeKey in E. change (o_type (set_onTok q b)) with (o_type priv) in E. rewrite T2 in E. subst q. cbn -[enc_asym] in E. unfold enc_asym, is_priv in E.
  match type of E with context [o_class (set_onTok ?q b)] => change (o_class (set_onTok q b)) with (o_class priv) in E end. rewrite C2 in E. change (CKO_PRIVATE_KEY =? CKO_PRIVATE_KEY)%Z with true in E. cbn in E.
  specialize (Ex cv). destruct (se_ec_priv se _) as [c0 der]. cbn in Ex. destruct (Z.ltb_spec c0 0); [lia|]. cbn in E. congruence.
Qed.
Lemma DhGen_safe pub priv g : osafe pub -> osafe priv -> o_class pub = CKO_PUBLIC_KEY -> o_class priv = CKO_PRIVATE_KEY -> o_type pub = CKK_DH -> o_type priv = CKK_DH ->
  good (genpost g pub priv) (DhGen pub priv g).
Proof.
  intros S1 S2 C1 C2 T1 T2. assert (Ci1 : is_cert pub = false) by (unfold is_cert; rewrite C1; reflexivity). assert (Ci2 : is_cert priv = false) by (unfold is_cert; rewrite C2; reflexivity).
  unfold DhGen. eapply good_bind; [apply dh_view; assumption|]. intros [[[p gg] l] bp] [B1 B2]. eapply good_bind; [apply dh_view; assumption|]. intros [[[p' gg'] l'] bq] [B3 B4].
  destruct g as [[r|k pt|prv pb]|]; try discriminate. change (Z.of_nat DH_BUF) with 512%Z. destruct (Z.ltb_spec 512 (zlen prv)); [discriminate|]. destruct (Z.ltb_spec 512 (zlen pb)); [discriminate|]. cbn [orb].
  pose proof (zlen_nonneg _ prv). pose proof (zlen_nonneg _ pb).
  assert (D1 : dsafe false CKK_DH (KDh p gg (zlen pb) (overlay bp pb))) by (split; [lia|apply overlay_len; [exact B2|unfold zlen in *; lia]]).
  assert (D2 : dsafe false CKK_DH (KDh p gg (zlen prv) (overlay bq prv))) by (split; [lia|apply overlay_len; [exact B4|unfold zlen in *; lia]]).
  intros x q [= <- <-]. split; [apply set_gen_safe; [exact S1|rewrite Ci1, T1; exact D1]|]. split; [reflexivity|]. split; [reflexivity|]. split; [apply set_gen_safe; [exact S2|rewrite Ci2, T2; exact D2]|].
  split; [reflexivity|]. split; [reflexivity|]. intros _ b key c o' E. unfold Encode in E. set (q := set_gen _ _) in E. change (is_cert (set_onTok q b)) with (is_cert priv) in E. rewrite Ci2 in E.
  unfold EncodeKey in E. change (o_type (set_onTok q b)) with (o_type priv) in E. rewrite T2 in E. change (CKK_DH =? CKK_RSA)%Z with false in E. change (CKK_DH =? CKK_EC)%Z with false in E. change (CKK_DH =? CKK_DH)%Z with true in E.
  subst q. cbn -[take_buf overlay] in E. destruct (take_buf _ _); cbn in E; try discriminate. congruence.
Qed.
Lemma GenKeyPair_safe rnd s h x m tp tq g : safe s -> sess_get s h = Some x ->
  apt CKO_PUBLIC_KEY (kp_type m) tp -> placed CKO_PUBLIC_KEY (kp_type m) tp -> apt CKO_PRIVATE_KEY (kp_type m) tq -> placed CKO_PRIVATE_KEY (kp_type m) tq -> tmpl_token tq <> None ->
  (m = KP_EC -> has tp CKA_EC_PARAMS) -> exports w g -> (zlen (t_objs (s_tok s)) + 2 <= TOK_OBJ_MAX)%Z -> (zlen (ss_objs x) + 2 <= SESS_OBJ_MAX)%Z ->
  good post (GenKeyPair w rnd s x m tp tq g).
Proof.
  intros S G A1 P1 A2 P2 Tq He Ex R1 R2. pose proof (get_safe _ _ _ S G) as X. destruct (get_in _ _ _ G) as (J & Hh & U). unfold GenKeyPair.
  destruct (match m with KP_RSA => Some CKK_RSA | KP_EC => Some CKK_EC | KP_DH => Some CKK_DH | KP_other => None end) as [ty|] eqn:Ty; [|exact S].
  assert (Ey : ty = kp_type m /\ dsafe false ty KZero) by (destruct m; try discriminate; injection Ty as <-; split; (reflexivity || exact I)). destruct Ey as [-> Dz].
  eapply good_bind; [apply (NewObject_safe oe OK (is_rw x) (s_uid s) (kp_type m) CKO_PUBLIC_KEY tp); [unfold CKO_PUBLIC_KEY; lia|exact Dz|exact A1]|].
  intros [rv [pub|]] H1; cbv zeta; [|exact S]. specialize (H1 pub eq_refl). destruct (made_parts _ _ _ _ _ H1) as (M1 & M2 & M3). destruct H1 as (_ & _ & _ & _ & Kd).
  eapply good_bind; [apply (NewObject_safe oe OK (is_rw x) (Datatypes.S (s_uid s)) (kp_type m) CKO_PRIVATE_KEY tq); [unfold CKO_PRIVATE_KEY; lia|exact Dz|exact A2]|].
  intros [rv2 [priv|]] H2; [|exact S]. specialize (H2 priv eq_refl). destruct (made_parts _ _ _ _ _ H2) as (N1 & N2 & N3). clear H2.
  eapply (good_bind (genpost g pub priv)).
  { destruct m; try discriminate.
    - apply RsaGen_safe; auto.
    - apply EcGen_safe; auto. destruct (Kd eq_refl) as [Kd1 _]. apply Kd1; [reflexivity|apply He; reflexivity].
    - apply DhGen_safe; auto. }
  intros [[pub1 priv1]|] Gp; [|exact S]. destruct (Gp _ _ eq_refl) as (Q1 & Q2 & Q3 & Q4 & Q5 & Q6 & Q7). specialize (Q7 Ex).
  eapply good_bind; [apply (AddObject_safe rnd (bump s 2) x tp pub1 S X Q1); rewrite Q2, Q3, M2, M3; exact P1|].
  intros [[rv3 h1] s2] (S2 & Z2 & E2). cbn [snd] in *. destruct (negb _); [exact S2|].
  assert (X2 : exists x2, sess_get s2 (ss_h x) = Some x2 /\ (zlen (ss_objs x2) <= zlen (ss_objs x) + 1)%Z).
  { rewrite Hh. destruct E2 as [E2|(o & E2)].
    - exists x. split; [|lia]. unfold sess_get in *. rewrite E2. exact G.
    - exists (set_sobjs x (o :: ss_objs x)). split; [exact (get_put s h x (set_sobjs x (o :: ss_objs x)) G eq_refl eq_refl s2 E2)|]. unfold zlen. cbn [set_sobjs ss_objs length]. lia. }
  destruct X2 as (x2 & G2 & Zx). rewrite G2. pose proof (get_safe _ _ _ S2 G2) as X2.
  assert (Ad : good (xpost s2 x2) (AddObject w (fun i => rnd (100 + i)) s2 x2 tq priv1)) by (apply AddObject_safe; auto; rewrite Q5, Q6, N2, N3; exact P2).
  destruct (tmpl_token tq) as [b|] eqn:Tb; [|contradiction].
  destruct (AddObject w (fun i => rnd (100 + i)) s2 x2 tq priv1) as [[[rv4 h2] s3]| |] eqn:Ea; cbn [bind good]; try exact Ad.
  assert (Er : rv4 = CKR_OK).
  { eapply (Add_ok (fun i => rnd (100 + i)) s2 x2 tq priv1 b Tb); [| |exact (Q7 (N.odd b) (t_key (s_tok s2)))|exact Ea]; cbn [bump set_uid s_tok] in Z2; lia. }
  rewrite Er. apply Ad.
Qed.

Lemma Wrap_safe s h x m mp wk k hw hk b : inv s -> safe s -> sess_get s h = Some x -> find_obj s x hk = Some k -> find_obj s x hw = Some wk -> is_cert wk = false ->
  fit (w_ev w) (ss_op x) m mp (key_of wk) -> (forall r, small (snd (w_p8 w r))) -> good post (Wrap w s x m mp wk k b).
Proof.
  intros I0 S G Fk Fw Cw Fit Sm. pose proof (get_safe _ _ _ S G) as X. destruct (get_in _ _ _ G) as (J & _). unfold Wrap. destruct (wrappable (o_class k) (o_type k)) eqn:Wr; cbn [negb]; [|exact S].
  unfold wrappable in Wr. apply Bool.andb_true_iff in Wr as [W1 W2]. apply Z.eqb_eq in W1, W2.
  eapply good_bind; [apply rsa_view; [unfold is_cert; rewrite W1; reflexivity|exact W2|eapply obj_safe; eauto]|]. intros r _. specialize (Sm r). destruct (w_p8 w r) as [c der]. cbn [snd] in Sm.
  destruct (negb _); [exact S|]. destruct (is_cbc_pad m) eqn:Mm; cbn [negb]; [|exact S]. destruct m; try discriminate. destruct (negb _); [exact S|].
  pose proof (run_init_safe s x (KEncryptInit M_AES_CBC_PAD mp (o_uid wk)) wk M_AES_CBC_PAD mp X (obj_safe _ _ _ _ S X Fw) Cw eq_refl Fit) as R.
  destruct (run_init w s x (KEncryptInit M_AES_CBC_PAD mp (o_uid wk)) wk) as [[x1 o1]| |] eqn:E; cbn [bind]; try exact R. cbn [good] in R. destruct R as (X1 & _).
  destruct (Z.eqb_spec (o_rv o1) CKR_OK) as [Rv|Rv]; cbn [negb]; [|apply put_safe; auto]. cbn [fst] in X1.
  destruct (run_init_curr s x _ wk M_AES_CBC_PAD mp x1 o1 eq_refl (or_introl eq_refl) E Rv) as [Cu Mo].
  eapply good_bind; [apply run_cont_safe; [exact S|exact X1|reflexivity|exact Sm|]|intros [x2 o2] (P & _); apply put_safe; auto].
  intros u Eu. rewrite Cu in Eu. injection Eu as <-. pose proof (found_live _ _ _ _ J Fw) as Lv. split; [intros _; apply uid_some, Lv|]. intros o Eo. rewrite (uid_same _ _ _ I0 Lv Eo). exact Cw.
Qed.
Lemma Unwrap_safe rnd s h x m mp uk hu wr t : inv s -> safe s -> sess_get s h = Some x -> find_obj s x hu = Some uk -> is_cert uk = false ->
  fit (w_ev w) (ss_op x) m mp (key_of uk) -> small wr -> apt CKO_PRIVATE_KEY CKK_RSA t -> placed CKO_PRIVATE_KEY CKK_RSA t -> good post (Unwrap w rnd s x m mp uk wr t).
Proof.
  intros I0 S G Fw Cw Fit Sm A P. pose proof (get_safe _ _ _ S G) as X. destruct (get_in _ _ _ G) as (J & _). unfold Unwrap. destruct (is_cbc_pad m) eqn:Mm; cbn [negb]; [|exact S]. destruct m; try discriminate.
  cbv zeta. destruct (find_last t CKA_KEY_TYPE) as [a|]; [|exact S]. destruct (tmpl_ulong a) as [kt|]; [|exact S]. destruct (negb _); [exact S|].
  destruct (find_last t CKA_CLASS) as [a2|]; [|exact S]. destruct (tmpl_ulong a2) as [cls|]; [|exact S]. destruct (negb _); [exact S|]. destruct (negb _); [exact S|]. destruct (negb _); [exact S|].
  pose proof (run_init_safe s x (KDecryptInit M_AES_CBC_PAD mp (o_uid uk)) uk M_AES_CBC_PAD mp X (obj_safe _ _ _ _ S X Fw) Cw eq_refl Fit) as R.
  destruct (run_init w s x (KDecryptInit M_AES_CBC_PAD mp (o_uid uk)) uk) as [[x1 o1]| |] eqn:E; cbn [bind]; try exact R. cbn [good] in R. destruct R as (X1 & _).
  destruct (Z.eqb_spec (o_rv o1) CKR_OK) as [Rv|Rv]; cbn [negb]; [|apply put_safe; auto]. cbn [fst] in X1.
  destruct (run_init_curr s x _ uk M_AES_CBC_PAD mp x1 o1 eq_refl (or_intror eq_refl) E Rv) as [Cu Mo].
  eapply good_bind; [apply run_cont_safe; [exact S|exact X1|reflexivity| |]|].
  { cbn [fed]. split; [exact Sm|]. rewrite Mo. discriminate. }
  { intros u Eu. rewrite Cu in Eu. injection Eu as <-. pose proof (found_live _ _ _ _ J Fw) as Lv. split; [intros _; apply uid_some, Lv|]. intros o Eo. rewrite (uid_same _ _ _ I0 Lv Eo). exact Cw. }
  intros [x2 o2] (X2 & _). cbn [fst] in X2. assert (S2 : safe (put_sess s x2)) by (apply put_safe; auto). destruct (negb _); [exact S2|].
  eapply good_bind; [apply (NewObject_safe oe OK (is_rw x2) (s_uid (put_sess s x2)) CKK_RSA CKO_PRIVATE_KEY t); [unfold CKO_PRIVATE_KEY; lia|exact I|exact A]|].
  intros [rv [o|]] H; [|exact S2]. destruct (made_parts _ _ _ _ _ (H o eq_refl)) as (M1 & M2 & M3). assert (Ci : is_cert o = false) by (unfold is_cert; rewrite M3; reflexivity).
  destruct (w_p8_dec w (o_out o2)) as [c r]. destruct (negb _); [exact S2|].
  eapply good_bind; [apply (AddObject_safe rnd (bump (put_sess s x2) 1) x2 t _ S2 X2)|intros [[c2 h2] s3] Q; apply Q].
  - apply data_safe; [exact M1|]. rewrite Ci, M2. exact I.
  - cbn. rewrite M2, M3. exact P.
Qed.
Lemma Derive_safe rnd s x m base sec t : safe s -> ssafe x -> osafe base -> is_cert base = false -> o_type base = match m with D_ECDH => CKK_EC | _ => CKK_DH end ->
  create_ok t -> (forall cls ty, asks t cls ty -> cls <> CKO_CERTIFICATE /\ secret_type ty) -> ~ has t CKA_VALUE ->
  (forall d, sec = Some d -> (zlen d <= 512)%Z /\ forall b, In (mkA CKA_VALUE_LEN (AV b)) t -> ulong_of b = 0%Z \/ (zlen d <= ulong_of b)%Z) ->
  good post (Derive w rnd s x m base sec t).
Proof.
  intros S X So Cb Tb Cr As Nv' Hs. unfold Derive.
  assert (K : good post (match sec with
      | None => rv_ s CKR_FUNCTION_FAILED
      | Some sec =>
          '(rv, o) <- CreateObject oe (is_rw x) (s_uid s) t ;;
          let s1 := bump s 1 in
          match o with
          | None => rv_ s1 rv
          | Some o =>
              '(c, _, d) <- GetAttr oe o CKA_VALUE_LEN (Some 8%Z) ;;
              if negb (c =? 0)%Z then rv_ s1 CKR_OK else
              let vl := u32 (ulong_of d) in
              let sl := if andb (0 <? vl)%Z (vl <=? zlen sec)%Z then vl else zlen sec in
              if (sl <? zlen sec)%Z then Undef UB_read_overflow else
              '(c2, o1) <- SetSecretKey o [None; Some sec] ;;
              if negb (c2 =? 0)%Z then rv_ s1 CKR_FUNCTION_FAILED else
              '(rv2, h, s2) <- AddObject w rnd s1 x t o1 ;; Ok (s2, OutH rv2 h)
          end
      end)).
  { destruct sec as [sec|]; [|exact S]. destruct (Hs sec eq_refl) as [Hl Hv]. eapply good_bind; [apply (CreateObject_safe oe OK (is_rw x) (s_uid s) t Cr)|]. intros [rv [o|]] H; cbv zeta; [|exact S].
    destruct (H o eq_refl) as (cls & ty & A & M). destruct (As _ _ A) as [Nc Sy]. destruct (made_parts _ _ _ _ _ M) as (M1 & M2 & M3). destruct M as (_ & _ & _ & _ & Kd).
    assert (Ci : is_cert o = false) by (unfold is_cert; rewrite M3; apply Z.eqb_neq, Nc). assert (Ts : sym_type ty = true) by (destruct Sy as [-> | ->]; reflexivity).
    destruct (Kd (proj2 (Z.eqb_neq _ _) Nc)) as [_ Kd2]. destruct (Kd2 Ts Nv') as (l & b & Eo & El). pose proof (osafe_d o M1) as Ds. rewrite Ci, M2, Eo in Ds.
    assert (Bl : (0 <= l <= 512)%Z /\ length b = 512%nat) by (destruct Sy as [-> | ->]; exact Ds). destruct Bl as [Bl Bb].
    assert (Eg : GetAttr oe o CKA_VALUE_LEN (Some 8%Z) = Ok (get_ulong l (Some 8%Z))).
    { unfold GetAttr. cbn -[get_ulong as_sym SecretGetAttr]. rewrite Bool.andb_false_r, M2. destruct Sy as [-> | ->]; cbn -[get_ulong as_sym SecretGetAttr]; unfold SecretGetAttr, as_sym; rewrite Eo; reflexivity. }
    rewrite Eg. change (get_ulong l (Some 8%Z)) with (0%Z, Some 8%Z, to_le 8 l). cbn [bind]. change (negb (0 =? 0)%Z) with false. cbv iota. cbv zeta.
    rewrite ulong_to_le by (unfold u64r; lia). rewrite u32_small by lia.
    assert (Sl : (if andb (0 <? l)%Z (l <=? zlen sec)%Z then l else zlen sec) = zlen sec).
    { destruct (Z.ltb_spec 0 l); cbn [andb]; [|reflexivity]. destruct (Z.leb_spec l (zlen sec)); [|reflexivity]. destruct El as [El|(v & Iv & El)]; [lia|]. destruct (Hv v Iv); lia. }
    rewrite Sl, Z.ltb_irrefl. pose proof (zlen_nonneg _ sec). unfold SetSecretKey. cbn [nth]. change (negb (0 =? 0)%Z) with false. cbn [andb]. change (0 =? 0)%Z with true. cbv iota zeta.
    rewrite u32_small by lia. change (Z.of_nat SYM_BUF) with 512%Z. destruct (Z.ltb_spec 512 (zlen sec)); [lia|]. cbn [bind]. change (negb (0 =? 0)%Z) with false. cbv iota.
    eapply good_bind; [apply (AddObject_safe rnd (bump s 1) x t _ S X)|intros [[c2 h2] s3] Q; apply Q].
    - apply data_safe; [exact M1|]. rewrite Ci, M2.
      assert (Dn : (0 <= zlen sec <= 512)%Z /\ length (overlay (zeros SYM_BUF) (firstn (Z.to_nat (zlen sec)) sec)) = 512%nat).
      { split; [lia|]. apply overlay_len; [apply zeros_len|]. rewrite firstn_length. unfold zlen in *. lia. }
      destruct Sy as [-> | ->]; exact Dn.
    - cbn. rewrite M2, M3. apply (Cr _ _ A). }
  destruct m; [| |exact S].
  - eapply (good_bind (fun _ => True)); [|intros _ _; exact K]. eapply good_bind; [apply ec_view; assumption|]. intros; exact I.
  - eapply (good_bind (fun _ => True)); [|intros _ _; exact K]. eapply good_bind; [apply dh_view; assumption|]. intros; exact I.
Qed.

Theorem step_safe rnd s c : inv s -> safe s -> careful w s c -> good post (step w rnd s c).
Proof.
  intros I0 S C. destruct c; cbn [step careful] in *.
  - apply Initialize_safe; auto.
  - apply Finalize_safe; auto.
  - apply fresh_safe.
  - apply slot_safe; [exact S|]. apply InitToken_safe; auto.
  - apply sess_safe; [exact S|]. intros x X. apply InitPIN_safe, S.
  - apply sess_safe; [exact S|]. intros x X. apply SetPIN_safe, S.
  - apply slot_safe; [exact S|]. apply OpenSession_safe, S.
  - apply sess_safe; [exact S|]. intros x X. apply CloseSession_safe; [exact S|eapply get_safe; eauto].
  - apply slot_safe; [exact S|]. eapply good_bind; [apply close_all_safe, S|]. intros l F. destruct S as (H & T & _). split; [exact H|split; [exact T|exact F]].
  - apply sess_safe; [exact S|]. intros x X. exact S.
  - apply sess_safe; [exact S|]. intros x X. apply Login_safe, S.
  - apply sess_safe; [exact S|]. intros x X. eapply good_bind; [apply Logout_safe, safe_tk, S|]. intros t T. apply tok_safe; auto.
  - apply slot_safe; [exact S|]. exact S.
  - apply sess_safe; [exact S|]. intros x X. apply rw_safe; [exact S|]. apply Create_safe; [exact S|eapply get_safe; eauto|exact C].
  - apply sess_safe; [exact S|]. intros x X. apply rw_safe; [exact S|]. apply object_safe; [exact S|]. intros o F. destruct (C x o X F) as (C1 & C2 & C3 & C4 & C5 & C6).
    pose proof (get_safe _ _ _ S X) as Xs. apply Copy_safe; auto; [eapply obj_safe; eauto|apply cert_no, C1].
  - apply sess_safe; [exact S|]. intros x X. apply rw_safe; [exact S|]. apply object_safe; [exact S|]. intros o F. eapply good_bind; [apply Remove_safe; [exact S|eapply get_safe; eauto|exact F]|]. intros s1 S1. exact S1.
  - apply sess_safe; [exact S|]. intros x X. apply object_safe; [exact S|]. intros o F. eapply good_bind; [apply (GetAV_safe oe OK o t); [eapply obj_safe; [exact S|eapply get_safe; eauto|exact F]|exact (C x o X F)]|].
    intros [rv t1] _. exact S.
  - apply sess_safe; [exact S|]. intros x X. apply rw_safe; [exact S|]. apply object_safe; [exact S|]. intros o F. eapply Set_safe; eauto. apply (get_in _ _ _ X).
  - apply sess_safe; [exact S|]. intros x X. destruct C as [C1 C2]. apply FindInit_safe; auto; [apply (get_in _ _ _ X)|]. intros o a. exact (C2 x o a X).
  - apply sess_safe; [exact S|]. intros x X. apply put_safe; [exact S|]. exact (get_safe _ _ _ S X).
  - apply sess_safe; [exact S|]. intros x X. apply put_safe; [exact S|]. exact (get_safe _ _ _ S X).
  - apply sess_safe; [exact S|]. intros x X. destruct aes; [|exact S]. apply GenKey_safe; try apply C; [exact S|eapply get_safe; eauto].
  - apply sess_safe; [exact S|]. intros x X. destruct C as (C1 & C2 & C3 & C4 & C5 & C6 & C7 & C8 & C9). eapply GenKeyPair_safe; eauto.
  - apply sess_safe; [exact S|]. intros x X. apply rw_safe; [exact S|]. apply object_safe; [exact S|]. intros k Fk. apply object_safe; [exact S|]. intros wk Fw. destruct (C x k wk X Fk Fw) as (C1 & C2 & C3).
    eapply Wrap_safe; eauto. apply cert_no, C1.
  - apply sess_safe; [exact S|]. intros x X. apply rw_safe; [exact S|]. destruct (_ =? _)%Z; [exact S|]. apply object_safe; [exact S|]. intros uk Fu. destruct C as (C1 & C2 & C3 & C4). destruct (C4 x uk X Fu) as (C5 & C6).
    eapply Unwrap_safe; eauto. apply cert_no, C5.
  - apply sess_safe; [exact S|]. intros x X. apply object_safe; [exact S|]. intros b Fb. destruct C as (C1 & C2 & C3 & C4 & C5). destruct (C1 x b X Fb) as (C6 & C7). pose proof (get_safe _ _ _ S X) as Xs.
    apply Derive_safe; auto; [eapply obj_safe; eauto|apply cert_no, C6].
  - apply sess_safe; [exact S|]. intros x X. specialize (C x X). pose proof (get_safe _ _ _ S X) as Xs.
    destruct (with_key c 0) as [c0|] eqn:Wk.
    + assert (Ei : exists m mp, init_of c = Some (m, mp) /\ forall u c1, with_key c u = Some c1 -> init_of c1 = Some (m, mp)) by (destruct c; try discriminate Wk; do 2 eexists; (split; [reflexivity|]); intros u c1 [= <-]; reflexivity).
      destruct Ei as (m & mp & Ei & Ej). rewrite Ei in C. apply object_safe; [exact S|]. intros o Fo. destruct (C o Fo) as [C1 C2]. destruct (with_key c (o_uid o)) as [c1|] eqn:W1; [|exact S].
      eapply good_bind; [apply (run_init_safe s x c1 o m mp Xs (obj_safe _ _ _ _ S Xs Fo)); [apply cert_no, C1|exact (Ej _ _ W1)|exact C2]|]. intros [x1 r] (P & _). apply put_safe; auto.
    + assert (Ei : init_of c = None) by (destruct c; try discriminate Wk; reflexivity). rewrite Ei in C. destruct C as [C1 C2].
      assert (G : good post ('(x1, r) <- run_cont w s x c;; Ok (put_sess s x1, OutC r))).
      { eapply good_bind; [apply run_cont_safe; auto|intros [x1 r] (P & _); apply put_safe; auto]. intros u Eu. destruct (C2 u Eu) as [C3 C4]. split; [exact C3|]. intros o Eo. apply cert_no, C4, Eo. }
      destruct c; try exact G; exact S.
Qed.
End W.
