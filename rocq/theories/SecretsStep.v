(** One call on two states that differ in protected secrets. *)
From Verif Require Import WfProofs Base Codec Ops OpsSpec OpsProofs Object ObjectSpec ObjectProofs HistProofs Store Sys SysProofs SysProofs2 SysProofs3 SysProofs4 UseProofs Isolate IsolateProofs2 PropObject PropObject2 Secrets.

Section R.
Variable w : world.
Notation se := (w_se w).
Notation oe := (w_oe w).
Variable T : list nat.
Hypothesis Sl : sealing (w_se w).
Notation tobj := (tobj w T).
Notation sobj := (sobj T).
Notation tokR := (tokR w T).
Notation sessR := (sessR T).
Notation sysR := (sysR w T).
Notation outR := (outR w T).

Lemma stay s1 s2 rv : sysR s1 s2 -> rel outR (rv_ s1 rv) (rv_ s2 rv).
Proof. intros K. split; [exact K|reflexivity]. Qed.
Lemma count_R s1 s2 : sysR s1 s2 -> s_count s2 = s_count s1.
Proof. intros (A & _). congruence. Qed.
Lemma uid_R s1 s2 : sysR s1 s2 -> s_uid s2 = s_uid s1.
Proof. intros (_ & A & _). congruence. Qed.
Lemma with_sess_R s1 s2 h k1 k2 : sysR s1 s2 -> (forall x1 x2, sess_get s1 h = Some x1 -> sessR x1 x2 -> rel outR (k1 x1) (k2 x2)) -> rel outR (with_sess s1 h k1) (with_sess s2 h k2).
Proof.
  intros K H. unfold with_sess, need_lib. rewrite (count_R _ _ K). destruct (0 <? _)%Z; [|apply stay; exact K].
  pose proof (get_R w T s1 s2 h K) as G. destruct (sess_get s1 h) as [x1|], (sess_get s2 h) as [x2|]; try contradiction; [apply H; auto|apply stay; exact K].
Qed.
Lemma with_slot_R s1 s2 n k1 k2 : sysR s1 s2 -> rel outR k1 k2 -> rel outR (with_slot s1 n k1) (with_slot s2 n k2).
Proof.
  intros K H. unfold with_slot, need_lib. rewrite (count_R _ _ K). destruct (0 <? _)%Z; [|apply stay; exact K]. destruct (slot_ok n); [exact H|apply stay; exact K].
Qed.
Lemma with_object_R s1 s2 x1 x2 ho e k1 k2 : sysR s1 s2 -> sessR x1 x2 -> (forall o1 o2, find_obj s1 x1 ho = Some o1 -> tobj o1 o2 -> (on_token ho = false -> sobj o1 o2) -> rel outR (k1 o1) (k2 o2)) ->
  rel outR (with_object s1 x1 ho e k1) (with_object s2 x2 ho e k2).
Proof.
  intros K X H. unfold with_object.
  assert (R : match find_obj s1 x1 ho, find_obj s2 x2 ho with Some a, Some b => tobj a b /\ (on_token ho = false -> sobj a b) | None, None => True | _, _ => False end).
  { pose proof (find_R w T _ _ _ _ ho K X) as R. unfold find_obj in *. destruct (on_token ho).
    - destruct (find _ _), (find _ _); try contradiction; auto. split; [exact R|discriminate].
    - clear R. pose proof (Forall2_find sobj (fun o => o_handle o =? ho)%Z (ss_objs x1) (ss_objs x2)) as R.
      assert (R' := R (fun a b E => f_equal (fun z => (z =? ho)%Z) (eq_sym (proj1 (proj2 (tobj_fields w T a b (sobj_tobj w T a b E)))))) ltac:(apply (sess_fields T _ _ X))). clear R.
      destruct (find _ _), (find _ _); try contradiction; auto. split; [apply sobj_tobj; exact R'|auto]. }
  destruct (find_obj s1 x1 ho) as [o1|], (find_obj s2 x2 ho) as [o2|]; try contradiction; [|apply stay; exact K]. destruct R as [R1 R2]. apply H; auto.
Qed.
Lemma need_rw_R s1 s2 x1 x2 k1 k2 : sysR s1 s2 -> sessR x1 x2 -> rel outR k1 k2 -> rel outR (need_rw s1 x1 k1) (need_rw s2 x2 k2).
Proof. intros K X H. unfold need_rw. rewrite (sessR_rw T _ _ X). destruct (is_rw x1); [exact H|apply stay; exact K]. Qed.

(** ** Adding objects *)
Lemma sobj_onTok o1 o2 b : sobj o1 o2 -> sobj (set_onTok o1 b) (set_onTok o2 b).
Proof. intros [->|(I & H & d & -> & D)]; [apply sobj_refl|right]. split; [exact I|]. split; [exact H|]. exists d. split; [reflexivity|exact D]. Qed.
Lemma sobj_handle o1 o2 h : sobj o1 o2 -> sobj (set_handle o1 h) (set_handle o2 h).
Proof. intros [->|(I & H & d & -> & D)]; [apply sobj_refl|right]. split; [exact I|]. split; [exact H|]. exists d. split; [reflexivity|exact D]. Qed.
Lemma tobj_handle o1 o2 h : tobj o1 o2 -> tobj (set_handle o1 h) (set_handle o2 h).
Proof. intros [->|(I & H & d & kd & -> & D & K)]; [apply tobj_refl|right]. split; [exact I|]. split; [exact H|]. exists d, kd. split; [reflexivity|]. split; assumption. Qed.
Lemma next_R l1 l2 b : Forall2 tobj l1 l2 -> next_handle l2 b = next_handle l1 b.
Proof. intros [|o1 o2 r1 r2 E _]; [reflexivity|]. cbn. destruct (tobj_fields w T _ _ E) as (_ & -> & _). reflexivity. Qed.
Definition addR (p q : Z * Z * sys) : Prop := fst p = fst q /\ sysR (snd p) (snd q).
Lemma AddToSession_R rnd s1 s2 x1 x2 b o1 o2 : sysR s1 s2 -> sessR x1 x2 -> sobj o1 o2 -> rel addR (AddToSession w rnd s1 x1 b o1) (AddToSession w rnd s2 x2 b o2).
Proof.
  intros K X O. unfold AddToSession. destruct (sess_fields T _ _ X) as (_ & _ & _ & _ & _ & _ & F). pose proof K as (_ & _ & _ & Kt). destruct (tok_fields w T _ _ Kt) as (_ & _ & _ & _ & _ & Ek & _ & Ft).
  destruct (b =? 0)%N.
  - rewrite <- (Forall2_zlen _ _ _ F). destruct (_ <=? _)%Z; [split; [reflexivity|exact K]|]. rewrite (next_R _ _ b (sobj_list w T _ _ F)). cbv zeta. split; [reflexivity|]. cbn [snd]. apply put_R; [exact K|].
    destruct X as [(l & -> & F2) N]. split; [|exact N]. eexists. split; [reflexivity|]. cbn. constructor; [|exact F2]. apply sobj_handle, sobj_onTok; exact O.
  - cbv zeta. rewrite (zlen_tok w T _ _ Kt), Ek. destruct (_ <=? _)%Z; [split; [reflexivity|exact K]|].
    eapply rel_bind; [apply (Encode_tobj w T (t_key (s_tok s1)) false _ _ (sobj_tobj w T _ _ (sobj_onTok _ _ (N.odd b) O)))|].
    intros [c p] [c' q] [Ec R]. cbn in Ec, R. subst c'. destruct (negb _); [split; [reflexivity|exact K]|]. rewrite (next_R _ _ b Ft).
    eapply rel_bind; [apply (store_R w T Sl rnd (set_tok s1 (set_objs (s_tok s1) (set_handle p (next_handle (t_objs (s_tok s1)) b) :: t_objs (s_tok s1)))))|].
    + apply sysR_tok; [exact K|]. apply tokR_objs; [exact Kt|]. constructor; [apply tobj_handle; exact R|exact Ft].
    + intros [c1 t1] [c2 t2] [_ R2]. split; [reflexivity|exact R2].
Qed.
Lemma AddObject_R rnd s1 s2 x1 x2 t1 t2 o1 o2 : sysR s1 s2 -> sessR x1 x2 -> sobj o1 o2 -> tmpl_token t2 = tmpl_token t1 -> rel addR (AddObject w rnd s1 x1 t1 o1) (AddObject w rnd s2 x2 t2 o2).
Proof.
  intros K X O E. unfold AddObject. rewrite E. destruct (tmpl_token t1) as [b|]; [|split; [reflexivity|exact K]].
  eapply rel_bind; [apply AddToSession_R; eassumption|]. intros [[c h] s] [[c' h'] s'] [Ec R]. cbn in Ec, R. injection Ec as <- <-. split; [reflexivity|exact R].
Qed.
Lemma added rnd s1 s2 x1 x2 t1 t2 o1 o2 : sysR s1 s2 -> sessR x1 x2 -> sobj o1 o2 -> tmpl_token t2 = tmpl_token t1 ->
  rel outR ('(rv, h, s') <- AddObject w rnd s1 x1 t1 o1 ;; Ok (s', OutH rv h)) ('(rv, h, s') <- AddObject w rnd s2 x2 t2 o2 ;; Ok (s', OutH rv h)).
Proof.
  intros K X O E. eapply rel_bind; [apply AddObject_R; eassumption|]. intros [[c h] s] [[c' h'] s'] [Ec R]. cbn in Ec, R. injection Ec as <- <-. split; [exact R|reflexivity].
Qed.
Lemma Create_R rnd s1 s2 x1 x2 t : sysR s1 s2 -> sessR x1 x2 -> rel outR (Create w rnd s1 x1 t) (Create w rnd s2 x2 t).
Proof.
  intros K X. unfold Create. rewrite (sessR_rw T _ _ X), (uid_R _ _ K). apply rel_same. intros [rv [o|]] _; cbv zeta; [|apply stay, sysR_bump; exact K].
  apply added; auto using sysR_bump, sobj_refl.
Qed.
Lemma Copy_R rnd s1 s2 x1 x2 o1 o2 t : sysR s1 s2 -> sessR x1 x2 -> tobj o1 o2 -> rel outR (Copy w rnd s1 x1 o1 t) (Copy w rnd s2 x2 o2 t).
Proof.
  intros K X O. unfold Copy. rewrite (sessR_rw T _ _ X), (uid_R _ _ K), (copy_tobj w T _ _ _ _ _ O). apply rel_same. intros [[rv t1] [[b o]|]] _; cbv zeta; [|apply stay, sysR_bump; exact K].
  eapply rel_bind; [apply AddToSession_R; [apply sysR_bump; exact K|exact X|apply sobj_refl]|]. intros [[c h] s] [[c' h'] s'] [Ec R]. cbn in Ec, R. injection Ec as <- <-. split; [exact R|reflexivity].
Qed.
Lemma GenKey_R rnd s1 s2 x1 x2 t key : sysR s1 s2 -> sessR x1 x2 -> rel outR (GenKey w rnd s1 x1 t key) (GenKey w rnd s2 x2 t key).
Proof.
  intros K X. unfold GenKey. rewrite (sessR_rw T _ _ X), (uid_R _ _ K). apply rel_same. intros [rv [o|]] _; cbv zeta; [|apply stay, sysR_bump; exact K].
  apply rel_same. intros [l b] _. destruct (_ <? _)%Z; [reflexivity|]. apply added; auto using sysR_bump, sobj_refl.
Qed.
Lemma GenKeyPair_R rnd s1 s2 x1 x2 m tp tq g : sysR s1 s2 -> sessR x1 x2 -> rel outR (GenKeyPair w rnd s1 x1 m tp tq g) (GenKeyPair w rnd s2 x2 m tp tq g).
Proof.
  intros K X. unfold GenKeyPair. destruct (match m with KP_RSA => _ | _ => _ end) as [ty|]; [|apply stay; exact K]. rewrite (sessR_rw T _ _ X), (uid_R _ _ K).
  apply rel_same. intros [rv [pub|]] _; cbv zeta; [|apply stay, sysR_bump; exact K]. apply rel_same. intros [rv2 [priv|]] _; [|apply stay, sysR_bump; exact K].
  apply rel_same. intros [[pub1 priv1]|] _; [|apply stay, sysR_bump; exact K].
  eapply rel_bind; [apply AddObject_R; [apply sysR_bump; exact K|exact X|apply sobj_refl|reflexivity]|]. intros [[c h] s] [[c' h'] s'] [Ec R]. cbn in Ec, R. injection Ec as <- <-.
  destruct (negb _); [apply stay; exact R|]. destruct (sess_fields T _ _ X) as (-> & _). pose proof (get_R w T s s' (ss_h x1) R) as G. destruct (sess_get s _) as [y1|], (sess_get s' _) as [y2|]; try contradiction; [|apply stay; exact R].
  eapply rel_bind; [apply AddObject_R; [exact R|exact G|apply sobj_refl|reflexivity]|]. intros [[c2 h2] u1] [[c2' h2'] u2] [Ec2 R2]. cbn in Ec2, R2. injection Ec2 as <- <-. destruct (_ =? _)%Z; [split; [exact R2|reflexivity]|reflexivity].
Qed.
Lemma tobj_derive o1 o2 m : tobj o1 o2 -> (match m with D_ECDH => _ <- as_ec o2 ;; Ok tt | _ => _ <- as_dh o2 ;; Ok tt end) = (match m with D_ECDH => _ <- as_ec o1 ;; Ok tt | _ => _ <- as_dh o1 ;; Ok tt end).
Proof.
  intros [->|(_ & _ & d & kd & -> & D & _)]; [reflexivity|]. unfold as_ec, as_dh. cbn [set_store set_data o_data]. destruct D as [->|(l & b1 & b2 & -> & -> & _)]; [reflexivity|]. destruct m; reflexivity.
Qed.
Lemma Derive_R rnd s1 s2 x1 x2 m o1 o2 sec t : sysR s1 s2 -> sessR x1 x2 -> tobj o1 o2 -> rel outR (Derive w rnd s1 x1 m o1 sec t) (Derive w rnd s2 x2 m o2 sec t).
Proof.
  intros K X O. unfold Derive. pose proof (tobj_derive _ _ m O) as E. rewrite (sessR_rw T _ _ X), (uid_R _ _ K). destruct m; [| |apply stay; exact K]; rewrite E; (apply rel_same; intros _ _);
  (destruct sec as [sec|]; [|apply stay; exact K]); (apply rel_same; intros [rv [o|]] _; cbv zeta; [|apply stay, sysR_bump; exact K]);
  (apply rel_same; intros [[c n] d] _); (destruct (negb _); [apply stay, sysR_bump; exact K|]); (destruct (_ <? _)%Z; [reflexivity|]);
  (apply rel_same; intros [c2 o3] _); (destruct (negb _); [apply stay, sysR_bump; exact K|]); apply added; auto using sysR_bump, sobj_refl.
Qed.
Lemma remove_R u l1 l2 : Forall2 tobj l1 l2 -> Forall2 tobj (remove_uid u l1) (remove_uid u l2).
Proof. induction 1 as [|a b l1 l2 E F IH]; [constructor|]. cbn. destruct (tobj_fields w T _ _ E) as (-> & _). destruct (_ =? _)%nat; [exact F|constructor; assumption]. Qed.
Lemma remove_s u l1 l2 : Forall2 sobj l1 l2 -> Forall2 sobj (remove_uid u l1) (remove_uid u l2).
Proof. induction 1 as [|a b l1 l2 E F IH]; [constructor|]. cbn. destruct (tobj_fields w T _ _ (sobj_tobj w T _ _ E)) as (-> & _). destruct (_ =? _)%nat; [exact F|constructor; assumption]. Qed.
Lemma kind_R o1 o2 : tobj o1 o2 -> key_kind o2 = key_kind o1.
Proof. intros K. unfold key_kind, is_cert, is_priv, is_sym. destruct (tobj_fields w T _ _ K) as (_ & _ & -> & -> & _). reflexivity. Qed.
Lemma RemoveObject_R rnd s1 s2 x1 x2 ho o1 o2 : sysR s1 s2 -> sessR x1 x2 -> tobj o1 o2 -> rel sysR (RemoveObject w rnd s1 x1 ho o1) (RemoveObject w rnd s2 x2 ho o2).
Proof.
  intros K X O. unfold RemoveObject, no_kind. destruct (tobj_fields w T _ _ O) as (Eu & _ & _ & _ & _ & _ & Eo). rewrite (free_tobj w T _ _ O), (kind_R _ _ O), Eu, Eo. apply rel_same. intros _ _. pose proof K as (_ & _ & _ & Kt).
  destruct (on_token ho).
  - destruct (o_onTok o1); [|reflexivity]. destruct (match key_kind o1 with Some _ => false | None => true end); [reflexivity|]. cbv zeta.
    eapply rel_bind; [apply store_R; [exact Sl|]|].
    + apply sysR_ops, sysR_tok; [exact K|]. apply tokR_objs; [exact Kt|]. apply remove_R. apply (tok_fields w T _ _ Kt).
    + intros [c1 t1] [c2 t2] [_ R]. exact R.
  - apply put_R; [exact K|]. destruct X as [(l & -> & F) N]. split; [|exact N]. eexists. split; [reflexivity|]. apply remove_s. exact F.
Qed.
Lemma upd_objs_R (P : obj -> obj -> Prop) l1 l2 o1 o2 : (forall a b, P a b -> o_uid b = o_uid a) -> P o1 o2 -> Forall2 P l1 l2 -> Forall2 P (upd_objs l1 o1) (upd_objs l2 o2).
Proof. intros U O F. unfold upd_objs. eapply Forall2_map2; [|exact F]. intros a b E. rewrite (U _ _ E), (U _ _ O). destruct (_ =? _)%nat; assumption. Qed.
Lemma put_obj_R s1 s2 o1 o2 : sysR s1 s2 -> sobj o1 o2 -> sysR (put_obj s1 o1) (put_obj s2 o2).
Proof.
  intros K O. pose proof K as (_ & _ & F & Kt). unfold put_obj. apply sysR_sess.
  - apply sysR_tok; [exact K|]. apply tokR_objs; [exact Kt|]. apply upd_objs_R; [intros a b E; apply (tobj_fields w T _ _ E)|apply sobj_tobj; exact O|apply (tok_fields w T _ _ Kt)].
  - eapply Forall2_map2; [|exact F]. intros a b [(l & -> & Fl) N]. split; [|exact N]. eexists. split; [reflexivity|]. cbn. apply upd_objs_R; [intros c d E; apply (tobj_fields w T _ _ (sobj_tobj w T _ _ E))|exact O|exact Fl].
Qed.
Lemma put_obj_tok s1 s2 o1 o2 : sysR s1 s2 -> tobj o1 o2 -> (forall x, In x (s_sess s1) -> ~ In (o_uid o1) (uids (ss_objs x))) -> sysR (put_obj s1 o1) (put_obj s2 o2).
Proof.
  intros K O N. pose proof K as (_ & _ & F & Kt). unfold put_obj. apply sysR_sess.
  - apply sysR_tok; [exact K|]. apply tokR_objs; [exact Kt|]. apply upd_objs_R; [intros a b E; apply (tobj_fields w T _ _ E)|exact O|apply (tok_fields w T _ _ Kt)].
  - clear K Kt. revert N F. generalize (s_sess s1), (s_sess s2). intros l1 l2 N F. induction F as [|a b l1 l2 E F IH]; [constructor|]. cbn [map]. constructor; [|apply IH; intros x I; apply N; right; exact I].
    destruct E as [(l & -> & Fl) C]. specialize (N a (or_introl eq_refl)). split; [|exact C]. eexists. split; [reflexivity|]. cbn.
    assert (Q : forall l1 l2 : list obj, Forall2 sobj l1 l2 -> ~ In (o_uid o1) (uids l1) -> Forall2 sobj (upd_objs l1 o1) (upd_objs l2 o2)).
    { clear - O. destruct (tobj_fields w T _ _ O) as (Eo & _). unfold upd_objs. rewrite Eo. intros l1 l2 F. induction F as [|a b l1 l2 E F IH]; intros N; [constructor|]. cbn [map]. destruct (tobj_fields w T _ _ (sobj_tobj w T _ _ E)) as (-> & _).
      destruct (Nat.eqb_spec (o_uid a) (o_uid o1)) as [Q|_]; [exfalso; apply N; left; exact Q|]. constructor; [exact E|apply IH; intros I; apply N; right; exact I]. }
    apply Q; assumption.
Qed.

(** ** Searching *)
Lemma visible_R t1 t2 o1 o2 : tokR t1 t2 -> tobj o1 o2 -> visible t2 o2 = visible t1 o1.
Proof. intros (l & -> & _) O. unfold visible. destruct (tobj_fields w T _ _ O) as (_ & _ & _ & _ & -> & -> & _). reflexivity. Qed.
Lemma find_loop_R t1 t2 t l1 l2 : tokR t1 t2 -> Forall2 tobj l1 l2 -> forall acc, find_loop w t2 t l2 acc = find_loop w t1 t l1 acc.
Proof.
  intros K. induction 1 as [|a b l1 l2 E F IH]; intros acc; [reflexivity|]. cbn [find_loop]. rewrite (visible_R _ _ _ _ K E), (match_tobj w T _ _ t E). destruct (tobj_fields w T _ _ E) as (_ & -> & _).
  destruct (visible t1 a); [|apply IH]. destruct (Sys.match_all w a t) as [[|]| |]; cbn [bind]; [|apply IH|reflexivity..]. destruct (_ =? _)%nat; [reflexivity|apply IH].
Qed.
Lemma loops_R l1 l2 : Forall2 tobj l1 l2 -> loops l2 = loops l1.
Proof.
  intros F. unfold loops. assert (R : Forall2 tobj (rev l1) (rev l2)).
  { clear - F. induction F as [|a b l1 l2 E F IH]; [constructor|]. cbn. apply Forall2_app; [exact IH|constructor; [exact E|constructor]]. }
  destruct R as [|a b r1 r2 E _]; [reflexivity|]. destruct (tobj_fields w T _ _ E) as (_ & _ & _ & _ & _ & _ & ->). reflexivity.
Qed.
Lemma find_tok_R t1 t2 t : tokR t1 t2 -> forall n acc, find_tok w n t2 t acc = find_tok w n t1 t acc.
Proof.
  intros K. destruct (tok_fields w T _ _ K) as (_ & _ & _ & _ & _ & _ & _ & F). induction n as [|n IH]; intros acc; cbn [find_tok]; rewrite (find_loop_R _ _ t _ _ K F), (loops_R _ _ F); [reflexivity|].
  destruct (find_loop _ _ _ _ _) as [[acc1 full]| |]; cbn [bind]; [|reflexivity..]. destruct full; [reflexivity|]. destruct (loops _); [|reflexivity]. destruct (_ =? _)%nat; [reflexivity|apply IH].
Qed.
Lemma Find_R t1 t2 x1 x2 b t : tokR t1 t2 -> sessR x1 x2 -> Find w t2 x2 b t = Find w t1 x1 b t.
Proof.
  intros K X. unfold Find. destruct (sess_fields T _ _ X) as (_ & _ & _ & _ & _ & _ & F). rewrite (find_loop_R _ _ t _ _ K (sobj_list w T _ _ F)). destruct (find_loop _ _ _ _ _) as [[acc full]| |]; cbn [bind]; [|reflexivity..].
  destruct (orb _ _); [reflexivity|]. rewrite (find_tok_R _ _ t K). reflexivity.
Qed.
Lemma sessR_find x1 x2 b f n : sessR x1 x2 -> sessR (set_find x1 b f n) (set_find x2 b f n).
Proof. intros [(l & -> & F) N]. split; [|exact N]. exists l. split; [reflexivity|exact F]. Qed.
Lemma FindInit_R s1 s2 x1 x2 t : sysR s1 s2 -> sessR x1 x2 -> rel outR (FindInit w s1 x1 t) (FindInit w s2 x2 t).
Proof.
  intros K X. pose proof K as (_ & _ & _ & Kt). unfold FindInit. destruct (sess_fields T _ _ X) as (_ & _ & -> & _). destruct (ss_find x1); [apply stay; exact K|]. cbv zeta.
  assert (G : forall b, rel outR (l <- Find w (s_tok s1) x1 b t ;; rv_ (put_sess s1 (set_find x1 true l 0)) CKR_OK) (l <- Find w (s_tok s2) x2 b t ;; rv_ (put_sess s2 (set_find x2 true l 0)) CKR_OK)).
  { intros b. rewrite (Find_R _ _ _ _ b t Kt X). apply rel_same. intros l _. apply stay, put_R; [exact K|apply sessR_find; exact X]. }
  destruct (find_last _ _); [|apply G]. destruct (tmpl_token t); [apply G|]. apply stay, put_R; [exact K|apply sessR_find; exact X].
Qed.

(** ** Operations *)
Lemma sessR_op x1 x2 p : sessR x1 x2 -> (forall u, os_curr p = Some u -> ~ In u T) -> sessR (set_op x1 p) (set_op x2 p).
Proof. intros [(l & -> & F) _] N. split; [|exact N]. exists l. split; [reflexivity|exact F]. Qed.
Definition opR (p q : session * outc) : Prop := sessR (fst p) (fst q) /\ snd p = snd q.
Lemma run_init_R s1 s2 x1 x2 c0 c o : sessR x1 x2 -> with_key c0 (o_uid o) = Some c -> ~ In (o_uid o) T -> rel opR (run_init w s1 x1 c o) (run_init w s2 x2 c o).
Proof.
  intros X Wk N. assert (C : forall y r, run_init w s1 x1 c o = Ok (y, r) -> forall u, os_curr (ss_op y) = Some u -> ~ In u T).
  { intros y r E u Cu. destruct (init_cur w _ _ _ _ _ _ _ Wk E) as [_ [E2|E2]]; [destruct X as [_ Nx]; apply Nx; unfold cur; congruence|]. congruence. }
  unfold run_init in *. destruct (sess_fields T _ _ X) as (_ & _ & _ & _ & _ & -> & _). destruct (view w o) as [ko| |]; cbn [bind] in *; [|reflexivity..].
  destruct (Ops.step _ _ _ _) as [[p r]| |]; cbn [bind] in *; [|reflexivity..]. split; [|reflexivity]. apply sessR_op; [exact X|]. exact (C _ _ eq_refl).
Qed.
Lemma all_objs_R l1 l2 : Forall2 sessR l1 l2 -> Forall2 tobj (all_objs l1) (all_objs l2).
Proof. induction 1 as [|a b l1 l2 E F IH]; [constructor|]. cbn. apply Forall2_app; [apply sobj_list; apply (sess_fields T _ _ E)|exact IH]. Qed.
Lemma find_uid_R s1 s2 u : sysR s1 s2 -> ~ In u T -> find_uid s2 u = find_uid s1 u.
Proof.
  intros (_ & _ & F & Kt) N. assert (L : Forall2 tobj (live s1) (live s2)) by (apply Forall2_app; [apply (tok_fields w T _ _ Kt)|apply all_objs_R; exact F]).
  unfold find_uid. pose proof (Forall2_find tobj (fun o => (o_uid o =? u)%nat) _ _ (fun a b E => f_equal (fun z => (z =? u)%nat) (eq_sym (proj1 (tobj_fields w T a b E)))) L) as R.
  destruct (find _ (live s1)) as [o1|] eqn:E1, (find _ (live s2)) as [o2|]; try contradiction; [|reflexivity]. f_equal. symmetry. apply (tobj_clean w T _ _ R). apply find_some in E1 as [_ E1]. apply Nat.eqb_eq in E1. congruence.
Qed.
Lemma run_cont_R s1 s2 x1 x2 c : sysR s1 s2 -> sessR x1 x2 -> with_key c 0 = None -> c <> KReopen -> rel opR (run_cont w s1 x1 c) (run_cont w s2 x2 c).
Proof.
  intros K X Wk Nr. assert (C : forall y r, run_cont w s1 x1 c = Ok (y, r) -> forall u, os_curr (ss_op y) = Some u -> ~ In u T).
  { intros y r E u Cu. destruct (cont_cur w _ _ _ _ _ Wk Nr E) as [_ E2]. destruct X as [_ Nx]; apply Nx; unfold cur; congruence. }
  unfold run_cont in *. pose proof (proj2 X) as Nx. unfold cur in Nx. destruct (sess_fields T _ _ X) as (_ & _ & _ & _ & _ & -> & _).
  assert (E : forall u, os_curr (ss_op x1) = Some u -> find_uid s2 u = find_uid s1 u) by (intros u Cu; apply find_uid_R; [exact K|apply Nx; exact Cu]).
  destruct (os_curr (ss_op x1)) as [u|].
  - rewrite (E u eq_refl). destruct (match find_uid s1 u with Some o => _ | None => _ end) as [ko| |]; cbn [bind] in *; [|reflexivity..].
    destruct (Ops.step _ _ _ _) as [[p r]| |]; cbn [bind] in *; [|reflexivity..]. split; [|reflexivity]. apply sessR_op; [exact X|]. exact (C _ _ eq_refl).
  - cbn [bind] in *. destruct (Ops.step _ _ _ _) as [[p r]| |]; cbn [bind] in *; [|reflexivity..]. split; [|reflexivity]. apply sessR_op; [exact X|]. exact (C _ _ eq_refl).
Qed.
Lemma Wrap_R s1 s2 x1 x2 m mp wk k1 k2 b : sysR s1 s2 -> sessR x1 x2 -> ~ In (o_uid wk) T -> tobj k1 k2 -> rel outR (Wrap w s1 x1 m mp wk k1 b) (Wrap w s2 x2 m mp wk k2 b).
Proof.
  intros K X N O. unfold Wrap. destruct (tobj_fields w T _ _ O) as (_ & _ & Et & Ec & _). rewrite Et, Ec. destruct (wrappable _ _) eqn:W; cbn [negb]; [|apply stay; exact K].
  assert (k1 = k2) as <-. { destruct O as [E|(_ & H & _)]; [exact E|]. destruct (hid_types _ H) as (R & _). apply andb_true_iff in W as [_ W]. congruence. }
  apply rel_same. intros r _. destruct (w_p8 w r) as [c der]. destruct (negb _); [apply stay; exact K|]. destruct (negb _); [apply stay; exact K|]. destruct (negb _); [apply stay; exact K|].
  eapply rel_bind; [apply (run_init_R s1 s2 x1 x2 (KEncryptInit m mp 0)); [exact X|reflexivity|exact N]|]. intros [y1 r1] [y2 r2] [Y Er]. cbn in Y, Er. subst r2. destruct (negb _); [apply stay, put_R; assumption|].
  eapply rel_bind; [apply (run_cont_R s1 s2 y1 y2); [exact K|exact Y|reflexivity|discriminate]|]. intros [z1 r2] [z2 r3] [Z Er]. cbn in Z, Er. subst r3. split; [apply put_R; assumption|reflexivity].
Qed.
Lemma Unwrap_R rnd s1 s2 x1 x2 m mp uk wr t : sysR s1 s2 -> sessR x1 x2 -> ~ In (o_uid uk) T -> rel outR (Unwrap w rnd s1 x1 m mp uk wr t) (Unwrap w rnd s2 x2 m mp uk wr t).
Proof.
  intros K X N. unfold Unwrap. destruct (negb _); [apply stay; exact K|]. cbv zeta. destruct (find_last t CKA_KEY_TYPE) as [a|]; [|apply stay; exact K]. destruct (tmpl_ulong a) as [kt|]; [|apply stay; exact K].
  destruct (negb _); [apply stay; exact K|]. destruct (find_last t CKA_CLASS) as [a2|]; [|apply stay; exact K]. destruct (tmpl_ulong a2) as [cl|]; [|apply stay; exact K].
  destruct (negb _); [apply stay; exact K|]. destruct (negb _); [apply stay; exact K|]. destruct (negb _); [apply stay; exact K|].
  eapply rel_bind; [apply (run_init_R s1 s2 x1 x2 (KDecryptInit m mp 0)); [exact X|reflexivity|exact N]|]. intros [y1 r1] [y2 r2] [Y Er]. cbn in Y, Er. subst r2. destruct (negb _); [apply stay, put_R; assumption|].
  eapply rel_bind; [apply (run_cont_R s1 s2 y1 y2); [exact K|exact Y|reflexivity|discriminate]|]. intros [z1 r2] [z2 r3] [Z Er]. cbn in Z, Er. subst r3. pose proof (put_R w T _ _ _ _ K Z) as K2. destruct (negb _); [apply stay; exact K2|].
  rewrite (sessR_rw T _ _ Z), (uid_R _ _ K2). apply rel_same. intros [rv [o|]] _; [|apply stay, sysR_bump; exact K2]. destruct (w_p8_dec w (o_out r2)) as [c r]. destruct (negb _); [apply stay, sysR_bump; exact K2|].
  apply added; auto using sysR_bump, sobj_refl.
Qed.

(** ** PINs *)
Lemma SetSOPin_R rnd s1 s2 pin : sysR s1 s2 -> rel (zsR w T) (SetSOPin w rnd s1 pin) (SetSOPin w rnd s2 pin).
Proof. intros K. apply store_R; [exact Sl|]. apply sysR_tok; [exact K|]. pose proof K as (_ & _ & _ & (l & -> & F)). exists l. split; [reflexivity|exact F]. Qed.
Lemma SetUserPin_R rnd s1 s2 pin : sysR s1 s2 -> rel (zsR w T) (SetUserPin w rnd s1 pin) (SetUserPin w rnd s2 pin).
Proof. intros K. apply store_R; [exact Sl|]. apply sysR_tok; [exact K|]. pose proof K as (_ & _ & _ & (l & -> & F)). exists l. split; [reflexivity|exact F]. Qed.
Lemma CheckPin_R t1 t2 p a : tokR t1 t2 -> CheckPin w t2 p a = CheckPin w t1 p a.
Proof. intros (l & -> & _). reflexivity. Qed.
Lemma GetState_R t1 t2 x1 x2 : tokR t1 t2 -> sessR x1 x2 -> GetState t2 x2 = GetState t1 x1.
Proof. intros (l & -> & _) X. unfold GetState. destruct (sess_fields T _ _ X) as (_ & -> & _). reflexivity. Qed.
Lemma zs_out p q : zsR w T p q -> rel outR (let '(c, s1) := p in rv_ s1 (if (c =? 0)%Z then CKR_OK else CKR_FUNCTION_FAILED)) (let '(c, s1) := q in rv_ s1 (if (c =? 0)%Z then CKR_OK else CKR_FUNCTION_FAILED)).
Proof. destruct p as [c s1], q as [c' s2]. intros [E R]. cbn in E, R. subst c'. apply stay; exact R. Qed.
Lemma InitToken_R rnd s1 s2 pin label : sysR s1 s2 -> rel outR (InitToken w rnd s1 pin label) (InitToken w rnd s2 pin label).
Proof.
  intros K. pose proof K as (_ & _ & F & Kt). destruct (tok_fields w T _ _ Kt) as (_ & Ei & Es & _ & _ & _ & _ & Ft). unfold InitToken. cbv zeta. rewrite Ei, Es, (CheckPin_R _ _ _ _ Kt), (existsb_R T in_use _ _ (sessR_in_use T) F).
  destruct (negb _); [apply stay; exact K|]. destruct (andb _ _); [apply stay; exact K|]. destruct (andb _ _); [apply stay; exact K|].
  eapply (rel_bind (zsR w T)); [|intros p q; apply zs_out]. unfold TokenReset. rewrite (free_list w T _ _ Ft). apply rel_same. intros _ _. destruct (_ <? _)%Z; [reflexivity|]. apply SetSOPin_R. apply sysR_tok; [exact K|apply tokR_refl].
Qed.
Lemma InitPIN_R rnd s1 s2 x1 x2 pin : sysR s1 s2 -> sessR x1 x2 -> rel outR (InitPIN w rnd s1 x1 pin) (InitPIN w rnd s2 x2 pin).
Proof.
  intros K X. pose proof K as (_ & _ & _ & Kt). unfold InitPIN. rewrite (GetState_R _ _ _ _ Kt X). destruct (negb _); [apply stay; exact K|]. destruct (negb _); [apply stay; exact K|].
  eapply rel_bind; [apply SetUserPin_R; exact K|]. intros p q. apply zs_out.
Qed.
Lemma SetPIN_R rnd s1 s2 x1 x2 old new : sysR s1 s2 -> sessR x1 x2 -> rel outR (SetPIN w rnd s1 x1 old new) (SetPIN w rnd s2 x2 old new).
Proof.
  intros K X. pose proof K as (_ & _ & _ & Kt). destruct (tok_fields w T _ _ Kt) as (_ & _ & Es & Eu & _). unfold SetPIN. cbv zeta. rewrite (GetState_R _ _ _ _ Kt X), Es, Eu, (CheckPin_R _ _ _ _ Kt).
  destruct (negb _); [apply stay; exact K|]. destruct (negb _); [apply stay; exact K|]. destruct (negb _); [apply stay; exact K|]. destruct (_ =? PIN_NOT_SET_E)%Z; [apply stay; exact K|]. destruct (negb _); [apply stay; exact K|].
  eapply (rel_bind (zsR w T)); [|intros p q; apply zs_out]. destruct (_ =? RW_SO)%Z; [apply SetSOPin_R|apply SetUserPin_R]; exact K.
Qed.
Lemma new_R l1 l2 : Forall2 sessR l1 l2 -> new_sess l2 = new_sess l1.
Proof. intros [|a b r1 r2 E _]; [reflexivity|]. unfold new_sess. destruct (sess_fields T _ _ E) as (-> & _). reflexivity. Qed.
Lemma sessR_new l : sessR (new_sess l) (new_sess l).
Proof. split; [exists []; split; [reflexivity|constructor]|intros u C; discriminate C]. Qed.
Lemma sessR_use x1 x2 n : sessR x1 x2 -> sessR (set_use x1 n) (set_use x2 n).
Proof. intros [(l & -> & F) N]. split; [|exact N]. exists l. split; [reflexivity|exact F]. Qed.
Lemma OpenSession_R s1 s2 fl : sysR s1 s2 -> rel outR (OpenSession s1 fl) (OpenSession s2 fl).
Proof.
  intros K. pose proof K as (_ & _ & F & Kt). destruct (tok_fields w T _ _ Kt) as (_ & _ & _ & _ & _ & _ & El & _). unfold OpenSession. rewrite El. destruct (_ =? 0)%Z; [apply stay; exact K|]. cbv zeta. destruct (andb _ _); [apply stay; exact K|].
  unfold first_unused. pose proof (Forall2_find sessR (fun x => negb (in_use x)) _ _ (fun a b E => f_equal negb (eq_sym (sessR_in_use T a b E))) F) as R.
  destruct (find _ (s_sess s1)) as [x|], (find _ (s_sess s2)) as [y|]; try contradiction.
  - destruct (sess_fields T _ _ R) as (-> & _). split; [|reflexivity]. cbn [fst]. apply put_R; [apply sysR_sess; [exact K|exact F]|apply sessR_use; exact R].
  - assert (Ei : (match s_sess s2 with x :: _ => (sess_id x =? SESSION_MAX)%Z | [] => false end) = (match s_sess s1 with x :: _ => (sess_id x =? SESSION_MAX)%Z | [] => false end)) by (destruct F as [|a b r1 r2 E _]; [reflexivity|rewrite (sessR_id T _ _ E); reflexivity]).
    rewrite Ei. destruct (match s_sess s1 with x :: _ => _ | [] => _ end); [apply stay; exact K|]. unfold add_sess. rewrite (new_R _ _ F). split; [|reflexivity]. cbn [fst]. apply put_R; [|apply sessR_use, sessR_new].
    apply sysR_sess; [exact K|]. constructor; [apply sessR_new|exact F].
Qed.
Lemma CloseSession_R s1 s2 x1 x2 : sysR s1 s2 -> sessR x1 x2 -> rel outR (CloseSession w s1 x1) (CloseSession w s2 x2).
Proof.
  intros K X. pose proof K as (_ & _ & F & Kt). unfold CloseSession. eapply rel_bind; [apply (close_R w T); [exact F|exact X]|]. intros l1 l2 L. cbv zeta. rewrite (existsb_R T in_use _ _ (sessR_in_use T) L).
  destruct (existsb _ _); [apply stay, sysR_sess; assumption|]. eapply rel_bind; [apply (Logout_R w T); exact Kt|]. intros t1 t2 Rt. apply stay, sysR_tok; [apply sysR_sess; assumption|exact Rt].
Qed.
Lemma Login_R s1 s2 ut pin now : sysR s1 s2 -> rel outR (Login w s1 ut pin now) (Login w s2 ut pin now).
Proof.
  intros K. pose proof K as (_ & _ & F & Kt). unfold Login. destruct (negb _); [apply stay; exact K|]. destruct (_ =? _)%Z.
  { destruct (SOLogin_R w T _ _ _ _ pin now (uses_R T _ _ F) Kt) as [E R]. destruct (SOLogin w (s_sess s1) (s_tok s1) pin now) as [c t1], (SOLogin w (s_sess s2) (s_tok s2) pin now) as [c' t2]. cbn in E, R. subst c'. apply stay, sysR_tok; assumption. }
  destruct (_ =? _)%Z; [|destruct (_ =? _)%Z; apply stay; exact K]. eapply rel_bind; [apply (UserLogin_R w T Sl); exact Kt|]. intros [c t1] [c' t2] [E R]. cbn in E, R. subst c'. apply stay, sysR_tok; assumption.
Qed.

Theorem step_R rnd s1 s2 c : inv s1 -> sysR s1 s2 -> careful s1 c -> (forall u, computes_with s1 c u -> ~ In u T) -> rel outR (step w rnd s1 c) (step w rnd s2 c).
Proof.
  intros Iv K C N. pose proof K as (Kc & Ku & F & Kt). destruct c; cbn [step].
  - cbn in C. unfold Initialize. rewrite <- Kc. destruct (Z.eqb_spec (s_count s1) 0); [contradiction|]. split; [|reflexivity]. repeat split; auto.
  - unfold Finalize. rewrite <- Kc. destruct (_ =? 0)%Z; [|split; [repeat split; auto|reflexivity]].
    eapply rel_bind; [apply (store_R w T Sl); exact K|]. intros [c1 r1] [c2 r2] [_ R]. cbn in R. pose proof R as (_ & Ru & Rf & Rt). eapply rel_bind; [apply (final_all_R w T); exact Rf|]. intros _ _ _. rewrite (free_list w T _ _ ltac:(apply (tok_fields w T _ _ Rt))).
    apply rel_same. intros _ _. split; [|reflexivity]. repeat split; cbn [fst s_count s_uid s_sess s_tok]; auto; try apply tokR_refl; constructor.
  - split; [|reflexivity]. repeat split; cbn [fst s_count s_uid s_sess s_tok]; auto; try apply tokR_refl; constructor.
  - apply with_slot_R; [exact K|]. apply InitToken_R; exact K.
  - apply with_sess_R; [exact K|]. intros x1 x2 _ X. apply InitPIN_R; assumption.
  - apply with_sess_R; [exact K|]. intros x1 x2 _ X. apply SetPIN_R; assumption.
  - apply with_slot_R; [exact K|]. apply OpenSession_R; exact K.
  - apply with_sess_R; [exact K|]. intros x1 x2 _ X. apply CloseSession_R; assumption.
  - apply with_slot_R; [exact K|]. eapply rel_bind; [apply (close_all_R w T); exact F|]. intros l1 l2 L. apply stay, sysR_sess; assumption.
  - apply with_sess_R; [exact K|]. intros x1 x2 _ X. rewrite (GetState_R _ _ _ _ Kt X), (sessR_rw T _ _ X). split; [exact K|reflexivity].
  - apply with_sess_R; [exact K|]. intros x1 x2 _ X. apply Login_R; assumption.
  - apply with_sess_R; [exact K|]. intros x1 x2 _ X. eapply rel_bind; [apply (Logout_R w T); exact Kt|]. intros t1 t2 Rt. apply stay, sysR_tok; assumption.
  - apply with_slot_R; [exact K|]. cbv zeta. destruct Kt as (l & Et & Fl). rewrite Et. split; [exact K|reflexivity].
  - apply with_sess_R; [exact K|]. intros x1 x2 _ X. apply need_rw_R; auto. apply Create_R; assumption.
  - apply with_sess_R; [exact K|]. intros x1 x2 _ X. apply need_rw_R; auto. apply with_object_R; auto. intros o1 o2 _ O _. apply Copy_R; assumption.
  - apply with_sess_R; [exact K|]. intros x1 x2 _ X. apply need_rw_R; auto. apply with_object_R; auto. intros o1 o2 _ O _. eapply rel_bind; [apply RemoveObject_R; eassumption|]. intros r1 r2 R. apply stay; exact R.
  - apply with_sess_R; [exact K|]. intros x1 x2 _ X. apply with_object_R; auto. intros o1 o2 _ O _. rewrite (get_tobj w T _ _ _ O). apply rel_same. intros [rv t1] _. split; [exact K|reflexivity].
  - apply with_sess_R; [exact K|]. intros x1 x2 _ X. apply need_rw_R; auto. apply with_object_R; auto. intros o1 o2 Fo Ot Os. rewrite (sessR_rw T _ _ X).
    destruct (on_token ho) eqn:Tk.
    + destruct C as [C|C]; [rewrite (small_token _ C) in Tk; discriminate Tk|].
      eapply rel_bind; [apply (set_tobj w T); eassumption|]. intros [rv p] [rv' q] (E & R & U). cbn in E, R, U. subst rv'. apply stay, put_obj_tok; [exact K|exact R|].
      intros y Y I. rewrite U in I. apply SysProofs3.find_obj_in in Fo as [Fo _]. rewrite Tk in Fo. destruct Iv as (_ & _ & [Nd _] & _). unfold live in Nd. rewrite uids_app in Nd.
      eapply (WfProofs.NoDup_app_disj _ _ _ Nd); [unfold uids; apply in_map; exact Fo|]. unfold uids in I |- *. apply in_map_iff in I as (o3 & <- & I). apply in_map. eapply all_objs_in; eassumption.
    + eapply rel_bind; [apply (set_sobj w T); exact (Os eq_refl)|]. intros [rv p] [rv' q] [E R]. cbn in E, R. subst rv'. apply stay, put_obj_R; assumption.
  - apply with_sess_R; [exact K|]. intros x1 x2 _ X. apply FindInit_R; assumption.
  - apply with_sess_R; [exact K|]. intros x1 x2 _ X. unfold FindNext. destruct (sess_fields T _ _ X) as (_ & _ & -> & -> & -> & _). split; [|reflexivity]. apply put_R; [exact K|apply sessR_find; exact X].
  - apply with_sess_R; [exact K|]. intros x1 x2 _ X. destruct (sess_fields T _ _ X) as (_ & _ & _ & -> & -> & _). apply stay. apply put_R; [exact K|apply sessR_find; exact X].
  - apply with_sess_R; [exact K|]. intros x1 x2 _ X. destruct aes; [apply GenKey_R; assumption|apply stay; exact K].
  - apply with_sess_R; [exact K|]. intros x1 x2 _ X. apply GenKeyPair_R; assumption.
  - apply with_sess_R; [exact K|]. intros x1 x2 G X. apply need_rw_R; auto. apply with_object_R; auto. intros k1 k2 _ Ok _. apply with_object_R; auto. intros o1 o2 Fo O _.
    assert (Nu : ~ In (o_uid o1) T) by (apply N; exists h, hw, x1, o1; repeat split; auto; right; left; eauto).
    rewrite <- (tobj_clean w T _ _ O Nu). apply Wrap_R; assumption.
  - apply with_sess_R; [exact K|]. intros x1 x2 G X. apply need_rw_R; auto. destruct (_ =? 0)%Z; [apply stay; exact K|]. apply with_object_R; auto. intros o1 o2 Fo O _.
    assert (Nu : ~ In (o_uid o1) T) by (apply N; exists h, hu, x1, o1; repeat split; auto; right; right; eauto).
    rewrite <- (tobj_clean w T _ _ O Nu). apply Unwrap_R; assumption.
  - apply with_sess_R; [exact K|]. intros x1 x2 _ X. apply with_object_R; auto. intros o1 o2 _ O _. apply Derive_R; assumption.
  - apply with_sess_R; [exact K|]. intros x1 x2 G X. destruct (with_key c 0) as [c0|] eqn:Wk.
    + apply with_object_R; auto. intros o1 o2 Fo O _. assert (Nu : ~ In (o_uid o1) T) by (apply N; exists h, hk, x1, o1; repeat split; auto; left; exists c; split; [reflexivity|congruence]).
      rewrite <- (tobj_clean w T _ _ O Nu). destruct (with_key c (o_uid o1)) as [c1|] eqn:Wk2; [|apply stay; exact K].
      eapply rel_bind; [apply (run_init_R s1 s2 x1 x2 c); assumption|]. intros [y1 r1] [y2 r2] [Y Er]. cbn in Y, Er. subst r2. split; [apply put_R; assumption|reflexivity].
    + assert (D : c = KReopen \/ c <> KReopen) by (destruct c; (left; reflexivity) || (right; discriminate)). destruct D as [->|Nr]; [apply stay; exact K|].
      assert (E : forall s x, match c with KReopen => rv_ s CKR_ARGUMENTS_BAD | _ => '(x1, r) <- run_cont w s x c ;; Ok (put_sess s x1, OutC r) end = ('(x1, r) <- run_cont w s x c ;; Ok (put_sess s x1, OutC r))) by (intros s x; destruct c; try reflexivity; contradiction).
      rewrite !E. eapply rel_bind; [apply run_cont_R; assumption|]. intros [y1 r1] [y2 r2] [Y Er]. cbn in Y, Er. subst r2. split; [apply put_R; assumption|reflexivity].
Qed.
End R.
