(** The elementary changes keep the invariant; the object calls consist of them. *)
From Coq Require Import Permutation.
From Verif Require Import Base Ops Object ObjectProofs Store Sys SysProofs.

(** ** Lists *)
Lemma all_objs_app a b : all_objs (a ++ b) = all_objs a ++ all_objs b.
Proof. induction a as [|x a IH]; cbn; [reflexivity|]. rewrite IH, app_assoc. reflexivity. Qed.
Lemma all_objs_in l x o : In x l -> In o (ss_objs x) -> In o (all_objs l).
Proof.
  induction l as [|y l IH]; cbn; [contradiction|]. intros [-> | I] J; apply in_or_app; auto.
Qed.
Lemma in_all_objs l o : In o (all_objs l) -> exists x, In x l /\ In o (ss_objs x).
Proof.
  induction l as [|y l IH]; cbn; [contradiction|]. intros I. apply in_app_or in I.
  destruct I as [I | I]; [exists y; auto|]. destruct (IH I) as (x & ? & ?). exists x; auto.
Qed.
Lemma upd_split l x : uniq l -> In x l -> exists l1 l2, l = l1 ++ x :: l2 /\
  forall x', ss_h x' = ss_h x -> upd_sess l x' = l1 ++ x' :: l2.
Proof.
  intros U I. apply in_split in I as (l1 & l2 & ->). exists l1, l2. split; [reflexivity|].
  intros x' E. unfold uniq in U. rewrite map_app in U. cbn in U. apply NoDup_remove_2 in U.
  unfold upd_sess. rewrite map_app. cbn. rewrite (proj2 (Z.eqb_eq _ _)) by lia.
  f_equal; [|f_equal]; (rewrite <- map_id; apply map_ext_in; intros y Hy;
    destruct (ss_h y =? ss_h x')%Z eqn:E'; [|reflexivity]; exfalso; apply U; apply in_or_app;
    assert (ss_h y = ss_h x) as <- by lia; [left + right]; apply in_map; exact Hy).
Qed.
Lemma remove_uid_perm l o : In o l -> NoDup (uids l) -> Permutation l (o :: remove_uid (o_uid o) l).
Proof.
  induction l as [|y l IH]; cbn; [contradiction|]. intros I N. inversion N as [|? ? A B]; subst.
  destruct (o_uid y =? o_uid o)%nat eqn:E.
  - apply Nat.eqb_eq in E. destruct I as [-> | I]; [apply Permutation_refl|].
    exfalso. apply A. rewrite E. apply in_map; exact I.
  - destruct I as [-> | I]; [rewrite Nat.eqb_refl in E; discriminate|].
    rewrite perm_swap. apply perm_skip. apply IH; auto.
Qed.
Lemma upd_objs_uids l o : uids (upd_objs l o) = uids l.
Proof.
  unfold uids, upd_objs. rewrite map_map. apply map_ext. intros y.
  destruct (o_uid y =? o_uid o)%nat eqn:E; [|reflexivity]. apply Nat.eqb_eq in E. auto.
Qed.
Lemma uids_app a b : uids (a ++ b) = uids a ++ uids b.
Proof. apply map_app. Qed.
Lemma core_uids l l' : map core_obj l = map core_obj l' -> uids l = uids l'.
Proof.
  intros E. unfold uids. transitivity (map o_uid (map core_obj l)); [rewrite map_map; reflexivity|].
  rewrite E, map_map. reflexivity.
Qed.

Section W.
Variable w : world.
Variable cl : op.

Lemma live_put_sess s x x' : uniq (s_sess s) -> In x (s_sess s) -> ss_h x' = ss_h x ->
  exists a b, live s = a ++ ss_objs x ++ b /\ live (put_sess s x') = a ++ ss_objs x' ++ b.
Proof.
  intros U I E. destruct (upd_split _ _ U I) as (l1 & l2 & El & F).
  exists (t_objs (s_tok s) ++ all_objs l1), (all_objs l2).
  unfold live. cbn. rewrite (F x' E), El, !all_objs_app. cbn. rewrite <- !app_assoc. auto.
Qed.

Lemma prim_quiet h s s' : prim w cl h s s' -> uniq (s_sess s) -> quiet s s'.
Proof.
  intros P U. destruct P.
  - eapply put_sess_quiet; eauto. congruence.
  - apply bump_quiet.
  - eapply store_quiet; eauto.
  - eapply put_sess_quiet; eauto.
  - repeat split.
  - eapply put_sess_quiet; eauto.
  - repeat split.
  - apply put_obj_quiet.
Qed.

Lemma Forall_modes (P : Z -> Z -> Prop) l l' :
  modes l' = modes l -> Forall (fun x => P (ss_h x) (ss_use x)) l -> Forall (fun x => P (ss_h x) (ss_use x)) l'.
Proof.
  revert l'. induction l as [|x l IH]; intros [|y l'] E F; try discriminate; auto.
  cbn in E. injection E as E1 E2 E3. inversion F; subst. constructor; auto. rewrite E1, E2. assumption.
Qed.
Lemma modes_len l l' : modes l' = modes l -> zlen l' = zlen l.
Proof. intros E. unfold zlen. f_equal. rewrite <- (map_length (fun x => (ss_h x, ss_use x)) l'). fold (modes l'). rewrite E. unfold modes. apply map_length. Qed.

Lemma quiet_login s s' : quiet s s' -> login_ok s -> login_ok s'.
Proof.
  intros (_ & M & T) (A & B). apply tok0_eq in T as (_ & _ & _ & _ & _ & _ & T).
  split; [congruence|]. intros L. apply (Forall_modes (fun _ u => u <> SESSION_RO) (s_sess s) _ M). apply B. congruence.
Qed.

(** Sessions whose mode is the same and whose objects are kept. *)
Lemma sess_ok_quiet s s' : quiet s s' ->
  (forall x, In x (s_sess s') -> is_rw x = false -> ss_objs x = []) -> sess_ok (s_sess s) -> sess_ok (s_sess s').
Proof.
  intros (_ & M & _) K (C & L & F). split; [|split].
  - eapply chain_modes; [|exact C]. rewrite <- !modes_h, M. reflexivity.
  - rewrite (modes_len _ _ M). exact L.
  - apply Forall_forall. intros x I. split; [|auto].
    pose proof (Forall_modes (fun _ u => In u [0; SESSION_RO; SESSION_RW]%Z) (s_sess s) (s_sess s') M) as G.
    cbv beta in G. assert (G' : Forall (fun x => In (ss_use x) [0; SESSION_RO; SESSION_RW]%Z) (s_sess s')).
    { apply G. eapply Forall_impl; [|exact F]. intros a [? ?]; assumption. }
    rewrite Forall_forall in G'. apply G'. exact I.
Qed.
Definition ro_empty (l : list session) : Prop := forall x, In x l -> is_rw x = false -> ss_objs x = [].
Lemma sess_ok_ro l : sess_ok l -> ro_empty l.
Proof. intros (_ & _ & F) x I. rewrite Forall_forall in F. apply F; exact I. Qed.
Lemma inv_ro s : inv s -> ro_empty (s_sess s).
Proof.
  intros (A & B & _). destruct (Z.ltb_spec 0 (s_count s)) as [L|L].
  - apply sess_ok_ro; auto.
  - rewrite (B L). intros x [].
Qed.
Lemma in_upd_sess l x y : In y (upd_sess l x) -> y = x \/ In y l.
Proof.
  unfold upd_sess. intros I. apply in_map_iff in I as (z & E & I). destruct (ss_h z =? ss_h x)%Z; subst; auto.
Qed.

Lemma prim_ro h s s' : prim w cl h s s' -> uniq (s_sess s) -> ro_empty (s_sess s) -> ro_empty (s_sess s').
Proof.
  intros P U R. destruct P; cbn; auto; intros y J Q.
  - apply in_upd_sess in J as [-> | J]; [|apply R; auto].
    unfold is_rw in *. rewrite H4. apply R; auto. unfold is_rw. congruence.
  - apply store_frame in H2 as (_ & E & _). rewrite E in J. apply R; auto.
  - apply in_upd_sess in J as [-> | J]; [|apply R; auto]. unfold is_rw in *; cbn in Q; congruence.
  - apply in_upd_sess in J as [-> | J]; [|apply R; auto]. unfold is_rw in *; cbn in Q; congruence.
  - apply in_map_iff in J as (z & <- & J). unfold is_rw in Q. cbn in *. rewrite (R z J Q). reflexivity.
Qed.

Lemma uid_ok_perm s s' : Permutation (uids (live s')) (uids (live s)) -> (s_uid s <= s_uid s')%nat -> uid_ok s -> uid_ok s'.
Proof.
  intros P L (N & F). split.
  - eapply Permutation_NoDup; [apply Permutation_sym; exact P|exact N].
  - rewrite Forall_forall in *. intros u I. apply (Permutation_in _ P) in I. specialize (F u I). lia.
Qed.
Lemma uid_ok_add s s' u : Permutation (uids (live s')) (u :: uids (live s)) -> s_uid s' = s_uid s ->
  (u < s_uid s)%nat -> ~ In u (uids (live s)) -> uid_ok s -> uid_ok s'.
Proof.
  intros P L Lu Nu (N & F). split.
  - eapply Permutation_NoDup; [apply Permutation_sym; exact P|]. constructor; auto.
  - rewrite L. rewrite Forall_forall in *. intros v I. apply (Permutation_in _ P) in I. destruct I as [<- | I]; auto.
Qed.
Lemma uid_ok_del s s' u : Permutation (u :: uids (live s')) (uids (live s)) -> s_uid s' = s_uid s -> uid_ok s -> uid_ok s'.
Proof.
  intros P L (N & F). apply (Permutation_NoDup (Permutation_sym P)) in N. inversion N; subst. split; [assumption|].
  rewrite L. rewrite Forall_forall in *. intros v I. apply F. apply (Permutation_in _ P). right; exact I.
Qed.

Lemma live_put_obj s o : uids (live (put_obj s o)) = uids (live s).
Proof.
  unfold live. cbn. rewrite !uids_app, upd_objs_uids. f_equal.
  induction (s_sess s) as [|x l IH]; cbn; [reflexivity|]. rewrite !uids_app, upd_objs_uids, IH. reflexivity.
Qed.
Lemma live_store rnd s c s' : store w rnd s = Ok (c, s') -> uids (live s') = uids (live s).
Proof.
  intros H. apply store_frame in H as (_ & E & _ & _ & C). unfold live. rewrite E, !uids_app. f_equal.
  apply core_uids; exact C.
Qed.
Lemma uid_tok s : uid_ok s -> NoDup (uids (t_objs (s_tok s))).
Proof.
  intros [N _]. unfold live in N. rewrite uids_app in N.
  revert N. generalize (uids (all_objs (s_sess s))). induction (uids (t_objs (s_tok s))) as [|a l IH]; intros m N; [constructor|].
  inversion N; subst. constructor; [|eapply IH; eauto]. intros J. apply H1. apply in_or_app; auto.
Qed.
Lemma NoDup_app_mid (A : Type) (a b c : list A) : NoDup (a ++ b ++ c) -> NoDup b.
Proof.
  induction a as [|x a IH]; cbn.
  - induction b as [|y b IHb]; cbn; [constructor|]. intros N; inversion N; subst. constructor; [|auto].
    intros J. apply H1. apply in_or_app; auto.
  - intros N; inversion N; auto.
Qed.
Lemma uid_sess s x : uid_ok s -> In x (s_sess s) -> NoDup (uids (ss_objs x)).
Proof.
  intros [N _] I. apply in_split in I as (l1 & l2 & E). unfold live in N.
  rewrite E, all_objs_app in N. cbn in N. rewrite !uids_app in N. rewrite app_assoc in N.
  eapply NoDup_app_mid; exact N.
Qed.

Lemma prim_uid h s s' : prim w cl h s s' -> uniq (s_sess s) -> uid_ok s -> uid_ok s'.
Proof.
  intros P U K. destruct P.
  - destruct (live_put_sess s x x') as (a & b & E1 & E2); auto; [congruence|].
    apply (uid_ok_perm s); [|cbn; lia|exact K]. rewrite E1, E2, H4. apply Permutation_refl.
  - apply (uid_ok_perm s); [apply Permutation_refl|cbn; lia|exact K].
  - apply (uid_ok_perm s); [rewrite (live_store _ _ _ _ H2); apply Permutation_refl| |exact K].
    apply store_frame in H2 as (_ & _ & E & _). lia.
  - destruct (live_put_sess s x (set_sobjs x (o :: ss_objs x))) as (a & b & E1 & E2); auto.
    apply (uid_ok_add s _ (o_uid o)); auto. rewrite E1, E2, !uids_app. cbn.
    symmetry. apply Permutation_middle.
  - apply (uid_ok_add s _ (o_uid o)); auto.
  - destruct (live_put_sess s x (set_sobjs x (remove_uid (o_uid o) (ss_objs x)))) as (a & b & E1 & E2); auto.
    apply (uid_ok_del s _ (o_uid o)); auto. rewrite E1, E2, !uids_app. cbn.
    rewrite Permutation_middle. apply Permutation_app_head. rewrite app_comm_cons. apply Permutation_app_tail.
    change (Permutation (uids (o :: remove_uid (o_uid o) (ss_objs x))) (uids (ss_objs x))).
    apply Permutation_map. symmetry. apply remove_uid_perm; auto. eapply uid_sess; eauto.
  - apply (uid_ok_del s _ (o_uid o)); auto. unfold live. cbn. rewrite !uids_app, app_comm_cons.
    apply Permutation_app_tail. apply (Permutation_map o_uid (l := o :: _)). symmetry. apply remove_uid_perm; auto. apply uid_tok; auto.
  - apply (uid_ok_perm s); [rewrite live_put_obj; apply Permutation_refl|cbn; lia|exact K].
Qed.

Lemma prim_inv h s s' : prim w cl h s s' -> inv s -> inv s'.
Proof.
  intros P I. pose proof (inv_uniq s I) as U. pose proof (prim_quiet _ _ _ P U) as Q.
  pose proof (prim_ro _ _ _ P U (inv_ro _ I)) as R. pose proof Q as (QC & QM & _).
  destruct I as (A & B & C & D). split; [|split; [|split]].
  - intros L. eapply sess_ok_quiet; eauto. apply A. lia.
  - intros L. assert (E : s_sess s = []) by (apply B; lia). rewrite E in QM. destruct (s_sess s'); [reflexivity|discriminate].
  - eapply prim_uid; eauto.
  - eapply quiet_login; eauto.
Qed.
Lemma prims_inv h s s' : prims w cl h s s' -> inv s -> inv s' /\ quiet s s'.
Proof.
  induction 1 as [s|s s1 s2 P Q IH]; intros I; [split; [exact I|apply quiet_refl]|].
  pose proof (prim_inv _ _ _ P I) as I1. destruct (IH I1) as [I2 Q2]. split; [exact I2|].
  eapply quiet_trans; [eapply prim_quiet; eauto; apply inv_uniq; auto|exact Q2].
Qed.
End W.
