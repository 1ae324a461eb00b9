(** What the calls do to the attributes of an object that are not its key: only
    C_SetAttributeValue on the object changes any of them. *)
From Verif Require Import Base Ops Object ObjectProofs Store Sys SysProofs SysProofs2 SysProofs3 SysProofs4 ObjFrame HeapProofs.
From Coq Require Import Permutation.

(** An object without its key and the stored form of the key. *)
Definition face (o : obj) : obj := set_store (set_data o KZero) [] None false.
Lemma face_uid o o' : face o' = face o -> o_uid o' = o_uid o.
Proof. intros E. exact (f_equal o_uid E). Qed.
Lemma face_core l l' : map core_obj l' = map core_obj l -> map face l' = map face l.
Proof.
  intros E. transitivity (map face (map core_obj l')); [rewrite map_map; reflexivity|]. rewrite E, map_map. reflexivity.
Qed.
Lemma face_ident l l' : map ident l' = map ident l -> map face l' = map face l.
Proof.
  intros E. transitivity (map face (map ident l')); [rewrite map_map; reflexivity|]. rewrite E, map_map. reflexivity.
Qed.
Lemma map_in_face l l' : map face l' = map face l -> forall o, In o l' -> exists p, In p l /\ face o = face p.
Proof. intros E o I. apply (in_map face) in I. rewrite E in I. apply in_map_iff in I as (p & F & J). eauto. Qed.

(** Every object of the one is in the other. *)
Definition under (s s' : sys) : Prop := forall o, In o (live s) -> exists p, In p (live s') /\ face o = face p.
Lemma under_refl s : under s s.
Proof. intros o I. eauto. Qed.
Lemma under_trans a b c : under a b -> under b c -> under a c.
Proof. intros A B o I. destruct (A o I) as (p & J & E). destruct (B p J) as (q & K & F). exists q. split; [exact K|congruence]. Qed.
Lemma under_map s s' : map face (live s) = map face (live s') -> under s s'.
Proof. intros E o I. exact (map_in_face _ _ E o I). Qed.
Lemma under_in s s' : (forall o, In o (live s) -> In o (live s')) -> under s s'.
Proof. intros E o I. eauto. Qed.

Definition keeps (s s' : sys) : Prop := forall o o', In o (live s) -> In o' (live s') -> o_uid o' = o_uid o -> face o' = face o.
Lemma uid_same s o p : uid_ok s -> In o (live s) -> In p (live s) -> o_uid o = o_uid p -> o = p.
Proof. intros [N _] I J E. apply (NoDup_map_inj _ _ o_uid (live s)); auto. Qed.
Lemma under_keeps s s' : uid_ok s -> under s' s -> keeps s s'.
Proof.
  intros U F o o' I J E. destruct (F o' J) as (p & K & G). rewrite G. f_equal. apply (uid_same s); auto. rewrite <- (face_uid _ _ G). congruence.
Qed.
Lemma over_keeps s s' : uid_ok s' -> under s s' -> keeps s s'.
Proof.
  intros U F o o' I J E. destruct (F o I) as (p & K & G). rewrite G. f_equal. apply (uid_same s'); auto. rewrite E. apply (face_uid _ _ G).
Qed.

Lemma remove_in u l o : In o (remove_uid u l) -> In o l.
Proof. induction l as [|y l IH]; cbn; [auto|]. destruct (_ =? _)%nat; [auto|]. intros [->|I]; auto. Qed.

Section W.
Variable w : world.

Lemma prim_under cl h s s' : (forall ho t, cl <> OSetAttributeValue h ho t) -> inv s -> prim w cl h s s' -> (creates cl = true -> under s s') /\ (creates cl = false -> under s' s).
Proof.
  intros NS I P. pose proof (inv_uniq s I) as U. destruct P.
  - destruct (live_put_sess s x x') as (a & b & E1 & E2); auto; [congruence|]. assert (E : live (put_sess s x') = live s) by (rewrite E1, E2, H4; reflexivity).
    split; intros _; apply under_map; rewrite E; reflexivity.
  - split; intros _; apply under_in; auto.
  - apply store_frame in H2 as (_ & E & _ & _ & C). apply face_core in C.
    assert (F : map face (live s') = map face (live s)) by (unfold live; rewrite E, !map_app, C; reflexivity).
    split; intros _; apply under_map; [symmetry|]; exact F.
  - split; [intros _|congruence]. destruct (live_put_sess s x (set_sobjs x (o :: ss_objs x))) as (a & b & E1 & E2); auto.
    apply under_in. intros p J. rewrite E1 in J. rewrite E2. cbn [set_sobjs ss_objs]. apply in_app_or in J as [J|J]; apply in_or_app; [left; exact J|right; right; exact J].
  - split; [intros _|congruence]. apply under_in. intros p J. right. exact J.
  - destruct H3 as (ho & -> & _). split; [discriminate|intros _]. destruct (live_put_sess s x (set_sobjs x (remove_uid (o_uid o) (ss_objs x)))) as (a & b & E1 & E2); auto.
    apply under_in. intros p J. rewrite E2 in J. rewrite E1. cbn [set_sobjs ss_objs] in J. apply in_app_or in J as [J|J]; apply in_or_app; [left; exact J|right].
    apply in_app_or in J as [J|J]; apply in_or_app; [left; eapply remove_in; exact J|right; exact J].
  - destruct H4 as (ho & -> & _). split; [discriminate|intros _]. apply under_in. intros p J. unfold live in *. cbn in J.
    apply in_app_or in J as [J|J]; apply in_or_app; [left; eapply remove_in; exact J|right; exact J].
  - destruct H4 as (ho & t & rv & -> & _). destruct (NS ho t eq_refl).
Qed.
Lemma prims_under cl h s s' : (forall ho t, cl <> OSetAttributeValue h ho t) -> inv s -> prims w cl h s s' -> (creates cl = true -> under s s') /\ (creates cl = false -> under s' s).
Proof.
  intros NS I P. induction P as [s|s s1 s2 P Q IH]; [split; intros _; apply under_refl|].
  destruct (prim_under _ _ _ _ NS I P) as [A B]. destruct (IH (prim_inv _ _ _ _ _ P I)) as [C D].
  split; intros E; [apply (under_trans _ s1); auto|apply (under_trans _ s1); auto].
Qed.

Lemma Logout_under s t : Logout w (s_tok s) = Ok t -> under (set_tok s t) s.
Proof. intros L. apply Logout_ok in L as (_ & E & _). apply under_map. unfold live. cbn. rewrite !map_app, (face_ident _ _ E). reflexivity. Qed.
Lemma store_under rnd s c s' : store w rnd s = Ok (c, s') -> under s' s.
Proof. intros H. apply store_frame in H as (_ & E & _ & _ & C). apply face_core in C. apply under_map. unfold live. rewrite E, !map_app, C. reflexivity. Qed.
Lemma sub_under s l : (forall o, In o (all_objs l) -> In o (all_objs (s_sess s))) -> under (set_sess s l) s.
Proof. intros F. apply under_in. unfold live. cbn. intros o I. apply in_app_or in I as [I|I]; apply in_or_app; auto. Qed.

(** The calls that are not about objects: they load objects from the files, or make none. *)
Definition loading (s : sys) (c : op) : bool := match c with OInitialize => (s_count s =? 0)%Z | _ => false end.
Lemma other_under rnd s c s' o : inv s -> objop c = None -> loading s c = false -> step w rnd s c = Ok (s', o) -> under s' s.
Proof.
  intros I O LD H.
  destruct c; try discriminate O; cbn [step] in H; unfold with_slot, with_sess, need_lib in H.
  - unfold Initialize in H. cbn [loading] in LD. rewrite LD in H. sinv. apply under_in. auto.
  - unfold Finalize in H. destruct (s_count s - 1 =? 0)%Z; [|sinv; apply under_in; auto].
    sinv. intros p [].
  - sinv. intros p [].
  - destruct (0 <? _)%Z; [|sinv; apply under_refl]. destruct (slot_ok slot); [|sinv; apply under_refl].
    unfold InitToken in H. cbv zeta in H. repeat match type of H with (if ?b then rv_ _ _ else _) = _ => destruct b; [sinv; apply under_refl|] end.
    destruct (TokenReset _ _ _ _ _) as [[c s1]| |] eqn:T; cbn [bind] in H; try discriminate. sinv.
    unfold TokenReset in T. destruct (free_all _); cbn [bind] in T; try discriminate. destruct (zlen _ <? 32)%Z; [discriminate|]. unfold SetSOPin in T.
    apply store_under in T. eapply under_trans; [exact T|]. apply under_in. unfold live. cbn. intros p J. apply in_or_app. right. exact J.
  - destruct (0 <? _)%Z; [|sinv; apply under_refl]. destruct (sess_get s h); [|sinv; apply under_refl].
    unfold InitPIN in H. repeat match type of H with (if ?b then rv_ _ _ else _) = _ => destruct b; [sinv; apply under_refl|] end.
    destruct (SetUserPin _ _ _ _) as [[c s1]| |] eqn:T; cbn [bind] in H; try discriminate. sinv.
    unfold SetUserPin in T. apply store_under in T. eapply under_trans; [exact T|]. apply under_in. auto.
  - destruct (0 <? _)%Z; [|sinv; apply under_refl]. destruct (sess_get s h); [|sinv; apply under_refl].
    unfold SetPIN in H. cbv zeta in H. repeat match type of H with (if ?b then rv_ _ _ else _) = _ => destruct b; [sinv; apply under_refl|] end.
    match type of H with bind ?r _ = _ => destruct r as [[c s1]| |] eqn:T end; cbn [bind] in H; try discriminate.
    unfold rv_ in H. injection H as <- _.
    destruct (_ =? _)%Z; [unfold SetSOPin in T|unfold SetUserPin in T]; (apply store_under in T; eapply under_trans; [exact T|]; apply under_in; auto).
  - destruct (0 <? s_count s)%Z eqn:Cn; [|sinv; apply under_refl]. destruct (slot_ok slot); [|sinv; apply under_refl].
    apply Z.ltb_lt in Cn. apply OpenSession_ok in H as [[-> _] | (l & x & Z)]; auto; [apply under_refl|].
    cbv zeta in Z. destruct Z as (-> & _ & K1 & K2 & _ & _ & _ & K3 & _).
    destruct (live_put_sess (set_sess s l) x (set_use x (if negb (Z.land flags CKF_RW_SESSION =? 0)%Z then SESSION_RW else SESSION_RO))) as (a & b & E1 & E2); [apply chain_uniq, K1|exact K3|reflexivity|].
    apply under_in. intros p J. rewrite E2 in J. cbn [set_use ss_objs] in J. rewrite <- E1 in J. unfold live in *. cbn in J. rewrite K2 in J. exact J.
  - destruct (0 <? s_count s)%Z eqn:Cn; [|sinv; apply under_refl]. destruct (sess_get s h) as [x|] eqn:G; [|sinv; apply under_refl].
    apply Z.ltb_lt in Cn. apply sess_get_in in G as (X & Hx & Ux & _).
    unfold CloseSession in H. destruct (close_sess _ _) as [l| |] eqn:CL; cbn [bind] in H; try discriminate.
    pose proof (close_sess_sub _ _ _ (proj1 I Cn) X CL) as Sb.
    assert (S1 : under (set_sess s l) s) by (apply sub_under; intros p; apply subseq_in; exact Sb).
    destruct (existsb in_use l); [sinv; exact S1|].
    destruct (Logout _ _) as [t| |] eqn:L; cbn [bind] in H; try discriminate. sinv. eapply under_trans; [apply (Logout_under (set_sess s l)); exact L|exact S1].
  - destruct (0 <? s_count s)%Z eqn:Cn; [|sinv; apply under_refl]. destruct (slot_ok slot); [|sinv; apply under_refl].
    apply Z.ltb_lt in Cn. destruct (close_all _) as [l| |] eqn:CL; cbn [bind] in H; try discriminate. sinv.
    apply close_all_ok in CL as (p & b & a & b' & E1 & E2 & E3 & E4 & E5 & E6 & E7 & E8); [|apply I; exact Cn].
    apply sub_under. intros q. apply subseq_in. eapply close_sub_sess; eauto.
  - destruct (0 <? _)%Z; [|sinv; apply under_refl]. destruct (sess_get s h); [|sinv; apply under_refl].
    unfold Login in H. destruct (negb _); [sinv; apply under_refl|].
    destruct (ut =? CKU_SO)%Z; [|destruct (ut =? CKU_USER)%Z; [|destruct (ut =? CKU_CONTEXT_SPECIFIC)%Z; sinv; apply under_refl]].
    + destruct (SOLogin _ _ _ _ _) as [c t] eqn:L. sinv. apply SOLogin_ok in L as (L1 & _). apply under_in. unfold live. cbn. rewrite L1. auto.
    + destruct (UserLogin _ _ _ _) as [[c t]| |] eqn:L; cbn [bind] in H; try discriminate. sinv.
      apply UserLogin_ok in L as (L1 & _). apply under_map. unfold live. cbn. rewrite !map_app, (face_ident _ _ L1). reflexivity.
  - destruct (0 <? _)%Z; [|sinv; apply under_refl]. destruct (sess_get s h); [|sinv; apply under_refl].
    destruct (Logout _ _) as [t| |] eqn:L; cbn [bind] in H; try discriminate. sinv. apply Logout_under; exact L.
  - destruct (0 <? _)%Z; [|sinv; apply under_refl]. destruct (slot_ok slot); sinv; apply under_refl.
Qed.
Lemma load_new rnd s c s' o : loading s c = true -> step w rnd s c = Ok (s', o) -> forall p, In p (live s') -> (s_uid s <= o_uid p)%nat.
Proof.
  intros LD H q Q. destruct c; try discriminate LD. cbn [loading step] in *. unfold Initialize in H. rewrite LD in H.
  destruct (Token_Load _ _ _) as [t| |] eqn:L; cbn [bind] in H; try discriminate. injection H as <- _. apply Token_Load_ok in L as [_ L].
  unfold live in Q. cbn in Q. rewrite app_nil_r in Q. apply (in_map o_uid) in Q. fold (uids (t_objs t)) in Q. rewrite L in Q. apply in_seq in Q. lia.
Qed.
Lemma other_keeps rnd s c s' o : inv s -> objop c = None -> step w rnd s c = Ok (s', o) -> keeps s s'.
Proof.
  intros I O H. pose proof I as (_ & _ & UO & _). destruct (loading s c) eqn:LD.
  - intros p q P Q E. exfalso. pose proof (load_new _ _ _ _ _ LD H q Q). destruct UO as [_ F]. rewrite Forall_forall in F. apply (in_map o_uid), F in P. lia.
  - apply under_keeps; [exact UO|]. eapply other_under; eauto.
Qed.

(** The object a C_SetAttributeValue call names. *)
Definition changed (s : sys) (c : op) (o o' : obj) : Prop :=
  exists h ho t x rv, c = OSetAttributeValue h ho t /\ sess_get s h = Some x /\ is_rw x = true /\ find_obj s x ho = Some o /\ SetAttributeValue (w_oe w) true o t = Ok (rv, o').
Lemma upd_objs_in l o p : In p (upd_objs l o) -> p = o \/ (In p l /\ o_uid p <> o_uid o).
Proof. unfold upd_objs. intros I. apply in_map_iff in I as (y & E & J). destruct (Nat.eqb_spec (o_uid y) (o_uid o)); [left|right; subst y]; auto. Qed.
Lemma put_obj_in s o p : In p (live (put_obj s o)) -> p = o \/ (In p (live s) /\ o_uid p <> o_uid o).
Proof.
  unfold live. cbn. intros I. apply in_app_or in I as [I|I].
  - apply upd_objs_in in I as [->|[I N]]; [auto|right]. split; [apply in_or_app; auto|exact N].
  - apply in_all_objs in I as (x & X & J). apply in_map_iff in X as (y & <- & Y). cbn in J. apply upd_objs_in in J as [->|[J N]]; [auto|right].
    split; [apply in_or_app; right; eapply all_objs_in; eauto|exact N].
Qed.
Theorem step_keeps rnd s c s' out : inv s -> step w rnd s c = Ok (s', out) ->
  forall o o', In o (live s) -> In o' (live s') -> o_uid o' = o_uid o -> face o' = face o \/ changed s c o o'.
Proof.
  intros I H o o' P Q E. pose proof I as (_ & _ & UO & _).
  assert (D : (exists h ho t, c = OSetAttributeValue h ho t) \/ forall h ho t, c <> OSetAttributeValue h ho t) by (destruct c; try (right; discriminate); left; eauto).
  destruct D as [(h & ho & t & ->)|NS].
  - cbn [step] in H. unfold with_sess, need_lib in H. destruct (0 <? _)%Z; [|sinv; left; f_equal; apply (uid_same s'); auto].
    destruct (sess_get s h) as [x|] eqn:G; [|sinv; left; f_equal; apply (uid_same s'); auto].
    unfold need_rw in H. destruct (is_rw x) eqn:R; [|sinv; left; f_equal; apply (uid_same s'); auto].
    unfold with_object in H. destruct (find_obj s x ho) as [p|] eqn:F; [|sinv; left; f_equal; apply (uid_same s'); auto].
    destruct (SetAttributeValue _ _ p t) as [[rv p']| |] eqn:S; cbn [bind] in H; try discriminate. sinv.
    assert (Pl : In p (live s)).
    { unfold find_obj in F. apply find_some in F as [F _]. unfold live. apply sess_get_in in G as (X & _). apply in_or_app. destruct (on_token ho); [left; exact F|right; eapply all_objs_in; eauto]. }
    destruct (SetAttributeValue_id w _ _ _ _ _ S) as [(Ei & _) _].
    apply put_obj_in in Q as [->|[Q N]].
    + right. assert (p = o) by (apply (uid_same s); auto; congruence). subst p. exists h, ho, t, x, rv. auto.
    + left. f_equal. apply (uid_same s); auto.
  - left. destruct (objop c) as [h|] eqn:O; [|eapply other_keeps; eauto].
    pose proof (step_inv _ _ _ _ _ _ I H) as I'. pose proof (objop_prims _ _ _ _ _ _ _ I O H) as PP.
    destruct (prims_under _ _ _ _ (NS h) I PP) as [A B]. destruct (creates c) eqn:Cr.
    + apply (over_keeps s s'); auto. apply I'.
    + apply (under_keeps s s'); auto.
Qed.
End W.
