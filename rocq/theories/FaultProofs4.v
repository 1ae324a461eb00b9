(** Every call with faults: what it answers and that it is defined. *)
From Verif Require Import Base Codec Ops Object Store Sys SysProofs SafeSpec SafeStore Fault FaultProofs FaultProofs2 FaultProofs3.
From Coq Require Import List Lia ZArith.
Import ListNotations.
Open Scope nat_scope.
Open Scope list_scope.

Section W.
Variable w : world.
Variable ft : faults.
Notation se := (w_se w).

Lemma final_all_same s s' : s_sess s' = s_sess s -> final_all (s_sess s') = final_all (s_sess s).
Proof. intros ->. reflexivity. Qed.
Lemma obj_free_core a b : core_obj a = core_obj b -> obj_free a = obj_free b.
Proof.
  intros H. rewrite (core_is _ _ H). reflexivity.
Qed.
Lemma free_all_core : forall a b, map core_obj a = map core_obj b -> free_all a = free_all b.
Proof.
  induction a as [|x a IH]; intros [|y b] H; cbn [map] in H; try discriminate; [reflexivity|].
  cbn [free_all]. assert (T : core_obj x = core_obj y) by exact (f_equal (hd x) H). rewrite (obj_free_core _ _ T).
  apply (f_equal (@tl obj)) in H. rewrite (IH _ H). reflexivity.
Qed.

Definition deaf (c : op) : bool := match c with OInitialize => false | _ => negb (pin_call c) end.
(** Where neither a PIN is set nor files are read: answer and memory do not depend on
    the faults. *)
Definition agree (r' r : res (sys * out)) : Prop :=
  forall s' o' s1 o1, r' = Ok (s', o') -> r = Ok (s1, o1) -> o' = o1 /\ same_mem s1 s'.
Lemma agree_refl r : agree r r.
Proof. intros s' o' s1 o1 H H'. rewrite H in H'. injection H'; intros; subst. split; [reflexivity|apply same_mem_refl]. Qed.
Lemma agree_add r s x t o : agree ('(rv2, h, s2) <- FAddObject w ft r s x t o ;; Ok (s2, OutH rv2 h))
  ('(rv2, h, s2) <- AddObject w r s x t o ;; Ok (s2, OutH rv2 h)).
Proof.
  intros s' o' s1 o1 H H'. destruct (FAddObject _ _ _ _ _ _ _) as [[[a b] c]| |] eqn:F; cbn [bind] in H; try discriminate.
  destruct (AddObject _ _ _ _ _ _) as [[[a' b'] c']| |] eqn:A; cbn [bind] in H'; try discriminate.
  destruct (AddObject_same _ _ _ _ _ _ _ _ _ _ _ _ _ _ (same_mem_refl s) A F) as (-> & -> & M).
  injection H; injection H'; intros; subst. auto.
Qed.
Ltac agr := lazymatch goal with |- agree ?a ?a => apply agree_refl | _ => idtac end.
Lemma fstep_agree rnd s c : deaf c = true -> agree (fstep w ft rnd s c) (step w rnd s c).
Proof.
  intros D. destruct c; try discriminate D; cbn [fstep step]; agr;
  unfold with_sess, with_slot, need_lib, need_rw, with_object;
  repeat match goal with |- agree (match ?x with _ => _ end) (match ?x with _ => _ end) => destruct x; agr end.
  - unfold FFinalize, Finalize. destruct (_ =? 0)%Z; [|apply agree_refl].
    intros s' o' s1 o1 H H'.
    destruct (fstore _ _ _ _) as [[c1 s2]| |] eqn:F; cbn [bind] in H; try discriminate.
    destruct (store _ _ _) as [[c3 s3]| |] eqn:S; cbn [bind] in H'; try discriminate.
    destruct (fstore_same _ _ _ _ _ _ _ _ F S) as (A & B & C & _).
    destruct (final_all (s_sess s2)); cbn [bind] in H; try discriminate.
    destruct (free_all (t_objs (s_tok s2))); cbn [bind] in H; try discriminate.
    destruct (final_all (s_sess s3)); cbn [bind] in H'; try discriminate.
    destruct (free_all (t_objs (s_tok s3))); cbn [bind] in H'; try discriminate.
    injection H; injection H'; intros; subst. split; [reflexivity|]. repeat split; cbn; auto.
  - unfold FCreate, Create. destruct (CreateObject _ _ _ _) as [[rv [o|]]| |]; cbn [bind]; agr. apply agree_add.
  - unfold FCopy, Copy. destruct (CopyObject _ _ _ _ _) as [[[rv t1] [[b o']|]]| |]; cbn [bind]; agr.
    intros s' o1 s1 o2 H H'. destruct (FAddToSession _ _ _ _ _ _ _) as [[[a b1] c]| |] eqn:F; cbn [bind] in H; try discriminate.
    destruct (AddToSession _ _ _ _ _ _) as [[[a' b'] c']| |] eqn:A; cbn [bind] in H'; try discriminate.
    destruct (add_same _ _ _ _ _ _ _ _ _ _ _ _ _ _ (same_mem_refl _) A F) as (-> & -> & M).
    injection H; injection H'; intros; subst. auto.
  - intros s' o' s1 o1 H H'. destruct (FRemoveObject _ _ _ _ _ _ _) as [s2| |] eqn:F; cbn [bind] in H; try discriminate.
    destruct (RemoveObject _ _ _ _ _ _) as [s3| |] eqn:R; cbn [bind] in H'; try discriminate.
    apply rv_inv in H as [-> ->]. apply rv_inv in H' as [-> ->]. split; [reflexivity|]. eapply Remove_same; eassumption.
  - unfold FGenKey, GenKey. destruct (NewObject _ _ _ _ _ _) as [[rv [o|]]| |]; cbn [bind]; agr.
    destruct (as_sym o) as [[l b]| |]; cbn [bind]; agr. destruct (_ <? _)%Z; agr. apply agree_add.
  - unfold FGenKeyPair, GenKeyPair. destruct m; cbv iota beta; agr;
    (destruct (NewObject _ _ _ _ CKO_PUBLIC_KEY _) as [[rv [pub|]]| |]; cbn [bind]; agr);
    (destruct (NewObject _ _ _ _ CKO_PRIVATE_KEY _) as [[rv2 [priv|]]| |]; cbn [bind]; agr);
    (match goal with |- agree (bind ?r _) _ => destruct r as [[[p q]|]| |]; cbn [bind]; agr end);
    intros s' o' s1 o1 H H';
    (destruct (FAddObject _ _ _ _ _ _ p) as [[[a b1] s2]| |] eqn:F; cbn [bind] in H; try discriminate);
    (destruct (AddObject _ _ _ _ _ p) as [[[a' b'] s3]| |] eqn:A; cbn [bind] in H'; try discriminate);
    destruct (AddObject_same _ _ _ _ _ _ _ _ _ _ _ _ _ _ (same_mem_refl _) A F) as (-> & -> & M);
    (destruct (negb _); [apply rv_inv in H as [-> ->]; apply rv_inv in H' as [-> ->]; auto|]);
    assert (G : sess_get s2 (ss_h s0) = sess_get s3 (ss_h s0)) by (unfold sess_get; destruct M as (_ & -> & _); reflexivity);
    rewrite G in H; (destruct (sess_get s3 _); [|apply rv_inv in H as [-> ->]; apply rv_inv in H' as [-> ->]; auto]);
    (destruct (FAddObject _ _ _ _ _ _ q) as [[[c1 c2] c3]| |] eqn:F2; cbn [bind] in H; try discriminate);
    (destruct (AddObject _ _ _ _ _ q) as [[[e1 e2] e3]| |] eqn:A2; cbn [bind] in H'; try discriminate);
    destruct (AddObject_same _ _ _ _ _ _ _ _ _ _ _ _ _ _ M A2 F2) as (-> & -> & M2);
    (destruct (_ =? CKR_OK)%Z; [|discriminate]); injection H; injection H'; intros; subst; auto.
  - unfold FUnwrap, Unwrap. destruct (negb (is_cbc_pad _)); agr.
    destruct (find_last _ CKA_KEY_TYPE) as [a|]; agr. destruct (tmpl_ulong a); agr.
    destruct (negb _); agr.
    destruct (find_last _ CKA_CLASS) as [a2|]; agr. destruct (tmpl_ulong a2); agr.
    destruct (negb _); agr. destruct (negb _); agr. destruct (negb _); agr.
    destruct (run_init _ _ _ _ _) as [[x1 o1]| |]; cbn [bind]; agr. destruct (negb _); agr.
    destruct (run_cont _ _ _ _) as [[x2 o2]| |]; cbn [bind]; agr. destruct (negb _); agr.
    destruct (NewObject _ _ _ _ _ _) as [[rv [pub|]]| |]; cbn [bind]; agr.
    destruct (w_p8_dec _ _) as [k r]. destruct (negb _); agr. apply agree_add.
  - unfold FDerive, Derive. destruct m; agr;
    match goal with |- context [bind ?x _] => destruct x; cbn [bind]; agr end;
    (match goal with |- context [match ?sec with Some _ => _ | None => _ end] => destruct sec as [sc|]; agr end);
    (destruct (CreateObject _ _ _ _) as [[rv [o'|]]| |]; cbn [bind]; agr);
    (destruct (GetAttr _ _ _ _) as [[[k ln] dd]| |]; cbn [bind]; agr);
    (destruct (negb _); agr); (match goal with |- context [if ?b then Undef _ else _] => destruct b; agr end);
    (destruct (SetSecretKey _ _) as [[c2 o1]| |]; cbn [bind]; agr);
    (destruct (negb _); agr); apply agree_add.
Qed.

(** ** Defined without faults, defined with *)
Definition keeps {A B} (r' : res A) (r : res B) : Prop := forall x, r = Ok x -> defined r'.
Lemma keeps_refl A (r : res A) : keeps r r.
Proof. intros x ->. exact I. Qed.
Lemma fstore_keeps r s : keeps (fstore w ft r s) (store w r s).
Proof. intros [c s1] H. destruct (fstore_def w ft _ _ _ _ H) as (c' & s' & ->). exact I. Qed.
Lemma alikes_refl s : alikes w s s.
Proof. split; [apply same_mem_refl|apply refl_list]. Qed.
Lemma keeps_bind A B C D (r' : res A) (r : res B) (f' : A -> res C) (f : B -> res D) : keeps r' r ->
  (forall x' x, r' = Ok x' -> r = Ok x -> keeps (f' x') (f x)) -> keeps (bind r' f') (bind r f).
Proof.
  intros K F x H. destruct r as [y| |] eqn:R; cbn [bind] in H; try discriminate. specialize (K _ eq_refl).
  destruct r' as [y'| |] eqn:R'; cbn [bind]; [|exact I|destruct K]. exact (F _ _ eq_refl eq_refl _ H).
Qed.
(** Adding to a state and to one alike it. *)
Lemma add_keeps r s s0 x b o : alikes w s0 s -> keeps (FAddToSession w ft r s x b o) (AddToSession w r s0 x b o).
Proof.
  intros [M F]. assert (M' := M). destruct M as (M1 & M2 & M3 & M4 & M5). unfold AddToSession, FAddToSession. destruct (b =? 0)%N.
  - intros q _. destruct (_ <=? _)%Z; exact I.
  - rewrite <- (zlen_map_eq _ _ _ _ _ M5). destruct (_ <=? _)%Z; [intros q _; exact I|].
    rewrite <- (tok0_key _ _ M4). apply keeps_bind; [apply keeps_refl|]. intros [k o2] [k2 o3] E1 E2.
    rewrite E1 in E2. injection E2; intros; subst. destruct (negb _); [intros q _; exact I|].
    rewrite <- (next_handle_core _ _ _ M5). apply keeps_bind.
    + intros [c s1] H. eapply fstore_noless; [|exact H]. split.
      * unfold same_mem. cbn. rewrite M5. repeat split; auto.
      * cbn. constructor; [apply alike_refl|]. exact F.
    + intros [c1 s1] [c2 s2] _ _ q _. exact I.
Qed.
Lemma AddObject_keeps r s s0 x t o : alikes w s0 s -> keeps (FAddObject w ft r s x t o) (AddObject w r s0 x t o).
Proof.
  intros A. unfold AddObject, FAddObject. destruct (tmpl_token t) as [b|]; [|intros q _; exact I].
  apply keeps_bind; [apply add_keeps; exact A|]. intros [[c1 h1] s1] [[c2 h2] s2] _ _ q _. exact I.
Qed.
Lemma add_alikes r s x b o c h s1 c' h' s' : AddToSession w r s x b o = Ok (c, h, s1) ->
  FAddToSession w ft r s x b o = Ok (c', h', s') -> alikes w s1 s'.
Proof.
  unfold AddToSession, FAddToSession. intros H H'. destruct (b =? 0)%N.
  - destruct (_ <=? _)%Z; injection H; injection H'; intros; subst; apply alikes_refl.
  - destruct (_ <=? _)%Z; [injection H; injection H'; intros; subst; apply alikes_refl|].
    destruct (Encode _ _ _ _) as [[k o2]| |]; cbn [bind] in *; try discriminate.
    destruct (negb _); [injection H; injection H'; intros; subst; apply alikes_refl|].
    destruct (store _ _ _) as [[c1 s2]| |] eqn:S; cbn [bind] in H; try discriminate.
    destruct (fstore _ _ _ _) as [[c2 s3]| |] eqn:F; cbn [bind] in H'; try discriminate.
    injection H; injection H'; intros; subst. eapply fstore_alikes; eassumption.
Qed.
Lemma AddObject_alikes r s x t o c h s1 c' h' s' : AddObject w r s x t o = Ok (c, h, s1) ->
  FAddObject w ft r s x t o = Ok (c', h', s') -> alikes w s1 s'.
Proof.
  unfold AddObject, FAddObject. destruct (tmpl_token t) as [b|].
  - destruct (AddToSession _ _ _ _ _ _) as [[[a1 a2] a3]| |] eqn:A; cbn [bind]; try discriminate.
    destruct (FAddToSession _ _ _ _ _ _ _) as [[[b1 b2] b3]| |] eqn:B; cbn [bind]; try discriminate.
    intros H H'. injection H; injection H'; intros; subst. eapply add_alikes; eassumption.
  - intros H H'. injection H; injection H'; intros; subst. apply alikes_refl.
Qed.
Lemma keeps_add r s x t o (k : Z * Z * sys -> res (sys * out)) : (forall y, defined (k y)) ->
  keeps (bind (FAddObject w ft r s x t o) k) (bind (AddObject w r s x t o) k).
Proof.
  intros Hk. apply keeps_bind; [apply AddObject_keeps, alikes_refl|]. intros x1 x2 _ _ q _. apply Hk.
Qed.
(** Removing: the first file opened and the second not is closed twice. *)
Definition double (s : sys) : Prop :=
  (forall k, f_write ft (length (s_log s)) <> Fails k) /\ exists k, f_write ft (length (s_log s) + 1) = Fails k.
Lemma FUnstore_ok s id o : no_kind o = false -> ~ double s -> exists s', FUnstore ft s id o = Ok s' /\ s_tok s' = s_tok s.
Proof.
  intros Nk Nd. unfold FUnstore, no_kind in *. destruct (perform1 _ _ (WOpen (F_OBJECT, id))) as [c1 d1] eqn:P1. destruct (key_kind o) as [k|]; [|discriminate].
  destruct (perform1 _ d1 (WOpen (k, id))) as [c2 d2] eqn:P2.
  destruct (andb _ _) eqn:A; [exfalso; apply Nd|eexists; split; reflexivity].
  apply andb_prop in A as [A1 A2]. split.
  - intros j E. rewrite E in P1. cbn in P1. injection P1; intros; subst. discriminate.
  - destruct (f_write ft (length (s_log s) + 1)); cbn in P2; [| |eauto]; injection P2; intros; subst; discriminate.
Qed.
Lemma Remove_keeps r s x h o : ~ double s -> keeps (FRemoveObject w ft r s x h o) (RemoveObject w r s x h o).
Proof.
  intros Nd. unfold RemoveObject, FRemoveObject. apply keeps_bind; [apply keeps_refl|]. intros _ _ _ _.
  destruct (on_token h); [|intros q _; exact I]. destruct (o_onTok o); [|intros q; discriminate].
  destruct (no_kind o) eqn:Nk; [intros q; discriminate|].
  set (s2 := set_tok s _).
  destruct (FUnstore_ok s2 (behind (o_uid o) (t_objs (s_tok s))) o Nk Nd) as (s3 & U & T). rewrite U. cbn [bind]. apply FUnstore_mem in U.
  apply keeps_bind; [|intros [c1 s4] [c2 s5] _ _ q _; exact I].
  intros [c s4] H. apply (fstore_noless w ft r r (do_ops s2 (Unstore (behind (o_uid o) (t_objs (s_tok s))) o)) s3 c s4); [|exact H].
  split.
  - exact U.
  - rewrite T. apply refl_list.
Qed.
Ltac kps := lazymatch goal with |- keeps ?a ?a => apply keeps_refl | _ => idtac end.
Lemma rv_defined s r : defined (rv_ s r).
Proof. exact I. Qed.
Lemma fstep_keeps rnd s c : (match c with ODestroyObject _ _ => ~ double s | _ => True end) ->
  keeps (fstep w ft rnd s c) (step w rnd s c).
Proof.
  intros Dd. destruct c; cbn [fstep step]; kps;
  unfold with_sess, with_slot, need_lib, need_rw, with_object;
  repeat match goal with |- keeps (match ?x with _ => _ end) (match ?x with _ => _ end) => destruct x; kps end.
  - intros q _. unfold FInitialize. destruct (_ =? 0)%Z; [|exact I].
    assert (G := Token_Load_safe w (readable ft (s_fs s)) (s_uid s)). destruct (Token_Load _ _ _); cbn [bind]; [exact I|exact I|destruct G].
  - unfold FFinalize, Finalize. destruct (_ =? 0)%Z; [|apply keeps_refl].
    apply keeps_bind; [apply fstore_keeps|]. intros [c1 s1] [c2 s2] F S.
    destruct (fstore_same _ _ _ _ _ _ _ _ F S) as (A & B & C & D & E). rewrite (final_all_same _ _ B), (free_all_core _ _ E).
    apply keeps_bind; [apply keeps_refl|]. intros _ _ _ _. apply keeps_bind; [apply keeps_refl|]. intros _ _ _ _ q _. exact I.
  - unfold FInitToken, InitToken, FTokenReset, TokenReset.
    repeat match goal with |- keeps (match ?x with _ => _ end) (match ?x with _ => _ end) => destruct x; kps end.
    apply keeps_bind; [|intros [c1 s1] [c2 s2] _ _ q _; exact I].
    apply keeps_bind; [apply keeps_refl|]. intros _ _ _ _. destruct (_ <? _)%Z; [intros q; discriminate|]. apply fstore_keeps.
  - unfold FInitPIN, InitPIN.
    repeat match goal with |- keeps (match ?x with _ => _ end) (match ?x with _ => _ end) => destruct x; kps end.
    apply keeps_bind; [|intros [c1 s1] [c2 s2] _ _ q _; exact I]. apply fstore_keeps.
  - unfold FSetPIN, SetPIN. cbv zeta.
    repeat match goal with |- keeps (match ?x with _ => _ end) (match ?x with _ => _ end) => destruct x; kps end.
    apply keeps_bind; [|intros [c1 s1] [c2 s2] _ _ q _; exact I]. destruct (_ =? _)%Z; apply fstore_keeps.
  - unfold FCreate, Create. destruct (CreateObject _ _ _ _) as [[rv [o|]]| |]; cbn [bind]; kps. apply keeps_add. intros [[? ?] ?]; exact I.
  - unfold FCopy, Copy. destruct (CopyObject _ _ _ _ _) as [[[rv t1] [[b o']|]]| |]; cbn [bind]; kps.
    apply keeps_bind; [apply add_keeps, alikes_refl|]. intros [[? ?] ?] [[? ?] ?] _ _ q _. exact I.
  - apply keeps_bind; [apply Remove_keeps; exact Dd|]. intros s1 s2 _ _ q _. exact I.
  - unfold FGenKey, GenKey. destruct (NewObject _ _ _ _ _ _) as [[rv [o|]]| |]; cbn [bind]; kps.
    destruct (as_sym o) as [[l b]| |]; cbn [bind]; kps. destruct (_ <? _)%Z; kps. apply keeps_add. intros [[? ?] ?]; exact I.
  - unfold FGenKeyPair, GenKeyPair. destruct m; cbv iota beta; kps;
    (destruct (NewObject _ _ _ _ CKO_PUBLIC_KEY _) as [[rv [pub|]]| |]; cbn [bind]; kps);
    (destruct (NewObject _ _ _ _ CKO_PRIVATE_KEY _) as [[rv2 [priv|]]| |]; cbn [bind]; kps);
    (match goal with |- keeps (bind ?r _) _ => destruct r as [[[p q]|]| |]; cbn [bind]; kps end);
    (apply keeps_bind; [apply AddObject_keeps, alikes_refl|]); intros [[a' b'] s3] [[a b1] s2] F A;
    destruct (AddObject_same _ _ _ _ _ _ _ _ _ _ _ _ _ _ (same_mem_refl _) A F) as (-> & -> & M);
    assert (L := AddObject_alikes _ _ _ _ _ _ _ _ _ _ _ A F);
    (destruct (negb _); [intros z _; exact I|]);
    assert (G : sess_get s3 (ss_h s0) = sess_get s2 (ss_h s0)) by (unfold sess_get; destruct M as (_ & -> & _); reflexivity);
    rewrite G; (destruct (sess_get s2 _); [|intros z _; exact I]);
    (apply keeps_bind; [apply AddObject_keeps; exact L|]); intros [[c1 c2] c3] [[e1 e2] e3] F2 A2;
    destruct (AddObject_same _ _ _ _ _ _ _ _ _ _ _ _ _ _ M A2 F2) as (-> & -> & M2);
    (destruct (_ =? CKR_OK)%Z; [intros z _; exact I|intros z; discriminate]).
  - unfold FUnwrap, Unwrap. destruct (negb (is_cbc_pad _)); kps.
    destruct (find_last _ CKA_KEY_TYPE) as [a|]; kps. destruct (tmpl_ulong a); kps.
    destruct (negb _); kps.
    destruct (find_last _ CKA_CLASS) as [a2|]; kps. destruct (tmpl_ulong a2); kps.
    destruct (negb _); kps. destruct (negb _); kps. destruct (negb _); kps.
    destruct (run_init _ _ _ _ _) as [[x1 o1]| |]; cbn [bind]; kps. destruct (negb _); kps.
    destruct (run_cont _ _ _ _) as [[x2 o2]| |]; cbn [bind]; kps. destruct (negb _); kps.
    destruct (NewObject _ _ _ _ _ _) as [[rv [pub|]]| |]; cbn [bind]; kps.
    destruct (w_p8_dec _ _) as [k r]. destruct (negb _); kps. apply keeps_add. intros [[? ?] ?]; exact I.
  - unfold FDerive, Derive. destruct m; kps;
    match goal with |- context [bind ?x _] => destruct x; cbn [bind]; kps end;
    (match goal with |- context [match ?sec with Some _ => _ | None => _ end] => destruct sec as [sc|]; kps end);
    (destruct (CreateObject _ _ _ _) as [[rv [o'|]]| |]; cbn [bind]; kps);
    (destruct (GetAttr _ _ _ _) as [[[k ln] dd]| |]; cbn [bind]; kps);
    (destruct (negb _); kps); (match goal with |- context [if ?b then Undef _ else _] => destruct b; kps end);
    (destruct (SetSecretKey _ _) as [[c2 o1]| |]; cbn [bind]; kps);
    (destruct (negb _); kps); apply keeps_add; intros [[? ?] ?]; exact I.
Qed.
End W.
