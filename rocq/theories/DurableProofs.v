(** What the files hold after each call: C102. *)
From Verif Require Import Base Codec CodecProofs Ops Object ObjectProofs Store StoreSpec StoreProofs Sys SysProofs SysProofs2 SysProofs3 SysProofs4
  LoginProofs WfProofs KeyProofs CrashProofs DiskProofs PropStore PropStore3.

(** What is to survive the end of the process: label, PINs, seed and the
    attributes of the objects. The counters of failed logins are not among it. *)
Definition pin_lasting (p : pin) := (firstn (Z.to_nat (p_len p)) (p_hash p), p_len p, p_seed p).
Definition lasting (t : token) :=
  (t_label t, t_init t, pin_lasting (t_so t), pin_lasting (t_user t), t_seed t, map obj_view (t_objs t)).

Section W.
Variable w : world.
Notation se := (w_se w).
Hypothesis L : laws se.

(** ** Loading does not depend on the numbers given to the objects *)
Lemma read_obj_uid u u' ty f :
  match read_obj_file u ty f, read_obj_file u' ty f with
  | Ok (o, r), Ok (o', r') => r' = r /\ obj_view o' = obj_view o /\ key_kind o' = key_kind o /\ is_cert o' = is_cert o /\ o_type o' = o_type o
  | Err a, Err b => a = b
  | Undef a, Undef b => a = b
  | _, _ => False
  end.
Proof.
  unfold read_obj_file.
  repeat match goal with |- context [bind ?m _] => destruct m as [[? ?]| |]; cbn [bind]; try reflexivity end.
  split; [reflexivity|]. split; [reflexivity|]. split; [reflexivity|]. split; reflexivity.
Qed.
Definition agree {A B} (f : A -> B) (x y : res A) : Prop :=
  match x, y with Ok a, Ok b => f b = f a | Err a, Err b => a = b | Undef a, Undef b => a = b | _, _ => False end.
Lemma load_obj_uid d u u' ty id : agree obj_view (load_obj se d u ty id) (load_obj se d u' ty id).
Proof.
  unfold load_obj. destruct (open_read d (F_OBJECT, id)) as [f| |]; cbn [bind]; try reflexivity.
  pose proof (read_obj_uid u u' ty f) as X.
  destruct (read_obj_file u ty f) as [[o r]| |], (read_obj_file u' ty f) as [[o' r']| |]; cbn [bind] in *; try contradiction; try exact X.
  destruct X as (_ & V & K & C & T). rewrite K. destruct (key_kind o); [|reflexivity].
  destruct (open_read d (f0, id)) as [kf| |]; cbn [bind]; try reflexivity.
  unfold read_key_file. rewrite C, T. destruct (r_alloc kf) as [[kd f1]| |]; cbn [bind]; try reflexivity.
  destruct (andb _ _).
  - destruct (r_alloc f1) as [[der f2]| |]; cbn [bind]; try reflexivity. destruct (se_dh_dec se der) as [c [p g]].
    destruct (negb _); cbn [bind]; [reflexivity|exact V].
  - cbn [bind]. exact V.
Qed.
Lemma load_objs_uid d tys : forall u u', agree (map obj_view) (load_objs se d u tys) (load_objs se d u' tys).
Proof.
  induction tys as [|ty r IH]; intros u u'; [reflexivity|]. cbn [load_objs].
  pose proof (load_obj_uid d u u' ty (length r)) as X.
  destruct (load_obj se d u ty (length r)) as [o| |], (load_obj se d u' ty (length r)) as [o'| |]; cbn [bind agree] in *; try contradiction; try exact X.
  specialize (IH (S u) (S u')).
  destruct (load_objs se d (S u) r) as [l| |], (load_objs se d (S u') r) as [l'| |]; cbn [bind agree map] in *; try contradiction; try exact IH.
  rewrite X, IH. reflexivity.
Qed.
Lemma Token_Load_uid d u u' t : Token_Load se d u = Ok t -> exists t', Token_Load se d u' = Ok t' /\ lasting t' = lasting t.
Proof.
  unfold Token_Load. destruct (d (F_TOKEN, 0)) as [f|]; [|intros [= <-]; eauto].
  unfold load_all. destruct (read_tok_file f) as [[tf r]| |]; cbn [bind]; try (intros [= <-]; eauto); try discriminate.
  pose proof (load_objs_uid d (tf_types tf) u u') as X.
  destruct (load_objs se d u (tf_types tf)) as [l| |], (load_objs se d u' (tf_types tf)) as [l'| |]; cbn [bind agree] in *; try contradiction; try (intros [= <-]; eauto); try discriminate.
  eexists. split; [reflexivity|]. unfold lasting. cbn. rewrite X. reflexivity.
Qed.

(** ** Storing *)
(** An object that has its key data, or is a certificate. *)
Definition held (o : obj) : Prop := is_cert o = true \/ o_keyData o <> None.
Lemma storable_held o : storable se o -> held o.
Proof. unfold storable, held. destruct (is_cert o); [auto|]. intros (_ & (kd & E & _) & _). right. congruence. Qed.
Lemma core_cert o o' : core_obj o' = core_obj o -> is_cert o' = is_cert o /\ is_sym o' = is_sym o /\ is_priv o' = is_priv o.
Proof. intros E. unfold is_cert, is_sym, is_priv. pose proof (f_equal o_type E) as A. pose proof (f_equal o_class E) as B. cbn in A, B. rewrite A, B. auto. Qed.
(** Storing does not change it unless it is a certificate with the type of a
    secret key. *)
Lemma store_obj_same key r id o c o' ws : held o -> (is_cert o = true -> is_sym o = false) -> store_obj se key r id o = Ok (c, o', ws) -> o' = o.
Proof.
  intros Hd Ns H. unfold store_obj in H. destruct (obj_header o); cbn [bind] in H; try discriminate. cbv zeta in H.
  destruct (store_key se key id _) as [[[c1 o1] w1]| |] eqn:K; cbn [bind] in H; try discriminate. injection H as _ <- _.
  destruct (is_cert o) eqn:C.
  - assert (E : forall o2, is_cert o2 = true -> store_key se key id o2 = Ok (c1, o1, w1) -> o1 = o2).
    { intros o2 C2 E. unfold store_key in E. rewrite C2 in E. destruct (as_cert o2) as [[l b]| |]; cbn [bind] in E; try discriminate.
      destruct (l <=? 0)%Z; [congruence|]. destruct (w_array b l); cbn [bind] in E; congruence. }
    assert (P : is_priv o = false).
    { unfold is_priv, is_cert in *. apply Z.eqb_eq in C. rewrite C. reflexivity. }
    rewrite P, (Ns eq_refl) in K. cbn [orb] in K. apply E; [exact C|]. destruct (o_keyData o); exact K.
  - destruct Hd as [X|X]; [congruence|]. destruct (o_keyData o) eqn:D; [|contradiction]. eapply store_key_kd; [|exact K]. congruence.
Qed.
Lemma store_objs_same key r l : forall c l' ws, Forall held l -> Forall (fun o => is_cert o = true -> is_sym o = false) l -> store_objs se key r l = Ok (c, l', ws) -> l' = l.
Proof.
  induction l as [|o l IH]; cbn [store_objs]; intros c l' ws F G H; [congruence|]. inversion F as [|? ? Fo Fl]; inversion G as [|? ? Go Gl]; subst.
  destruct (store_obj _ _ _ _ _) as [[[c1 o1] w1]| |] eqn:S; cbn [bind] in H; try discriminate. apply (store_obj_same _ _ _ _ _ _ _ Fo Go) in S. subst o1.
  destruct (negb _); [congruence|]. destruct (store_objs _ _ _ l) as [[[c2 l2] w2]| |] eqn:R; cbn [bind] in H; try discriminate.
  rewrite <- (IH _ _ _ Fl Gl eq_refl). congruence.
Qed.
Lemma store_objs_held key r l : forall c l' ws, Forall held l -> store_objs se key r l = Ok (c, l', ws) -> Forall held l'.
Proof.
  intros c l' ws F H. pose proof (store_objs_core w key r l c l' ws H) as Co.
  assert (K : forall o', In o' l' -> exists o, In o l /\ is_cert o' = is_cert o /\ (o_keyData o <> None -> o' = o)).
  { clear F. revert c l' ws H Co. induction l as [|o l IH]; cbn [store_objs]; intros c l' ws H Co o' I; [injection H as _ <- _; contradiction|].
    destruct (store_obj _ _ _ _ _) as [[[c1 o1] w1]| |] eqn:S; cbn [bind] in H; try discriminate.
    assert (A : is_cert o1 = is_cert o /\ (o_keyData o <> None -> o1 = o)).
    { split; [apply core_cert; eapply store_obj_core; exact S|]. intros N. unfold store_obj in S. destruct (obj_header o); cbn [bind] in S; try discriminate. cbv zeta in S.
      destruct (store_key se key (length l) _) as [[[c2 o2] w2]| |] eqn:K; cbn [bind] in S; try discriminate. injection S as _ <- _.
      destruct (o_keyData o) eqn:D; [|contradiction]. eapply store_key_kd; [|exact K]. congruence. }
    destruct (negb _).
    - injection H as _ <- _. destruct I as [<-|I]; [exists o|exists o']; cbn; tauto.
    - destruct (store_objs _ _ _ l) as [[[c2 l2] w2]| |] eqn:R; cbn [bind] in H; try discriminate. injection H as _ <- _.
      destruct I as [<-|I]; [exists o; cbn; tauto|]. cbn [map] in Co. pose proof (f_equal (@tl _) Co) as Co2. cbn [tl] in Co2.
      destruct (IH _ _ _ eq_refl Co2 _ I) as (y & Iy & Q). exists y. cbn. tauto. }
  rewrite Forall_forall in *. intros o' I. destruct (K _ I) as (o & Io & E1 & E2). destruct (F _ Io) as [X|X]; unfold held; [left; congruence|].
  right. rewrite (E2 X). exact X.
Qed.

(** The files hold what the token in memory is. *)
Definition synced (s : sys) : Prop :=
  forall uid, exists t, Token_Load se (s_fs s) uid = Ok t /\ lasting t = lasting (s_tok s).
Lemma lasting_reload u t : wf_tok t -> t_init t = true -> lasting (reload u t) = lasting t.
Proof.
  intros (_ & W1 & W2 & _) Ti. unfold lasting, reload. cbn [t_label t_init t_so t_user t_seed t_objs]. rewrite Ti.
  assert (P : forall p, wf_pin p -> pin_lasting (norm_pin p) = pin_lasting p).
  { intros p (A1 & A2 & A3 & _). unfold pin_lasting, norm_pin. cbn [p_hash p_len p_seed]. f_equal. f_equal.
    set (h := firstn _ (p_hash p)). assert (Q : Z.to_nat (p_len p) = length h) by (unfold h; rewrite firstn_length; lia). rewrite Q. unfold overlay.
    rewrite firstn_app, firstn_all, Nat.sub_diag, firstn_O, app_nil_r. reflexivity. }
  rewrite (P _ W1), (P _ W2). f_equal. clear. revert u. induction (t_objs t) as [|o l IH]; intros u; cbn [reload_objs map]; [reflexivity|].
  rewrite blank_view, IH. reflexivity.
Qed.
(** A state left by a store of objects that had their key data. *)
Definition saved (s : sys) : Prop :=
  exists rnd s1 c s2, Forall held (t_objs (s_tok s1)) /\ store w rnd s1 = Ok (c, s2) /\ s_tok s = s_tok s2 /\ s_fs s = s_fs s2.
(** What is assumed of the states: sizes fit the C types, objects can be stored. *)
Definition tidy (s : sys) : Prop := fits (s_tok s) /\ Forall (storable se) (t_objs (s_tok s)).
Lemma tidy_held s : tidy s -> Forall held (t_objs (s_tok s)).
Proof. intros [_ F]. eapply Forall_impl; [|exact F]. apply storable_held. Qed.
Lemma saved_load s : saved s -> ginv (s_tok s) -> tidy s -> wf_tok (s_tok s) /\ forall uid, Token_Load se (s_fs s) uid = Ok (reload uid (s_tok s)).
Proof.
  intros (rnd & s1 & c & s2 & Hd & St & Et & Ef) G [Fi So]. unfold store in St.
  destruct (Token_Store se _ (s_tok s1)) as [[[c1 t1] ws]| |] eqn:T; cbn [bind] in St; try discriminate. injection St as _ <-.
  cbn [do_ops set_tok s_tok s_fs] in Et, Ef.
  assert (E : t1 = s_tok s1).
  { unfold Token_Store in T. destruct (tok_header _); cbn [bind] in T; try discriminate.
    destruct (store_objs _ _ _ _) as [[[c2 l2] w2]| |] eqn:R; cbn [bind] in T; try discriminate. injection T as _ <- _.
    assert (E : l2 = t_objs (s_tok s1)).
    { eapply store_objs_same; [exact Hd| |exact R]. apply store_objs_core in R. rewrite Et in So. cbn [set_objs t_objs] in So. clear - R So.
      revert l2 R So. induction (t_objs (s_tok s1)) as [|o l IH]; intros [|o2 l2] R So; try discriminate; constructor; inversion So as [|? ? S1 S2]; subst;
        pose proof (f_equal (fun q => hd (core_obj o) q) R) as R1; pose proof (f_equal (@tl _) R) as R2; cbn [map hd tl] in R1, R2; [|eapply IH; eauto].
      apply core_cert in R1 as (C1 & C2 & _). intros C. rewrite <- C2. unfold storable in S1. rewrite C1, C in S1. destruct S1 as (? & ? & _ & _ & _ & S1). exact S1. }
    rewrite E. destruct (s_tok s1); reflexivity. }
  rewrite E in Et, T. clear E t1. rewrite Et in G, Fi, So. pose proof (wf_of (s_tok s1) (t_objs (s_tok s1)) G Fi eq_refl) as Wf.
  assert (Wf' : wf_tok (s_tok s1)) by exact Wf.
  destruct (store_load se (dh_law' _ L) (fun i => rnd (2 + i)%nat) (s_tok s1) (s_fs s1) Wf' So) as (ws' & E' & Ld).
  rewrite E' in T. injection T as _ <-. rewrite Ef, Et. split; [exact Wf'|apply Ld].
Qed.
Lemma saved_synced s : saved s -> ginv (s_tok s) -> tidy s -> t_init (s_tok s) = true -> synced s.
Proof.
  intros Sv G Td Ti. destruct (saved_load s Sv G Td) as [Wf Ld]. intros uid. eexists. split; [apply Ld|]. apply lasting_reload; assumption.
Qed.

(** ** Calls *)
(** Either nothing happens to token and files or the token was stored last. *)
Definition still (s s' : sys) : Prop := s_tok s' = s_tok s /\ s_fs s' = s_fs s.
Definition kept_up (s s' : sys) : Prop := Forall held (t_objs (s_tok s')) /\ (still s s' \/ saved s').
Lemma store_saved rnd s c s' : Forall held (t_objs (s_tok s)) -> store w rnd s = Ok (c, s') -> Forall held (t_objs (s_tok s')) /\ saved s'.
Proof.
  intros F H. split; [|exists rnd, s, c, s'; auto]. unfold store in H.
  destruct (Token_Store se _ (s_tok s)) as [[[c1 t1] ws]| |] eqn:T; cbn [bind] in H; try discriminate. injection H as _ <-.
  unfold Token_Store in T. destruct (tok_header _); cbn [bind] in T; try discriminate.
  destruct (store_objs _ _ _ _) as [[[c2 l2] w2]| |] eqn:R; cbn [bind] in T; try discriminate. injection T as _ <- _.
  cbn. eapply store_objs_held; eauto.
Qed.
Lemma up_still s s' : Forall held (t_objs (s_tok s)) -> still s s' -> kept_up s s'.
Proof. intros F [A B]. split; [rewrite A; exact F|left; split; assumption]. Qed.
Lemma up_saved s s' : Forall held (t_objs (s_tok s')) /\ saved s' -> kept_up s s'.
Proof. intros [A B]. split; auto. Qed.
Lemma up_trans a b c : kept_up a b -> kept_up b c -> kept_up a c.
Proof.
  intros [_ A] [F B]. split; [exact F|]. destruct B as [[B1 B2]|B]; [|auto]. destruct A as [[A1 A2]|A]; [left; split; congruence|].
  right. destruct A as (r & s1 & cc & s2 & H1 & H2 & H3 & H4). exists r, s1, cc, s2. repeat split; try assumption; congruence.
Qed.
Lemma Encode_held key o o' : Encode se key false o = Ok (0%Z, o') -> held o'.
Proof.
  unfold Encode. destruct (is_cert o) eqn:C; [intros [= <-]; left; exact C|]. destruct (EncodeKey se key o) as [[c o1]| |] eqn:E; cbn [bind]; try discriminate.
  intros [= -> <-]. right. cbn [andb]. revert E. unfold EncodeKey, enc_asym. intros E. sinv; cbn; try discriminate; try lia.
  all: try (destruct (is_priv o); discriminate).
  all: try match goal with H : NOT_AVAILABLE_E = 0%Z |- _ => discriminate H end.
Qed.
Lemma Add_up rnd s x b o c h s' : Forall held (t_objs (s_tok s)) -> AddToSession w rnd s x b o = Ok (c, h, s') -> kept_up s s'.
Proof.
  unfold AddToSession. intros F H. destruct (b =? 0)%N.
  - destruct (_ <=? _)%Z; sinv; apply up_still; try assumption; split; reflexivity.
  - destruct (_ <=? _)%Z; [sinv; apply up_still; [assumption|split; reflexivity]|].
    destruct (Encode _ _ _ _) as [[c2 o2]| |] eqn:E; cbn [bind] in H; try discriminate.
    destruct (negb (c2 =? 0)%Z) eqn:C2; [sinv; apply up_still; [assumption|split; reflexivity]|].
    assert (c2 = 0%Z) by (apply negb_false_iff, Z.eqb_eq in C2; exact C2). subst c2.
    destruct (store _ _ _) as [[c3 s3]| |] eqn:S; cbn [bind] in H; try discriminate. injection H as _ _ <-.
    apply up_saved. eapply store_saved; [|exact S]. cbn [set_tok s_tok set_objs t_objs]. constructor; [|exact F].
    apply Encode_held in E. exact E.
Qed.
Lemma AddO_up rnd s x t o c h s' : Forall held (t_objs (s_tok s)) -> AddObject w rnd s x t o = Ok (c, h, s') -> kept_up s s'.
Proof.
  unfold AddObject. intros F H. destruct (tmpl_token t); [|sinv; apply up_still; [assumption|split; reflexivity]].
  destruct (AddToSession _ _ _ _ _ _) as [[[c1 h1] s1]| |] eqn:A; cbn [bind] in H; try discriminate. injection H as _ _ <-. eapply Add_up; eauto.
Qed.
Lemma up_from s s1 s' : s_tok s1 = s_tok s -> s_fs s1 = s_fs s -> kept_up s1 s' -> kept_up s s'.
Proof. intros A B [F [[C D]|C]]; split; auto. left. split; congruence. Qed.
Ltac st := apply up_still; [assumption|split; reflexivity].
Lemma Create_up rnd s x t s' o : Forall held (t_objs (s_tok s)) -> Create w rnd s x t = Ok (s', o) -> kept_up s s'.
Proof.
  unfold Create. intros F H. destruct (CreateObject _ _ _ _) as [[rv [ob|]]| |]; cbn [bind] in H; try discriminate; [|sinv; st].
  destruct (AddObject _ _ _ _ _ _) as [[[c1 h1] s1]| |] eqn:A; cbn [bind] in H; try discriminate. injection H as <- _.
  eapply (up_from s (bump s 1)); [reflexivity|reflexivity|]. eapply AddO_up; [|exact A]. exact F.
Qed.
Lemma Copy_up rnd s x src t s' o : Forall held (t_objs (s_tok s)) -> Copy w rnd s x src t = Ok (s', o) -> kept_up s s'.
Proof.
  unfold Copy. intros F H. destruct (CopyObject _ _ _ _ _) as [[[rv t1] [[b ob]|]]| |]; cbn [bind] in H; try discriminate; [|sinv; st].
  destruct (AddToSession _ _ _ _ _ _) as [[[c1 h1] s1]| |] eqn:A; cbn [bind] in H; try discriminate.
  assert (s' = s1) by (sinv; reflexivity). subst s'.
  eapply (up_from s (bump s 1)); [reflexivity|reflexivity|]. eapply Add_up; [|exact A]. exact F.
Qed.
Lemma GenKey_up rnd s x t key s' o : Forall held (t_objs (s_tok s)) -> GenKey w rnd s x t key = Ok (s', o) -> kept_up s s'.
Proof.
  unfold GenKey. intros F H. destruct (NewObject _ _ _ _ _ _) as [[rv [ob|]]| |]; cbn [bind] in H; try discriminate; [|sinv; st].
  destruct (as_sym ob) as [[l b]| |]; cbn [bind] in H; try discriminate. destruct (zlen b <? l)%Z; [discriminate|].
  destruct (AddObject _ _ _ _ _ _) as [[[c1 h1] s1]| |] eqn:A; cbn [bind] in H; try discriminate. injection H as <- _.
  eapply (up_from s (bump s 1)); [reflexivity|reflexivity|]. eapply AddO_up; [|exact A]. exact F.
Qed.
Lemma GenKeyPair_up rnd s x m tp tq g s' o : Forall held (t_objs (s_tok s)) -> GenKeyPair w rnd s x m tp tq g = Ok (s', o) -> kept_up s s'.
Proof.
  unfold GenKeyPair. intros F H.
  destruct (match m with KP_RSA => _ | KP_EC => _ | KP_DH => _ | KP_other => _ end) as [ty|]; [|sinv; st].
  destruct (NewObject _ _ (s_uid s) _ _ _) as [[rv [pub|]]| |]; cbn [bind] in H; try discriminate; [|sinv; st].
  destruct (NewObject _ _ (S (s_uid s)) _ _ _) as [[rv2 [priv|]]| |]; cbn [bind] in H; try discriminate; [|sinv; st].
  match type of H with bind ?r _ = _ => destruct r as [[[pub1 priv1]|]| |] end; cbn [bind] in H; try discriminate; [|sinv; st].
  destruct (AddObject w rnd _ _ _ _) as [[[rv3 h1] s2]| |] eqn:A; cbn [bind] in H; try discriminate.
  assert (U : kept_up s s2) by (eapply (up_from s (bump s 2)); [reflexivity|reflexivity|]; eapply AddO_up; [|exact A]; exact F).
  destruct (negb (rv3 =? CKR_OK)%Z); [sinv; exact U|]. destruct (sess_get s2 (ss_h x)) as [x2|]; [|sinv; exact U].
  destruct (AddObject w (fun i => rnd (100 + i)) _ _ _ _) as [[[rv4 h2] s3]| |] eqn:A2; cbn [bind] in H; try discriminate.
  destruct (rv4 =? CKR_OK)%Z; [|discriminate]. injection H as <- _. eapply up_trans; [exact U|]. eapply AddO_up; [|exact A2]. apply U.
Qed.
Lemma Unwrap_up rnd s x m mp uk wr t s' o : Forall held (t_objs (s_tok s)) -> Unwrap w rnd s x m mp uk wr t = Ok (s', o) -> kept_up s s'.
Proof.
  unfold Unwrap. intros F H.
  repeat match type of H with
  | (if ?b then rv_ _ _ else _) = _ => destruct b; [sinv; st|]
  | (match find_last ?a ?b with _ => _ end) = _ => destruct (find_last a b); [|sinv; st]
  | (match tmpl_ulong ?a with _ => _ end) = _ => destruct (tmpl_ulong a); [|sinv; st]
  end.
  destruct (run_init _ _ _ _ _) as [[x1 o1]| |]; cbn [bind] in H; try discriminate. destruct (negb _); [sinv; st|].
  destruct (run_cont _ _ _ _) as [[x2 o2]| |]; cbn [bind] in H; try discriminate. destruct (negb _); [sinv; st|].
  destruct (NewObject _ _ _ _ _ _) as [[rv ob]| |]; cbn [bind] in H; try discriminate.
  destruct ob as [ob|]; [|sinv; st]. destruct (w_p8_dec w (o_out o2)) as [c r]. destruct (negb _); [sinv; st|].
  destruct (AddObject _ _ _ _ _ _) as [[[c1 h1] s1]| |] eqn:A; cbn [bind] in H; try discriminate. injection H as <- _.
  eapply (up_from s); [| |eapply AddO_up; [|exact A]]; try reflexivity. exact F.
Qed.
Lemma Derive_up rnd s x m base sec t s' o : Forall held (t_objs (s_tok s)) -> Derive w rnd s x m base sec t = Ok (s', o) -> kept_up s s'.
Proof.
  unfold Derive. intros F H.
  assert (G : forall k : res unit,
    bind k (fun _ => match sec with
      | None => rv_ s CKR_FUNCTION_FAILED
      | Some sec0 =>
          '(rv, o) <- CreateObject (w_oe w) (is_rw x) (s_uid s) t ;;
          let s1 := bump s 1 in
          match o with
          | None => rv_ s1 rv
          | Some o =>
              '(c, _, d) <- GetAttr (w_oe w) o CKA_VALUE_LEN (Some 8%Z) ;;
              if negb (c =? 0)%Z then rv_ s1 CKR_OK else
              let vl := u32 (ulong_of d) in
              let sl := if andb (0 <? vl)%Z (vl <=? zlen sec0)%Z then vl else zlen sec0 in
              if (sl <? zlen sec0)%Z then Undef UB_read_overflow else
              '(c2, o1) <- SetSecretKey o [None; Some sec0] ;;
              if negb (c2 =? 0)%Z then rv_ s1 CKR_FUNCTION_FAILED else
              '(rv2, h, s2) <- AddObject w rnd s1 x t o1 ;; Ok (s2, OutH rv2 h)
          end
      end) = Ok (s', o) -> kept_up s s').
  { clear H. intros k H. destruct k; cbn [bind] in H; try discriminate.
    destruct sec as [sec|]; [|sinv; st].
    destruct (CreateObject _ _ _ _) as [[rv [ob|]]| |]; cbn [bind] in H; try discriminate; [|sinv; st].
    destruct (GetAttr _ _ _ _) as [[[c l] dd]| |]; cbn [bind] in H; try discriminate.
    destruct (negb _); [sinv; st|].
    cbv zeta in H. match type of H with (if ?b then _ else _) = _ => destruct b; [discriminate|] end.
    destruct (SetSecretKey _ _) as [[c2 o1]| |]; cbn [bind] in H; try discriminate.
    destruct (negb _); [sinv; st|].
    destruct (AddObject _ _ _ _ _ _) as [[[c1 h1] s1]| |] eqn:A; cbn [bind] in H; try discriminate. injection H as <- _.
    eapply (up_from s); [| |eapply AddO_up; [|exact A]]; try reflexivity. exact F. }
  destruct m; [apply (G _ H)|apply (G _ H)|sinv; st].
Qed.
Lemma remove_held u l : Forall held l -> Forall held (remove_uid u l).
Proof. induction 1 as [|o l H F IH]; cbn; [constructor|]. destruct (_ =? _)%nat; auto. Qed.

(** A change to a session object leaves the objects of the token alone. *)
Lemma put_sess_obj s x o o' : inv s -> In x (s_sess s) -> In o (ss_objs x) -> o_uid o' = o_uid o -> still s (put_obj s o').
Proof.
  intros I X Io E. split; [|reflexivity]. unfold put_obj. cbn [set_sess set_tok s_tok].
  assert (U : upd_objs (t_objs (s_tok s)) o' = t_objs (s_tok s)).
  { destruct I as (_ & _ & [ND _] & _). unfold live in ND. rewrite uids_app in ND.
    assert (J : In (o_uid o) (uids (flat_map ss_objs (s_sess s)))).
    { unfold uids. apply in_map. apply in_flat_map. eauto. }
    unfold upd_objs. rewrite <- (map_id (t_objs (s_tok s))) at 2. apply map_ext_in. intros y Iy.
    destruct (o_uid y =? o_uid o')%nat eqn:Q; [|reflexivity]. exfalso. apply Nat.eqb_eq in Q.
    eapply (NoDup_app_disj _ _ _ ND); [apply in_map; exact Iy|]. rewrite Q, E. exact J. }
  rewrite U. destruct (s_tok s); reflexivity.
Qed.

(** The calls other than those that start or end the library. *)
Definition lib_op (c : op) : bool := match c with OInitialize | OFinalize | ORestart => true | _ => false end.
(** A change of attributes of a token object. *)
Definition sets_token (c : op) : bool := match c with OSetAttributeValue _ ho _ => on_token ho | _ => false end.
Definition level (s s' : sys) : Prop :=
  s_count s' = s_count s /\ ((s_fs s' = s_fs s /\ lasting (s_tok s') = lasting (s_tok s)) \/ saved s').
Lemma level_refl s s' : s_count s' = s_count s -> still s s' -> level s s'.
Proof. intros C [A B]. split; [exact C|]. left. rewrite A, B. auto. Qed.
Lemma level_up s s' : s_count s' = s_count s -> kept_up s s' -> level s s'.
Proof. intros C [_ [[A B]|A]]; split; auto. left. rewrite A, B. auto. Qed.
Lemma views_ident l l' : map ident l' = map ident l -> map obj_view l' = map obj_view l.
Proof.
  revert l'. induction l as [|o l IH]; intros [|o' l'] E; try discriminate; [reflexivity|]. cbn [map] in *.
  pose proof (f_equal (fun q => hd (ident o) q) E) as E1. pose proof (f_equal (@tl _) E) as E2. cbn [hd tl] in E1, E2.
  rewrite (view_ident _ _ E1), (IH _ E2). reflexivity.
Qed.
Lemma objop_up rnd s c h s' o : inv s -> Forall held (t_objs (s_tok s)) -> objop c = Some h -> sets_token c = false -> step w rnd s c = Ok (s', o) -> kept_up s s'.
Proof.
  intros I F O NS H. destruct c; try discriminate O; injection O as ->; cbn [step] in H;
    unfold with_sess, need_lib in H; (destruct (0 <? s_count s)%Z; [|sinv; st]); (destruct (sess_get s h) as [x|] eqn:G; [|sinv; st]);
    pose proof G as G0; apply sess_get_in in G0 as (X & U & Hx & _).
  - sinv. st.
  - apply need_rw_inv in H as [(-> & _)|[_ H]]; [st|]. eapply Create_up; eauto.
  - apply need_rw_inv in H as [(-> & _)|[_ H]]; [st|]. apply with_object_inv in H as [(-> & _)|[ob [_ H]]]; [st|]. eapply Copy_up; eauto.
  - apply need_rw_inv in H as [(-> & _)|[_ H]]; [st|]. apply with_object_inv in H as [(-> & _)|[ob [_ H]]]; [st|].
    destruct (RemoveObject _ _ _ _ _ _) eqn:R; cbn [bind] in H; try discriminate. unfold rv_ in H. injection H as <- _.
    unfold RemoveObject in R. destruct (obj_free ob); cbn [bind] in R; try discriminate. destruct (on_token ho).
    + destruct (o_onTok ob); [|discriminate]. destruct (no_kind ob); [discriminate|].
      destruct (store _ _ _) as [[c1 s1]| |] eqn:S; cbn [bind] in R; try discriminate. injection R as <-.
      apply up_saved. eapply store_saved; [|exact S]. cbn [do_ops set_tok s_tok set_objs t_objs]. apply remove_held. exact F.
    + injection R as <-. st.
  - apply with_object_inv in H as [(-> & _)|[ob [_ H]]]; [st|]. sinv. st.
  - apply need_rw_inv in H as [(-> & _)|[_ H]]; [st|]. apply with_object_inv in H as [(-> & _)|[ob [Fo H]]]; [st|].
    destruct (SetAttributeValue _ _ _ _) as [[rv o1]| |] eqn:E; cbn [bind] in H; try discriminate. unfold rv_ in H. injection H as <- _.
    apply SetAttributeValue_id in E as [E _]. apply find_obj_in in Fo as [Fo _]. cbn [sets_token] in NS. rewrite NS in Fo.
    apply up_still; [exact F|]. eapply put_sess_obj; eauto. apply E.
  - unfold FindInit in H. destruct (ss_find x); [sinv; st|]. destruct (find_last _ _); [destruct (tmpl_token t)|]; sinv; st.
  - unfold FindNext in H. sinv. st.
  - sinv. st.
  - destruct aes; [|sinv; st]. eapply GenKey_up; eauto.
  - eapply GenKeyPair_up; eauto.
  - apply need_rw_inv in H as [(-> & _)|[_ H]]; [st|]. apply with_object_inv in H as [(-> & _)|[ob [_ H]]]; [st|].
    apply with_object_inv in H as [(-> & _)|[ob2 [_ H]]]; [st|]. unfold Wrap in H. sinv; st.
  - apply need_rw_inv in H as [(-> & _)|[_ H]]; [st|]. destruct (_ =? 0)%Z; [sinv; st|].
    apply with_object_inv in H as [(-> & _)|[ob [_ H]]]; [st|]. eapply Unwrap_up; eauto.
  - apply with_object_inv in H as [(-> & _)|[ob [_ H]]]; [st|]. eapply Derive_up; eauto.
  - destruct (with_key c 0).
    + apply with_object_inv in H as [(-> & _)|[ob [_ H]]]; [st|]. destruct (with_key c (o_uid ob)); [|sinv; st].
      destruct (run_init _ _ _ _ _) as [[x1 r]| |]; cbn [bind] in H; try discriminate. sinv. st.
    + assert (Gc : ('(x1, r) <- run_cont w s x c;; Ok (put_sess s x1, OutC r)) = Ok (s', o) -> kept_up s s').
      { clear H. intros H. destruct (run_cont _ _ _ _) as [[x1 r]| |]; cbn [bind] in H; try discriminate. sinv. st. }
      destruct c; auto. sinv. st.
Qed.
Lemma Logout_lasting t t' : Logout w t = Ok t' -> lasting t' = lasting t.
Proof.
  unfold Logout. intros E. destruct (orb _ _).
  - destruct (encode_all _ _ _) as [l| |] eqn:En; cbn [bind] in E; try discriminate. injection E as <-. apply encode_all_ident, views_ident in En.
    unfold lasting. cbn. rewrite En. reflexivity.
  - injection E as <-. reflexivity.
Qed.
Lemma lock_lasting p n q : lock_check p n = Some q -> pin_lasting q = pin_lasting p.
Proof. unfold lock_check. destruct (_ =? _)%Z; [destruct (_ <? _)%Z; [|discriminate]|]; intros [= <-]; reflexivity. Qed.
Lemma count_lasting p n m : pin_lasting (count_fail p n m) = pin_lasting p.
Proof. unfold count_fail. destruct (_ =? _)%Z; reflexivity. Qed.
Lemma tok_init_held lab : Forall held (t_objs (tok_init lab)).
Proof. constructor. Qed.
Lemma step_level rnd s c s' o : inv s -> Forall held (t_objs (s_tok s)) -> lib_op c = false -> sets_token c = false -> step w rnd s c = Ok (s', o) -> level s s'.
Proof.
  intros I F NL NS H. destruct (objop c) as [h|] eqn:O.
  { apply level_up; [|eapply objop_up; eauto]. pose proof (objop_prims w rnd s c h s' o I O H) as P. destruct (prims_inv w _ _ _ _ P I) as [_ (Q & _)]. exact Q. }
  assert (Z : level s s) by (apply level_refl; [reflexivity|split; reflexivity]).
  destruct c; try discriminate O; try discriminate NL; cbn [step] in H; unfold with_slot, with_sess, need_lib in H; (destruct (0 <? s_count s)%Z; [|sinv; exact Z]).
  - (* C_InitToken *) destruct (slot_ok slot); [|sinv; exact Z]. unfold InitToken in H.
    repeat match type of H with (if ?b then rv_ _ _ else _) = _ => destruct b; [sinv; exact Z|] end.
    destruct (TokenReset _ _ _ _ _) as [[c1 s1]| |] eqn:T; cbn [bind] in H; try discriminate. unfold rv_ in H. injection H as <- _.
    unfold TokenReset in T. destruct (free_all _); cbn [bind] in T; try discriminate. destruct (_ <? _)%Z; [discriminate|]. unfold SetSOPin in T.
    split; [apply store_frame in T as (T & _); exact T|]. right. eapply store_saved; [|exact T]. constructor.
  - (* C_InitPIN *) destruct (sess_get s h) as [x|]; [|sinv; exact Z]. unfold InitPIN in H.
    repeat match type of H with (if ?b then rv_ _ _ else _) = _ => destruct b; [sinv; exact Z|] end.
    destruct (SetUserPin _ _ _ _) as [[c1 s1]| |] eqn:T; cbn [bind] in H; try discriminate. unfold rv_ in H. injection H as <- _.
    unfold SetUserPin in T. split; [apply store_frame in T as (T & _); exact T|]. right. eapply store_saved; [|exact T]. exact F.
  - (* C_SetPIN *) destruct (sess_get s h) as [x|]; [|sinv; exact Z]. unfold SetPIN in H. cbv zeta in H.
    repeat match type of H with (if ?b then rv_ _ _ else _) = _ => destruct b; [sinv; exact Z|] end.
    destruct (_ =? RW_SO)%Z.
    + destruct (SetSOPin _ _ _ _) as [[c1 s1]| |] eqn:T; cbn [bind] in H; try discriminate. unfold rv_ in H. injection H as <- _.
      unfold SetSOPin in T. split; [apply store_frame in T as (T & _); exact T|]. right. eapply store_saved; [|exact T]. exact F.
    + destruct (SetUserPin _ _ _ _) as [[c1 s1]| |] eqn:T; cbn [bind] in H; try discriminate. unfold rv_ in H. injection H as <- _.
      unfold SetUserPin in T. split; [apply store_frame in T as (T & _); exact T|]. right. eapply store_saved; [|exact T]. exact F.
  - (* C_OpenSession *) destruct (slot_ok slot); [|sinv; exact Z]. unfold OpenSession in H. cbv zeta in H. sinv; try exact Z; apply level_refl; try reflexivity; split; reflexivity.
  - destruct (sess_get s h) as [x|]; [|sinv; exact Z]. unfold CloseSession in H. sinv; try exact Z; try solve [apply level_refl; [reflexivity|split; reflexivity]].
    split; [reflexivity|]. left. split; [reflexivity|]. match goal with E : Logout _ _ = Ok _ |- _ => apply Logout_lasting in E; exact E end.
  - destruct (slot_ok slot); [|sinv; exact Z]. destruct (close_all _); cbn [bind] in H; try discriminate. sinv. apply level_refl; try reflexivity; split; reflexivity.
  - (* C_Login *) destruct (sess_get s h) as [x|]; [|sinv; exact Z]. unfold Login in H. destruct (negb _); [sinv; exact Z|].
    destruct (ut =? CKU_SO)%Z.
    + destruct (SOLogin _ _ _ _) as [c1 t1] eqn:E. unfold rv_ in H. injection H as <- _. split; [reflexivity|]. left. split; [reflexivity|]. cbn [set_tok s_tok].
      unfold SOLogin in E. destruct now as [n|]; [|injection E as _ <-; reflexivity]. destruct (logged_in _); [injection E as _ <-; reflexivity|].
      destruct (lock_check _ n) as [p|] eqn:Lc; [|injection E as _ <-; reflexivity].
      apply lock_lasting in Lc. cbv zeta in E. destruct (existsb _ _); [injection E as _ <-; unfold lasting; cbn; rewrite Lc; reflexivity|].
      destruct (_ =? PIN_INVALID_E)%Z; [injection E as _ <-; unfold lasting; cbn; rewrite count_lasting, Lc; reflexivity|].
      destruct (_ =? 0)%Z; injection E as _ <-; unfold lasting; cbn; [|rewrite Lc; reflexivity].
      change (pin_lasting (reset_fail p)) with (pin_lasting p). rewrite Lc. reflexivity.
    + destruct (ut =? CKU_USER)%Z; [|destruct (_ =? _)%Z; sinv; exact Z].
      destruct (UserLogin _ _ _ _) as [[c1 t1]| |] eqn:E; cbn [bind] in H; try discriminate. unfold rv_ in H. injection H as <- _.
      split; [reflexivity|]. left. split; [reflexivity|]. cbn [set_tok s_tok].
      unfold UserLogin in E. destruct now as [n|]; [|injection E as _ <-; reflexivity]. destruct (logged_in _); [injection E as _ <-; reflexivity|].
      destruct (lock_check _ n) as [p|] eqn:Lc; [|injection E as _ <-; reflexivity].
      apply lock_lasting in Lc. rename Lc into P.
      cbv zeta in E. destruct (_ =? PIN_INVALID_E)%Z; [injection E as _ <-; unfold lasting; cbn; rewrite count_lasting, P; reflexivity|].
      destruct (_ =? 0)%Z; [|injection E as _ <-; unfold lasting; cbn; rewrite P; reflexivity].
      destruct (decode_all _ _ _) as [[c2 l]| |] eqn:Da; cbn [bind] in E; try discriminate. apply decode_all_ident in Da as [Da _]. apply views_ident in Da. cbn in Da.
      change (pin_lasting p) with (pin_lasting (reset_fail p)) in P.
      destruct (c2 =? 0)%Z; injection E as _ <-; unfold lasting; cbn; cbn in P; rewrite Da; f_equal; f_equal; f_equal; exact P.
  - (* C_Logout *) destruct (sess_get s h) as [x|]; [|sinv; exact Z].
    destruct (Logout w (s_tok s)) as [t1| |] eqn:E; cbn [bind] in H; try discriminate. unfold rv_ in H. injection H as <- _.
    split; [reflexivity|]. left. split; [reflexivity|]. eapply Logout_lasting; exact E.
  - destruct (slot_ok slot); sinv; exact Z.
Qed.

(** ** Histories *)
(** Histories without a change of attributes of token objects in which every
    state is [tidy]. *)
Inductive steady (d : fs) : sys -> Prop :=
  | sd_0 : steady d (sys0 d)
  | sd_step s rnd c s' o : steady d s -> sets_token c = false -> step w rnd s c = Ok (s', o) -> tidy s' -> steady d s'.
Lemma steady_reach d s : steady d s -> reach w (sys0 d) s.
Proof. induction 1; [constructor|econstructor; eauto]. Qed.
Lemma steady_tidy d s : steady d s -> tidy s.
Proof.
  destruct 1 as [|s rnd c s' o _ _ _ T]; [|exact T]. split; [|constructor].
  split; [|split; [|constructor]]; repeat split; cbn; lia.
Qed.
Theorem steady_synced d s : steady d s -> (0 < s_count s)%Z -> t_init (s_tok s) = true -> synced s.
Proof.
  induction 1 as [|s rnd c s' o Sd IH NS St T]; [cbn; lia|]. intros C Ti.
  pose proof (steady_reach _ _ Sd) as R. pose proof (reach_inv w _ _ R) as I. pose proof (steady_tidy _ _ Sd) as Tdy.
  assert (G : ginv (s_tok s')) by (apply (reach_ginv w (l_hash _ L) d); econstructor; eauto).
  destruct (lib_op c) eqn:Lo.
  - destruct c; try discriminate Lo; cbn [step] in St.
    + unfold Initialize in St. destruct (s_count s =? 0)%Z eqn:Z0.
      * destruct (Token_Load _ _ _) as [t| |] eqn:Ld; cbn [bind] in St; try discriminate. injection St as <- _. intros uid. cbn [s_fs s_tok].
        eapply Token_Load_uid; exact Ld.
      * injection St as <- _. cbn in *. apply IH; [|exact Ti]. cbn in C. apply Z.eqb_neq in Z0. destruct (Z_lt_dec 0 (s_count s)) as [Hp|Hp]; [exact Hp|]. lia.
    + unfold Finalize in St. destruct (_ =? 0)%Z.
      * exfalso. destruct (store _ _ _) as [[? ?]| |]; cbn [bind] in St; try discriminate. destruct (final_all _); cbn [bind] in St; try discriminate.
        destruct (free_all _); cbn [bind] in St; try discriminate. injection St as <- _. cbn in C. lia.
      * injection St as <- _. cbn in *. apply IH; [lia|exact Ti].
    + injection St as <- _. cbn in C. lia.
  - destruct (step_level rnd s c s' o I (tidy_held _ Tdy) Lo NS St) as [Cn [[Ef El]|Sv]].
    + assert (Ti0 : t_init (s_tok s) = true) by (unfold lasting in El; injection El; intros; congruence).
      rewrite Cn in C. specialize (IH C Ti0). intros uid. destruct (IH uid) as (t & A & B). exists t. rewrite Ef, El. auto.
    + apply saved_synced; assumption.
Qed.
End W.
