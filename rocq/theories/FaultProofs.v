(** Storing with faults compared with storing without. *)
From Verif Require Import Base Codec Ops Object Store Sys SysProofs Fault.
From Coq Require Import List Lia ZArith.
Import ListNotations.
Open Scope nat_scope.
Open Scope list_scope.

(** No write is lost silently: every failure is reported by the operation. *)
Definition audible (ft : faults) : Prop := forall n k, f_write ft n <> Lost k.
Definition calm (ft : faults) : Prop := (forall n, f_write ft n = Good) /\ (forall f, f_read ft f = All).

Lemma performs_calm ft n d ws : (forall n, f_write ft n = Good) -> performs ft n d ws = (0%Z, apply d ws, ws).
Proof.
  intros C. revert n d. induction ws as [|o r IH]; intros n d; [reflexivity|].
  cbn [performs]. rewrite C. destruct o; cbn [perform1 Z.eqb negb]; rewrite IH; reflexivity.
Qed.
Lemma perform1_code v d o c d1 : perform1 v d o = (c, d1) ->
  c = 0%Z \/ (c = READ_ONLY_E /\ d1 = d /\ exists f, o = WOpen f) \/ (c = BUFFER_E /\ exists f b, o = WWrite f b).
Proof. destruct o, v; cbn; intros H; injection H; intros; subst; eauto 10. Qed.
Lemma perform1_audible v d o d1 : (forall k, v <> Lost k) -> perform1 v d o = (0%Z, d1) -> d1 = apply1 d o.
Proof.
  intros A. destruct o, v; cbn; intros H; injection H; intros; subst; try reflexivity; try discriminate;
  exfalso; eapply A; reflexivity.
Qed.
Lemma performs_ok ft n d ws c d' l : performs ft n d ws = (c, d', l) -> c = 0%Z ->
  l = ws /\ (audible ft -> d' = apply d ws).
Proof.
  revert n d d' l. induction ws as [|o r IH]; intros n d d' l H Z; cbn [performs] in H.
  - injection H; intros; subst. auto.
  - destruct (perform1 _ d o) as [c1 d1] eqn:P. destruct (negb (c1 =? 0)%Z) eqn:N.
    + exfalso. injection H; intros; subst. discriminate.
    + destruct (performs ft (S n) d1 r) as [[c2 d2] l2] eqn:Q. injection H; intros; subst.
      destruct (IH _ _ _ _ Q eq_refl) as [-> A]. split; [reflexivity|]. intros Au.
      rewrite (A Au). change (apply d (o :: r)) with (apply (apply1 d o) r). f_equal. apply (perform1_audible (f_write ft n)); [apply Au|].
      rewrite P. f_equal. destruct (Z.eqb_spec c1 0); [assumption|discriminate].
Qed.
(** What is attempted is an initial part of what was to be done, one operation that
    failed at its end. *)
Lemma performs_prefix ft n d ws c d' l : performs ft n d ws = (c, d', l) -> exists r, ws = l ++ r.
Proof.
  revert n d d' l. induction ws as [|o r IH]; intros n d d' l H; cbn [performs] in H.
  - injection H; intros; subst. exists []. reflexivity.
  - destruct (perform1 _ d o) as [c1 d1] eqn:P. destruct (negb (c1 =? 0)%Z) eqn:N.
    + injection H; intros; subst. exists r. reflexivity.
    + destruct (performs ft (S n) d1 r) as [[c2 d2] l2] eqn:Q. injection H; intros; subst.
      destruct (IH _ _ _ _ Q) as [r' ->]. exists r'. reflexivity.
Qed.

Section W.
Variable w : world.
Variable ft : faults.
Notation se := (w_se w).

(** The object with the IV it is stored with. *)
Definition ived (rnd : list N) (o : obj) : obj :=
  match o_keyData o with
  | None => if orb (is_priv o) (is_sym o) then set_store o (rbytes 12 rnd) None (o_enc o) else o
  | Some _ => o end.
Lemma ived_core rnd o : core_obj (ived rnd o) = core_obj o.
Proof. unfold ived. destruct (o_keyData o); [reflexivity|]. destruct (orb _ _); reflexivity. Qed.

Lemma fstore_obj_calm key rnd id o n d : (forall n, f_write ft n = Good) ->
  fstore_obj w ft key rnd id o n d =
  ('(c, o2, ws) <- store_obj se key rnd id o ;; Ok (c, o2, apply d ws, ws)).
Proof.
  intros C. unfold fstore_obj, store_obj. destruct (obj_header o) as [h| |]; cbn [bind]; try reflexivity.
  rewrite performs_calm by assumption. cbn [Z.eqb negb].
  destruct (store_key _ _ _ _) as [[[c1 o2] ws]| |]; cbn [bind]; try reflexivity.
  rewrite performs_calm by assumption. cbn [Z.eqb]. reflexivity.
Qed.
Lemma fstore_objs_calm key rnd l : forall n d, (forall n, f_write ft n = Good) ->
  fstore_objs w ft key rnd l n d =
  ('(c, l2, ws) <- store_objs se key rnd l ;; Ok (c, l2, apply d ws, ws)).
Proof.
  induction l as [|o r IH]; intros n d C; [reflexivity|]. cbn [fstore_objs store_objs].
  rewrite fstore_obj_calm by assumption.
  destruct (store_obj _ _ _ _ _) as [[[c1 o2] ws]| |]; cbn [bind]; try reflexivity.
  destruct (negb (c1 =? 0)%Z); [reflexivity|]. rewrite IH by assumption.
  destruct (store_objs _ _ _ _) as [[[c2 r2] ws2]| |]; cbn [bind]; try reflexivity.
  unfold apply. rewrite fold_left_app. reflexivity.
Qed.
Lemma fstore_calm rnd s : (forall n, f_write ft n = Good) -> fstore w ft rnd s = store w rnd s.
Proof.
  intros C. unfold fstore, store, Token_Store. destruct (tok_header _) as [h| |]; cbn [bind]; try reflexivity.
  rewrite performs_calm by assumption. cbn [Z.eqb negb]. rewrite fstore_objs_calm by assumption.
  destruct (store_objs _ _ _ _) as [[[c2 r2] ws2]| |]; cbn [bind]; try reflexivity.
Qed.

(** Whatever the faults: storing that is defined without them is defined. *)
Lemma fstore_obj_def key rnd id o n d c o2 ws : store_obj se key rnd id o = Ok (c, o2, ws) ->
  exists c' o' d' l, fstore_obj w ft key rnd id o n d = Ok (c', o', d', l) /\ (c' = 0%Z -> c = 0%Z).
Proof.
  unfold fstore_obj, store_obj. intros H.
  destruct (obj_header o) as [h| |]; cbn [bind] in *; try discriminate.
  destruct (performs ft n d _) as [[c1 d1] l1]. destruct (negb (c1 =? 0)%Z) eqn:N.
  - exists c1, o, d1, l1. split; [reflexivity|]. intros ->. discriminate.
  - fold (ived rnd o) in *. destruct (store_key _ _ _ _) as [[[k o3] ws3]| |]; cbn [bind] in *; try discriminate.
    injection H; intros; subst. destruct (performs ft (n + 2) d1 ws3) as [[c2 d2] l2].
    destruct (c2 =? READ_ONLY_E)%Z eqn:R; repeat eexists.
    + intros ->. discriminate.
    + destruct (c2 =? 0)%Z eqn:Z2; [auto|]. intros ->. discriminate.
Qed.
Lemma fstore_objs_def key rnd l : forall n d c l2 ws, store_objs se key rnd l = Ok (c, l2, ws) ->
  exists c' l' d' ops, fstore_objs w ft key rnd l n d = Ok (c', l', d', ops) /\ (c' = 0%Z -> c = 0%Z).
Proof.
  induction l as [|o r IH]; intros n d c l2 ws H; cbn [fstore_objs store_objs] in *.
  - injection H; intros; subst. repeat eexists.
  - destruct (store_obj _ _ _ _ _) as [[[c1 o2] ws1]| |] eqn:E; cbn [bind] in *; try discriminate.
    destruct (fstore_obj_def _ _ _ _ n d _ _ _ E) as (c' & o' & d' & l1 & -> & Z1). cbn [bind].
    destruct (negb (c' =? 0)%Z) eqn:N.
    + repeat eexists. intros ->. discriminate.
    + assert (c' = 0%Z) by (destruct (Z.eqb_spec c' 0); [assumption|discriminate]).
      rewrite (Z1 H0) in H. cbn [Z.eqb negb] in H.
      destruct (store_objs _ _ _ r) as [[[c2 r2] ws2]| |] eqn:E2; cbn [bind] in *; try discriminate.
      injection H; intros; subst.
      destruct (IH (n + length l1) d' _ _ _ eq_refl) as (c3 & l3 & d3 & o3 & -> & Z3). cbn [bind].
      repeat eexists. exact Z3.
Qed.
Lemma fstore_def rnd s c s1 : store w rnd s = Ok (c, s1) -> exists c' s', fstore w ft rnd s = Ok (c', s').
Proof.
  unfold fstore, store, Token_Store. intros H. destruct (tok_header _) as [h| |]; cbn [bind] in *; try discriminate.
  destruct (performs ft _ _ _) as [[c1 d1] l1]. destruct (negb (c1 =? 0)%Z); [repeat eexists|].
  destruct (store_objs _ _ _ _) as [[[c2 r2] ws2]| |] eqn:E; cbn [bind] in *; try discriminate.
  destruct (fstore_objs_def _ _ _ (length (s_log s) + 2) d1 _ _ _ E) as (c3 & l3 & d3 & o3 & -> & _).
  cbn [bind]. repeat eexists.
Qed.

(** Storing that succeeds has done everything. *)
Lemma fstore_obj_ok key rnd id o n d o' d' l : fstore_obj w ft key rnd id o n d = Ok (0%Z, o', d', l) ->
  store_obj se key rnd id o = Ok (0%Z, o', l) /\ (audible ft -> d' = apply d l).
Proof.
  unfold fstore_obj, store_obj. intros H.
  destruct (obj_header o) as [h| |]; cbn [bind] in *; try discriminate.
  destruct (performs ft n d _) as [[c1 d1] l1] eqn:P1. destruct (negb (c1 =? 0)%Z) eqn:N.
  - injection H; intros; subst. discriminate.
  - assert (c1 = 0%Z) as -> by (destruct (Z.eqb_spec c1 0); [assumption|discriminate]).
    destruct (performs_ok _ _ _ _ _ _ _ P1 eq_refl) as [-> A1]. clear P1.
    fold (ived rnd o) in *. destruct (store_key _ _ _ _) as [[[k o3] ws3]| |]; cbn [bind] in *; try discriminate.
    destruct (performs ft (n + 2) d1 ws3) as [[c2 d2] l2] eqn:P2.
    destruct (c2 =? READ_ONLY_E)%Z eqn:R; [injection H; intros; subst; discriminate|].
    destruct (c2 =? 0)%Z eqn:Z2; injection H; intros; subst; [|discriminate].
    destruct (performs_ok _ _ _ _ _ _ _ P2 ltac:(lia)) as [-> A2].
    split; [reflexivity|]. intros Au. rewrite (A2 Au), (A1 Au). reflexivity.
Qed.
Lemma fstore_objs_ok key rnd l : forall n d l2 d' ops, fstore_objs w ft key rnd l n d = Ok (0%Z, l2, d', ops) ->
  store_objs se key rnd l = Ok (0%Z, l2, ops) /\ (audible ft -> d' = apply d ops).
Proof.
  induction l as [|o r IH]; intros n d l2 d' ops H; cbn [fstore_objs store_objs] in *.
  - injection H; intros; subst. auto.
  - destruct (fstore_obj _ _ _ _ _ _ _ _) as [[[[c1 o2] d1] ws1]| |] eqn:E; cbn [bind] in *; try discriminate.
    destruct (negb (c1 =? 0)%Z) eqn:N; [injection H; intros; subst; discriminate|].
    assert (c1 = 0%Z) as -> by (destruct (Z.eqb_spec c1 0); [assumption|discriminate]).
    destruct (fstore_obj_ok _ _ _ _ _ _ _ _ _ E) as [-> A1]. cbn [bind negb Z.eqb].
    destruct (fstore_objs _ _ _ _ r _ _) as [[[[c2 r2] d2] ws2]| |] eqn:E2; cbn [bind] in *; try discriminate.
    injection H; intros; subst. destruct (IH _ _ _ _ _ E2) as [-> A2]. cbn [bind]. split; [reflexivity|].
    intros Au. rewrite (A2 Au), (A1 Au). unfold apply. rewrite fold_left_app. reflexivity.
Qed.
Lemma fstore_ok rnd s s' : fstore w ft rnd s = Ok (0%Z, s') ->
  exists s1, store w rnd s = Ok (0%Z, s1) /\ s_tok s' = s_tok s1 /\ s_log s' = s_log s1 /\ (audible ft -> s' = s1).
Proof.
  unfold fstore, store, Token_Store. intros H. destruct (tok_header _) as [h| |]; cbn [bind] in *; try discriminate.
  destruct (performs ft _ _ _) as [[c1 d1] l1] eqn:P. destruct (negb (c1 =? 0)%Z) eqn:N; [injection H; intros; subst; discriminate|].
  assert (c1 = 0%Z) as -> by (destruct (Z.eqb_spec c1 0); [assumption|discriminate]).
  destruct (performs_ok _ _ _ _ _ _ _ P eq_refl) as [-> A1]. clear P.
  destruct (fstore_objs _ _ _ _ _ _ _) as [[[[c2 r2] d2] ws2]| |] eqn:E2; cbn [bind] in *; try discriminate.
  injection H; intros; subst. destruct (fstore_objs_ok _ _ _ _ _ _ _ _ E2) as [-> A2]. cbn [bind].
  eexists. split; [reflexivity|]. split; [reflexivity|]. split; [reflexivity|]. intros Au.
  unfold with_files, do_ops. cbn [s_fs set_tok s_log s_count s_sess s_uid s_tok].
  rewrite (A2 Au), (A1 Au). unfold apply. rewrite fold_left_app. reflexivity.
Qed.

(** What storing changes in memory, whatever the faults. *)
Definition same_mem (s s' : sys) : Prop :=
  s_count s' = s_count s /\ s_sess s' = s_sess s /\ s_uid s' = s_uid s /\
  tok0 (s_tok s') = tok0 (s_tok s) /\ map core_obj (t_objs (s_tok s')) = map core_obj (t_objs (s_tok s)).
Lemma same_mem_refl s : same_mem s s.
Proof. repeat split. Qed.
Lemma same_mem_sym s s' : same_mem s s' -> same_mem s' s.
Proof. intros (A & B & C & D & E). repeat split; congruence. Qed.
Lemma same_mem_trans a b c : same_mem a b -> same_mem b c -> same_mem a c.
Proof. intros (A & B & C & D & E) (A' & B' & C' & D' & E'). repeat split; congruence. Qed.

Lemma fstore_obj_core key rnd id o n d c o' d' l :
  fstore_obj w ft key rnd id o n d = Ok (c, o', d', l) -> core_obj o' = core_obj o.
Proof.
  unfold fstore_obj. intros H.
  destruct (obj_header o) as [h| |]; cbn [bind] in *; try discriminate.
  destruct (performs ft n d _) as [[c1 d1] l1] eqn:P1. destruct (negb (c1 =? 0)%Z) eqn:N.
  - injection H; intros; subst. reflexivity.
  - fold (ived rnd o) in *. destruct (store_key _ _ _ _) as [[[k o3] ws3]| |] eqn:K; cbn [bind] in *; try discriminate.
    apply store_key_core in K. rewrite ived_core in K.
    destruct (performs ft (n + 2) d1 ws3) as [[c2 d2] l2] eqn:P2.
    destruct (c2 =? READ_ONLY_E)%Z eqn:R; injection H; intros; subst; [apply ived_core|exact K].
Qed.
Lemma fstore_objs_core key rnd l : forall n d c l2 d' ops, fstore_objs w ft key rnd l n d = Ok (c, l2, d', ops) ->
  map core_obj l2 = map core_obj l.
Proof.
  induction l as [|o r IH]; intros n d c l2 d' ops H; cbn [fstore_objs] in *.
  - injection H; intros; subst. auto.
  - destruct (fstore_obj _ _ _ _ _ _ _ _) as [[[[c1 o2] d1] ws1]| |] eqn:E; cbn [bind] in *; try discriminate.
    apply fstore_obj_core in E.
    destruct (negb (c1 =? 0)%Z) eqn:N; [injection H; intros; subst; cbn; congruence|].
    destruct (fstore_objs _ _ _ _ r _ _) as [[[[c2 r2] d2] ws2]| |] eqn:E2; cbn [bind] in *; try discriminate.
    injection H; intros; subst. cbn. f_equal; [exact E|]. eapply IH; eassumption.
Qed.
Lemma fstore_mem rnd s c s' : fstore w ft rnd s = Ok (c, s') -> same_mem s s'.
Proof.
  unfold fstore. intros H. destruct (tok_header _) as [h| |]; cbn [bind] in *; try discriminate.
  destruct (performs ft _ _ _) as [[c1 d1] l1] eqn:P. destruct (negb (c1 =? 0)%Z) eqn:N; [injection H; intros; subst; repeat split|].
  destruct (fstore_objs _ _ _ _ _ _ _) as [[[[c2 r2] d2] ws2]| |] eqn:E2; cbn [bind] in *; try discriminate.
  injection H; intros; subst. repeat split. cbn. eapply fstore_objs_core; eassumption.
Qed.
Lemma store_mem rnd s c s' : store w rnd s = Ok (c, s') -> same_mem s s'.
Proof. intros H. destruct (store_frame _ _ _ _ _ H) as (A & B & C & D & E). repeat split; assumption. Qed.
End W.

Lemma Token_Load_ext se d d' u : (forall f, d' f = d f) -> Token_Load se d' u = Token_Load se d u.
Proof.
  intros X. unfold Token_Load, load_all. rewrite X. destruct (d (F_TOKEN, 0)) as [f|]; [|reflexivity].
  destruct (read_tok_file f) as [[tf r]| |]; cbn [bind]; try reflexivity.
  assert (L : forall l u, load_objs se d' u l = load_objs se d u l).
  { induction l as [|t l IH]; intros u0; [reflexivity|]. cbn [load_objs].
    assert (O : load_obj se d' u0 t (length l) = load_obj se d u0 t (length l)).
    { unfold load_obj, open_read. rewrite X. destruct (d (F_OBJECT, length l)); cbn [bind]; [|reflexivity].
      destruct (read_obj_file _ _ _) as [[o r0]| |]; cbn [bind]; try reflexivity.
      destruct (key_kind o); [|reflexivity]. rewrite X. reflexivity. }
    rewrite O. destruct (load_obj se d u0 t (length l)); cbn [bind]; [|reflexivity|reflexivity]. rewrite IH. reflexivity. }
  rewrite L. reflexivity.
Qed.
Lemma readable_all ft d : (forall f, f_read ft f = All) -> forall f, readable ft d f = d f.
Proof. intros A f. unfold readable. rewrite A. reflexivity. Qed.
