(** The files hold what the archive of Archive.v says. *)
From Verif Require Import Base Codec Ops Object ObjectSpec ObjectProofs AttrProofs Store StoreSpec StoreProofs Sys SysProofs SysProofs2 SysProofs3 SysProofs4 WfProofs LoginProofs KeyProofs
  HeapProofs AttrFrame AttrProofs2 ObjFrame ObjProofs HandleProofs DiskHandles Device DeviceProofs Table TableProofs PropTable Note NoteProofs PropNote Archive.
From Verif Require DurableProofs.
Notation tidy := DurableProofs.tidy.

(** ** Objects as they are loaded *)
Definition texts (o : obj) : Prop := (exists b, o_label o = SV b) /\ exists b, o_keyId o = SV b.
Lemma view_holds o o' ty v : obj_view o' = obj_view o -> texts o' -> holds o ty v -> holds o' ty v.
Proof.
  intros E ((lb & El) & kb & Ek) (A & B & C). split; [exact A|]. split; [|exact C]. unfold obj_view in E. rewrite El, Ek in E. cbn [sbytes] in E.
  assert (E1 : o_opFlag o' = o_opFlag o) by congruence. assert (E2 : o_start o' = o_start o) by congruence. assert (E3 : o_end o' = o_end o) by congruence.
  assert (E4 : o_class o' = o_class o) by congruence. assert (E5 : lb = sbytes (o_label o)) by congruence. assert (E6 : kb = sbytes (o_keyId o)) by congruence. clear E.
  unfold field in *. rewrite E1, E2, E3, E4, El, Ek. destruct (usage_bit ty); [exact B|]. assert (S : forall x, sfield x = Some v -> sfield (SV (sbytes x)) = Some v).
  { intros [x|n]; cbn; [auto|]. destruct (n =? 0)%Z; [auto|discriminate]. }
  destruct (_ =? _)%Z; [rewrite E5; apply S; exact B|]. destruct (_ =? CKA_ID)%Z; [rewrite E6; apply S; exact B|exact B].
Qed.
Lemma view_handles l : forall l', map obj_view l' = map obj_view l -> handles l' = handles l.
Proof.
  induction l as [|o l IH]; intros [|o' l'] E; try discriminate; [reflexivity|]. cbn [map handles] in *.
  assert (E1 : obj_view o' = obj_view o) by exact (f_equal (fun x => hd (obj_view o) x) E). assert (E2 : map obj_view l' = map obj_view l) by exact (f_equal (@tl _) E).
  unfold handles in *. cbn [map]. rewrite (IH _ E2). f_equal. unfold obj_view in E1. congruence.
Qed.
Lemma view_in l l' o' : map obj_view l' = map obj_view l -> In o' l' -> exists o, In o l /\ obj_view o' = obj_view o.
Proof. intros E I. apply (in_map obj_view) in I. rewrite E in I. apply in_map_iff in I as (o & A & B). eauto. Qed.
Section W.
Variable w : world.
Notation se := (w_se w).
Lemma load_obj_texts d u ty id o : load_obj se d u ty id = Ok o -> texts o.
Proof.
  unfold load_obj. destruct (open_read _ _); cbn [bind]; try discriminate. destruct (read_obj_file u ty a) as [[q r]| |] eqn:R; cbn [bind]; try discriminate.
  assert (T : texts q).
  { unfold read_obj_file in R. repeat match type of R with bind ?x _ = _ => destruct x as [[? ?]| |]; cbn [bind] in R; try discriminate end. injection R as <- _. split; eexists; reflexivity. }
  destruct (key_kind q); [|discriminate]. destruct (open_read _ _); cbn [bind]; try discriminate. destruct (read_key_file se q a0) as [[q' r']| |] eqn:K; cbn [bind]; try discriminate. intros [= <-].
  unfold read_key_file in K. destruct (r_alloc a0) as [[kd f1]| |]; cbn [bind] in K; try discriminate. destruct (andb _ _).
  - destruct (r_alloc f1) as [[der f2]| |]; cbn [bind] in K; try discriminate. destruct (se_dh_dec se der) as [c [p g]]. destruct (negb _); [discriminate|]. injection K as <- _. exact T.
  - injection K as <- _. exact T.
Qed.
Lemma load_objs_texts d tys : forall u l, load_objs se d u tys = Ok l -> Forall texts l.
Proof.
  induction tys as [|ty r IH]; intros u l; cbn [load_objs]; [intros [= <-]; constructor|]. destruct (load_obj _ _ _ _ _) as [o| |] eqn:O; cbn [bind]; try discriminate.
  destruct (load_objs se d (S u) r) as [l'| |] eqn:R; cbn [bind]; try discriminate. intros [= <-]. constructor; [eapply load_obj_texts; exact O|eapply IH; exact R].
Qed.
Lemma Token_Load_texts d u t : Token_Load se d u = Ok t -> Forall texts (t_objs t).
Proof.
  unfold Token_Load. destruct (d (F_TOKEN, 0%nat)) as [f|]; [|intros [= <-]; constructor]. unfold load_all. destruct (read_tok_file f) as [[tf r]| |]; cbn [bind]; try (intros [= <-]; constructor); try discriminate.
  destruct (load_objs se d u (tf_types tf)) as [l| |] eqn:R; cbn [bind]; try (intros [= <-]; constructor); try discriminate. intros [= <-]. eapply load_objs_texts; exact R.
Qed.

(** ** What the files hold *)
Definition stores (d : fs) (l : list Z) (g : Z -> Z -> option (list N)) : Prop := forall uid, exists t, Token_Load se d uid = Ok t /\ handles (t_objs t) = l /\
  forall o ty v, In o (t_objs t) -> g (o_handle o) ty = Some v -> holds o ty v.
Definition mirrored (s : sys) : Prop := forall uid, exists t, Token_Load se (s_fs s) uid = Ok t /\ map obj_view (t_objs t) = map obj_view (t_objs (s_tok s)).
Lemma view_stores s d n : nsim s n -> (forall uid, exists t, Token_Load se d uid = Ok t /\ map obj_view (t_objs t) = map obj_view (t_objs (s_tok s))) -> stores d (b_tok (n_tab n)) (n_val n None).
Proof.
  intros [T V] M uid. destruct (M uid) as (t & Ld & E). exists t. split; [exact Ld|]. split; [rewrite (view_handles _ _ E); apply T|].
  intros o' ty v I G. pose proof (Token_Load_texts _ _ _ Ld) as Tx. rewrite Forall_forall in Tx. destruct (view_in _ _ _ E I) as (o & J & Ev).
  eapply view_holds; [exact Ev|apply Tx; exact I|]. apply (V None); [exact J|]. replace (o_handle o) with (o_handle o') by (unfold obj_view in Ev; congruence). exact G.
Qed.
Lemma reload_views l : forall u, map obj_view (reload_objs u l) = map obj_view l.
Proof. induction l as [|o l IH]; intros u; cbn [reload_objs map]; [reflexivity|]. rewrite blank_view, IH. reflexivity. Qed.
Hypothesis L : laws se.
Lemma saved_mirrored s : DurableProofs.saved w s -> ginv (s_tok s) -> tidy w s -> mirrored s.
Proof. intros Sv G Td uid. destruct (DurableProofs.saved_load w L s Sv G Td) as [_ Ld]. eexists. split; [apply Ld|]. apply reload_views. Qed.
Lemma stored_mirrored rnd s c s' : ginv (s_tok s) -> tidy w s -> store w rnd s = Ok (c, s') -> forall uid, exists t, Token_Load se (s_fs s') uid = Ok t /\ map obj_view (t_objs t) = map obj_view (t_objs (s_tok s)).
Proof.
  intros G [F S] E. assert (W : wf_tok (s_tok s)) by exact (wf_of (s_tok s) (t_objs (s_tok s)) G F eq_refl).
  unfold store in E. destruct (store_load se (dh_law' _ L) (fun i => rnd (2 + i)%nat) (s_tok s) (s_fs s) W S) as (ws & Es & Ld). rewrite Es in E. cbn [bind] in E. injection E as _ <-.
  intros uid. eexists. split; [apply Ld|]. apply reload_views.
Qed.

(** ** Calls *)
Lemma idle_same rnd s c s' o : (s_count s <= 0)%Z -> DurableProofs.lib_op c = false -> step w rnd s c = Ok (s', o) -> s' = s.
Proof.
  intros C Lo E. destruct c; try discriminate Lo; cbn [step] in E; unfold with_slot, with_sess, need_lib, rv_ in E; (destruct (Z.ltb_spec 0 (s_count s)); [lia|]);
    injection E as <- _; reflexivity.
Qed.
Lemma untouched_eq rw o t rv o' : SetAttributeValue (w_oe w) rw o t = Ok (rv, o') -> untouched rv = true -> o' = o.
Proof.
  intros H U. unfold SetAttributeValue in H. destruct (negb rw); [injection H as _ <-; reflexivity|]. cbv zeta in H. destruct (negb _); [injection H as _ <-; reflexivity|].
  destruct (params_of o); [|injection H as _ <-; reflexivity]. destruct (param_vals t l); [|injection H as _ <-; reflexivity].
  destruct (SetKey (w_oe w) o l0) as [[c o1]| |] eqn:K; cbn [bind] in H; try discriminate.
  destruct (c =? MEMORY_E)%Z; [injection H as <- _; discriminate U|]. destruct (negb _); [injection H as <- _; discriminate U|].
  exfalso. apply set_loop_rv in H. congruence.
Qed.
Lemma upd_objs_id l o : (forall y, In y l -> o_uid y = o_uid o -> y = o) -> upd_objs l o = l.
Proof.
  unfold upd_objs. induction l as [|y l IH]; intros H; [reflexivity|]. cbn [map]. rewrite IH by (intros z Z; apply H; right; exact Z).
  destruct (Nat.eqb_spec (o_uid y) (o_uid o)) as [E|]; [rewrite <- (H y (or_introl eq_refl) E)|]; reflexivity.
Qed.
Lemma level_unsaved m rnd s c s' o : inv s -> good True m s -> (m < 2^28)%Z -> tidy w s -> DurableProofs.lib_op c = false -> unsaved c o = false -> step w rnd s c = Ok (s', o) -> DurableProofs.level w s s'.
Proof.
  intros I G M Td Lo U E. destruct (DurableProofs.sets_token c) eqn:ST; [|exact (DurableProofs.step_level w rnd s c s' o I (DurableProofs.tidy_held _ _ Td) Lo ST E)].
  destruct c; try discriminate ST. cbn [DurableProofs.sets_token] in ST. assert (Z : DurableProofs.level w s s) by (apply DurableProofs.level_refl; [reflexivity|split; reflexivity]).
  cbn [step] in E. unfold with_sess, need_lib, rv_ in E. destruct (0 <? _)%Z; [|injection E as <- _; exact Z]. destruct (sess_get s h) as [x|] eqn:X; [|injection E as <- _; exact Z].
  unfold need_rw, rv_ in E. destruct (is_rw x); [|injection E as <- _; exact Z]. unfold with_object, rv_ in E. destruct (find_obj s x ho) as [p|] eqn:F; [|injection E as <- _; exact Z].
  destruct (SetAttributeValue _ _ p t) as [[rv p']| |] eqn:S; cbn [bind] in E; try discriminate. injection E as <- <-. cbn [unsaved out_rv] in U.
  unfold find_obj in F. rewrite ST in F. apply find_some in F as [F Fh]. apply Z.eqb_eq in Fh.
  assert (Hi : (2^28 <= ho)%Z).
  { pose proof (region m s None p h G M F (or_introl eq_refl)) as Rg. unfold owner in Rg. rewrite Fh in Rg. destruct (Z.leb_spec (2^28) ho); [assumption|discriminate]. }
  destruct (Z.leb_spec (2^28) ho); [|lia]. cbn [andb] in U. apply negb_false_iff in U. rewrite (untouched_eq _ _ _ _ _ S U).
  apply DurableProofs.level_refl; [reflexivity|]. split; [|reflexivity]. unfold put_obj. cbn [set_sess set_tok s_tok]. rewrite upd_objs_id; [destruct (s_tok s); reflexivity|].
  intros y Y Ey. apply (uid_same s); [apply I| | |exact Ey]; unfold live; apply in_or_app; left; assumption.
Qed.
End W.
