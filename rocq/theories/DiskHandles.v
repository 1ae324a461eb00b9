(** The handles in the object files follow those in memory, so that a load of the
    token finds them in order. *)
From Verif Require Import Base Codec CodecProofs Ops Object ObjectProofs Store StoreSpec StoreProofs Sys SysProofs SysProofs2 SysProofs3 SysProofs4 WfProofs CrashProofs DiskProofs SealProofs ObjFrame ObjProofs HandleProofs QuotaProofs.
From Coq Require Import Sorted.

Lemma u64_dec v : exists c, u64 v = (v + c * 2^64)%Z.
Proof. unfold u64. pose proof (Z.div_mod v (2^64)). exists (- (v / 2^64))%Z. lia. Qed.
Lemma w_ulong_u64 v : w_ulong (u64 v) = w_ulong v.
Proof. destruct (u64_dec v) as [c ->]. unfold w_ulong. apply (w_be_add 8 8). lia. Qed.
Lemma u64_range v : (0 <= u64 v < 2^64)%Z.
Proof. unfold u64. apply Z.mod_pos_bound. lia. Qed.
Lemma header_count' t h : ginv (tok0 t) -> (zlen (t_objs t) < 2^31)%Z -> tok_header t = Ok h -> forall tf r, read_tok_file h = Ok (tf, r) -> length (tf_types tf) = length (t_objs t).
Proof.
  intros (G1 & G2 & G3 & G4 & _) L H tf r R. set (l := map (fun o => obj_new 0 (u64 (o_type o))) (t_objs t)).
  assert (E : tok_header (set_objs t l) = Ok h).
  { rewrite <- H. unfold tok_header. cbn [set_objs t_label t_so t_user t_seed t_objs].
    replace (flat_map (fun o => w_ulong (o_type o)) l) with (flat_map (fun o => w_ulong (o_type o)) (t_objs t)).
    - unfold l, zlen. rewrite map_length. reflexivity.
    - unfold l. clear. induction (t_objs t) as [|o q IH]; cbn [map flat_map]; [reflexivity|]. rewrite <- IH. cbn [obj_new o_type]. rewrite w_ulong_u64. reflexivity. }
  rewrite (header_count (set_objs t l) h) with (tf := tf) (r := r); [unfold l; cbn; apply map_length| |exact E|exact R].
  unfold ginv. cbn [tok0 set_objs t_label t_so t_user t_seed t_objs] in *. split; [exact G1|]. split; [exact G2|]. split; [exact G3|]. split; [exact G4|].
  split; [unfold l, zlen; rewrite map_length; exact L|]. unfold l. apply Forall_map. apply Forall_forall. intros o _. apply new_oinv. apply u64_range.
Qed.

(** ** Object files *)
Definition file_handle (d : fs) (id : nat) : option Z :=
  match d (F_OBJECT, id) with
  | Some f => match read_obj_file 0 0 f with Ok (o, _) => Some (o_handle o) | _ => None end
  | None => None
  end.
(** A header read back, if it can be read at all, has the handle. *)
Lemma header_handle o b : obj_header o = Ok b -> forall u ty o' r, read_obj_file u ty b = Ok (o', r) -> o_handle o' = u64 (o_handle o).
Proof.
  unfold obj_header. intros H u ty o' r R. destruct (w_fixed (o_iv o) 12) as [iv| |] eqn:I; cbn [bind] in H; try discriminate.
  destruct (w_fixed (o_start o) 8); cbn [bind] in H; try discriminate. destruct (w_fixed (o_end o) 8); cbn [bind] in H; try discriminate.
  destruct (w_array (s_bytes (o_keyId o)) _); cbn [bind] in H; try discriminate. destruct (w_array (s_bytes (o_label o)) _); cbn [bind] in H; try discriminate.
  assert (L : zlen iv = 12%Z).
  { unfold w_fixed, st_write in I. destruct (12 <? 0)%Z; [discriminate|]. destruct (zlen (o_iv o) <? 12)%Z eqn:Q; [discriminate|]. apply Ok_eq in I. subst iv.
    unfold zlen in *. rewrite firstn_length. apply Z.ltb_ge in Q. lia. }
  apply Ok_eq in H. unfold read_obj_file in R. subst b. unfold r_fixed at 1 in R. rewrite <- L, st_read_app in R. cbn [bind] in R.
  rewrite <- w_ulong_u64, r_ulong_w in R by apply u64_range. cbn [bind] in R.
  repeat match type of R with bind ?m _ = _ => destruct m as [[? ?]| |]; cbn [bind] in R; try discriminate end.
  injection R as <- _. reflexivity.
Qed.
Lemma read_type u ty u' ty' f o r : read_obj_file u ty f = Ok (o, r) -> exists o', read_obj_file u' ty' f = Ok (o', r) /\ o_handle o' = o_handle o.
Proof.
  unfold read_obj_file. intros R.
  repeat match type of R with bind ?m _ = _ => destruct m as [[? ?]| |]; cbn [bind] in R |- *; try discriminate end.
  injection R as <- <-. eexists. split; reflexivity.
Qed.

(** [hs], head first, as found in the files; an id whose file has something else
    has a file without content at or below it. *)
Fixpoint mt (d : fs) (hs : list Z) : Prop :=
  match hs with
  | [] => True
  | h :: r => mt d r /\ (file_handle d (length r) = Some h \/ exists e, (e <= length r)%nat /\ file_handle d e = None)
  end.
Lemma mt_ext d d' hs : (forall i, (i < length hs)%nat -> file_handle d' i = file_handle d i) -> mt d hs -> mt d' hs.
Proof.
  induction hs as [|h r IH]; cbn; intros E M; [exact Logic.I|]. destruct M as [M1 M2]. split; [apply IH; [intros; apply E; lia|exact M1]|].
  destruct M2 as [M2 | (e & Le & M2)]; [left; rewrite E by lia; exact M2|right; exists e; split; [exact Le|rewrite E by lia; exact M2]].
Qed.
Lemma mt_none d d' hs e : file_handle d' e = None -> (forall i, i <> e -> file_handle d' i = file_handle d i) -> mt d hs -> mt d' hs.
Proof.
  intros N E. induction hs as [|h r IH]; cbn; intros M; [exact Logic.I|]. destruct M as [M1 M2]. split; [auto|].
  destruct (le_lt_dec e (length r)) as [L|L]; [right; exists e; auto|].
  destruct M2 as [M2 | (i & Le & M2)]; [left; rewrite E by lia; exact M2|right; exists i; split; [exact Le|rewrite E by lia; exact M2]].
Qed.
Lemma file_handle_eq d d' i : d' (F_OBJECT, i) = d (F_OBJECT, i) -> file_handle d' i = file_handle d i.
Proof. unfold file_handle. intros ->. reflexivity. Qed.
Lemma file_handle_empty d i : d (F_OBJECT, i) = Some [] -> file_handle d i = None.
Proof. unfold file_handle. intros ->. reflexivity. Qed.

Section W.
Variable w : world.
Notation se := (w_se w).
Definition not_obj (a : wop) : Prop := fst (wname a) <> F_OBJECT.
Lemma store_key_kinds key id o c o' ws : store_key se key id o = Ok (c, o', ws) -> Forall not_obj ws.
Proof.
  assert (K : forall k o c o' ws, k <> F_OBJECT -> store_kd se key (k, id) o = Ok (c, o', ws) -> Forall not_obj ws).
  { intros k p c1 p' ws1 Nk H. unfold store_kd in H. match type of H with bind ?m _ = _ => destruct m as [[c2 o2]| |]; cbn [bind] in H; try discriminate end.
    destruct (negb _); [injection H as _ _ <-; repeat constructor; exact Nk|]. destruct (w_array _ _); cbn [bind] in H; try discriminate.
    injection H as _ _ <-. repeat constructor; exact Nk. }
  unfold store_key. intros H. destruct (is_cert o) eqn:Ce.
  - destruct (as_cert o) as [[l b]| |]; cbn [bind] in H; try discriminate. destruct (l <=? 0)%Z; [injection H as _ _ <-; constructor|].
    destruct (w_array _ _); cbn [bind] in H; try discriminate. injection H as _ _ <-. repeat constructor; discriminate.
  - destruct (key_kind o) as [k|] eqn:E; [|injection H as _ _ <-; constructor]. apply key_kind_not in E as [_ E].
    destruct (_ =? CKK_DH)%Z; [|eapply K; eauto].
    destruct (store_kd _ _ _ _) as [[[c1 o1] ws1]| |] eqn:Q; cbn [bind] in H; try discriminate. apply K in Q; [|exact E].
    destruct (negb _); [injection H as _ _ <-; exact Q|]. destruct (as_dh o1) as [[[[p g] l] b]| |]; cbn [bind] in H; try discriminate.
    destruct (se_dh_der se p g) as [c2 der]. destruct (c2 <? 0)%Z; [injection H as _ _ <-; exact Q|].
    destruct (w_array _ _); cbn [bind] in H; try discriminate. injection H as _ _ <-. apply Forall_app. split; [exact Q|]. repeat constructor. exact E.
Qed.
Lemma store_obj_file key r id o c o' ws d : store_obj se key r id o = Ok (c, o', ws) ->
  (file_handle (apply d ws) id = Some (u64 (o_handle o)) \/ file_handle (apply d ws) id = None) /\ forall i, i <> id -> file_handle (apply d ws) i = file_handle d i.
Proof.
  unfold store_obj. intros H. destruct (obj_header o) as [b| |] eqn:Hb; cbn [bind] in H; try discriminate.
  destruct (store_key _ _ _ _) as [[[c2 o2] ws2]| |] eqn:K; cbn [bind] in H; try discriminate. injection H as _ _ <-. apply store_key_kinds in K. rewrite Forall_forall in K.
  assert (E : forall i, apply d ([WOpen (F_OBJECT, id); WWrite (F_OBJECT, id) b] ++ ws2) (F_OBJECT, i) = apply d [WOpen (F_OBJECT, id); WWrite (F_OBJECT, id) b] (F_OBJECT, i)).
  { intros i. rewrite apply_app. apply apply_other. intros a J Q. apply (K a J). rewrite Q. reflexivity. }
  split.
  - unfold file_handle. rewrite E. cbn [apply fold_left apply1]. rewrite !fs_set_same. cbn [app].
    destruct (read_obj_file 0 0 b) as [[o3 r3]| |] eqn:R; auto. left. f_equal. eapply header_handle; eauto.
  - intros i N. apply file_handle_eq. rewrite E. apply apply_other. intros a [<- | [<- | []]]; cbn; congruence.
Qed.
Lemma store_objs_mt key r l : Forall (fun o => u64 (o_handle o) = o_handle o) l -> forall c l' ws d, store_objs se key r l = Ok (c, l', ws) -> mt d (handles (tl l)) -> mt (apply d ws) (handles l).
Proof.
  intros F. induction F as [|o l Fo F IH]; cbn [store_objs]; intros c l' ws d H M; [exact Logic.I|]. cbn [tl] in M.
  destruct (store_obj _ _ _ _ _) as [[[c1 o1] ws1]| |] eqn:S; cbn [bind] in H; try discriminate.
  destruct (store_obj_file _ _ _ _ _ _ _ d S) as [S1 S2]. rewrite Fo in S1.
  assert (M1 : mt (apply d ws1) (handles l)).
  { eapply mt_ext; [|exact M]. intros i L. unfold handles in L. rewrite map_length in L. apply S2. lia. }
  change (handles (o :: l)) with (o_handle o :: handles l). cbn [mt]. assert (Len : length (handles l) = length l) by (unfold handles; apply map_length). rewrite Len.
  destruct (negb _).
  - injection H as _ _ <-. split; [exact M1|]. destruct S1 as [S1|S1]; [auto|right; exists (length l); auto].
  - destruct (store_objs _ _ _ _) as [[[c2 r1] ws2]| |] eqn:R; cbn [bind] in H; try discriminate. injection H as _ _ <-. rewrite apply_app. split.
    + eapply IH; [reflexivity|]. destruct l as [|q l]; [exact Logic.I|]. apply M1.
    + assert (E : file_handle (apply (apply d ws1) ws2) (length l) = file_handle (apply d ws1) (length l)).
      { apply file_handle_eq, apply_other. intros a J Q. apply store_objs_names in R. rewrite Forall_forall in R. destruct (R a J) as [_ L]. rewrite Q in L. cbn in L. lia. }
      rewrite E. destruct S1 as [S1|S1]; [auto|right; exists (length l); rewrite E; auto].
Qed.

(** ** The invariant *)
Variable Q : Prop.
Notation tok_good := (tok_good Q).
Notation good := (good Q).
Definition hs_ok (m : Z) (hs : list Z) : Prop := exists r, region_ok Q r /\ hs_good r m hs.
Definition disk_ok (m : Z) (d : fs) : Prop :=
  forall f tf r, d (F_TOKEN, 0%nat) = Some f -> read_tok_file f = Ok (tf, r) -> exists hs, length hs = length (tf_types tf) /\ hs_ok m hs /\ mt d hs.
Definition kept (m : Z) (s : sys) : Prop := mt (s_fs s) (handles (t_objs (s_tok s))) /\ disk_ok m (s_fs s).

Lemma disk_le m m' d : (m <= m')%Z -> disk_ok m d -> disk_ok m' d.
Proof. intros L D f tf r F R. destruct (D f tf r F R) as (hs & A & (rg & B & C) & E). exists hs. split; [exact A|]. split; [exists rg; split; [exact B|eapply hs_le; eauto]|exact E]. Qed.
Lemma hs_u64 m hs : (0 <= m < 2^28)%Z -> hs_ok m hs -> Forall (fun h => u64 h = h) hs.
Proof.
  intros M (r & (R & _) & _ & F). eapply Forall_impl; [|exact F]. cbn. intros h [A B]. unfold u64. apply Z.mod_small.
  change (2^64)%Z with (2^36 * 2^28)%Z in *. nia.
Qed.
Lemma mt_tl d hs : mt d hs -> mt d (tl hs).
Proof. destruct hs; [auto|]. intros [A _]. exact A. Qed.
Lemma handles_core l l' : map core_obj l = map core_obj l' -> handles l = handles l'.
Proof. intros E. rewrite !handles_tags, (tags_core _ _ E). reflexivity. Qed.
Lemma store_kept m rnd s c s' : ginv (tok0 (s_tok s)) -> (zlen (t_objs (s_tok s)) < 2^31)%Z -> (0 <= m < 2^28)%Z -> tok_good m (t_objs (s_tok s)) ->
  mt (s_fs s) (tl (handles (t_objs (s_tok s)))) -> store w rnd s = Ok (c, s') -> kept m s'.
Proof.
  intros G L M T D H. pose proof (store_frame w _ _ _ _ H) as (_ & _ & _ & _ & B). unfold store in H.
  destruct (Token_Store _ _ _) as [[[c1 t] ws]| |] eqn:S; cbn [bind] in H; try discriminate. injection H as _ <-. cbn [do_ops set_tok s_fs s_tok] in *.
  assert (Mt : mt (apply (s_fs s) ws) (handles (t_objs (s_tok s)))).
  { unfold Token_Store in S. destruct (tok_header _); cbn [bind] in S; try discriminate. destruct (store_objs _ _ _ _) as [[[c2 l] ws2]| |] eqn:SO; cbn [bind] in S; try discriminate.
    injection S as _ _ <-. match goal with |- mt (apply _ (?a :: ?b :: ?l)) _ => change (a :: b :: l) with ([a; b] ++ l) end. rewrite apply_app. eapply store_objs_mt; [|exact SO|].
    - assert (F : Forall (fun h => u64 h = h) (map o_handle (t_objs (s_tok s)))) by (eapply hs_u64; eauto). rewrite Forall_map in F. exact F.
    - eapply mt_ext; [|unfold handles in D |- *; destruct (t_objs (s_tok s)); exact D]. intros i _. apply file_handle_eq, apply_other. intros aa [<- | [<- | []]]; discriminate. }
  split; [cbn; rewrite (handles_core _ _ B); exact Mt|]. intros f tf r F R. cbn [do_ops s_fs set_tok] in F, R |- *.
  destruct (apply_tok_store w _ _ _ _ _ (s_fs s) S) as (h & Hh & A). rewrite A in F. injection F as <-.
  exists (handles (t_objs (s_tok s))). split; [unfold handles; rewrite map_length; symmetry; eapply header_count'; eauto|]. split; [exact T|exact Mt].
Qed.
Lemma behind_remove u l : In u (uids l) -> NoDup (uids l) -> exists a o b, l = a ++ o :: b /\ o_uid o = u /\ remove_uid u l = a ++ b /\ behind u l = length b.
Proof.
  unfold uids. induction l as [|o l IH]; cbn; intros I N; [contradiction|]. inversion N as [|x y N1 N2]; subst.
  destruct (Nat.eqb_spec (o_uid o) u) as [E|E].
  - exists [], o, l. auto.
  - destruct I as [I|I]; [contradiction|]. destruct (IH I N2) as (a & p & b & -> & A & B & C). exists (o :: a), p, b. cbn. rewrite B. auto.
Qed.
Lemma unstore_handle d e o : file_handle (apply d (Unstore e o)) e = None /\ forall i, i <> e -> file_handle (apply d (Unstore e o)) i = file_handle d i.
Proof.
  assert (K : forall d' i, file_handle (apply d' match key_kind o with Some k => [WOpen (k, e)] | None => [] end) i = file_handle d' i).
  { intros d' i. apply file_handle_eq, apply_other. intros a J. destruct (key_kind o) as [k|] eqn:E; [|contradiction]. destruct J as [<- | []]. apply key_kind_not in E as [_ E]. cbn. congruence. }
  unfold Unstore. split.
  - match goal with |- file_handle (apply _ (?a :: ?l)) _ = _ => change (a :: l) with ([a] ++ l) end. rewrite apply_app, K. apply file_handle_empty. cbn. apply fs_set_same.
  - intros i N. match goal with |- file_handle (apply _ (?a :: ?l)) _ = _ => change (a :: l) with ([a] ++ l) end. rewrite apply_app, K. apply file_handle_eq. cbn. apply fs_set_other. congruence.
Qed.
Lemma mt_remove d d' a h b : file_handle d' (length b) = None -> (forall i, i <> length b -> file_handle d' i = file_handle d i) -> mt d (a ++ h :: b) -> mt d' (a ++ b).
Proof.
  intros N E. induction a as [|x a IH]; cbn [app mt]; intros [M1 M2]; [eapply mt_none; eauto|]. split; [auto|].
  right. exists (length b). rewrite app_length. split; [lia|exact N].
Qed.
Lemma remt_kept m s o : uid_ok s -> In o (t_objs (s_tok s)) -> kept m s ->
  kept m (do_ops (set_tok s (set_objs (s_tok s) (remove_uid (o_uid o) (t_objs (s_tok s))))) (Unstore (behind (o_uid o) (t_objs (s_tok s))) o)).
Proof.
  intros [U _] I [M D]. destruct (behind_remove (o_uid o) (t_objs (s_tok s))) as (a & p & b & E & Eu & Er & Eb).
  { unfold uids. apply in_map. exact I. }
  { unfold live, uids in U. rewrite map_app in U. unfold uids. apply (NoDup_app_mid _ [] _ (map o_uid (all_objs (s_sess s)))). exact U. }
  destruct (unstore_handle (s_fs s) (length b) o) as [N F]. rewrite Eb, Er. split.
  - cbn [do_ops set_tok s_fs s_tok set_objs t_objs]. rewrite E in M. unfold handles in *. rewrite map_app in *. cbn [map] in M.
    eapply mt_remove; [rewrite map_length; exact N|rewrite map_length; exact F|exact M].
  - cbn [do_ops set_tok s_fs s_tok]. intros f tf r Hf R. rewrite apply_other in Hf.
    + destruct (D _ _ _ Hf R) as (hs & A & B & C). exists hs. split; [exact A|]. split; [exact B|]. eapply mt_none; eauto.
    + intros q J. unfold Unstore in J. destruct J as [<- | J]; [discriminate|]. destruct (key_kind o) as [k|] eqn:K; [|contradiction]. destruct J as [<- | []]. cbn. intros [= -> _]. apply key_kind_not in K. tauto.
Qed.
Lemma kept_same m s s' : s_fs s' = s_fs s -> handles (t_objs (s_tok s')) = handles (t_objs (s_tok s)) -> kept m s -> kept m s'.
Proof. unfold kept. intros -> ->. auto. Qed.
Lemma kept_clear m s s' : s_fs s' = s_fs s -> t_objs (s_tok s') = [] -> kept m s -> kept m s'.
Proof. unfold kept. intros -> -> [_ D]. split; [exact Logic.I|exact D]. Qed.
Lemma ginv0 t : ginv t -> ginv (tok0 t).
Proof. intros (A & B & C & D & E & F). split; [exact A|]. split; [exact B|]. split; [exact C|]. split; [exact D|]. split; [reflexivity|constructor]. Qed.
Lemma sub_eq {A} (a b : list A) : sub a b -> length a = length b -> a = b.
Proof. induction 1 as [|x a b S IH|x a b S IH]; cbn; intros E; [reflexivity|f_equal; auto|]. apply sub_len in S. lia. Qed.
Lemma prim_kept m cl h s s' : inv s -> ginv (s_tok s) -> good m s -> (0 <= m < 2^28)%Z -> kept m s -> creates cl = false -> prim w cl h s s' -> kept m s'.
Proof.
  intros I G Gd M K C P. assert (Ud : uid_ok s) by apply I. pose proof (prim_smaller w _ _ _ _ I C P) as [Sm _].
  destruct P as [s x x' X Ux E1 E2 E3 E4|s n|s x rnd c s' X Rw E1 E2 Cl|s x o X Rw E1 L Iu Nu Hd Ot Mk Cl|s x b o X Rw E1 L Iu Nu Nb Hd Ot Mk Cl|s x o X Rw E1 Io Cl|s x o X Rw E1 Io Ot Cl|s x o o' X Rw E1 Io Sid Mk]; try congruence.
  - exact K.
  - exact K.
  - eapply store_kept; [apply ginv0; exact G| |exact M|apply Gd|apply mt_tl; apply K|exact E2]. apply G.
  - exact K.
  - apply remt_kept; assumption.
  - eapply kept_same; [| |exact K]; [reflexivity|]. rewrite !handles_tags. f_equal. apply sub_eq; [exact Sm|].
    unfold tags. rewrite !map_length. change (t_objs (s_tok (put_obj s o'))) with (upd_objs (t_objs (s_tok s)) o'). unfold upd_objs. apply map_length.
Qed.
Lemma prims_kept m cl h s s' : inv s -> ginv (s_tok s) -> good m s -> (0 <= m < 2^28)%Z -> kept m s -> creates cl = false -> prims w cl h s s' -> kept m s'.
Proof.
  intros I G Gd M K C P. induction P as [s|s s1 s2 P Ps IH]; [exact K|].
  apply IH; [eapply prim_inv; eauto|eapply prim_ginv; eauto| |eapply prim_kept; eauto]. eapply good_smaller; [eapply prim_smaller; eauto|exact Gd].
Qed.
Lemma added_kept m h b o s s' : (0 <= m)%Z -> (m + 1 < 2^28)%Z -> ginv (tok0 (s_tok s)) -> kept m s -> good (m + 1) s' -> added w h b o s s' -> kept (m + 1) s' /\ tok0 (s_tok s') = tok0 (s_tok s).
Proof.
  intros M0 M G K Gd (_ & _ & _ & x & x' & _ & _ & _ & E). destruct (b =? 0)%N.
  - destruct E as (_ & _ & _ & E1 & E2). unfold kept. rewrite E1, E2. split; [|reflexivity]. destruct K as [K1 K2]. split; [exact K1|eapply disk_le; [|exact K2]; lia].
  - destruct E as (L & _ & C & _ & r & s1 & c & E1 & E2 & St). pose proof (store_frame w _ _ _ _ St) as (_ & _ & _ & T & B).
    split; [|rewrite T, E1; reflexivity].
    eapply store_kept; [| | | | |exact St]; rewrite ?E1; [exact G| |lia| |].
    + cbn [set_objs t_objs]. unfold zlen, TOK_OBJ_MAX in *. cbn [length]. lia.
    + destruct Gd as [(rg & R1 & R2) _]. exists rg. split; [exact R1|]. rewrite E1 in B. rewrite <- (handles_core _ _ B). exact R2.
    + cbn [set_objs t_objs handles map tl]. rewrite E2. apply K.
Qed.
Lemma load_handles d uid l os : load_objs se d uid l = Ok os -> forall hs, length hs = length l -> mt d hs -> handles os = hs /\ forall i, (i < length l)%nat -> file_handle d i <> None.
Proof.
  revert uid os. induction l as [|ty l IH]; intros uid os H hs L M; cbn in H.
  - injection H as <-. destruct hs; [|discriminate]. split; [reflexivity|]. cbn. lia.
  - destruct (load_obj _ _ _ _ _) as [o| |] eqn:Lo; cbn [bind] in H; try discriminate. destruct (load_objs _ _ _ _) as [r| |] eqn:E; cbn [bind] in H; try discriminate. injection H as <-.
    destruct hs as [|h hs]; [discriminate|]. injection L as L. destruct M as [M1 M2]. destruct (IH _ _ E hs L M1) as [A B].
    assert (F : file_handle d (length l) = Some (o_handle o)).
    { unfold load_obj, open_read in Lo. unfold file_handle. destruct (d (F_OBJECT, length l)) as [f|]; cbn [bind] in Lo; [|discriminate].
      destruct (read_obj_file uid ty f) as [[o1 f1]| |] eqn:R; cbn [bind] in Lo; try discriminate. destruct (read_type _ _ 0%nat 0%Z _ _ _ R) as (o2 & R2 & H2). rewrite R2, H2.
      destruct (key_kind o1); [|discriminate]. destruct (d (_, length l)); cbn [bind] in Lo; [|discriminate]. destruct (read_key_file _ _ _) as [[o3 f3]| |] eqn:K; cbn [bind] in Lo; try discriminate. injection Lo as ->.
      unfold read_key_file in K. destruct (r_alloc _) as [[kd f5]| |]; cbn [bind] in K; try discriminate. destruct (andb _ _).
      - destruct (r_alloc _) as [[der f6]| |]; cbn [bind] in K; try discriminate. destruct (se_dh_dec _ _) as [c [p g]]. destruct (negb _); [discriminate|]. injection K as <- _. reflexivity.
      - injection K as <- _. reflexivity. }
    assert (All : forall i, (i < length (ty :: l))%nat -> file_handle d i <> None).
    { intros i Li. cbn in Li. destruct (Nat.eq_dec i (length l)) as [->|]; [congruence|apply B; lia]. }
    split; [|exact All]. cbn. f_equal; [|exact A]. rewrite L in M2. destruct M2 as [M2|(e & Le & M2)]; [congruence|]. exfalso. apply (All e); [cbn; lia|exact M2].
Qed.
Lemma load_good m d uid t : disk_ok m d -> Token_Load se d uid = Ok t -> tok_good m (t_objs t) /\ mt d (handles (t_objs t)).
Proof.
  assert (N : tok_good m [] /\ mt d (handles [])) by (split; [apply tok_nil|exact Logic.I]).
  unfold Token_Load. intros D H. destruct (d (F_TOKEN, 0%nat)) as [f|] eqn:Df; [|injection H as <-; exact N].
  destruct (load_all _ _ _ _) as [t1| |] eqn:L; try discriminate; injection H as <-; [|exact N].
  unfold load_all in L. destruct (read_tok_file f) as [[tf g]| |] eqn:R; cbn [bind] in L; try discriminate.
  destruct (load_objs _ _ _ _) as [l| |] eqn:LO; cbn [bind] in L; try discriminate. injection L as <-. cbn [t_objs].
  destruct (D _ _ _ Df R) as (hs & A & B & C). destruct (load_handles _ _ _ _ LO hs A C) as [<- _]. split; [exact B|exact C].
Qed.
Hypothesis hash32 : forall p s, length (se_hash (w_se w) p s) = 32%nat.
Lemma ident_handles l l' : map ident l = map ident l' -> handles l = handles l'.
Proof. intros E. rewrite !handles_tags. f_equal. apply tags_ident. exact E. Qed.
Theorem step_kept m rnd s c s' o : inv s -> ginv (s_tok s) -> good m s -> (0 <= m)%Z -> (m + uses c < 2^28)%Z -> bytes_ok Q c -> kept m s ->
  step w rnd s c = Ok (s', o) -> good (m + uses c) s' /\ kept (m + uses c) s'.
Proof.
  intros I G Gd M0 M By K H. pose proof (step_inv w _ _ _ _ _ I H) as I'.
  destruct (loads s c) eqn:L.
  { destruct c; try discriminate L. pose proof (load_sess w _ _ _ _ _ L H) as Ls. change (uses _) with 0%Z. rewrite Z.add_0_r. cbn in L, H. unfold Initialize in H. rewrite L in H. destruct (Token_Load _ _ _) as [t| |] eqn:T; cbn [bind] in H; try discriminate. injection H as <- _.
    apply (load_good m) in T as [T1 T2]; [|apply K]. split; [split; [exact T1|]|split; [exact T2|apply K]]. eapply Forall_impl; [|exact Ls]. cbn. intros x ->. apply hs_nil. }
  assert (Gd' : good (m + uses c) s') by exact (step_good w Q m rnd s c s' o I Gd M0 M By L H). split; [exact Gd'|].
  destruct (creates c) eqn:C.
  { destruct (creator c) as [[h t]|] eqn:Cr.
    - assert (U : uses c = 1%Z) by (destruct c; try discriminate Cr; reflexivity). rewrite U in *.
      destruct (step_created w _ _ _ _ _ _ _ I Cr H) as [(ho & b & ob & _ & Tb & _ & A) | (_ & S)].
      + eapply (added_kept m _ _ _ s); eauto. apply ginv0. exact G.
      + destruct S as (S1 & _ & S3). unfold kept. rewrite S1, S3. destruct K as [K1 K2]. split; [exact K1|eapply disk_le; [|exact K2]; lia].
    - destruct c; try discriminate C; try discriminate Cr. change (uses _) with 2%Z in *.
      destruct (pair_created w _ _ _ _ _ _ _ _ _ I H) as [(h1 & h2 & b1 & b2 & o1 & o2 & s1 & _ & T1 & T2 & _ & _ & A1 & A2 & I1 & _) | (rv & _ & S)].
      + assert (Gd1 : good (m + 1) s1) by (eapply added_good; [apply inv_uniq; exact I1|exact Gd|lia|lia| |exact A1]; apply (By tpub); [left; reflexivity|exact T1]).
        assert (M2 : (m + 1 < 2^28)%Z) by lia. destruct (added_kept m _ _ _ s s1 M0 M2 (ginv0 _ G) K Gd1 A1) as [K1 T0].
        replace (m + 2)%Z with (m + 1 + 1)%Z in * by lia. eapply (added_kept (m + 1) _ _ _ s1); [lia|lia|rewrite T0; apply ginv0; exact G|exact K1|exact Gd'|exact A2].
      + destruct S as (S1 & _ & S3). unfold kept. rewrite S1, S3. destruct K as [K1 K2]. split; [exact K1|eapply disk_le; [|exact K2]; lia]. }
  assert (U : uses c = 0%Z) by (destruct c; try discriminate C; reflexivity). rewrite U, Z.add_0_r in *.
  assert (M1 : (0 <= m < 2^28)%Z) by lia.
  destruct (objop c) as [h|] eqn:O.
  { exact (prims_kept m c h s s' I G Gd M1 K C (objop_prims w _ _ _ _ _ _ I O H)). }
  destruct c; try discriminate O; cbn [step] in H; unfold with_slot, with_sess, need_lib in H; cbn [loads] in L.
  - unfold Initialize in H. rewrite L in H. sinv. exact K.
  - unfold Finalize in H. destruct (_ =? 0)%Z; [|sinv; exact K].
    destruct (store w rnd s) as [[c1 s1]| |] eqn:St; cbn [bind] in H; try discriminate. destruct (final_all _); cbn [bind] in H; try discriminate.
    destruct (free_all _); cbn [bind] in H; try discriminate. assert (K1 : kept m s1) by (eapply store_kept; [apply ginv0; exact G|apply G|exact M1|apply Gd|apply mt_tl, K|exact St]).
    injection H as <- _. apply (kept_clear m s1); [reflexivity|reflexivity|exact K1].
  - injection H as <- _. apply (kept_clear m s); [reflexivity|reflexivity|exact K].
  - destruct (0 <? _)%Z; [|sinv; exact K]. destruct (slot_ok slot); [|sinv; exact K].
    unfold InitToken in H. repeat match type of H with (if ?b then rv_ _ _ else _) = _ => destruct b; [sinv; exact K|] end.
    destruct (TokenReset _ _ _ _ _) as [[c1 s1]| |] eqn:T; cbn [bind] in H; try discriminate. unfold rv_ in H. injection H as <- _.
    unfold TokenReset in T. destruct (free_all _); cbn [bind] in T; try discriminate. destruct (zlen _ <? 32)%Z eqn:LL; [discriminate|]. unfold SetSOPin in T.
    eapply store_kept; [| | | | |exact T]; cbn [set_tok s_tok].
    + apply ginv0. apply ginv_so; [|apply hash_pinv; [exact hash32|apply rbytes_len]]. split; [cbn [tok_init t_label]; rewrite firstn_length; unfold zlen in LL; lia|].
      split; [apply pin0_pinv|]; split; [apply pin0_pinv|]; split; [reflexivity|]; split; [reflexivity|constructor].
    + reflexivity.
    + exact M1.
    + apply tok_nil.
    + exact Logic.I.
  - destruct (0 <? _)%Z; [|sinv; exact K]. destruct (sess_get s h); [|sinv; exact K].
    unfold InitPIN in H. repeat match type of H with (if ?b then rv_ _ _ else _) = _ => destruct b; [sinv; exact K|] end.
    destruct (SetUserPin _ _ _ _) as [[c1 s1]| |] eqn:T; cbn [bind] in H; try discriminate. unfold rv_ in H. injection H as <- _.
    unfold SetUserPin in T. eapply store_kept; [| | | | |exact T]; cbn [set_tok s_tok]; [|apply G|exact M1|apply Gd|apply mt_tl, K].
    apply ginv0, ginv_key, ginv_seed; [|apply rbytes_len]. apply ginv_user; [exact G|]. apply hash_pinv; [exact hash32|apply rbytes_len].
  - destruct (0 <? _)%Z; [|sinv; exact K]. destruct (sess_get s h); [|sinv; exact K].
    unfold SetPIN in H. cbv zeta in H. repeat match type of H with (if ?b then rv_ _ _ else _) = _ => destruct b; [sinv; exact K|] end.
    match type of H with bind ?r _ = _ => destruct r as [[c1 s1]| |] eqn:T end; cbn [bind] in H; try discriminate.
    unfold rv_ in H. injection H as <- _. destruct (_ =? _)%Z; [unfold SetSOPin in T|unfold SetUserPin in T]; (eapply store_kept; [| | | | |exact T]; cbn [set_tok s_tok]; [|apply G|exact M1|apply Gd|apply mt_tl, K]).
    + apply ginv0, ginv_so; [exact G|]. apply hash_pinv; [exact hash32|apply rbytes_len].
    + apply ginv0, ginv_key, ginv_seed; [|apply rbytes_len]. apply ginv_user; [exact G|]. apply hash_pinv; [exact hash32|apply rbytes_len].
  - destruct (0 <? s_count s)%Z eqn:Cn; [|sinv; exact K]. destruct (slot_ok slot); [|sinv; exact K].
    apply Z.ltb_lt in Cn. apply OpenSession_ok in H as [[-> _] | (l & y & -> & _)]; auto.
  - destruct (0 <? s_count s)%Z eqn:Cn; [|sinv; exact K]. destruct (sess_get s h) as [y|] eqn:Gs; [|sinv; exact K].
    unfold CloseSession in H. destruct (close_sess _ _) as [l| |] eqn:CL; cbn [bind] in H; try discriminate.
    destruct (existsb in_use l); [sinv; exact K|]. destruct (Logout _ _) as [t| |] eqn:Lo; cbn [bind] in H; try discriminate. unfold rv_ in H. injection H as <- _.
    apply Logout_ok in Lo as (_ & Lo & _). apply (kept_same m s); [reflexivity|apply ident_handles; exact Lo|exact K].
  - destruct (0 <? s_count s)%Z eqn:Cn; [|sinv; exact K]. destruct (slot_ok slot); [|sinv; exact K].
    destruct (close_all _) as [l| |] eqn:CA; cbn [bind] in H; try discriminate. unfold rv_ in H. injection H as <- _. exact K.
  - destruct (0 <? _)%Z; [|sinv; exact K]. destruct (sess_get s h); [|sinv; exact K].
    unfold Login in H. destruct (negb _); [sinv; exact K|].
    destruct (ut =? CKU_SO)%Z; [|destruct (ut =? CKU_USER)%Z; [|destruct (ut =? CKU_CONTEXT_SPECIFIC)%Z; sinv; exact K]].
    + destruct (SOLogin _ _ _ _ _) as [c t] eqn:Lo. unfold rv_ in H. injection H as <- _. apply SOLogin_ok in Lo as (Lo & _).
      apply (kept_same m s); [reflexivity|cbn; rewrite Lo; reflexivity|exact K].
    + destruct (UserLogin _ _ _ _) as [[c t]| |] eqn:Lo; cbn [bind] in H; try discriminate. unfold rv_ in H. injection H as <- _. apply UserLogin_ok in Lo as (Lo & _).
      apply (kept_same m s); [reflexivity|apply ident_handles; exact Lo|exact K].
  - destruct (0 <? _)%Z; [|sinv; exact K]. destruct (sess_get s h); [|sinv; exact K].
    destruct (Logout _ _) as [t| |] eqn:Lo; cbn [bind] in H; try discriminate. unfold rv_ in H. injection H as <- _. apply Logout_ok in Lo as (_ & Lo & _).
    apply (kept_same m s); [reflexivity|apply ident_handles; exact Lo|exact K].
  - destruct (0 <? _)%Z; [|sinv; exact K]. destruct (slot_ok slot); sinv; exact K.
Qed.
(** Reached from a storage without a token file, all CKA_TOKEN bytes as above,
    with at most [m] objects ever created. *)
Inductive orderly (d : fs) : Z -> sys -> Prop :=
  | od_0 : d (F_TOKEN, 0%nat) = None -> orderly d 0 (sys0 d)
  | od_step m rnd s c s' o : orderly d m s -> step w rnd s c = Ok (s', o) -> bytes_ok Q c -> orderly d (m + uses c) s'.
Lemma orderly_reach d m s : orderly d m s -> reach w (sys0 d) s.
Proof. induction 1; econstructor; eauto. Qed.
Lemma orderly_pos d m s : orderly d m s -> (0 <= m)%Z.
Proof. induction 1 as [|m rnd s c s' o R IH H B]; [lia|]. pose proof (uses_pos c). lia. Qed.
Theorem orderly_kept d m s : orderly d m s -> (m < 2^28)%Z -> good m s /\ kept m s.
Proof.
  induction 1 as [N|m rnd s c s' o R IH H B]; intros Lt.
  - split; [split; [apply tok_nil|constructor]|]. split; [exact Logic.I|]. intros f tf r F. cbn in F. congruence.
  - pose proof (orderly_pos _ _ _ R) as P. pose proof (uses_pos c) as Pu. destruct IH as [A1 A2]; [lia|].
    eapply step_kept; eauto; [eapply reach_inv, orderly_reach; eauto|eapply reach_ginv, orderly_reach; eauto].
Qed.
End W.
