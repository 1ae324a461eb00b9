(** Token objects know that they are on the token, in memory and in the files, as
    long as CKA_TOKEN bytes are 0 or odd. *)
From Verif Require Import Base Codec CodecProofs Ops Object ObjectProofs Store StoreSpec StoreProofs Sys SysProofs SysProofs2 SysProofs3 SysProofs4 WfProofs CrashProofs DiskProofs SealProofs ObjFrame ObjProofs HandleProofs QuotaProofs DiskHandles.

Definition on_tok (o : obj) : Prop := o_onTok o = true.
Definition files_marked (d : fs) : Prop := forall id f o r, d (F_OBJECT, id) = Some f -> read_obj_file 0 0 f = Ok (o, r) -> on_tok o.
Definition marked (s : sys) : Prop := Forall on_tok (t_objs (s_tok s)) /\ files_marked (s_fs s).

Lemma header_mark o b : obj_header o = Ok b -> forall u ty o' r, read_obj_file u ty b = Ok (o', r) -> o_onTok o' = o_onTok o.
Proof.
  unfold obj_header. intros H u ty o' r R. destruct (w_fixed (o_iv o) 12) as [iv| |] eqn:I; cbn [bind] in H; try discriminate.
  destruct (w_fixed (o_start o) 8); cbn [bind] in H; try discriminate. destruct (w_fixed (o_end o) 8); cbn [bind] in H; try discriminate.
  destruct (w_array (s_bytes (o_keyId o)) _); cbn [bind] in H; try discriminate. destruct (w_array (s_bytes (o_label o)) _); cbn [bind] in H; try discriminate.
  assert (L : zlen iv = 12%Z).
  { unfold w_fixed, st_write in I. destruct (12 <? 0)%Z; [discriminate|]. destruct (zlen (o_iv o) <? 12)%Z eqn:Q; [discriminate|]. apply Ok_eq in I. subst iv.
    unfold zlen in *. rewrite firstn_length. apply Z.ltb_ge in Q. lia. }
  apply Ok_eq in H. unfold read_obj_file in R. subst b. unfold r_fixed at 1 in R. rewrite <- L, st_read_app in R. cbn [bind] in R.
  rewrite <- (w_ulong_u64 (o_handle o)), r_ulong_w in R by apply u64_range. cbn [bind] in R.
  rewrite <- (w_ulong_u64 (o_class o)), r_ulong_w in R by apply u64_range. cbn [bind] in R.
  rewrite <- (w_ulong_u64 (o_kgm o)), r_ulong_w in R by apply u64_range. cbn [bind] in R.
  rewrite r_bool_w in R. cbn [bind] in R.
  repeat match type of R with bind ?m _ = _ => destruct m as [[? ?]| |]; cbn [bind] in R; try discriminate end.
  injection R as <- _. cbn. destruct (o_onTok o); reflexivity.
Qed.
Lemma read_mark u ty u' ty' f o r : read_obj_file u ty f = Ok (o, r) -> exists o', read_obj_file u' ty' f = Ok (o', r) /\ o_onTok o' = o_onTok o.
Proof.
  unfold read_obj_file. intros R.
  repeat match type of R with bind ?m _ = _ => destruct m as [[? ?]| |]; cbn [bind] in R |- *; try discriminate end.
  injection R as <- <-. eexists. split; reflexivity.
Qed.
Lemma files_ext d d' : (forall i, d' (F_OBJECT, i) = d (F_OBJECT, i)) -> files_marked d -> files_marked d'.
Proof. intros E F id f o r. rewrite E. apply F. Qed.
Lemma on_tags l : Forall on_tok l <-> Forall (fun g : nat * Z * bool => snd g = true) (tags l).
Proof. unfold tags. rewrite Forall_map. reflexivity. Qed.
Lemma marked_sub l l' : sub (tags l') (tags l) -> Forall on_tok l -> Forall on_tok l'.
Proof. intros S F. apply on_tags. eapply sub_Forall; [exact S|]. apply on_tags. exact F. Qed.
Lemma marked_tags l l' : tags l' = tags l -> Forall on_tok l -> Forall on_tok l'.
Proof. intros E. apply marked_sub. rewrite E. apply sub_refl. Qed.

Section W.
Variable w : world.
Notation se := (w_se w).
Lemma store_obj_mark key r id o c o' ws d : store_obj se key r id o = Ok (c, o', ws) -> on_tok o -> files_marked d -> files_marked (apply d ws).
Proof.
  unfold store_obj. intros H M F. destruct (obj_header o) as [b| |] eqn:Hb; cbn [bind] in H; try discriminate.
  destruct (store_key _ _ _ _) as [[[c2 o2] ws2]| |] eqn:K; cbn [bind] in H; try discriminate. injection H as _ _ <-. apply store_key_kinds in K. rewrite Forall_forall in K.
  assert (E : forall i, apply d ([WOpen (F_OBJECT, id); WWrite (F_OBJECT, id) b] ++ ws2) (F_OBJECT, i) = apply d [WOpen (F_OBJECT, id); WWrite (F_OBJECT, id) b] (F_OBJECT, i)).
  { intros i. rewrite apply_app. apply apply_other. intros a J Q. apply (K a J). rewrite Q. reflexivity. }
  eapply files_ext; [exact E|]. intros i f p q Hf R. destruct (Nat.eq_dec i id) as [->|N].
  - cbn [apply fold_left apply1] in Hf. rewrite !fs_set_same in Hf. cbn [app] in Hf. injection Hf as <-. unfold on_tok. rewrite (header_mark _ _ Hb _ _ _ _ R). exact M.
  - rewrite apply_other in Hf; [eapply F; eauto|]. intros a [<- | [<- | []]]; cbn; congruence.
Qed.
Lemma store_objs_mark key r l : Forall on_tok l -> forall c l' ws d, store_objs se key r l = Ok (c, l', ws) -> files_marked d -> files_marked (apply d ws).
Proof.
  intros F. induction F as [|o l Fo F IH]; cbn [store_objs]; intros c l' ws d H D; [injection H as _ _ <-; exact D|].
  destruct (store_obj _ _ _ _ _) as [[[c1 o1] ws1]| |] eqn:S; cbn [bind] in H; try discriminate. pose proof (store_obj_mark _ _ _ _ _ _ _ d S Fo D) as D1.
  destruct (negb _); [injection H as _ _ <-; exact D1|].
  destruct (store_objs _ _ _ _) as [[[c2 r1] ws2]| |] eqn:R; cbn [bind] in H; try discriminate. injection H as _ _ <-. rewrite apply_app. eapply IH; [reflexivity|exact D1].
Qed.
Lemma store_mark rnd s c s' : marked s -> store w rnd s = Ok (c, s') -> marked s'.
Proof.
  intros [F D] H. pose proof (store_frame w _ _ _ _ H) as (_ & _ & _ & _ & B). split; [eapply marked_tags; [apply tags_core; exact B|exact F]|].
  unfold store in H. destruct (Token_Store _ _ _) as [[[c1 t] ws]| |] eqn:S; cbn [bind] in H; try discriminate. injection H as _ <-. cbn [do_ops set_tok s_fs s_tok] in *.
  unfold Token_Store in S. destruct (tok_header _); cbn [bind] in S; try discriminate. destruct (store_objs _ _ _ _) as [[[c2 l] ws2]| |] eqn:SO; cbn [bind] in S; try discriminate.
  injection S as _ _ <-. match goal with |- files_marked (apply _ (?a :: ?b :: ?l)) => change (a :: b :: l) with ([a; b] ++ l) end. rewrite apply_app. eapply store_objs_mark; [exact F|exact SO|].
  eapply files_ext; [|exact D]. intros i. apply apply_other. intros aa [<- | [<- | []]]; discriminate.
Qed.
Lemma unstore_mark d id o : files_marked d -> files_marked (apply d (Unstore id o)).
Proof.
  intros F i f p q Hf R. destruct (unstore_handle d id o) as [N _]. destruct (Nat.eq_dec i id) as [->|Ni].
  - exfalso. unfold file_handle in N. rewrite Hf, R in N. discriminate.
  - rewrite apply_other in Hf; [eapply F; eauto|]. intros a J. unfold Unstore in J. destruct J as [<- | J]; [cbn; congruence|].
    destruct (key_kind o) as [k|] eqn:K; [|contradiction]. destruct J as [<- | []]. cbn. congruence.
Qed.
Lemma prim_mark cl h s s' : inv s -> marked s -> creates cl = false -> prim w cl h s s' -> marked s'.
Proof.
  intros I [F D] C P. pose proof (prim_smaller w _ _ _ _ I C P) as [Sm _]. pose proof (marked_sub _ _ Sm F) as F'.
  destruct P as [s x x' X Ux E1 E2 E3 E4|s n|s x rnd c s' X Rw E1 E2 Cl|s x o X Rw E1 L Iu Nu Hd Ot Mk Cl|s x b o X Rw E1 L Iu Nu Nb Hd Ot Mk Cl|s x o X Rw E1 Io Cl|s x o X Rw E1 Io Ot Cl|s x o o' X Rw E1 Io Sid Mk]; try congruence; try (split; assumption).
  - eapply store_mark; [split; [exact F|exact D]|exact E2].
  - split; [exact F'|]. cbn. apply unstore_mark. exact D.
Qed.
Lemma prims_mark cl h s s' : inv s -> marked s -> creates cl = false -> prims w cl h s s' -> marked s'.
Proof. intros I M C P. induction P as [s|s s1 s2 P Ps IH]; [exact M|]. apply IH; [eapply prim_inv; eauto|eapply prim_mark; eauto]. Qed.
Lemma added_mark h b o s s' : (b = 0%N \/ N.odd b = true) -> added w h b o s s' -> marked s -> marked s'.
Proof.
  intros B (_ & Ot & _ & x & x' & _ & _ & _ & E) [F D]. destruct (N.eqb_spec b 0) as [->|Nb].
  - destruct E as (_ & _ & _ & E1 & E2). unfold marked. rewrite E1, E2. split; assumption.
  - destruct E as (_ & _ & _ & _ & r & s1 & c & E1 & E2 & St). eapply store_mark; [|exact St]. unfold marked. rewrite E1, E2. split; [|exact D].
    cbn. constructor; [|exact F]. unfold on_tok. rewrite Ot. destruct B; [contradiction|assumption].
Qed.
Lemma load_mark d uid l os : files_marked d -> load_objs se d uid l = Ok os -> Forall on_tok os.
Proof.
  intros F. revert uid os. induction l as [|ty l IH]; intros uid os H; cbn in H; [injection H as <-; constructor|].
  destruct (load_obj _ _ _ _ _) as [o| |] eqn:Lo; cbn [bind] in H; try discriminate. destruct (load_objs _ _ _ _) as [r| |] eqn:E; cbn [bind] in H; try discriminate. injection H as <-.
  constructor; [|eauto]. unfold load_obj, open_read in Lo. destruct (d (F_OBJECT, length l)) as [f|] eqn:Df; cbn [bind] in Lo; [|discriminate].
  destruct (read_obj_file uid ty f) as [[o1 f1]| |] eqn:R; cbn [bind] in Lo; try discriminate. destruct (read_mark _ _ 0%nat 0%Z _ _ _ R) as (o2 & R2 & H2).
  assert (M : on_tok o1) by (unfold on_tok; rewrite <- H2; eapply F; eauto).
  clear Df. destruct (key_kind o1); [|discriminate]. destruct (d (_, length l)); cbn [bind] in Lo; [|discriminate]. destruct (read_key_file _ _ _) as [[o3 f3]| |] eqn:K; cbn [bind] in Lo; try discriminate. injection Lo as ->.
  unfold read_key_file in K. destruct (r_alloc _) as [[kd f5]| |]; cbn [bind] in K; try discriminate. destruct (andb _ _).
  - destruct (r_alloc _) as [[der f6]| |]; cbn [bind] in K; try discriminate. destruct (se_dh_dec _ _) as [c [p g]]. destruct (negb _); [discriminate|]. injection K as <- _. exact M.
  - injection K as <- _. exact M.
Qed.
Lemma load_marked d uid t : files_marked d -> Token_Load se d uid = Ok t -> Forall on_tok (t_objs t).
Proof.
  unfold Token_Load. intros D H. destruct (d (F_TOKEN, 0%nat)) as [f|] eqn:Df; [|injection H as <-; constructor].
  destruct (load_all _ _ _ _) as [t1| |] eqn:L; try discriminate; injection H as <-; [|constructor].
  unfold load_all in L. destruct (read_tok_file f) as [[tf g]| |] eqn:R; cbn [bind] in L; try discriminate.
  destruct (load_objs _ _ _ _) as [l| |] eqn:LO; cbn [bind] in L; try discriminate. injection L as <-. cbn [t_objs]. eapply load_mark; eauto.
Qed.
Definition odd_ok (c : op) : Prop := forall t b, In t (templates c) -> tmpl_token t = Some b -> b = 0%N \/ N.odd b = true.
Theorem step_mark rnd s c s' o : inv s -> odd_ok c -> marked s -> step w rnd s c = Ok (s', o) -> marked s'.
Proof.
  intros I By K H. destruct (loads s c) eqn:L.
  { destruct c; try discriminate L. cbn in L, H. unfold Initialize in H. rewrite L in H. destruct (Token_Load _ _ _) as [t| |] eqn:T; cbn [bind] in H; try discriminate. injection H as <- _.
    split; [eapply load_marked; [apply K|exact T]|apply K]. }
  destruct (creates c) eqn:C.
  { destruct (creator c) as [[h t]|] eqn:Cr.
    - destruct (step_created w _ _ _ _ _ _ _ I Cr H) as [(ho & b & ob & _ & Tb & _ & A) | (_ & S)].
      + eapply added_mark; [|exact A|exact K]. apply (By t); [|exact Tb]. destruct c; try discriminate Cr; injection Cr as _ <-; left; reflexivity.
      + destruct S as (S1 & _ & S3). unfold marked. rewrite S1, S3. exact K.
    - destruct c; try discriminate C; try discriminate Cr.
      destruct (pair_created w _ _ _ _ _ _ _ _ _ I H) as [(h1 & h2 & b1 & b2 & o1 & o2 & s1 & _ & T1 & T2 & _ & _ & A1 & A2 & I1 & _) | (rv & _ & S)].
      + eapply added_mark; [|exact A2|eapply added_mark; [|exact A1|exact K]]; [apply (By tpriv)|apply (By tpub)]; cbn; auto.
      + destruct S as (S1 & _ & S3). unfold marked. rewrite S1, S3. exact K. }
  destruct (objop c) as [h|] eqn:O.
  { exact (prims_mark c h s s' I K C (objop_prims w _ _ _ _ _ _ I O H)). }
  pose proof (step_smaller w _ _ _ _ _ I H C L) as [Sm _]. pose proof (marked_sub _ _ Sm (proj1 K)) as Sm'.
  assert (Only : s_fs s' = s_fs s -> marked s') by (intros E; unfold marked; rewrite E; split; [exact Sm'|apply K]).
  destruct c; try discriminate O; cbn [step] in H; unfold with_slot, with_sess, need_lib in H; cbn [loads] in L.
  - unfold Initialize in H. rewrite L in H. sinv. exact K.
  - unfold Finalize in H. destruct (_ =? 0)%Z; [|sinv; exact K].
    destruct (store w rnd s) as [[c1 s1]| |] eqn:St; cbn [bind] in H; try discriminate. destruct (final_all _); cbn [bind] in H; try discriminate.
    destruct (free_all _); cbn [bind] in H; try discriminate. apply (store_mark _ _ _ _ K) in St. injection H as <- _. split; [constructor|apply St].
  - injection H as <- _. split; [constructor|apply K].
  - destruct (0 <? _)%Z; [|sinv; exact K]. destruct (slot_ok slot); [|sinv; exact K].
    unfold InitToken in H. repeat match type of H with (if ?b then rv_ _ _ else _) = _ => destruct b; [sinv; exact K|] end.
    destruct (TokenReset _ _ _ _ _) as [[c1 s1]| |] eqn:T; cbn [bind] in H; try discriminate. unfold rv_ in H. injection H as <- _.
    unfold TokenReset in T. destruct (free_all _); cbn [bind] in T; try discriminate. destruct (zlen _ <? 32)%Z eqn:LL; [discriminate|]. unfold SetSOPin in T.
    eapply store_mark; [|exact T]. split; [constructor|apply K].
  - destruct (0 <? _)%Z; [|sinv; exact K]. destruct (sess_get s h); [|sinv; exact K].
    unfold InitPIN in H. repeat match type of H with (if ?b then rv_ _ _ else _) = _ => destruct b; [sinv; exact K|] end.
    destruct (SetUserPin _ _ _ _) as [[c1 s1]| |] eqn:T; cbn [bind] in H; try discriminate. unfold rv_ in H. injection H as <- _.
    unfold SetUserPin in T. eapply store_mark; [|exact T]. exact K.
  - destruct (0 <? _)%Z; [|sinv; exact K]. destruct (sess_get s h); [|sinv; exact K].
    unfold SetPIN in H. cbv zeta in H. repeat match type of H with (if ?b then rv_ _ _ else _) = _ => destruct b; [sinv; exact K|] end.
    match type of H with bind ?r _ = _ => destruct r as [[c1 s1]| |] eqn:T end; cbn [bind] in H; try discriminate.
    unfold rv_ in H. injection H as <- _. destruct (_ =? _)%Z; [unfold SetSOPin in T|unfold SetUserPin in T]; (eapply store_mark; [|exact T]; exact K).
  - apply Only. destruct (0 <? s_count s)%Z eqn:Cn; [|sinv; reflexivity]. destruct (slot_ok slot); [|sinv; reflexivity].
    apply Z.ltb_lt in Cn. apply OpenSession_ok in H as [[-> _] | (l & y & -> & _)]; auto.
  - apply Only. destruct (0 <? s_count s)%Z eqn:Cn; [|sinv; reflexivity]. destruct (sess_get s h) as [y|] eqn:Gs; [|sinv; reflexivity].
    unfold CloseSession in H. destruct (close_sess _ _) as [l| |] eqn:CL; cbn [bind] in H; try discriminate.
    destruct (existsb in_use l); [sinv; reflexivity|]. destruct (Logout _ _) as [t| |] eqn:Lo; cbn [bind] in H; try discriminate. unfold rv_ in H. injection H as <- _. reflexivity.
  - apply Only. destruct (0 <? s_count s)%Z eqn:Cn; [|sinv; reflexivity]. destruct (slot_ok slot); [|sinv; reflexivity].
    destruct (close_all _) as [l| |] eqn:CA; cbn [bind] in H; try discriminate. unfold rv_ in H. injection H as <- _. reflexivity.
  - apply Only. destruct (0 <? _)%Z; [|sinv; reflexivity]. destruct (sess_get s h); [|sinv; reflexivity].
    unfold Login in H. destruct (negb _); [sinv; reflexivity|].
    destruct (ut =? CKU_SO)%Z; [|destruct (ut =? CKU_USER)%Z; [|destruct (ut =? CKU_CONTEXT_SPECIFIC)%Z; sinv; reflexivity]].
    + destruct (SOLogin _ _ _ _ _) as [c t] eqn:Lo. unfold rv_ in H. injection H as <- _. reflexivity.
    + destruct (UserLogin _ _ _ _) as [[c t]| |] eqn:Lo; cbn [bind] in H; try discriminate. unfold rv_ in H. injection H as <- _. reflexivity.
  - apply Only. destruct (0 <? _)%Z; [|sinv; reflexivity]. destruct (sess_get s h); [|sinv; reflexivity].
    destruct (Logout _ _) as [t| |] eqn:Lo; cbn [bind] in H; try discriminate. unfold rv_ in H. injection H as <- _. reflexivity.
  - apply Only. destruct (0 <? _)%Z; [|sinv; reflexivity]. destruct (slot_ok slot); sinv; reflexivity.
Qed.
End W.
