(** Numbers of objects. *)
From Verif Require Import Base Codec CodecProofs Ops Object ObjectProofs Store StoreSpec StoreProofs Sys SysProofs SysProofs2 SysProofs3 SysProofs4 WfProofs CrashProofs DiskProofs ObjFrame ObjProofs.

(** ** The number of objects in a token file *)
Lemma w_be_add m n v c : (m <= n)%nat -> w_be m (v + c * 2 ^ (8 * Z.of_nat n)) = w_be m v.
Proof.
  induction m as [|m IH]; intros L; [reflexivity|]. cbn [w_be]. rewrite IH by lia. f_equal. f_equal.
  rewrite !Z.shiftr_div_pow2 by lia.
  replace (8 * Z.of_nat n)%Z with (8 * Z.of_nat m + 8 + 8 * (Z.of_nat n - Z.of_nat m - 1))%Z by lia.
  rewrite !Z.pow_add_r by lia. change (2^8)%Z with 256%Z.
  replace (v + c * (2 ^ (8 * Z.of_nat m) * 256 * 2 ^ (8 * (Z.of_nat n - Z.of_nat m - 1))))%Z
    with (v + c * 256 * 2 ^ (8 * (Z.of_nat n - Z.of_nat m - 1)) * 2 ^ (8 * Z.of_nat m))%Z by ring.
  rewrite Z.div_add by (pose proof (Z.pow_pos_nonneg 2 (8 * Z.of_nat m)); lia).
  replace (v / 2 ^ (8 * Z.of_nat m) + c * 256 * 2 ^ (8 * (Z.of_nat n - Z.of_nat m - 1)))%Z
    with (v / 2 ^ (8 * Z.of_nat m) + c * 2 ^ (8 * (Z.of_nat n - Z.of_nat m - 1)) * 256)%Z by ring.
  apply Z.mod_add. lia.
Qed.
Lemma i32_dec v : exists c, i32 v = (v + c * 2^32)%Z.
Proof. unfold i32. cbv zeta. pose proof (Z.div_mod v (2^32)). destruct (_ <? _)%Z; [exists (- (v / 2^32))%Z|exists (- (v / 2^32) - 1)%Z]; lia. Qed.
Lemma i64_dec v : exists c, i64 v = (v + c * 2^64)%Z.
Proof. unfold i64. cbv zeta. pose proof (Z.div_mod v (2^64)). destruct (_ <? _)%Z; [exists (- (v / 2^64))%Z|exists (- (v / 2^64) - 1)%Z]; lia. Qed.
Lemma w_int_i32 v : w_int (i32 v) = w_int v.
Proof. destruct (i32_dec v) as [c ->]. unfold w_int. apply (w_be_add 4 4). lia. Qed.
Lemma w_time_i64 v : w_time (i64 v) = w_time v.
Proof. destruct (i64_dec v) as [c ->]. unfold w_time. apply (w_be_add 8 8). lia. Qed.
Lemma i32_range v : (- 2^31 <= i32 v < 2^31)%Z.
Proof. unfold i32. cbv zeta. pose proof (Z.mod_pos_bound v (2^32)). destruct (_ <? _)%Z eqn:E; lia. Qed.
Lemma i64_range v : (- 2^63 <= i64 v < 2^63)%Z.
Proof. unfold i64. cbv zeta. pose proof (Z.mod_pos_bound v (2^64)). destruct (_ <? _)%Z eqn:E; lia. Qed.
Definition trim (p : pin) : pin := mkPin (p_hash p) (p_len p) (p_seed p) (i32 (p_fail p)) (i64 (p_last p)) (i64 (p_tmo p)).
Lemma trim_bytes p : pin_bytes (trim p) = pin_bytes p.
Proof. unfold pin_bytes, trim. cbn [p_hash p_len p_seed p_fail p_last p_tmo]. rewrite w_int_i32, !w_time_i64. reflexivity. Qed.
Definition trim_tok (t : token) : token := set_so (set_user t (trim (t_user t))) (trim (t_so t)).
Lemma trim_header t : tok_header (trim_tok t) = tok_header t.
Proof. unfold tok_header, trim_tok. cbn [set_so set_user t_label t_so t_user t_seed t_objs]. rewrite !trim_bytes. reflexivity. Qed.
Lemma header_count t h : ginv t -> tok_header t = Ok h -> forall tf r, read_tok_file h = Ok (tf, r) -> length (tf_types tf) = length (t_objs t).
Proof.
  intros (G1 & G2 & G3 & G4 & G5 & G6) H tf r R. rewrite <- trim_header in H.
  assert (P : forall p, pinv p -> pinv (trim p)) by (intros p Q; exact Q).
  assert (F : forall p, fits_pin (trim p)) by (intros p; split; [apply i32_range|split; apply i64_range]).
  destruct (tok_rt' (trim_tok t)) as (b & Hb & _ & Rb).
  - unfold ginv, trim_tok. cbn [set_so set_user t_label t_so t_user t_seed t_objs]. split; [exact G1|]. split; [apply P; exact G2|]. split; [apply P; exact G3|]. auto.
  - apply F.
  - apply F.
  - assert (b = h) by congruence. subst b. specialize (Rb []). rewrite app_nil_r, R in Rb. injection Rb as -> _. cbn [tf_types]. apply map_length.
Qed.

Definition few_tok (t : token) : Prop := (zlen (t_objs t) <= TOK_OBJ_MAX)%Z.
Definition few (s : sys) : Prop := few_tok (s_tok s) /\ Forall (fun x => zlen (ss_objs x) <= SESS_OBJ_MAX)%Z (s_sess s).
Definition file_few (d : fs) : Prop := forall f tf r, d (F_TOKEN, 0%nat) = Some f -> read_tok_file f = Ok (tf, r) -> (zlen (tf_types tf) <= TOK_OBJ_MAX)%Z.
Lemma few_smaller s s' : smaller s s' -> few s -> few s'.
Proof.
  intros [S1 S2] [A B]. split.
  - unfold few_tok, zlen in *. apply sub_len in S1. unfold tags in S1. rewrite !map_length in S1. lia.
  - rewrite Forall_forall in *. intros x' X. destruct (S2 x' X) as [-> | (x & X1 & _ & S)]; [unfold zlen, SESS_OBJ_MAX; cbn; lia|].
    specialize (B x X1). unfold zlen in *. apply sub_len in S. unfold tags in S. rewrite !map_length in S. lia.
Qed.

Section W.
Variable w : world.
Hypothesis hash32 : forall p s, length (se_hash (w_se w) p s) = 32%nat.
Notation se := (w_se w).
Lemma store_file rnd s c s' : ginv (s_tok s) -> few_tok (s_tok s) -> store w rnd s = Ok (c, s') -> file_few (s_fs s').
Proof.
  unfold store. intros G F H. destruct (Token_Store _ _ _) as [[[c1 t] ws]| |] eqn:T; cbn [bind] in H; try discriminate. injection H as _ <-.
  destruct (apply_tok_store w _ _ _ _ _ (s_fs s) T) as (h & Hh & A). intros f tf r Hf R. cbn [do_ops set_tok s_fs] in Hf. rewrite A in Hf. injection Hf as <-.
  unfold few_tok, zlen in *. rewrite (header_count _ _ G Hh _ _ R). exact F.
Qed.
Lemma unstore_file d id o : file_few d -> file_few (apply d (Unstore id o)).
Proof.
  intros F f tf r Hf R. rewrite apply_other in Hf; [eapply F; eauto|]. intros a J. unfold Unstore in J. destruct J as [<- | J]; [discriminate|].
  destruct (key_kind o) as [k|] eqn:K; [|contradiction]. destruct J as [<- | []]. cbn. intros [= -> _]. apply key_kind_not in K. tauto.
Qed.
Lemma prim_few cl h s s' : inv s -> ginv (s_tok s) -> few s -> file_few (s_fs s) -> prim w cl h s s' -> few s' /\ file_few (s_fs s').
Proof.
  intros I G F D P. destruct (creates cl) eqn:C.
  2:{ split; [eapply few_smaller; [eapply prim_smaller; eauto|exact F]|]. destruct P; try exact D; [eapply store_file; eauto; apply F|]. cbn. apply unstore_file. exact D. }
  destruct F as [F1 F2]. pose proof (inv_uniq s I) as U.
  assert (Put : forall x x', In x (s_sess s) -> ss_h x' = ss_h x -> (zlen (ss_objs x') <= SESS_OBJ_MAX)%Z -> Forall (fun x => zlen (ss_objs x) <= SESS_OBJ_MAX)%Z (s_sess (put_sess s x'))).
  { intros x x' X E L. cbn. unfold upd_sess. apply Forall_map. rewrite Forall_forall in *. intros y Y. destruct (_ =? _)%Z; auto. }
  destruct P as [s x x' X Ux E1 E2 E3 E4|s n|s x rnd c s' X Rw E1 E2 Cl|s x o X Rw E1 L Iu Nu Hd Ot M Cl|s x b o X Rw E1 L Iu Nu Nb Hd Ot M Cl|s x o X Rw E1 Io Cl|s x o X Rw E1 Io Ot Cl|s x o o' X Rw E1 Io Sid M].
  - split; [split; [exact F1|]|exact D]. eapply Put; [exact X|congruence|]. rewrite E4. rewrite Forall_forall in F2. auto.
  - split; [split; assumption|exact D].
  - split; [|eapply store_file; eauto]. apply store_frame in E2 as (_ & A & _ & _ & B). split; [|rewrite A; exact F2].
    unfold few_tok, zlen in *. apply (f_equal (@length _)) in B. rewrite !map_length in B. lia.
  - split; [split; [exact F1|]|exact D]. eapply Put; [exact X|reflexivity|]. cbn [set_sobjs ss_objs]. unfold zlen in *. cbn [length]. lia.
  - split; [split; [|exact F2]|exact D]. unfold few_tok, zlen in *. cbn [set_tok s_tok set_objs t_objs length]. lia.
  - destruct Cl as (ho & -> & _). discriminate C.
  - destruct Cl as (ho & -> & _). discriminate C.
  - destruct M as (ho & t & rv & -> & _). discriminate C.
Qed.
Lemma prims_few cl h s s' : inv s -> ginv (s_tok s) -> few s -> file_few (s_fs s) -> prims w cl h s s' -> few s' /\ file_few (s_fs s').
Proof.
  intros I G F D P. induction P as [s|s s1 s2 P Ps IH]; [auto|]. destruct (prim_few _ _ _ _ I G F D P) as [F1 D1].
  apply IH; auto; [eapply prim_inv; eauto|eapply prim_ginv; eauto].
Qed.
Lemma load_len d uid l os : load_objs se d uid l = Ok os -> length os = length l.
Proof.
  revert uid os. induction l as [|ty l IH]; intros uid os H; cbn in H; [injection H as <-; reflexivity|].
  destruct (load_obj _ _ _ _ _); cbn [bind] in H; try discriminate. destruct (load_objs _ _ _ _) eqn:E; cbn [bind] in H; try discriminate. injection H as <-. cbn. erewrite IH; eauto.
Qed.
Lemma load_few d uid t : file_few d -> Token_Load se d uid = Ok t -> few_tok t.
Proof.
  unfold Token_Load. intros F H. destruct (d (F_TOKEN, 0%nat)) as [f|] eqn:Df; [|injection H as <-; unfold few_tok, zlen, TOK_OBJ_MAX; cbn; lia].
  destruct (load_all _ _ _ _) as [t1| |] eqn:L; try discriminate; injection H as <-; [|unfold few_tok, zlen, TOK_OBJ_MAX; cbn; lia].
  unfold load_all in L. destruct (read_tok_file f) as [[tf g]| |] eqn:R; cbn [bind] in L; try discriminate.
  destruct (load_objs _ _ _ _) as [l| |] eqn:LO; cbn [bind] in L; try discriminate. injection L as <-. apply load_len in LO.
  specialize (F _ _ _ Df R). unfold few_tok, zlen in *. cbn [t_objs]. lia.
Qed.
Theorem step_few rnd s c s' o : inv s -> ginv (s_tok s) -> few s -> file_few (s_fs s) -> step w rnd s c = Ok (s', o) -> few s' /\ file_few (s_fs s').
Proof.
  intros I G F D H. destruct (objop c) as [h|] eqn:O.
  { eapply prims_few; eauto. eapply objop_prims; eauto. }
  assert (N : few s /\ file_few (s_fs s)) by auto.
  destruct (loads s c) eqn:L.
  { destruct c; try discriminate L. cbn in L, H. unfold Initialize in H. rewrite L in H. destruct (Token_Load _ _ _) as [t| |] eqn:T; cbn [bind] in H; try discriminate. injection H as <- _.
    split; [|exact D]. split; [eapply load_few; eauto|]. repeat constructor; unfold zlen, SESS_OBJ_MAX; cbn; lia. }
  assert (C : creates c = false) by (destruct c; try discriminate O; reflexivity).
  split; [eapply few_smaller; [eapply step_smaller; eauto|exact F]|].
  destruct c; try discriminate O; cbn [step] in H; unfold with_slot, with_sess, need_lib in H; cbn [loads] in L.
  - unfold Initialize in H. rewrite L in H. sinv. exact D.
  - unfold Finalize in H. destruct (_ =? 0)%Z; [|sinv; exact D].
    destruct (store w rnd s) as [[c1 s1]| |] eqn:St; cbn [bind] in H; try discriminate. destruct (final_all _); cbn [bind] in H; try discriminate.
    destruct (free_all _); cbn [bind] in H; try discriminate. injection H as <- _. cbn. eapply store_file; eauto. apply F.
  - sinv. exact D.
  - destruct (0 <? _)%Z; [|sinv; exact D]. destruct (slot_ok slot); [|sinv; exact D].
    unfold InitToken in H. repeat match type of H with (if ?b then rv_ _ _ else _) = _ => destruct b; [sinv; exact D|] end.
    destruct (TokenReset _ _ _ _ _) as [[c1 s1]| |] eqn:T; cbn [bind] in H; try discriminate. unfold rv_ in H. injection H as <- _.
    unfold TokenReset in T. destruct (free_all _); cbn [bind] in T; try discriminate. destruct (zlen _ <? 32)%Z eqn:LL; [discriminate|]. unfold SetSOPin in T.
    eapply store_file; [| |exact T]; cbn [set_tok s_tok].
    + apply ginv_so; [|apply hash_pinv; [exact hash32|apply rbytes_len]]. split; [cbn [tok_init t_label]; rewrite firstn_length; unfold zlen in LL; lia|].
      split; [apply pin0_pinv|]; split; [apply pin0_pinv|]; split; [reflexivity|]; split; [reflexivity|constructor].
    + unfold few_tok, zlen, TOK_OBJ_MAX. cbn. lia.
  - destruct (0 <? _)%Z; [|sinv; exact D]. destruct (sess_get s h); [|sinv; exact D].
    unfold InitPIN in H. repeat match type of H with (if ?b then rv_ _ _ else _) = _ => destruct b; [sinv; exact D|] end.
    destruct (SetUserPin _ _ _ _) as [[c1 s1]| |] eqn:T; cbn [bind] in H; try discriminate. unfold rv_ in H. injection H as <- _.
    unfold SetUserPin in T. eapply store_file; [| |exact T]; cbn [set_tok s_tok]; [|apply F].
    apply ginv_key, ginv_seed; [|apply rbytes_len]. apply ginv_user; [exact G|]. apply hash_pinv; [exact hash32|apply rbytes_len].
  - destruct (0 <? _)%Z; [|sinv; exact D]. destruct (sess_get s h); [|sinv; exact D].
    unfold SetPIN in H. cbv zeta in H. repeat match type of H with (if ?b then rv_ _ _ else _) = _ => destruct b; [sinv; exact D|] end.
    match type of H with bind ?r _ = _ => destruct r as [[c1 s1]| |] eqn:T end; cbn [bind] in H; try discriminate.
    unfold rv_ in H. injection H as <- _. destruct (_ =? _)%Z; [unfold SetSOPin in T|unfold SetUserPin in T]; (eapply store_file; [| |exact T]; cbn [set_tok s_tok]; [|apply F]).
    + apply ginv_so; [exact G|]. apply hash_pinv; [exact hash32|apply rbytes_len].
    + apply ginv_key, ginv_seed; [|apply rbytes_len]. apply ginv_user; [exact G|]. apply hash_pinv; [exact hash32|apply rbytes_len].
  - destruct (0 <? s_count s)%Z eqn:Cn; [|sinv; exact D]. destruct (slot_ok slot); [|sinv; exact D].
    apply Z.ltb_lt in Cn. apply OpenSession_ok in H as [[-> _] | (l & y & -> & _)]; auto.
  - destruct (0 <? s_count s)%Z eqn:Cn; [|sinv; exact D]. destruct (sess_get s h) as [y|] eqn:Gs; [|sinv; exact D].
    unfold CloseSession in H. destruct (close_sess _ _) as [l| |] eqn:CL; cbn [bind] in H; try discriminate.
    destruct (existsb in_use l); [sinv; exact D|]. destruct (Logout _ _) as [t| |] eqn:Lo; cbn [bind] in H; try discriminate. unfold rv_ in H. injection H as <- _. exact D.
  - destruct (0 <? s_count s)%Z eqn:Cn; [|sinv; exact D]. destruct (slot_ok slot); [|sinv; exact D].
    destruct (close_all _) as [l| |] eqn:CA; cbn [bind] in H; try discriminate. unfold rv_ in H. injection H as <- _. exact D.
  - destruct (0 <? _)%Z; [|sinv; exact D]. destruct (sess_get s h); [|sinv; exact D].
    unfold Login in H. destruct (negb _); [sinv; exact D|].
    destruct (ut =? CKU_SO)%Z; [|destruct (ut =? CKU_USER)%Z; [|destruct (ut =? CKU_CONTEXT_SPECIFIC)%Z; sinv; exact D]].
    + destruct (SOLogin _ _ _ _ _) as [c t] eqn:Lo. unfold rv_ in H. injection H as <- _. exact D.
    + destruct (UserLogin _ _ _ _) as [[c t]| |] eqn:Lo; cbn [bind] in H; try discriminate. unfold rv_ in H. injection H as <- _. exact D.
  - destruct (0 <? _)%Z; [|sinv; exact D]. destruct (sess_get s h); [|sinv; exact D].
    destruct (Logout _ _) as [t| |] eqn:Lo; cbn [bind] in H; try discriminate. unfold rv_ in H. injection H as <- _. exact D.
  - destruct (0 <? _)%Z; [|sinv; exact D]. destruct (slot_ok slot); sinv; exact D.
Qed.
Theorem reach_few d s : file_few d -> reach w (sys0 d) s -> few s /\ file_few (s_fs s).
Proof.
  intros D R. induction R as [|s rnd c s' o R IH H].
  - split; [|exact D]. split; [unfold few_tok, zlen, TOK_OBJ_MAX; cbn; lia|constructor].
  - destruct IH. eapply step_few; eauto; [eapply reach_inv; eauto|eapply reach_ginv; eauto].
Qed.
End W.
