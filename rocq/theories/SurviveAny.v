(** Keys of any kind on the token across logouts, logins and restarts: the argument of PropSurvive.v for an arbitrary description of the sealed and the clear form of a key. *)
From Verif Require Import Base Cbc CbcProofs CbcSpec Codec Ops OpsSpec OpsCbcProofs OpsProofs OpsProofs2 OpsProofs3 OpsProofs4 OpsClaims OpsFinal Object ObjectProofs Store StoreSpec StoreProofs Sys SysProofs SysProofs2 SysProofs3 SysProofs4 WfProofs
  LoginProofs RvProofs ObjFrame ObjProofs HandleProofs DiskHandles FindState UseProofs KeyProofs KeyHeld ToyEnv ToySys PropObject PropSys1 PropSys2 PropSys3 PropStore PropKeys PropKeys2 PropInUse PropFind PropOps PropHold PropMsg PropObj PropImport
  Device DeviceProofs PropDevice Table TableProofs PropTable PropUse PropSurvive PropEndure.
From Verif Require DurableProofs DurableKeys PropArchive Vault PropVault.
From Coq Require Import List Bool.
Import ListNotations.
Open Scope nat_scope.
Open Scope list_scope.
Notation tidy := DurableProofs.tidy.

Section W.
Variable w : world.
Notation se := (w_se w).
Hypothesis L : laws se.
Variables (p sd : list N) (ho : Z).
Notation K := (se_hash se p sd).
(** [sealed key o]: the stored form of the object is the key wanted, sealed under [key]; [clear o]: so is its clear form. *)
Variables (sealed : list N -> obj -> Prop) (clear : obj -> Prop).
Hypothesis sealed_is : forall k o, sealed k o -> o_handle o = ho /\ is_cert o = false /\ o_keyData o <> None.
Hypothesis decode_sealed : forall k key o c o', sealed k o -> Decode se key o = Ok (c, o') -> sealed k o' /\ (key = k -> c = 0%Z /\ clear o').
Hypothesis encode_sealed : forall k o c o', sealed k o -> clear o -> Encode se k true o = Ok (c, o') -> sealed k o' /\ c = 0%Z.
Hypothesis reloaded_sealed : forall k u o, sealed k o -> sealed k (reloaded u o).

Lemma decode_all_sealed key l : forall c l' o, In o l -> sealed K o -> decode_all w key l = Ok (c, l') -> exists o', In o' l' /\ sealed K o' /\ (key = K -> c = 0%Z -> clear o').
Proof.
  induction l as [|y l IH]; intros c l' o J S D; [destruct J|]. cbn [decode_all] in D. destruct (Decode se key y) as [[c1 y1]| |] eqn:Dy; cbn [bind] in D; try discriminate.
  destruct J as [->|J].
  - destruct (decode_sealed _ _ _ _ _ S Dy) as [S' Cl]. exists y1. split; [|split; [exact S'|intros Kk _; apply Cl; exact Kk]].
    destruct (negb _); [injection D as _ <-; left; reflexivity|]. destruct (decode_all w key l) as [[c2 r]| |]; cbn [bind] in D; try discriminate. injection D as _ <-. left. reflexivity.
  - destruct (c1 =? 0)%Z eqn:C1; cbn [negb] in D.
    + destruct (decode_all w key l) as [[c2 r]| |] eqn:Da; cbn [bind] in D; try discriminate. injection D as <- <-. destruct (IH _ _ _ J S eq_refl) as (o' & J' & S' & Cl). exists o'. split; [right; exact J'|]. auto.
    + injection D as <- <-. exists o. split; [right; exact J|]. split; [exact S|]. intros _ ->. discriminate C1.
Qed.
Lemma encode_all_sealed l : forall l' o, In o l -> sealed K o -> clear o -> encode_all w K l = Ok l' -> exists o', In o' l' /\ sealed K o'.
Proof.
  induction l as [|y l IH]; intros l' o J S C D; [destruct J|]. cbn [encode_all] in D. destruct (Encode se K true y) as [[c1 y1]| |] eqn:Dy; cbn [bind] in D; try discriminate.
  destruct J as [->|J].
  - destruct (encode_sealed _ _ _ _ S C Dy) as [S' ->]. change (negb (0 =? 0)%Z) with false in D. cbv iota in D. destruct (encode_all w K l); cbn [bind] in D; try discriminate. injection D as <-. exists y1. split; [left; reflexivity|exact S'].
  - destruct (negb _); [injection D as <-; exists o; split; [right; exact J|exact S]|]. destruct (encode_all w K l) as [r| |] eqn:Da; cbn [bind] in D; try discriminate. injection D as <-.
    destruct (IH _ _ J S C eq_refl) as (o' & J' & S'). exists o'. split; [right; exact J'|exact S'].
Qed.
Lemma prim_in cl h s s' o : inv s -> prim w cl h s s' -> match cl with ODestroyObject _ h0 | OSetAttributeValue _ h0 _ => h0 <> ho | _ => True end ->
  In o (t_objs (s_tok s)) -> sealed K o -> In o (t_objs (s_tok s')) /\ frame s s'.
Proof.
  intros I P Sp J S. destruct (sealed_is _ _ S) as (S1 & S3 & Nd). pose proof (proj1 (proj2 (proj2 I))) as [Nu _].
  assert (Df : forall q, In q (live s) -> o_handle q <> ho -> o_uid o <> o_uid q).
  { intros q Q Hq E. assert (Jl : In o (live s)) by (unfold live; apply in_or_app; left; exact J). assert (o = q) by (apply (NoDup_map_inj _ _ o_uid (live s)); auto). congruence. }
  destruct P as [s x x'|s n|s x rnd c s' X R Hx St|s x q|s x b0 q X R Hx Z1 U1 U2 B Hh Ot Q Cr|s x q|s x q X R Hx Jq Ot (h0 & -> & Fo)|s x q q' X R Hx Io Si (h0 & t & rv & -> & Fo & Se)];
    try (split; [exact J|repeat split]).
  - destruct (store_in w _ _ _ _ _ St J S3 Nd) as (A & B & C & D). split; [exact A|repeat split; assumption].
  - split; [right; exact J|repeat split].
  - split; [|repeat split]. cbn. apply remove_keeps; [exact J|]. apply Df; [unfold live; apply in_or_app; left; exact Jq|]. apply SysProofs3.find_obj_in in Fo as [_ Fo]. congruence.
  - split; [|repeat split]. cbn. unfold upd_objs. apply in_map_iff. exists o. split; [|exact J]. assert (Eu : o_uid q' = o_uid q) by apply Si. rewrite Eu. destruct (Nat.eqb_spec (o_uid o) (o_uid q)) as [E|]; [|reflexivity].
    exfalso. revert E. apply Df; [eapply reach_live; eauto|]. apply SysProofs3.find_obj_in in Fo as [_ Fo]. congruence.
Qed.
Lemma prims_in cl h s s' o : inv s -> prims w cl h s s' -> match cl with ODestroyObject _ h0 | OSetAttributeValue _ h0 _ => h0 <> ho | _ => True end ->
  In o (t_objs (s_tok s)) -> sealed K o -> In o (t_objs (s_tok s')) /\ frame s s'.
Proof.
  intros I P. revert I. induction P as [s|s s1 s2 P Ps IH]; intros I Sp J S; [split; [exact J|repeat split]|]. destruct (prim_in _ _ _ _ _ I P Sp J S) as [J1 (A1 & A2 & A3)].
  destruct (IH (prim_inv w _ _ _ _ P I) Sp J1 S) as [J2 (B1 & B2 & B3)]. split; [exact J2|]. repeat split; congruence.
Qed.
(** ** The invariant *)
Definition in_tok (t : token) : Prop := t_seed t = sd /\ exists o, In o (t_objs t) /\ sealed K o /\ (user t = true -> t_key t = K /\ clear o).
Definition on_file (s : sys) : Prop := forall uid, exists t, Token_Load se (s_fs s) uid = Ok t /\ user t = false /\ in_tok t.
Definition kept (s : sys) : Prop := on_file s /\ ((0 < s_count s)%Z -> in_tok (s_tok s)).
Definition keeps (c : op) (o : out) : Prop := same_pin p c o /\ unnamed ho c.
Lemma reload_tok u t : in_tok t -> user (reload u t) = false /\ in_tok (reload u t).
Proof.
  intros (Sd & o & J & S & _). split; [reflexivity|]. split; [exact Sd|]. destruct (reload_in _ u _ J) as (v & V). exists (reloaded v o). split; [exact V|]. split; [apply reloaded_sealed; exact S|discriminate].
Qed.
Lemma saved_file s : saved w s -> ginv (s_tok s) -> tidy w s -> in_tok (s_tok s) -> on_file s.
Proof. intros Sv G Td T uid. destruct (DurableProofs.saved_load w L s Sv G Td) as [_ Ld]. exists (reload uid (s_tok s)). split; [apply Ld|]. apply reload_tok. exact T. Qed.
Lemma logout_tok t t' : in_tok t -> Logout w t = Ok t' -> in_tok t' /\ user t' = false.
Proof.
  intros (Sd & o & J & S & U) E. unfold Logout in E. unfold user in U at 1. destruct (orb _ _).
  - destruct (U eq_refl) as [Kk Cl]. rewrite Kk in E. destruct (encode_all _ _ _) as [l| |] eqn:Ea; cbn [bind] in E; try discriminate. injection E as <-. destruct (encode_all_sealed _ _ _ J S Cl Ea) as (o' & J' & S').
    split; [|reflexivity]. split; [exact Sd|]. exists o'. split; [exact J'|]. split; [exact S'|discriminate].
  - injection E as <-. split; [|reflexivity]. split; [exact Sd|]. exists o. split; [exact J|]. split; [exact S|discriminate].
Qed.
Lemma same_tok t t' : in_tok t -> t_seed t' = t_seed t -> t_key t' = t_key t -> t_objs t' = t_objs t -> (user t' = true -> user t = true) -> in_tok t'.
Proof. intros (Sd & o & J & S & U) E1 E2 E3 E4. split; [congruence|]. exists o. rewrite E3, E2. auto. Qed.
Lemma login_tok t q now c t' : in_tok t -> UserLogin w t q now = Ok (c, t') -> (c = 0%Z -> q = p) -> in_tok t'.
Proof.
  intros T E Q. unfold UserLogin in E. destruct now as [n|]; [|injection E as _ <-; exact T]. destruct (logged_in (t_login t)) eqn:Li; [injection E as _ <-; exact T|].
  assert (Nu : user t = false) by (unfold logged_in in Li; unfold user; apply orb_false_iff in Li as [_ Li]; exact Li).
  destruct (lock_check _ _) as [pp|]; [|injection E as _ <-; exact T]. cbv zeta in E.
  destruct (_ =? PIN_INVALID_E)%Z; [injection E as _ <-; apply (same_tok t); auto|]. destruct (CheckPin _ _ _ _ =? 0)%Z; [|injection E as _ <-; apply (same_tok t); auto].
  destruct (decode_all _ _ _) as [[c2 l]| |] eqn:Da; cbn [bind] in E; try discriminate. destruct T as (Sd & o & J & S & U). cbn [t_key t_objs set_key set_user] in Da.
  destruct (decode_all_sealed _ _ _ _ _ J S Da) as (o' & J' & S' & Cl). destruct (Z.eqb_spec c2 0) as [->|Nz]; injection E as <- <-.
  - rewrite (Q eq_refl) in *. split; [exact Sd|]. exists o'. split; [exact J'|]. split; [exact S'|]. intros _. cbn [set_login set_objs t_key set_key]. rewrite Sd in *. split; [reflexivity|]. apply Cl; reflexivity.
  - split; [exact Sd|]. exists o'. split; [exact J'|]. split; [exact S'|]. intros Us. exfalso. change (user (set_objs (set_key (set_user (set_user t pp) (reset_fail pp)) (se_hash se q (t_seed t))) l)) with (user t) in Us. congruence.
Qed.
Lemma so_tok l t q now c t' : in_tok t -> SOLogin w l t q now = (c, t') -> in_tok t'.
Proof.
  intros T E. unfold SOLogin in E. destruct now as [n|]; [|injection E as _ <-; exact T]. destruct (logged_in (t_login t)) eqn:Li; [injection E as _ <-; exact T|].
  destruct (lock_check _ _) as [pp|]; [|injection E as _ <-; exact T]. cbv zeta in E. destruct (existsb _ _); [injection E as _ <-; apply (same_tok t); auto|].
  destruct (_ =? PIN_INVALID_E)%Z; [injection E as _ <-; apply (same_tok t); auto|]. destruct (_ =? 0)%Z; injection E as _ <-; apply (same_tok t); auto. discriminate.
Qed.
Lemma step_tok rnd s c s' o : inv s -> (0 < s_count s)%Z -> lib_op c = false -> match c with OInitToken _ _ _ | OInitPIN _ _ | OSetPIN _ _ _ => False | _ => True end ->
  same_pin p c o /\ unnamed ho c -> in_tok (s_tok s) -> step w rnd s c = Ok (s', o) -> in_tok (s_tok s').
Proof.
  intros I Cn Lo P Kp T E. destruct (objop c) as [h|] eqn:O.
  - pose proof (objop_prims w _ _ _ _ _ _ I O E) as Ps. destruct T as (Sd & ob & J & S & U).
    destruct (prims_in c h s s' ob I Ps) as [J' (A & B & C)]; [exact (proj2 Kp)|exact J|exact S|]. split; [congruence|]. exists ob. split; [exact J'|]. split; [exact S|]. unfold user in *. rewrite B, C. exact U.
  - apply Z.ltb_lt in Cn. destruct c; try discriminate O; try discriminate Lo; try contradiction; cbn [step] in E; unfold with_slot, with_sess, need_lib in E; rewrite Cn in E; apply Z.ltb_lt in Cn.
    all: try (destruct (slot_ok slot); [|sinv; exact T]). all: try (destruct (sess_get s h) as [x|]; [|sinv; exact T]).
    + apply OpenSession_ok in E as [[-> _] | (l & y & -> & _)]; auto.
    + unfold CloseSession in E. destruct (close_sess _ _) as [l| |]; cbn [bind] in E; try discriminate. cbv zeta in E. destruct (existsb in_use l); [sinv; exact T|].
      destruct (Logout _ _) as [t| |] eqn:Lg; cbn [bind] in E; try discriminate. sinv. exact (proj1 (logout_tok _ _ T Lg)).
    + sinv. exact T.
    + unfold Login in E. destruct (negb _); [sinv; exact T|]. destruct (Z.eqb_spec ut CKU_SO) as [->|].
      * destruct (SOLogin _ _ _ _ _) as [c1 t1] eqn:Sl. sinv. exact (so_tok _ _ _ _ _ _ T Sl).
      * destruct (Z.eqb_spec ut CKU_USER) as [->|]; [|destruct (_ =? _)%Z; sinv; exact T]. destruct (UserLogin _ _ _ _) as [[c1 t1]| |] eqn:Ul; cbn [bind] in E; try discriminate.
        unfold rv_ in E. injection E as <- <-. apply (login_tok _ _ _ _ _ T Ul). intros ->. apply (proj1 Kp); reflexivity.
    + destruct (Logout _ _) as [t| |] eqn:Lg; cbn [bind] in E; try discriminate. sinv. exact (proj1 (logout_tok _ _ T Lg)).
    + sinv. exact T.
Qed.
Lemma file_same s s' : on_file s -> s_fs s' = s_fs s -> on_file s'.
Proof. intros F E uid. rewrite E. apply F. Qed.
(** Every such call keeps the key on file and, while the library is up, in memory. *)
Lemma step_kept rnd s c s' o : inv s -> ginv (s_tok s) -> ginv (s_tok s') -> tidy w s -> tidy w s' -> same_pin p c o /\ unnamed ho c -> kept s -> step w rnd s c = Ok (s', o) -> kept s'.
Proof.
  intros I Gi Gi' Td Td' Kp (F & M) E. destruct (lib_op c) eqn:Lo.
  - destruct c; try discriminate Lo; cbn [step] in E.
    + unfold Initialize in E. destruct (Z.eqb_spec (s_count s) 0) as [C0|C0].
      * destruct (Token_Load _ _ _) as [t| |] eqn:Ld; cbn [bind] in E; try discriminate. injection E as <- _. split; [exact F|]. intros _. cbn [s_tok]. destruct (F (s_uid s)) as (t0 & Ld0 & _ & T). congruence.
      * injection E as <- _. split; [exact F|]. cbn. intros C. apply M. lia.
    + unfold Finalize in E. destruct (Z.eqb_spec (s_count s - 1) 0) as [C1|C1].
      * destruct (store _ _ _) as [[c1 s1]| |] eqn:Sto; cbn [bind] in E; try discriminate. destruct (final_all _); cbn [bind] in E; try discriminate. destruct (free_all _); cbn [bind] in E; try discriminate. injection E as <- _.
        split; [|cbn; lia]. destruct Td as [Fi So]. assert (W : wf_tok (s_tok s)) by exact (wf_of (s_tok s) (t_objs (s_tok s)) Gi Fi eq_refl).
        unfold store in Sto. destruct (store_load se (dh_law' _ L) (fun i => rnd (2 + i)%nat) (s_tok s) (s_fs s) W So) as (ws & Es & Ld). rewrite Es in Sto. cbn [bind] in Sto. injection Sto as _ <-.
        intros uid. eexists. split; [apply Ld|]. apply reload_tok. apply M. lia.
      * injection E as <- _. split; [exact F|]. cbn. intros C. apply M. lia.
    + injection E as <- _. split; [exact F|cbn; lia].
  - destruct (Z.ltb_spec 0 (s_count s)) as [C|C]; [|destruct (PropVault.down_step w rnd s c s' o C Lo E) as [-> _]; split; assumption].
    specialize (M C). destruct (match c with OInitToken _ _ _ | OInitPIN _ _ | OSetPIN _ _ _ => true | _ => false end) eqn:Pc.
    + assert (P : match c with OInitToken _ _ _ | OInitPIN _ _ | OSetPIN _ _ _ => True | _ => False end) by (destruct c; try discriminate Pc; exact Logic.I).
      destruct (PropVault.stores_pin w rnd s c s' o (DurableProofs.tidy_held _ _ Td) P E) as [[-> An]|(_ & An & _)]; [split; [exact F|intros _; exact M]|]. exfalso.
      assert (Q : out_rv o <> CKR_OK /\ out_rv o <> CKR_FUNCTION_FAILED) by (destruct Kp as [Kp _]; destruct c; try contradiction; exact Kp). unfold Vault.answered in An. cbn [existsb] in An.
      destruct (Z.eqb_spec (out_rv o) CKR_OK); [tauto|]. destruct (Z.eqb_spec (out_rv o) CKR_FUNCTION_FAILED); [tauto|discriminate].
    + assert (P : match c with OInitToken _ _ _ | OInitPIN _ _ | OSetPIN _ _ _ => False | _ => True end) by (destruct c; try discriminate Pc; exact Logic.I).
      pose proof (step_tok rnd s c s' o I C Lo P Kp M E) as M'. split; [|intros _; exact M']. destruct (Vault.may_store c) eqn:Ms.
      * destruct (DurableProofs.step_level w rnd s c s' o I (DurableProofs.tidy_held _ _ Td) Lo ltac:(destruct c; try discriminate Ms; reflexivity) E) as [_ [[Ef _]|Sv]]; [exact (file_same _ _ F Ef)|apply saved_file; assumption].
      * exact (file_same _ _ F (PropVault.fs_same w rnd s c s' o Lo Ms P E)).
Qed.
Lemma run_kept d l : forall s s' os, reach w (sys0 d) s -> PropArchive.tidy_run w s l -> kept s -> (forall c o, In (c, o) (combine (map fst l) os) -> same_pin p c o /\ unnamed ho c) -> run w s l = Ok (s', os) -> kept s'.
Proof.
  induction l as [|[c rnd] l IH]; intros s s' os Re Td S Kp E; cbn [run] in E; [injection E as <- _; exact S|].
  cbn [PropArchive.tidy_run] in Td. destruct (step w rnd s c) as [[s1 o]| |] eqn:E1; cbn [bind] in E; try discriminate. destruct (run w s1 l) as [[s2 os2]| |] eqn:E2; cbn [bind] in E; try discriminate. injection E as <- <-.
  destruct Td as [Td Td2]. assert (Td1 : tidy w s1) by (destruct l as [|[? ?] ?]; apply Td2). assert (Re1 : reach w (sys0 d) s1) by (econstructor; eauto).
  apply (IH s1 s2 os2 Re1 Td2); [|intros c0 o0 J; apply Kp; right; exact J|exact E2].
  apply (step_kept rnd s c s1 o (reach_inv w d s Re) (reach_ginv w (l_hash _ L) _ _ Re) (reach_ginv w (l_hash _ L) _ _ Re1) Td Td1); [apply Kp; left; reflexivity|exact S|exact E1].
Qed.
End W.

(** ** Objects that a call makes *)
Section V.
Variable w : world.
Notation se := (w_se w).
(** [fit key o]: stored and clear form of the object agree. *)
Variable fit : list N -> obj -> Prop.
Hypothesis fit_encode : forall key o o2 h, Encode se key false o = Ok (0%Z, o2) -> fit key (set_handle o2 h).
Hypothesis fit_cert : forall key o, is_cert o = true -> fit key o.
Definition newly (U : list nat) (key : list N) (s : sys) : Prop := t_key (s_tok s) = key /\ forall o, In o (t_objs (s_tok s)) -> In (o_uid o) U \/ (DurableProofs.held o /\ fit key o).
Lemma prims_newly U key cl h s s' : prims w cl h s s' -> creates cl = true -> newly U key s -> newly U key s'.
Proof.
  intros P Cr. induction P as [s|s s1 s2 P Ps IH]; intros Q; [exact Q|]. apply IH. clear IH Ps s2. destruct Q as [Ky Q].
  destruct P as [s x x'|s n|s x rnd c s' X R Hx St|s x q|s x b0 q X R Hx Z1 U1 U2 B Hh Ot (o1 & o2 & Mk & En & ->) Cr'|s x q|s x q X R Hx Jq Ot (h0 & -> & _)|s x q q' X R Hx Io Si (h0 & t & rv & -> & _)]; try discriminate Cr; try (split; [exact Ky|exact Q]).
  - pose proof (store_frame w _ _ _ _ St) as (_ & _ & _ & Tk & _). split; [rewrite <- Ky; exact (f_equal t_key Tk)|]. intros o' J'. unfold store in St. destruct (Token_Store se _ (s_tok s)) as [[[c1 t1] ws]| |] eqn:T; cbn [bind] in St; try discriminate. injection St as _ <-.
    unfold Token_Store in T. destruct (tok_header _); cbn [bind] in T; try discriminate. destruct (store_objs _ _ _ _) as [[[c2 l2] w2]| |] eqn:So; cbn [bind] in T; try discriminate. injection T as _ <- _. cbn in J'.
    destruct (store_objs_back w _ _ _ _ _ _ _ J' So) as (o & Jo & Co & Sm). pose proof (proj1 (core_uid _ _ Co)) as Eu. rewrite Eu. destruct (Q _ Jo) as [Old|[Hd Ag]]; [left; exact Old|right].
    pose proof (DurableProofs.core_cert _ _ Co) as (Cc & _). destruct (is_cert o) eqn:C; [split; [left; exact Cc|apply fit_cert; exact Cc]|]. destruct Hd as [Hd|Hd]; [congruence|]. rewrite (Sm eq_refl Hd). split; [right; exact Hd|exact Ag].
  - split; [exact Ky|]. intros o [<-|J]; [right|exact (Q o J)]. rewrite Ky in En. split; [apply (DurableProofs.Encode_held w) in En; exact En|]. exact (fit_encode _ _ _ _ En).
Qed.
Lemma newly_made d m s h c rnd s' o2 ho x o : laws se -> orderly w True d m s -> (m + 2 < 2^28)%Z -> bool_call c -> tidy w s -> objop c = Some h -> In ho (new_handles o2) -> (2^28 <= ho)%Z ->
  sess_get s' h = Some x -> find_obj s' x ho = Some o -> step w rnd s c = Ok (s', o2) ->
  In o (t_objs (s_tok s')) /\ o_handle o = ho /\ fit (t_key (s_tok s)) o /\ t_seed (s_tok s') = t_seed (s_tok s) /\ t_key (s_tok s') = t_key (s_tok s) /\ saved w s'.
Proof.
  intros L Od M Bc Td O Nh Hh G Fo E. pose proof (orderly_reach _ _ _ _ _ Od) as Re. pose proof (reach_inv w d s Re) as I. pose proof (orderly_pos _ _ _ _ _ Od) as M0.
  assert (Od' : orderly w True d (m + uses c) s') by (econstructor; [exact Od|exact E|apply usual_bytes, bool_usual; exact Bc]). pose proof (uses_two c) as U2.
  destruct (orderly_kept w True (l_hash _ L) _ _ _ Od) as [Gd _]; [lia|]. destruct (orderly_kept w True (l_hash _ L) _ _ _ Od') as [Gd' _]; [lia|].
  destruct (good_handles w m s I Gd M0 M) as [Fr _]. destruct (Fr c (bool_usual _ Bc) rnd s' o2 h E O) as [_ Fr']. destruct (Fr' ho Nh) as (x' & ob & G' & Fo' & Eh & Un). clear Fr Fr'.
  rewrite G in G'. injection G' as <-. rewrite Fo in Fo'. injection Fo' as <-.
  assert (Cr : creates c = true). { destruct (creates c) eqn:C; [reflexivity|]. exfalso. pose proof (step_out _ _ _ _ _ _ _ O E) as K. rewrite (new_none _ _ K C) in Nh. destruct Nh. }
  pose proof (objop_prims w _ _ _ _ _ _ I O E) as Ps. destruct (prims_frame w _ _ _ _ Ps) as (F1 & F2 & F3).
  destruct (prims_newly (uids (live s)) (t_key (s_tok s)) c h s s' Ps Cr) as [_ Ne].
  { split; [reflexivity|]. intros q J. left. apply in_map. unfold live. apply in_or_app. left. exact J. }
  assert (Jt : In o (t_objs (s_tok s'))).
  { pose proof (SysProofs3.find_obj_in _ _ _ _ Fo) as [J Hq]. destruct (on_token ho) eqn:Ot; [exact J|]. exfalso. destruct Gd' as [_ Gs]. rewrite Forall_forall in Gs. apply sess_get_in in G as (X & _). destruct (Gs _ X) as [_ A].
    rewrite Forall_forall in A. specialize (A _ (in_map o_handle _ _ J)). lia. }
  split; [exact Jt|]. split; [exact Eh|]. destruct (Ne o Jt) as [Old|[_ Ag]]; [contradiction|]. split; [exact Ag|]. split; [exact F1|]. split; [exact F2|].
  destruct (DurableProofs.objop_up w rnd s c h s' o2 I (DurableProofs.tidy_held _ _ Td) O ltac:(destruct c; try discriminate Cr; reflexivity) E) as [_ [[Et _]|Sv]]; [|exact Sv].
  exfalso. apply Un. apply in_map. unfold live. apply in_or_app. left. rewrite <- Et. exact Jt.
Qed.
End V.

(** ** What becomes of a key that a call made *)
Lemma any_kept w d s c s2 o2 h ho p (sealed : list N -> obj -> Prop) (clear : obj -> Prop) (fit : list N -> obj -> Prop) x0 o0 : laws (w_se w) ->
  (forall k o, sealed k o -> o_handle o = ho /\ is_cert o = false /\ o_keyData o <> None) ->
  (forall k key o c o', sealed k o -> Decode (w_se w) key o = Ok (c, o') -> sealed k o' /\ (key = k -> c = 0%Z /\ clear o')) ->
  (forall k o c o', sealed k o -> clear o -> Encode (w_se w) k true o = Ok (c, o') -> sealed k o' /\ c = 0%Z) ->
  (forall k u o, sealed k o -> sealed k (reloaded u o)) ->
  (forall key o o2 h, Encode (w_se w) key false o = Ok (0%Z, o2) -> fit key (set_handle o2 h)) -> (forall key o, is_cert o = true -> fit key o) ->
  (forall key, o_handle o0 = ho -> fit key o0 -> sealed key o0 /\ clear o0) ->
  endured w d s c s2 o2 h ho p -> sess_get s2 h = Some x0 -> find_obj s2 x0 ho = Some o0 ->
  exists m sd, orderly w True d m s /\ (m < 2^28)%Z /\ kept w p sd sealed clear s.
Proof.
  intros L H1 H2 H3 H4 H5 H6 H7 (l0 & hu & now & r0 & l1 & r1 & l2 & s1 & os0 & os1 & os2 & D & R1 & Le & P1 & Lg1 & O & E & Nh & Hh & R2 & P2 & Td & M & B) G0 Fo0. cbv zeta in *.
  set (la := l0 ++ (OLogin hu CKU_USER p now, r0) :: l1) in *. destruct (PropArchive.tidy_run_app w la _ _ _ _ Td R1) as [Tda Tdb].
  apply Forall_app in B as [B1 B2]. inversion B2 as [|? ? B3 B4]. subst. cbn [fst] in B3. destruct (orderly_run w d la 0 (sys0 d) s1 _ (od_0 w True d D) B1 R1) as (m1 & Od1 & M1).
  assert (Od2 : orderly w True d (m1 + uses c) s2) by (econstructor; [exact Od1|exact E|apply usual_bytes, bool_usual; exact B3]). pose proof (uses_two c) as U2.
  destruct (orderly_run w d l2 _ _ _ _ Od2 B4 R2) as (m3 & Od3 & M3). assert (Zl : (0 <= zlen l2)%Z) by (unfold zlen; lia).
  assert (Ml : (m1 + 2 + 2 * zlen l2 < 2^28)%Z) by (unfold zlen in *; rewrite app_length in M; cbn [List.length] in M; lia).
  pose proof (orderly_reach _ _ _ _ _ Od2) as Re2. pose proof (orderly_reach _ _ _ _ _ Od3) as Re3.
  cbn [PropArchive.tidy_run] in Tdb. rewrite E in Tdb. destruct Tdb as [Td1 Td2]. assert (Td2' : tidy w s2) by (destruct l2 as [|[? ?] ?]; apply Td2).
  assert (Ky : keyed w p s1).
  { unfold la in R1, Tda. apply run_app in R1 as (sa & oa & ob & Ra & Rb & Eo & Lo). destruct (app_same _ _ _ _ _ (eq_sym Eo)) as [-> ->]; [congruence|]. clear Eo.
    destruct (PropArchive.tidy_run_app w l0 _ _ _ _ Tda Ra) as [_ Tdc]. pose proof (run_reach w (sys0 d) (sys0 d) l0 sa os0 (reach_0 w _) Ra) as Rea.
    apply run_split in Rb as (sb & q & os' & S & Rb & Eo). injection Eo as <- <-. cbn [PropArchive.tidy_run] in Tdc. rewrite S in Tdc. destruct Tdc as [_ Tdc].
    apply (run_keyed w p d l1 sb s1 os1); [econstructor; [exact Rea|exact S]|exact Tdc|exact (login_keyed w p _ _ _ _ _ S)|exact P1|exact Rb]. }
  assert (K1 : t_key (s_tok s1) = se_hash (w_se w) p (t_seed (s_tok s1))) by (apply Ky; unfold user; rewrite Lg1; reflexivity).
  destruct (newly_made w fit H5 H6 d m1 s1 h c r1 s2 o2 ho x0 o0 L Od1 ltac:(lia) B3 Td1 O Nh Hh G0 Fo0 E) as (Jt & Eh & Ft & Es & Ek & Sv). destruct (H7 _ Eh Ft) as [Se Cl].
  set (sd := t_seed (s_tok s1)) in *. rewrite K1 in Se.
  assert (IT : in_tok w p sd sealed clear (s_tok s2)) by (split; [exact Es|]; exists o0; split; [exact Jt|]; split; [exact Se|]; intros _; split; [congruence|exact Cl]).
  assert (K2 : kept w p sd sealed clear s2).
  { split; [|intros _; exact IT]. eapply saved_file; eauto. exact (reach_ginv w (l_hash _ L) _ _ Re2). }
  assert (K3 : kept w p sd sealed clear s) by (exact (run_kept w L p sd ho sealed clear H1 H2 H3 H4 d l2 s2 s os2 Re2 Td2 K2 P2 R2)).
  exists m3, sd. split; [exact Od3|]. split; [lia|exact K3].
Qed.
Lemma any_there w d s c s2 o2 h ho p (sealed : list N -> obj -> Prop) (clear : obj -> Prop) (fit : list N -> obj -> Prop) hs x x0 o0 : laws (w_se w) ->
  (forall k o, sealed k o -> o_handle o = ho /\ is_cert o = false /\ o_keyData o <> None) ->
  (forall k key o c o', sealed k o -> Decode (w_se w) key o = Ok (c, o') -> sealed k o' /\ (key = k -> c = 0%Z /\ clear o')) ->
  (forall k o c o', sealed k o -> clear o -> Encode (w_se w) k true o = Ok (c, o') -> sealed k o' /\ c = 0%Z) ->
  (forall k u o, sealed k o -> sealed k (reloaded u o)) ->
  (forall key o o2 h, Encode (w_se w) key false o = Ok (0%Z, o2) -> fit key (set_handle o2 h)) -> (forall key o, is_cert o = true -> fit key o) ->
  (forall key, o_handle o0 = ho -> fit key o0 -> sealed key o0 /\ clear o0) ->
  endured w d s c s2 o2 h ho p -> sess_get s2 h = Some x0 -> find_obj s2 x0 ho = Some o0 -> t_login (s_tok s) = RW_USER -> sess_get s hs = Some x ->
  reach w (sys0 d) s /\ exists o k, find_obj s x ho = Some o /\ sealed k o /\ clear o.
Proof.
  intros L H1 H2 H3 H4 H5 H6 H7 En G0 Fo0 Lg G. destruct (any_kept w d s c s2 o2 h ho p sealed clear fit x0 o0 L H1 H2 H3 H4 H5 H6 H7 En G0 Fo0) as (m3 & sd & Od3 & M & _ & K3). pose proof (orderly_reach _ _ _ _ _ Od3) as Re3. pose proof (reach_inv w d s Re3) as I. specialize (K3 (get_count _ _ _ I G)).
  destruct K3 as (_ & o & J & S & U). destruct U as [_ Cl']; [unfold user; rewrite Lg; reflexivity|]. split; [exact Re3|]. exists o, (se_hash (w_se w) p sd). split; [|auto].
  destruct (orderly_kept w True (l_hash _ L) _ _ _ Od3) as [Gd _]; [lia|]. destruct (H1 _ _ S) as (S1 & _). rewrite <- S1. apply (good_finds True _ _ _ _ _ Logic.I Gd ltac:(lia) G). apply in_or_app. left. exact J.
Qed.

(** ** While the library stays up *)
(** An object of the token of which the clear form is part of the description stays so while no call loads the token anew, logged in or not. *)
Lemma awake_run w d p sd ho (sealed : list N -> obj -> Prop) (clear : obj -> Prop) :
  (forall k o, sealed k o -> o_handle o = ho /\ is_cert o = false /\ o_keyData o <> None) ->
  (forall k key o c o', sealed k o -> Decode (w_se w) key o = Ok (c, o') -> sealed k o' /\ (key = k -> c = 0%Z /\ clear o')) ->
  (forall k o c o', sealed k o -> clear o -> Encode (w_se w) k true o = Ok (c, o') -> sealed k o' /\ c = 0%Z) ->
  forall l s s' os, reach w (sys0 d) s -> PropArchive.tidy_run w s l -> (0 < s_count s)%Z -> in_tok w p sd sealed clear (s_tok s) ->
  (forall c o, In (c, o) (combine (map fst l) os) -> same_pin p c o /\ unnamed ho c /\ lib_op c = false) -> run w s l = Ok (s', os) -> (0 < s_count s')%Z /\ in_tok w p sd sealed clear (s_tok s').
Proof.
  intros H1 H2 H3. induction l as [|[c rnd] l IH]; intros s s' os Re Td Cn T Kp E; cbn [run] in E; [injection E as <- _; auto|].
  cbn [PropArchive.tidy_run] in Td. destruct (step w rnd s c) as [[s1 o]| |] eqn:E1; cbn [bind] in E; try discriminate. destruct (run w s1 l) as [[s2 os2]| |] eqn:E2; cbn [bind] in E; try discriminate. injection E as <- <-.
  destruct Td as [Td Td2]. assert (Re1 : reach w (sys0 d) s1) by (econstructor; eauto). pose proof (reach_inv w d s Re) as I. destruct (Kp c o (or_introl eq_refl)) as (Sp & Un & Lo).
  enough (Q : (0 < s_count s1)%Z /\ in_tok w p sd sealed clear (s_tok s1)).
  { destruct Q as [Q1 Q2]. apply (IH s1 s2 os2 Re1 Td2 Q1 Q2); [intros c0 o0 J; apply Kp; right; exact J|exact E2]. }
  destruct (match c with OInitToken _ _ _ | OInitPIN _ _ | OSetPIN _ _ _ => true | _ => false end) eqn:Pc.
  - assert (P : match c with OInitToken _ _ _ | OInitPIN _ _ | OSetPIN _ _ _ => True | _ => False end) by (destruct c; try discriminate Pc; exact Logic.I).
    destruct (PropVault.stores_pin w rnd s c s1 o (DurableProofs.tidy_held _ _ Td) P E1) as [[-> An]|(_ & An & _)]; [auto|]. exfalso.
    assert (Q : out_rv o <> CKR_OK /\ out_rv o <> CKR_FUNCTION_FAILED) by (destruct c; try contradiction; exact Sp). unfold Vault.answered in An. cbn [existsb] in An.
    destruct (Z.eqb_spec (out_rv o) CKR_OK); [tauto|]. destruct (Z.eqb_spec (out_rv o) CKR_FUNCTION_FAILED); [tauto|discriminate].
  - assert (P : match c with OInitToken _ _ _ | OInitPIN _ _ | OSetPIN _ _ _ => False | _ => True end) by (destruct c; try discriminate Pc; exact Logic.I).
    assert (Ec : s_count s1 = s_count s).
    { destruct (objop c) as [h|] eqn:O; [pose proof (objop_prims w _ _ _ _ _ _ I O E1) as Ps; destruct (prims_inv w _ _ _ _ Ps I) as [_ (Q & _)]; exact Q|].
      apply (DurableProofs.step_level w rnd s c s1 o I (DurableProofs.tidy_held _ _ Td) Lo ltac:(destruct c; try discriminate Pc; try discriminate O; reflexivity) E1). }
    split; [rewrite Ec; exact Cn|].
    eapply (step_tok w p sd ho sealed clear H1 H2 H3); eauto.
Qed.
