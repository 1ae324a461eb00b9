(** What a session keeps for itself: its operations, its searches and its objects.
    A set [A] of sessions is cleared of these, and the other calls go on as before. *)
From Verif Require Import Base Ops OpsSpec OpsProofs Object ObjectProofs Store Sys SysProofs SysProofs2 SysProofs3 SysProofs4 UseProofs.

(** ** Specification *)
(** The session a call is made through. *)
Definition through (c : op) : option Z :=
  match c with
  | OInitPIN h _ | OSetPIN h _ _ | OCloseSession h | OLogin h _ _ _ | OLogout h => Some h
  | _ => objop c
  end.
(** Templates of session objects and of token objects. *)
Definition plain (t : template) : Prop := forall a, In a t -> a_type a = CKA_TOKEN -> a_val a = AV [0%N].
Definition lasting (t : template) : Prop :=
  (exists a, In a t /\ a_type a = CKA_TOKEN) /\ forall a, In a t -> a_type a = CKA_TOKEN -> a_val a = AV [1%N].
(** Handles of session objects and of token objects. *)
Definition small (h : Z) : Prop := (0 <= h < 2 ^ 28)%Z.
Definition large (h : Z) : Prop := (2 ^ 28 <= h < 2 ^ 60)%Z.
(** The calls a session makes for itself. *)
Definition own (c : op) : Prop :=
  match c with
  | OGetSessionInfo _ | OGetAttributeValue _ _ _ | OFindObjectsInit _ _ | OFindObjects _ _ | OFindObjectsFinal _
  | OWrapKey _ _ _ _ _ _ | OCrypto _ _ _ => True
  | OCreateObject _ t | OCopyObject _ _ t | OGenerateKey _ _ t _ | OUnwrapKey _ _ _ _ _ t | ODeriveKey _ _ _ _ t => plain t
  | OGenerateKeyPair _ _ t1 t2 _ => plain t1 /\ plain t2
  | ODestroyObject _ ho | OSetAttributeValue _ ho _ => small ho
  | _ => False
  end.
(** The calls that concern the token and the sessions as such. *)
Definition shared (c : op) : Prop :=
  match c with
  | OCreateObject _ t | OGenerateKey _ _ t _ => lasting t
  | OGenerateKeyPair _ _ t1 t2 _ => lasting t1 /\ lasting t2
  | ODestroyObject _ ho | OGetAttributeValue _ ho _ | OSetAttributeValue _ ho _ => large ho
  | OCopyObject _ ho t | ODeriveKey _ _ ho _ t => large ho /\ lasting t
  | OGetSessionInfo _ => True
  | _ => objop c = None
  end.
Definition in_set (A : Z -> bool) (c : op) : bool := match through c with Some h => A h | None => false end.
(** A history with its answers, and what is left of it without the calls that the sessions in [A] make for themselves. *)
Inductive left_out (A : Z -> bool) : list (op * (nat -> list N)) -> list out -> list (op * (nat -> list N)) -> list out -> Prop :=
  | lo_nil : left_out A [] [] [] []
  | lo_own c rnd l o os l' os' : in_set A c = true -> own c -> left_out A l os l' os' -> left_out A ((c, rnd) :: l) (o :: os) l' os'
  | lo_keep c rnd l o os l' os' : ~ (in_set A c = true /\ own c) -> left_out A l os l' os' -> left_out A ((c, rnd) :: l) (o :: os) ((c, rnd) :: l') (o :: os').
(** A run in which some names of allocations ([s_uid], not part of the code) go unused before a call. *)
Inductive answers (w : world) : sys -> list (op * (nat -> list N)) -> sys -> list out -> Prop :=
  | an_nil s n : (s_uid s <= n)%nat -> answers w s [] (set_uid s n) []
  | an_call s n c rnd l s1 o s' os : (s_uid s <= n)%nat -> step w rnd (set_uid s n) c = Ok (s1, o) -> answers w s1 l s' os ->
      answers w s ((c, rnd) :: l) s' (o :: os).

Lemma find_app (T : Type) (p : T -> bool) a b : find p (a ++ b) = match find p a with Some x => Some x | None => find p b end.
Proof. induction a as [|x a IH]; [reflexivity|]. cbn. destruct (p x); [reflexivity|exact IH]. Qed.
Lemma last_in t ty a : find_last t ty = Some a -> In a t /\ a_type a = ty.
Proof. unfold find_last. intros F. apply find_some in F as [F E]. apply in_rev in F. split; [exact F|lia]. Qed.
Lemma last_some t ty a : In a t -> a_type a = ty -> find_last t ty <> None.
Proof. unfold find_last. intros J E F. apply in_rev in J. apply (find_none _ _ F) in J. lia. Qed.
Lemma lasting_token t : lasting t -> tmpl_token t = Some 1%N.
Proof.
  intros [(a & J & E) L]. unfold tmpl_token. destruct (find_last t CKA_TOKEN) as [b|] eqn:F; [|destruct (last_some _ _ _ J E F)].
  apply last_in in F as [F Eb]. rewrite (L b F Eb). reflexivity.
Qed.
Lemma plain_token t : plain t -> tmpl_token t = Some 0%N.
Proof.
  intros L. unfold tmpl_token. destruct (find_last t CKA_TOKEN) as [b|] eqn:F; [|reflexivity]. apply last_in in F as [F Eb]. rewrite (L b F Eb). reflexivity.
Qed.
Lemma small_token h : small h -> on_token h = false.
Proof. intros [L H]. unfold on_token. rewrite Z.div_small by lia. reflexivity. Qed.
Lemma large_token h : large h -> on_token h = true.
Proof.
  intros [L H]. unfold on_token. apply negb_true_iff, Z.eqb_neq. assert (B : (1 <= h / 2 ^ 28 < 2 ^ 32)%Z) by (split; [apply Z.div_le_lower_bound; lia|apply Z.div_lt_upper_bound; lia]).
  unfold i32. rewrite Z.mod_small by lia. destruct (_ <? _)%Z; lia.
Qed.
Lemma nodup_r (T : Type) (a b : list T) : NoDup (a ++ b) -> NoDup b.
Proof. induction a as [|x a IH]; cbn; intros N; [exact N|]. apply NoDup_cons_iff in N as [_ N]. auto. Qed.
Lemma nodup_split (T : Type) (a b : list T) u : NoDup (a ++ b) -> In u a -> ~ In u b.
Proof.
  induction a as [|x a IH]; cbn; intros N J; [destruct J|]. apply NoDup_cons_iff in N as [N1 N2]. destruct J as [->|J]; [|apply IH; assumption].
  intros K. apply N1. apply in_or_app. right; exact K.
Qed.
Lemma other_objs l x y u : uniq l -> NoDup (uids (all_objs l)) -> In x l -> In y l -> ss_h x <> ss_h y -> In u (uids (ss_objs x)) -> ~ In u (uids (ss_objs y)).
Proof.
  intros U. induction l as [|z l IH]; intros N X Y D J K; [destruct X|]. cbn [all_objs] in N. rewrite SysProofs2.uids_app in N.
  assert (Sub : forall z1, In z1 l -> In u (uids (ss_objs z1)) -> In u (uids (all_objs l))).
  { intros z1 Z1 J1. unfold uids in *. apply in_map_iff in J1 as (o & <- & O). apply in_map. eapply all_objs_in; eassumption. }
  unfold uniq in U. cbn [map] in U. apply NoDup_cons_iff in U as [U1 U2]. destruct X as [<-|X], Y as [<-|Y].
  - congruence.
  - eapply nodup_split; [exact N|exact J|]. eapply Sub; eassumption.
  - eapply nodup_split; [exact N|exact K|]. eapply Sub; eassumption.
  - apply (IH U2); auto. eapply nodup_r; exact N.
Qed.
(** ** Clearing *)
Definition blank (x : session) : session := mkS (ss_h x) (ss_use x) [] false [] 0 op_zero.
Section A.
Variable A : Z -> bool.
Definition clr (x : session) : session := if A (ss_h x) then blank x else x.
Definition mask (s : sys) : sys := set_sess s (map clr (s_sess s)).
Definition lift (r : res (sys * out)) : res (sys * out) :=
  match r with Ok (s, o) => Ok (mask s, o) | Err e => Err e | Undef u => Undef u end.
Definition lift2 (r : res (Z * Z * sys)) : res (Z * Z * sys) :=
  match r with Ok (c, h, s) => Ok (c, h, mask s) | Err e => Err e | Undef u => Undef u end.
Definition lift1 (r : res (Z * sys)) : res (Z * sys) :=
  match r with Ok (c, s) => Ok (c, mask s) | Err e => Err e | Undef u => Undef u end.
Lemma clr_h x : ss_h (clr x) = ss_h x.
Proof. unfold clr. destruct (A _); reflexivity. Qed.
Lemma clr_use x : ss_use (clr x) = ss_use x.
Proof. unfold clr. destruct (A _); reflexivity. Qed.
Lemma clr_in_use x : in_use (clr x) = in_use x.
Proof. unfold in_use. rewrite clr_use. reflexivity. Qed.
Lemma clr_rw x : is_rw (clr x) = is_rw x.
Proof. unfold is_rw. rewrite clr_use. reflexivity. Qed.
Lemma clr_out x : A (ss_h x) = false -> clr x = x.
Proof. unfold clr. intros ->. reflexivity. Qed.
Lemma find_clr l h : find_sess (map clr l) h = option_map clr (find_sess l h).
Proof.
  unfold find_sess. induction l as [|x l IH]; [reflexivity|]. cbn [map find]. rewrite clr_h. destruct (_ =? _)%Z; [reflexivity|exact IH].
Qed.
Lemma get_clr s h : sess_get (mask s) h = option_map clr (sess_get s h).
Proof.
  unfold sess_get. cbn [mask set_sess s_sess]. rewrite find_clr. destruct (slot_ok _); [|reflexivity]. destruct (find_sess _ _) as [x|]; [|reflexivity].
  cbn [option_map]. rewrite clr_in_use. destruct (in_use x); reflexivity.
Qed.
Lemma get_out s h : A h = false -> sess_get (mask s) h = sess_get s h.
Proof.
  intros N. rewrite get_clr. destruct (sess_get s h) as [x|] eqn:G; [|reflexivity]. apply sess_get_in in G as (_ & E & _). cbn. rewrite clr_out; [reflexivity|congruence].
Qed.
Lemma upd_clr l x : upd_sess (map clr l) (clr x) = map clr (upd_sess l x).
Proof. unfold upd_sess. rewrite !map_map. apply map_ext. intros y. rewrite !clr_h. destruct (_ =? _)%Z; reflexivity. Qed.
Lemma put_clr s x : put_sess (mask s) (clr x) = mask (put_sess s x).
Proof. unfold put_sess, mask. cbn [set_sess s_sess s_count s_tok s_fs s_log s_uid]. rewrite upd_clr. reflexivity. Qed.
Lemma put_out s x : A (ss_h x) = false -> put_sess (mask s) x = mask (put_sess s x).
Proof. intros N. rewrite <- put_clr, clr_out by exact N. reflexivity. Qed.
Lemma put_obj_mask s o : put_obj (mask s) o = mask (put_obj s o).
Proof.
  unfold put_obj, mask. cbn [set_sess set_tok s_sess s_count s_tok s_fs s_log s_uid].
  assert (E : forall l, map (fun x => set_sobjs x (upd_objs (ss_objs x) o)) (map clr l) = map clr (map (fun x => set_sobjs x (upd_objs (ss_objs x) o)) l)).
  { intros l. rewrite !map_map. apply map_ext. intros x. unfold clr. cbn [set_sobjs ss_h]. destruct (A _); reflexivity. }
  rewrite E. reflexivity.
Qed.

Section W.
Variable w : world.
Lemma store_mask rnd s : store w rnd (mask s) = lift1 (store w rnd s).
Proof. unfold store. cbn [mask set_sess s_tok]. destruct (Token_Store _ _ _) as [[[c t] ws]| |]; reflexivity. Qed.
Lemma store_mask_t rnd s t : store w rnd (set_tok (mask s) t) = lift1 (store w rnd (set_tok s t)).
Proof. rewrite <- store_mask. reflexivity. Qed.
Lemma AddToSession_out rnd s x b o : A (ss_h x) = false -> AddToSession w rnd (mask s) x b o = lift2 (AddToSession w rnd s x b o).
Proof.
  intros N. unfold AddToSession. destruct (b =? 0)%N.
  - destruct (_ <=? _)%Z; [reflexivity|]. rewrite put_out by exact N. reflexivity.
  - cbn [mask set_sess s_tok]. destruct (_ <=? _)%Z; [reflexivity|]. destruct (Encode _ _ _ _) as [[c o2]| |]; [|reflexivity..]. cbn [bind].
    destruct (negb _); [reflexivity|]. fold (mask s). rewrite store_mask_t. destruct (store _ _ _) as [[c2 s1]| |]; reflexivity.
Qed.
Lemma AddToSession_tok rnd s x b o : b <> 0%N -> AddToSession w rnd (mask s) (clr x) b o = lift2 (AddToSession w rnd s x b o).
Proof.
  intros N. unfold AddToSession. apply N.eqb_neq in N. rewrite N.
  cbn [mask set_sess s_tok]. destruct (_ <=? _)%Z; [reflexivity|]. destruct (Encode _ _ _ _) as [[c o2]| |]; [|reflexivity..]. cbn [bind].
  destruct (negb _); [reflexivity|]. fold (mask s). rewrite store_mask_t. destruct (store _ _ _) as [[c2 s1]| |]; reflexivity.
Qed.
Lemma AddObject_out rnd s x t o : A (ss_h x) = false -> AddObject w rnd (mask s) x t o = lift2 (AddObject w rnd s x t o).
Proof.
  intros N. unfold AddObject. destruct (tmpl_token t) as [b|]; [|reflexivity]. rewrite AddToSession_out by exact N.
  destruct (AddToSession _ _ _ _ _ _) as [[[c h] s1]| |]; reflexivity.
Qed.
Lemma AddObject_tok rnd s x t o : lasting t -> AddObject w rnd (mask s) (clr x) t o = lift2 (AddObject w rnd s x t o).
Proof.
  intros L. unfold AddObject. rewrite (lasting_token t L). rewrite AddToSession_tok by discriminate. destruct (AddToSession _ _ _ _ _ _) as [[[c h] s1]| |]; reflexivity.
Qed.

(** ** The calls of the other sessions *)
Definition stranger (s : sys) (x : session) : Prop :=
  forall u y, os_curr (ss_op x) = Some u -> In y (s_sess s) -> A (ss_h y) = true -> ~ In u (uids (ss_objs y)).
Lemma find_clr_objs p l : (forall y, In y l -> A (ss_h y) = true -> forall o, In o (ss_objs y) -> p o = false) ->
  find p (all_objs (map clr l)) = find p (all_objs l).
Proof.
  intros H. induction l as [|x l IH]; [reflexivity|]. cbn [map all_objs]. rewrite !find_app. rewrite IH by (intros y Y; apply H; right; exact Y).
  unfold clr. destruct (A (ss_h x)) eqn:E; [|reflexivity]. cbn [blank ss_objs find].
  assert (F : find p (ss_objs x) = None). { destruct (find p (ss_objs x)) eqn:F; [|reflexivity]. apply find_some in F as [F G]. rewrite (H x (or_introl eq_refl) E _ F) in G. discriminate. }
  rewrite F. reflexivity.
Qed.
Lemma run_cont_out s x c : stranger s x -> run_cont w (mask s) x c = run_cont w s x c.
Proof.
  intros J. unfold run_cont. destruct (os_curr (ss_op x)) as [u|] eqn:C; [|reflexivity].
  assert (F : find_uid (mask s) u = find_uid s u).
  { unfold find_uid, live. cbn [mask set_sess s_tok s_sess]. rewrite !find_app. rewrite find_clr_objs; [reflexivity|].
    intros y Y Ay o O. apply Nat.eqb_neq. intros E. apply (J u y C Y Ay). unfold uids. rewrite <- E. apply in_map. exact O. }
  rewrite F. reflexivity.
Qed.
Lemma rv_mask s rv : rv_ (mask s) rv = lift (rv_ s rv).
Proof. reflexivity. Qed.
Lemma Create_out rnd s x t : A (ss_h x) = false -> Create w rnd (mask s) x t = lift (Create w rnd s x t).
Proof.
  intros N. unfold Create. change (s_uid (mask s)) with (s_uid s). destruct (CreateObject _ _ _ _) as [[rv [o|]]| |]; [|reflexivity..]. cbn [bind].
  cbv zeta; change (bump (mask s) 1) with (mask (bump s 1)). rewrite AddObject_out by exact N. destruct (AddObject _ _ _ _ _ _) as [[[c h] s1]| |]; reflexivity.
Qed.
Lemma Copy_out rnd s x src t : A (ss_h x) = false -> Copy w rnd (mask s) x src t = lift (Copy w rnd s x src t).
Proof.
  intros N. unfold Copy. change (s_uid (mask s)) with (s_uid s). destruct (CopyObject _ _ _ _ _) as [[[rv t1] [[b o]|]]| |]; [|reflexivity..]. cbn [bind].
  cbv zeta; change (bump (mask s) 1) with (mask (bump s 1)). rewrite AddToSession_out by exact N. destruct (AddToSession _ _ _ _ _ _) as [[[c h] s1]| |]; reflexivity.
Qed.
Lemma GenKey_out rnd s x t k : A (ss_h x) = false -> GenKey w rnd (mask s) x t k = lift (GenKey w rnd s x t k).
Proof.
  intros N. unfold GenKey. change (s_uid (mask s)) with (s_uid s). destruct (NewObject _ _ _ _ _ _) as [[rv [o|]]| |]; [|reflexivity..]. cbn [bind].
  destruct (as_sym o) as [[l b]| |]; [|reflexivity..]. cbn [bind]. destruct (_ <? _)%Z; [reflexivity|]. cbv zeta.
  cbv zeta; change (bump (mask s) 1) with (mask (bump s 1)). rewrite AddObject_out by exact N. destruct (AddObject _ _ _ _ _ _) as [[[c h] s1]| |]; reflexivity.
Qed.
Lemma GenKeyPair_out rnd s x m tp tq g : A (ss_h x) = false -> GenKeyPair w rnd (mask s) x m tp tq g = lift (GenKeyPair w rnd s x m tp tq g).
Proof.
  intros N. unfold GenKeyPair. destruct (match m with KP_RSA => _ | KP_EC => _ | KP_DH => _ | KP_other => _ end) as [ty|]; [|reflexivity]. change (s_uid (mask s)) with (s_uid s).
  destruct (NewObject _ _ (s_uid s) _ _ _) as [[rv [pub|]]| |]; [|reflexivity..]. cbn [bind].
  destruct (NewObject _ _ (S (s_uid s)) _ _ _) as [[rv2 [priv|]]| |]; [|reflexivity..]. cbn [bind].
  match goal with |- bind ?r _ = _ => destruct r as [[[pub1 priv1]|]| |] end; [|reflexivity..]. cbn [bind].
  cbv zeta; change (bump (mask s) 2) with (mask (bump s 2)). rewrite AddObject_out by exact N. destruct (AddObject _ _ _ _ _ _) as [[[c h] s1]| |]; [|reflexivity..]. cbn [lift2 bind].
  destruct (negb _); [reflexivity|]. rewrite get_out by exact N. destruct (sess_get s1 _) as [x2|] eqn:G; [|reflexivity]. apply sess_get_in in G as (_ & E & _).
  rewrite AddObject_out by congruence. destruct (AddObject _ _ _ _ _ _) as [[[c4 h4] s4]| |]; [|reflexivity..]. cbn [lift2 bind]. destruct (_ =? _)%Z; reflexivity.
Qed.
Lemma Derive_out rnd s x m b sec t : A (ss_h x) = false -> Derive w rnd (mask s) x m b sec t = lift (Derive w rnd s x m b sec t).
Proof.
  intros N. unfold Derive. destruct m; [| |reflexivity];
  (match goal with |- bind ?r _ = _ => destruct r as [u| |] end; [|reflexivity..]; cbn [bind]; destruct sec as [sec|]; [|reflexivity]; change (s_uid (mask s)) with (s_uid s);
   destruct (CreateObject _ _ _ _) as [[rv [o|]]| |]; [|reflexivity..]; cbn [bind]; destruct (GetAttr _ _ _ _) as [[[c0 c1] d]| |]; [|reflexivity..]; cbn [bind];
   destruct (negb _); [reflexivity|]; cbv zeta; match goal with |- context [(if ?b then Undef _ else _)] => destruct b end; [reflexivity|];
   destruct (SetSecretKey _ _) as [[c2 o1]| |]; [|reflexivity..]; cbn [bind]; destruct (negb _); [reflexivity|];
   cbv zeta; change (bump (mask s) 1) with (mask (bump s 1)); rewrite AddObject_out by exact N; destruct (AddObject _ _ _ _ _ _) as [[[c h] s1]| |]; reflexivity).
Qed.
Lemma RemoveObject_mask rnd s x h o : A (ss_h x) = false \/ on_token h = true ->
  RemoveObject w rnd (mask s) (clr x) h o = match RemoveObject w rnd s x h o with Ok s1 => Ok (mask s1) | Err e => Err e | Undef u => Undef u end.
Proof.
  intros N. unfold RemoveObject. destruct (obj_free o); [|reflexivity..]. cbn [bind]. destruct (on_token h).
  - destruct (o_onTok o); [|reflexivity]. destruct (no_kind o); [reflexivity|]. cbv zeta.
    match goal with |- bind (store w rnd ?a) _ = match bind (store w rnd ?b) _ with _ => _ end => change a with (mask b) end.
    rewrite store_mask. destruct (store _ _ _) as [[c2 s1]| |]; reflexivity.
  - destruct N as [N|N]; [|discriminate]. rewrite clr_out by exact N. rewrite put_out by exact N. reflexivity.
Qed.
(** *** Which key an operation holds on to *)
Lemma op_step_cur ev objs st c st' r : c <> KReopen -> Ops.step ev objs st c = Ok (st', r) ->
  os_curr st' = os_curr st \/ exists u, with_key c u = Some c /\ os_curr st' = Some u.
Proof.
  intros NR H. destruct (call_cases c) as [(k & K)|[(k & K)| ->]]; [| |contradiction].
  - destruct (step_init_spec _ _ _ _ _ _ _ K H) as [_ [[R C]|[_ (E1 & _ & E3)]]]; [|left; exact E1].
    right. destruct c; try discriminate K; exists k0; (split; [reflexivity|]);
    cbn [Ops.step] in H; unfold init_call in H; (destruct (objs k0) as [ko|]; [|injection H as _ <-; discriminate R]);
    unfold C_EncryptInit, C_DecryptInit, C_SignInit, C_VerifyInit in H; destruct m;
    unfold rsa_noparam, oaep_init, pss_init, cbc_init, gcm_init, hmac_init, ecdsa_init, SetGcmParams in H; inv_step; inv_pair; first [discriminate R|reflexivity].
  - left. destruct (step_data_frame _ _ _ _ _ _ _ K H) as (F1 & _). exact F1.
Qed.
Lemma init_cur s x c o c0 x1 r : with_key c0 (o_uid o) = Some c -> run_init w s x c o = Ok (x1, r) ->
  x1 = set_op x (ss_op x1) /\ (os_curr (ss_op x1) = os_curr (ss_op x) \/ os_curr (ss_op x1) = Some (o_uid o)).
Proof.
  unfold run_init. intros K H. destruct (view _ _) as [ko| |]; cbn [bind] in H; try discriminate. destruct (Ops.step _ _ _ _) as [[p r1]| |] eqn:E; cbn [bind] in H; try discriminate. injection H as <- _.
  split; [reflexivity|]. cbn [set_op ss_op]. apply op_step_cur in E as [E|(u & B & E)]; [left; exact E| |destruct c0; try discriminate K; injection K as <-; discriminate].
  right. rewrite E. destruct c0; try discriminate K; injection K as <-; cbn in B; injection B as ->; reflexivity.
Qed.
Lemma cont_cur s x c x1 r : with_key c 0 = None -> c <> KReopen -> run_cont w s x c = Ok (x1, r) ->
  x1 = set_op x (ss_op x1) /\ os_curr (ss_op x1) = os_curr (ss_op x).
Proof.
  unfold run_cont. intros K NR H. match type of H with bind ?m _ = _ => destruct m as [k| |] end; cbn [bind] in H; try discriminate.
  destruct (Ops.step _ _ _ _) as [[p r1]| |] eqn:E; cbn [bind] in H; try discriminate. injection H as <- _. split; [reflexivity|]. cbn [set_op ss_op].
  apply op_step_cur in E as [E|(u & B & E)]; [exact E| |exact NR]. exfalso. destruct c; try discriminate K; discriminate B.
Qed.
Lemma stranger_keep s x x1 : stranger s x -> os_curr (ss_op x1) = os_curr (ss_op x) -> stranger s x1.
Proof. unfold stranger. intros J E u y. rewrite E. apply J. Qed.
Lemma reachable_key s x hk o : inv s -> In x (s_sess s) -> A (ss_h x) = false -> find_obj s x hk = Some o ->
  forall y, In y (s_sess s) -> A (ss_h y) = true -> ~ In (o_uid o) (uids (ss_objs y)).
Proof.
  intros I X Nx F y Y Ay. pose proof (inv_uniq s I) as U. destruct I as (_ & _ & [N _] & _). unfold live in N. rewrite SysProofs2.uids_app in N.
  unfold find_obj in F. destruct (on_token hk); apply find_some in F as [F _].
  - intros K. eapply nodup_split; [exact N|unfold uids; apply in_map; exact F|]. unfold uids in *. apply in_map_iff in K as (o' & <- & O'). apply in_map. eapply all_objs_in; eassumption.
  - apply (other_objs (s_sess s) x y); auto; [eapply nodup_r; exact N|congruence|unfold uids; apply in_map; exact F].
Qed.
Lemma stranger_init s x hk o x1 : inv s -> In x (s_sess s) -> A (ss_h x) = false -> find_obj s x hk = Some o -> stranger s x ->
  os_curr (ss_op x1) = os_curr (ss_op x) \/ os_curr (ss_op x1) = Some (o_uid o) -> stranger s x1.
Proof.
  intros I X Nx F J [E|E] u y C Y Ay; [apply (J u y); [congruence|exact Y|exact Ay]|]. rewrite E in C. injection C as <-. exact (reachable_key s x hk o I X Nx F y Y Ay).
Qed.
Lemma Wrap_out s x m mp hw wk k b : inv s -> In x (s_sess s) -> A (ss_h x) = false -> find_obj s x hw = Some wk -> stranger s x ->
  Wrap w (mask s) x m mp wk k b = lift (Wrap w s x m mp wk k b).
Proof.
  intros I X N F J. unfold Wrap. destruct (negb _); [reflexivity|]. destruct (as_rsa k) as [r| |]; [|reflexivity..]. cbn [bind]. destruct (w_p8 w r) as [c der].
  destruct (negb _); [reflexivity|]. destruct (negb _); [reflexivity|]. destruct (negb _); [reflexivity|]. change (run_init w (mask s)) with (run_init w s).
  destruct (run_init _ _ _ _ _) as [[x1 o1]| |] eqn:R; [|reflexivity..]. cbn [bind]. apply (init_cur _ _ _ _ (KEncryptInit m mp 0)) in R as [E1 R]; [|reflexivity].
  assert (N1 : A (ss_h x1) = false) by (rewrite E1; exact N). destruct (negb _); [rewrite put_out by exact N1; reflexivity|].
  rewrite run_cont_out by (eapply stranger_init; eassumption). destruct (run_cont _ _ _ _) as [[x2 o2]| |] eqn:R2; [|reflexivity..]. cbn [bind].
  apply cont_cur in R2 as [E2 _]; [|reflexivity|discriminate]. rewrite put_out by (rewrite E2; exact N1). reflexivity.
Qed.
Lemma Unwrap_out rnd s x m mp hu uk wr t : inv s -> In x (s_sess s) -> A (ss_h x) = false -> find_obj s x hu = Some uk -> stranger s x ->
  Unwrap w rnd (mask s) x m mp uk wr t = lift (Unwrap w rnd s x m mp uk wr t).
Proof.
  intros I X N F J. unfold Unwrap. destruct (negb _); [reflexivity|]. cbv zeta. destruct (find_last _ _) as [a|]; [|reflexivity]. destruct (tmpl_ulong a) as [kt|]; [|reflexivity].
  destruct (negb _); [reflexivity|]. destruct (find_last _ _) as [a2|]; [|reflexivity]. destruct (tmpl_ulong a2) as [cls|]; [|reflexivity].
  destruct (negb _); [reflexivity|]. destruct (negb _); [reflexivity|]. destruct (negb _); [reflexivity|]. change (run_init w (mask s)) with (run_init w s).
  destruct (run_init _ _ _ _ _) as [[x1 o1]| |] eqn:R; [|reflexivity..]. cbn [bind]. apply (init_cur _ _ _ _ (KDecryptInit m mp 0)) in R as [E1 R]; [|reflexivity].
  assert (N1 : A (ss_h x1) = false) by (rewrite E1; exact N). destruct (negb _); [rewrite put_out by exact N1; reflexivity|].
  rewrite run_cont_out by (eapply stranger_init; eassumption). destruct (run_cont _ _ _ _) as [[x2 o2]| |] eqn:R2; [|reflexivity..]. cbn [bind].
  apply cont_cur in R2 as [E2 _]; [|reflexivity|discriminate]. assert (N2 : A (ss_h x2) = false) by (rewrite E2; exact N1). rewrite put_out by exact N2.
  destruct (negb _); [reflexivity|]. change (s_uid (mask (put_sess s x2))) with (s_uid (put_sess s x2)).
  destruct (NewObject _ _ _ _ _ _) as [[rv [o|]]| |]; [|reflexivity..]. cbn [bind]. destruct (w_p8_dec w _) as [c r]. destruct (negb _); [reflexivity|].
  change (bump (mask (put_sess s x2)) 1) with (mask (bump (put_sess s x2) 1)). rewrite AddObject_out by exact N2. destruct (AddObject _ _ _ _ _ _) as [[[c4 h4] s4]| |]; reflexivity.
Qed.
Lemma sess_mask s h k k' : A h = false -> (forall x, sess_get s h = Some x -> k' x = lift (k x)) -> with_sess (mask s) h k' = lift (with_sess s h k).
Proof.
  intros N K. unfold with_sess, need_lib. change (s_count (mask s)) with (s_count s). destruct (0 <? s_count s)%Z; [|reflexivity]. rewrite get_out by exact N.
  destruct (sess_get s h) as [x|] eqn:G; [apply K; exact eq_refl|reflexivity].
Qed.
Lemma object_mask s x h e k k' : (forall o, find_obj s x h = Some o -> k' o = lift (k o)) -> with_object (mask s) x h e k' = lift (with_object s x h e k).
Proof. intros K. unfold with_object. change (find_obj (mask s)) with (find_obj s). destruct (find_obj s x h) as [o|] eqn:F; [apply K; exact eq_refl|reflexivity]. Qed.
Lemma rw_mask s x k k' : k' = lift k -> need_rw (mask s) x k' = lift (need_rw s x k).
Proof. intros K. unfold need_rw. destruct (is_rw x); [exact K|reflexivity]. Qed.
Theorem step_out rnd s c h : inv s -> objop c = Some h -> A h = false -> (forall x, sess_get s h = Some x -> stranger s x) ->
  step w rnd (mask s) c = lift (step w rnd s c).
Proof.
  intros I O N J. assert (X : forall x, sess_get s h = Some x -> In x (s_sess s) /\ A (ss_h x) = false).
  { intros x G. apply sess_get_in in G as (X & E & _). split; [exact X|congruence]. }
  destruct c; try discriminate O; injection O as ->; cbn [step]; apply sess_mask; try exact N; intros x G; destruct (X x G) as [Xi Nx]; specialize (J x G).
  - reflexivity.
  - apply rw_mask. apply Create_out. exact Nx.
  - apply rw_mask. apply object_mask. intros o _. apply Copy_out. exact Nx.
  - apply rw_mask. apply object_mask. intros o _. rewrite <- (clr_out x Nx) at 1. rewrite RemoveObject_mask by (left; exact Nx). destruct (RemoveObject _ _ _ _ _ _); reflexivity.
  - apply object_mask. intros o _. destruct (GetAttributeValue _ _ _) as [[rv t1]| |]; reflexivity.
  - apply rw_mask. apply object_mask. intros o _. destruct (SetAttributeValue _ _ _ _) as [[rv o1]| |]; [|reflexivity..]. cbn [bind]. rewrite put_obj_mask. reflexivity.
  - unfold FindInit. destruct (ss_find x); [reflexivity|]. change (s_tok (mask s)) with (s_tok s). destruct (find_last _ _); [destruct (tmpl_token t) as [b|]|].
    + cbv zeta. destruct (Find _ _ _ _ _); [|reflexivity..]. cbn [bind]. rewrite put_out by exact Nx. reflexivity.
    + rewrite put_out by exact Nx. reflexivity.
    + cbv zeta. destruct (Find _ _ _ _ _); [|reflexivity..]. cbn [bind]. rewrite put_out by exact Nx. reflexivity.
  - unfold FindNext. cbv zeta. rewrite put_out by exact Nx. reflexivity.
  - rewrite put_out by exact Nx. reflexivity.
  - destruct aes; [|reflexivity]. apply GenKey_out. exact Nx.
  - apply GenKeyPair_out. exact Nx.
  - apply rw_mask. apply object_mask. intros k _. apply object_mask. intros wk F. eapply Wrap_out; eassumption.
  - apply rw_mask. destruct (_ =? _)%Z; [reflexivity|]. apply object_mask. intros uk F. eapply Unwrap_out; eassumption.
  - apply object_mask. intros b _. apply Derive_out. exact Nx.
  - destruct (with_key c 0) as [c0|] eqn:K.
    + apply object_mask. intros o F. destruct (with_key c (o_uid o)) as [c1|] eqn:K1; [|reflexivity]. change (run_init w (mask s)) with (run_init w s).
      destruct (run_init _ _ _ _ _) as [[x1 r]| |] eqn:R; [|reflexivity..]. cbn [bind]. apply (init_cur _ _ _ _ c) in R as [E1 _]; [|exact K1]. rewrite put_out by (rewrite E1; exact Nx). reflexivity.
    + assert (Go : c <> KReopen -> ('(x1, r) <- run_cont w (mask s) x c;; Ok (put_sess (mask s) x1, OutC r)) = lift ('(x1, r) <- run_cont w s x c;; Ok (put_sess s x1, OutC r))).
      { intros NR. rewrite run_cont_out by exact J. destruct (run_cont _ _ _ _) as [[x1 r]| |] eqn:R; [|reflexivity..]. cbn [bind]. apply cont_cur in R as [E1 _]; [|exact K|exact NR]. rewrite put_out by (rewrite E1; exact Nx). reflexivity. }
      destruct c; try discriminate K; try reflexivity; apply Go; discriminate.
Qed.

(** ** The calls that concern the token and the sessions as such *)
Lemma sess_clr s h k k' : (forall x, sess_get s h = Some x -> k' (clr x) = lift (k x)) -> with_sess (mask s) h k' = lift (with_sess s h k).
Proof.
  intros K. unfold with_sess, need_lib. change (s_count (mask s)) with (s_count s). destruct (0 <? s_count s)%Z; [|reflexivity]. rewrite get_clr.
  destruct (sess_get s h) as [x|] eqn:G; [apply K; exact eq_refl|reflexivity].
Qed.
Lemma find_obj_tok s x h : on_token h = true -> find_obj s (clr x) h = find_obj s x h.
Proof. unfold find_obj. intros ->. reflexivity. Qed.
Lemma object_tok s x h e k k' : on_token h = true -> (forall o, k' o = lift (k o)) -> with_object (mask s) (clr x) h e k' = lift (with_object s x h e k).
Proof. intros T K. unfold with_object. change (find_obj (mask s)) with (find_obj s). rewrite find_obj_tok by exact T. destruct (find_obj s x h) as [o|]; [apply K|reflexivity]. Qed.
Lemma rw_clr s x k k' : k' = lift k -> need_rw (mask s) (clr x) k' = lift (need_rw s x k).
Proof. intros K. unfold need_rw. rewrite clr_rw. destruct (is_rw x); [exact K|reflexivity]. Qed.
Lemma GetState_clr t x : GetState t (clr x) = GetState t x.
Proof. unfold GetState. rewrite clr_use. reflexivity. Qed.
Lemma step_tok rnd s c h : objop c = Some h -> shared c -> step w rnd (mask s) c = lift (step w rnd s c).
Proof.
  intros O Sh. destruct c; try discriminate O; cbn [shared objop] in Sh; try discriminate Sh; injection O as ->; cbn [step]; apply sess_clr; intros x _.
  - rewrite GetState_clr, clr_rw. reflexivity.
  - apply rw_clr. unfold Create. rewrite clr_rw. change (s_uid (mask s)) with (s_uid s). destruct (CreateObject _ _ _ _) as [[rv [o|]]| |]; [|reflexivity..]. cbn [bind].
    cbv zeta. change (bump (mask s) 1) with (mask (bump s 1)). rewrite AddObject_tok by exact Sh. destruct (AddObject _ _ _ _ _ _) as [[[c h1] s1]| |]; reflexivity.
  - destruct Sh as [Lg Sh]. apply large_token in Lg. apply rw_clr. apply object_tok; [exact Lg|]. intros src. unfold Copy. rewrite clr_rw. change (s_uid (mask s)) with (s_uid s).
    destruct (CopyObject _ _ _ _ _) as [[[rv t1] [[b o]|]]| |] eqn:Cp; [|reflexivity..]. cbn [bind].
    assert (B : b <> 0%N). { unfold CopyObject in Cp. rewrite (lasting_token t Sh) in Cp. destruct (GetAttributeValue _ _ _) as [[rv0 t0]| |]; cbn [bind] in Cp; try discriminate.
      destruct (negb _); [discriminate|]. destruct (SetAttributeValue _ _ _ _) as [[rv2 o2]| |]; cbn [bind] in Cp; try discriminate. destruct (_ =? _)%Z; [|discriminate]. injection Cp as _ _ <- _. discriminate. }
    cbv zeta. change (bump (mask s) 1) with (mask (bump s 1)). rewrite AddToSession_tok by exact B. destruct (AddToSession _ _ _ _ _ _) as [[[c h1] s1]| |]; reflexivity.
  - apply large_token in Sh. apply rw_clr. apply object_tok; [exact Sh|]. intros o. rewrite RemoveObject_mask by (right; exact Sh). destruct (RemoveObject _ _ _ _ _ _); reflexivity.
  - apply large_token in Sh. apply object_tok; [exact Sh|]. intros o. destruct (GetAttributeValue _ _ _) as [[rv t1]| |]; reflexivity.
  - apply large_token in Sh. apply rw_clr. apply object_tok; [exact Sh|]. intros o. rewrite clr_rw. destruct (SetAttributeValue _ _ _ _) as [[rv o1]| |]; [|reflexivity..]. cbn [bind]. rewrite put_obj_mask. reflexivity.
  - destruct aes; [|reflexivity]. unfold GenKey. rewrite clr_rw. change (s_uid (mask s)) with (s_uid s). destruct (NewObject _ _ _ _ _ _) as [[rv [o|]]| |]; [|reflexivity..]. cbn [bind].
    destruct (as_sym o) as [[l b]| |]; [|reflexivity..]. cbn [bind]. destruct (_ <? _)%Z; [reflexivity|]. cbv zeta.
    change (bump (mask s) 1) with (mask (bump s 1)). rewrite AddObject_tok by exact Sh. destruct (AddObject _ _ _ _ _ _) as [[[c h1] s1]| |]; reflexivity.
  - destruct Sh as [S1 S2]. unfold GenKeyPair. rewrite clr_rw, clr_h. destruct (match m with KP_RSA => _ | KP_EC => _ | KP_DH => _ | KP_other => _ end) as [ty|]; [|reflexivity]. change (s_uid (mask s)) with (s_uid s).
    destruct (NewObject _ _ (s_uid s) _ _ _) as [[rv [pub|]]| |]; [|reflexivity..]. cbn [bind].
    destruct (NewObject _ _ (S (s_uid s)) _ _ _) as [[rv2 [priv|]]| |]; [|reflexivity..]. cbn [bind].
    match goal with |- bind ?r _ = _ => destruct r as [[[pub1 priv1]|]| |] end; [|reflexivity..]. cbn [bind]. cbv zeta.
    change (bump (mask s) 2) with (mask (bump s 2)). rewrite AddObject_tok by exact S1. destruct (AddObject _ _ _ _ _ _) as [[[c h1] s1]| |]; [|reflexivity..]. cbn [lift2 bind].
    destruct (negb _); [reflexivity|]. rewrite get_clr. destruct (sess_get s1 _) as [x2|]; [|reflexivity]. cbn [option_map].
    rewrite AddObject_tok by exact S2. destruct (AddObject _ _ _ _ _ _) as [[[c4 h4] s4]| |]; [|reflexivity..]. cbn [lift2 bind]. destruct (_ =? _)%Z; reflexivity.
  - destruct Sh as [Lg Sh]. apply large_token in Lg. apply object_tok; [exact Lg|]. intros b. unfold Derive. destruct m; [| |reflexivity];
    (match goal with |- bind ?r _ = _ => destruct r as [u| |] end; [|reflexivity..]; cbn [bind]; destruct secret as [sec|]; [|reflexivity]; rewrite clr_rw; change (s_uid (mask s)) with (s_uid s);
     destruct (CreateObject _ _ _ _) as [[rv [o|]]| |]; [|reflexivity..]; cbn [bind]; destruct (GetAttr _ _ _ _) as [[[c0 c1] d]| |]; [|reflexivity..]; cbn [bind];
     destruct (negb _); [reflexivity|]; cbv zeta; match goal with |- context [(if ?b then Undef _ else _)] => destruct b end; [reflexivity|];
     destruct (SetSecretKey _ _) as [[c2 o1]| |]; [|reflexivity..]; cbn [bind]; destruct (negb _); [reflexivity|];
     cbv zeta; change (bump (mask s) 1) with (mask (bump s 1)); rewrite AddObject_tok by exact Sh; destruct (AddObject _ _ _ _ _ _) as [[[c h1] s1]| |]; reflexivity).
Qed.

(** *** Opening and closing *)
Lemma clr_final x x' : sess_final x = Ok x' -> sess_final (clr x) = Ok (clr x').
Proof.
  unfold clr. intros H. assert (E : ss_h x' = ss_h x). { unfold sess_final in H. destruct (free_all _); cbn [bind] in H; try discriminate. destruct (op_session_final _); cbn [bind] in H; try discriminate. injection H as <-. reflexivity. }
  rewrite E. destruct (A (ss_h x)); [|exact H]. unfold sess_final in H. destruct (free_all _); cbn [bind] in H; try discriminate. destruct (op_session_final _); cbn [bind] in H; try discriminate. injection H as <-.
  unfold sess_final. cbn [blank ss_objs ss_op]. replace (if in_use (blank x) then [] else []) with (@nil obj) by (destruct (in_use _); reflexivity). reflexivity.
Qed.
Lemma clr_id x : sess_id (clr x) = sess_id x.
Proof. unfold sess_id. rewrite clr_h. reflexivity. Qed.
Lemma clr_drop_unused l l' : drop_unused l = Ok l' -> drop_unused (map clr l) = Ok (map clr l').
Proof.
  revert l'. induction l as [|x l IH]; intros l' H; cbn [drop_unused map] in *; [injection H as <-; reflexivity|]. rewrite clr_in_use, clr_id.
  destruct (andb _ _); [|injection H as <-; reflexivity]. destruct (sess_final x) as [x'| |] eqn:E; cbn [bind] in H; try discriminate. rewrite (clr_final _ _ E). cbn [bind]. auto.
Qed.
Lemma clr_close l x l' : close_sess l x = Ok l' -> close_sess (map clr l) (clr x) = Ok (map clr l').
Proof.
  unfold close_sess. intros H. destruct (sess_final x) as [x'| |] eqn:E; cbn [bind] in H; try discriminate. rewrite (clr_final _ _ E). cbn [bind].
  destruct l as [|y l]; cbn [map]; [injection H as <-; reflexivity|]. rewrite !clr_h, clr_id. destruct (andb _ _); [apply clr_drop_unused; exact H|].
  injection H as <-. f_equal. exact (upd_clr (y :: l) x').
Qed.
Lemma clr_drop_dyn l l' : drop_dyn l = Ok l' -> drop_dyn (map clr l) = Ok (map clr l').
Proof.
  revert l'. induction l as [|x l IH]; intros l' H; cbn [drop_dyn map] in *; [injection H as <-; reflexivity|]. rewrite clr_id.
  destruct (_ <? _)%Z; [|injection H as <-; reflexivity]. destruct (sess_final x) as [x'| |] eqn:E; cbn [bind] in H; try discriminate. rewrite (clr_final _ _ E). cbn [bind]. auto.
Qed.
Lemma clr_final_head n : forall l l', final_head n l = Ok l' -> final_head n (map clr l) = Ok (map clr l').
Proof.
  induction n as [|n IH]; intros l l' H; cbn [final_head] in *; [injection H as <-; reflexivity|]. destruct l as [|x l]; cbn [map]; [injection H as <-; reflexivity|].
  destruct (sess_final x) as [x'| |] eqn:E; cbn [bind] in H; try discriminate. rewrite (clr_final _ _ E). cbn [bind]. apply (IH (x' :: l)). exact H.
Qed.
Lemma clr_close_all l l' : close_all l = Ok l' -> close_all (map clr l) = Ok (map clr l').
Proof.
  unfold close_all. intros H. destruct (drop_dyn l) as [l1| |] eqn:E; cbn [bind] in H; try discriminate. rewrite (clr_drop_dyn _ _ E). cbn [bind]. rewrite map_length. apply clr_final_head. exact H.
Qed.
Lemma clr_final_all l : final_all l = Ok tt -> final_all (map clr l) = Ok tt.
Proof.
  induction l as [|x l IH]; cbn [final_all map]; intros H; [reflexivity|]. destruct (sess_final x) as [x'| |] eqn:E; cbn [bind] in H; try discriminate. rewrite (clr_final _ _ E). auto.
Qed.
Lemma existsb_clr f l : (forall x, f (clr x) = f x) -> existsb f (map clr l) = existsb f l.
Proof. intros E. induction l as [|x l IH]; [reflexivity|]. cbn. rewrite E, IH. reflexivity. Qed.
Lemma first_clr l : first_unused (map clr l) = option_map clr (first_unused l).
Proof. unfold first_unused. induction l as [|x l IH]; [reflexivity|]. cbn [map find]. rewrite clr_in_use. destruct (negb _); [reflexivity|exact IH]. Qed.
Lemma new_clr l : new_sess (map clr l) = new_sess l.
Proof. unfold new_sess. destruct l as [|x l]; [reflexivity|]. cbn [map]. rewrite clr_h. reflexivity. Qed.
Lemma clr_new l : clr (new_sess l) = new_sess l.
Proof. unfold clr. destruct (A _); reflexivity. Qed.
Lemma set_use_clr x u : set_use (clr x) u = clr (set_use x u).
Proof. unfold clr. cbn [set_use ss_h]. destruct (A _); reflexivity. Qed.
Lemma OpenSession_mask s fl : OpenSession (mask s) fl = lift (OpenSession s fl).
Proof.
  unfold OpenSession. change (s_tok (mask s)) with (s_tok s). change (s_sess (mask s)) with (map clr (s_sess s)). destruct (_ =? 0)%Z; [reflexivity|]. cbv zeta. destruct (andb _ _); [reflexivity|].
  assert (Put : forall l x m, put_sess (set_sess (mask s) (map clr l)) (set_use (clr x) m) = mask (put_sess (set_sess s l) (set_use x m))).
  { intros l x m. rewrite set_use_clr. rewrite <- put_clr. reflexivity. }
  rewrite first_clr. destruct (first_unused (s_sess s)) as [x|]; cbn [option_map].
  - rewrite Put, clr_h. reflexivity.
  - assert (Q : match map clr (s_sess s) with [] => false | x :: _ => (sess_id x =? SESSION_MAX)%Z end = match s_sess s with [] => false | x :: _ => (sess_id x =? SESSION_MAX)%Z end) by (destruct (s_sess s); cbn [map]; [reflexivity|rewrite clr_id; reflexivity]).
    rewrite Q. destruct (match s_sess s with [] => false | _ => _ end); [reflexivity|]. unfold add_sess. rewrite new_clr.
    replace (new_sess (s_sess s) :: map clr (s_sess s)) with (map clr (new_sess (s_sess s) :: s_sess s)) by (cbn [map]; rewrite clr_new; reflexivity).
    rewrite <- (clr_new (s_sess s)) at 2. rewrite Put. reflexivity.
Qed.
Lemma step_common rnd s c s' o : objop c = None -> step w rnd s c = Ok (s', o) -> step w rnd (mask s) c = Ok (mask s', o).
Proof.
  intros O H. destruct c; try discriminate O; cbn [step] in *.
  - unfold Initialize in *. change (s_count (mask s)) with (s_count s). destruct (_ =? 0)%Z; [|injection H as <- <-; reflexivity].
    change (s_fs (mask s)) with (s_fs s). change (s_uid (mask s)) with (s_uid s). destruct (Token_Load _ _ _) as [t| |]; cbn [bind] in *; try discriminate. injection H as <- <-. f_equal. f_equal.
    unfold mask. cbn [s_sess set_sess s_count s_tok s_fs s_log s_uid]. f_equal. cbn [add_sess map]. rewrite !clr_new. reflexivity.
  - unfold Finalize in *. change (s_count (mask s)) with (s_count s). destruct (_ =? 0)%Z; [|injection H as <- <-; reflexivity].
    rewrite store_mask. destruct (store w rnd s) as [[c1 s1]| |]; cbn [lift1 bind] in *; try discriminate. destruct (final_all (s_sess s1)) as [[]| |] eqn:F; cbn [bind] in *; try discriminate.
    change (s_sess (mask s1)) with (map clr (s_sess s1)). rewrite (clr_final_all _ F). cbn [bind]. change (s_tok (mask s1)) with (s_tok s1). destruct (free_all _); cbn [bind] in *; try discriminate. injection H as <- <-. reflexivity.
  - injection H as <- <-. reflexivity.
  - unfold with_slot, need_lib in *. change (s_count (mask s)) with (s_count s). destruct (0 <? _)%Z; [|unfold rv_ in *; injection H as <- <-; reflexivity]. destruct (slot_ok slot); [|unfold rv_ in *; injection H as <- <-; reflexivity].
    unfold InitToken in *. cbv zeta in *. change (s_tok (mask s)) with (s_tok s). change (s_sess (mask s)) with (map clr (s_sess s)). rewrite existsb_clr by (intros; apply clr_in_use).
    destruct (negb (pin_len_ok pin)); [unfold rv_ in *; injection H as <- <-; reflexivity|]. destruct (andb _ (existsb _ _)); [unfold rv_ in *; injection H as <- <-; reflexivity|].
    destruct (andb _ (negb _)); [unfold rv_ in *; injection H as <- <-; reflexivity|]. unfold TokenReset in *. change (s_tok (mask s)) with (s_tok s).
    destruct (free_all _); cbn [bind] in *; try discriminate. destruct (zlen label <? 32)%Z; [discriminate|]. unfold SetSOPin in *. cbv zeta in *.
    match type of H with bind (store w rnd ?b) _ = _ => match goal with |- bind (store w rnd ?a) _ = _ => change a with (mask b) end end. rewrite store_mask.
    destruct (store _ _ _) as [[c1 s1]| |]; cbn [lift1 bind] in *; try discriminate. unfold rv_ in *. injection H as <- <-. reflexivity.
  - transitivity (lift (with_sess s h (fun x => InitPIN w rnd s x pin))); [|rewrite H; reflexivity]. apply sess_clr. intros x _. unfold InitPIN. rewrite GetState_clr. change (s_tok (mask s)) with (s_tok s).
    destruct (negb _); [reflexivity|]. destruct (negb _); [reflexivity|]. unfold SetUserPin. cbv zeta. change (s_tok (mask s)) with (s_tok s).
    match goal with |- bind (store w rnd ?a) _ = lift (bind (store w rnd ?b) _) => change a with (mask b) end. rewrite store_mask. destruct (store _ _ _) as [[c1 s1]| |]; reflexivity.
  - transitivity (lift (with_sess s h (fun x => SetPIN w rnd s x old new))); [|rewrite H; reflexivity]. apply sess_clr. intros x _. unfold SetPIN. cbv zeta. rewrite GetState_clr. change (s_tok (mask s)) with (s_tok s).
    destruct (negb _); [reflexivity|]. destruct (negb _); [reflexivity|]. destruct (negb _); [reflexivity|]. destruct (_ =? PIN_NOT_SET_E)%Z; [reflexivity|]. destruct (negb _); [reflexivity|].
    destruct (_ =? RW_SO)%Z; unfold SetSOPin, SetUserPin; cbv zeta; change (s_tok (mask s)) with (s_tok s);
    (match goal with |- bind (store w rnd ?a) _ = lift (bind (store w rnd ?b) _) => change a with (mask b) end; rewrite store_mask; destruct (store _ _ _) as [[c1 s1]| |]; reflexivity).
  - unfold with_slot, need_lib in *. change (s_count (mask s)) with (s_count s). destruct (0 <? _)%Z; [|unfold rv_ in *; injection H as <- <-; reflexivity]. destruct (slot_ok slot); [|unfold rv_ in *; injection H as <- <-; reflexivity].
    rewrite OpenSession_mask, H. reflexivity.
  - unfold with_sess, need_lib in *. change (s_count (mask s)) with (s_count s). destruct (0 <? _)%Z; [|unfold rv_ in *; injection H as <- <-; reflexivity]. rewrite get_clr. destruct (sess_get s h) as [x|]; cbn [option_map]; [|unfold rv_ in *; injection H as <- <-; reflexivity].
    unfold CloseSession in *. change (s_sess (mask s)) with (map clr (s_sess s)). destruct (close_sess _ _) as [l| |] eqn:C; cbn [bind] in H; try discriminate. rewrite (clr_close _ _ _ C). cbn [bind]. cbv zeta in *.
    rewrite existsb_clr by (intros; apply clr_in_use). destruct (existsb _ _); [unfold rv_ in *; injection H as <- <-; reflexivity|]. cbn [set_sess s_tok] in *. destruct (Logout _ _); cbn [bind] in *; try discriminate. unfold rv_ in *. injection H as <- <-. reflexivity.
  - unfold with_slot, need_lib in *. change (s_count (mask s)) with (s_count s). destruct (0 <? _)%Z; [|unfold rv_ in *; injection H as <- <-; reflexivity]. destruct (slot_ok slot); [|unfold rv_ in *; injection H as <- <-; reflexivity].
    change (s_sess (mask s)) with (map clr (s_sess s)). destruct (close_all _) as [l| |] eqn:C; cbn [bind] in H; try discriminate. rewrite (clr_close_all _ _ C). cbn [bind]. unfold rv_ in *. injection H as <- <-. reflexivity.
  - transitivity (lift (with_sess s h (fun _ => Login w s ut pin now))); [|rewrite H; reflexivity]. apply sess_clr. intros x _. unfold Login. change (s_tok (mask s)) with (s_tok s). change (s_sess (mask s)) with (map clr (s_sess s)).
    destruct (negb _); [reflexivity|]. destruct (ut =? CKU_SO)%Z.
    + assert (E : SOLogin w (map clr (s_sess s)) (s_tok s) pin now = SOLogin w (s_sess s) (s_tok s) pin now) by (unfold SOLogin; rewrite existsb_clr by (intros y; rewrite clr_use; reflexivity); reflexivity).
      rewrite E. clear E. destruct (SOLogin w (s_sess s) (s_tok s) pin now) as [c t]. reflexivity.
    + destruct (ut =? CKU_USER)%Z; [|destruct (_ =? _)%Z; reflexivity]. destruct (UserLogin _ _ _ _) as [[c t]| |]; reflexivity.
  - transitivity (lift (with_sess s h (fun _ => t <- Logout w (s_tok s);; rv_ (set_tok s t) CKR_OK))); [|rewrite H; reflexivity]. apply sess_clr. intros x _. change (s_tok (mask s)) with (s_tok s). destruct (Logout _ _); reflexivity.
  - unfold with_slot, need_lib in *. change (s_count (mask s)) with (s_count s). destruct (0 <? _)%Z; [|unfold rv_ in *; injection H as <- <-; reflexivity]. destruct (slot_ok slot); [|unfold rv_ in *; injection H as <- <-; reflexivity].
    injection H as <- <-. reflexivity.
Qed.
End W.
End A.
