(** What the calls write: every storage operation belongs to one store of the
    whole token or truncates the files of one object. *)
From Verif Require Import Base Codec CodecProofs Ops Object Store StoreSpec StoreProofs Sys SysProofs SysProofs2 SysProofs3 SysProofs4 WfProofs CrashProofs.

Section W.
Variable w : world.
Hypothesis hash32 : forall p s, length (se_hash (w_se w) p s) = 32%nat.
Notation se := (w_se w).

(** [P]: the tokens that may be stored. *)
Inductive chunks (P : token -> Prop) : list wop -> Prop :=
  | ck_nil : chunks P []
  | ck_un id o ws : chunks P ws -> chunks P (Unstore id o ++ ws)
  | ck_store r t c t' ws1 ws : P t -> Token_Store se r t = Ok (c, t', ws1) -> chunks P ws -> chunks P (ws1 ++ ws).
Lemma chunks_app P a b : chunks P a -> chunks P b -> chunks P (a ++ b).
Proof.
  induction 1 as [|id o ws C IH|r t c t' ws1 ws p T C IH]; intros B; [exact B| |].
  - rewrite <- app_assoc. apply ck_un. auto.
  - rewrite <- app_assoc. eapply ck_store; eauto.
Qed.
Lemma chunks_impl (P Q : token -> Prop) a : (forall t, P t -> Q t) -> chunks P a -> chunks Q a.
Proof. intros I. induction 1; [constructor|constructor; auto|econstructor; eauto]. Qed.

Definition wrote (P : token -> Prop) (s s' : sys) : Prop :=
  exists ws, s_log s' = s_log s ++ ws /\ s_fs s' = apply (s_fs s) ws /\ chunks P ws.
Lemma wrote_none P s s' : s_log s' = s_log s -> s_fs s' = s_fs s -> wrote P s s'.
Proof. intros A B. exists []. rewrite A, B, app_nil_r. split; [reflexivity|]. split; [reflexivity|constructor]. Qed.
Lemma wrote_trans P a b c : wrote P a b -> wrote P b c -> wrote P a c.
Proof.
  intros (x & A1 & A2 & A3) (y & B1 & B2 & B3). exists (x ++ y). rewrite B1, A1, B2, A2, app_assoc. split; [reflexivity|].
  split; [unfold apply; rewrite fold_left_app; reflexivity|]. apply chunks_app; assumption.
Qed.
Lemma wrote_impl (P Q : token -> Prop) a b : (forall t, P t -> Q t) -> wrote P a b -> wrote Q a b.
Proof. intros I (x & A & B & C). exists x. split; [exact A|]. split; [exact B|]. eapply chunks_impl; eauto. Qed.
Lemma store_wrote (P : token -> Prop) rnd s c s' : P (s_tok s) -> store w rnd s = Ok (c, s') -> wrote P s s'.
Proof.
  unfold store. intros p H. destruct (Token_Store _ _ _) as [[[c1 t] ws]| |] eqn:T; cbn [bind] in H; try discriminate. injection H as _ <-.
  exists ws. split; [reflexivity|]. split; [reflexivity|]. rewrite <- (app_nil_r ws). eapply ck_store; [exact p|exact T|constructor].
Qed.

(** The PIN state, label and seed of a token. *)
Definition stored_tok (a b : token) (t : token) : Prop := ginv t /\ (tok0 t = tok0 a \/ tok0 t = tok0 b).
Lemma prim_wrote cl h s s' : inv s -> ginv (s_tok s) -> prim w cl h s s' -> wrote (fun t => ginv t /\ tok0 t = tok0 (s_tok s)) s s'.
Proof.
  intros I G P. destruct P as [s x x' X U Hx Hx' Us Ob|s n|s x rnd c s' X R Hx St|s x o X R Hx Q Ul Uf Ho Ot M|s x b o X R Hx Q Ul Uf Nb Ho Ot M|s x o X R Hx Io|s x o X R Hx Io Ot|s x o o' X R Hx Io Sid M];
  try (apply wrote_none; reflexivity).
  - eapply store_wrote; [|exact St]. split; [exact G|reflexivity].
  - exists (Unstore (behind (o_uid o) (t_objs (s_tok s))) o). split; [reflexivity|]. split; [reflexivity|]. rewrite <- (app_nil_r (Unstore _ _)). apply ck_un. constructor.
Qed.
Lemma prims_wrote cl h s s' : inv s -> ginv (s_tok s) -> prims w cl h s s' -> wrote (fun t => ginv t /\ tok0 t = tok0 (s_tok s)) s s'.
Proof.
  intros I G P. induction P as [s|s s1 s2 P Ps IH]; [apply wrote_none; reflexivity|].
  eapply wrote_trans; [eapply prim_wrote; eauto|]. assert (I1 : inv s1) by exact (prim_inv _ _ _ _ _ P I).
  assert (G1 : ginv (s_tok s1)) by exact (prim_ginv _ _ _ _ _ I G P).
  eapply wrote_impl; [|apply IH; assumption]. cbn. intros t [A B]. split; [exact A|]. rewrite B.
  assert (Q : quiet s s1) by (eapply prim_quiet; [exact P|apply inv_uniq; exact I]). symmetry. destruct Q as (_ & _ & Q). symmetry. exact Q.
Qed.
Lemma SetSOPin_wrote rnd s new c s' : ginv (s_tok s) -> SetSOPin w rnd s new = Ok (c, s') -> wrote (fun t => ginv t /\ tok0 t = tok0 (s_tok s')) s s'.
Proof.
  unfold SetSOPin. intros G H. pose proof (store_frame _ _ _ _ _ H) as (_ & _ & _ & T & _).
  refine (store_wrote _ _ _ _ _ _ H). split; [|symmetry; exact T].
  apply ginv_so; [exact G|]. apply hash_pinv; [exact hash32|apply rbytes_len].
Qed.
Lemma SetUserPin_wrote rnd s new c s' : ginv (s_tok s) -> SetUserPin w rnd s new = Ok (c, s') -> wrote (fun t => ginv t /\ tok0 t = tok0 (s_tok s')) s s'.
Proof.
  unfold SetUserPin. intros G H. pose proof (store_frame _ _ _ _ _ H) as (_ & _ & _ & T & _).
  refine (store_wrote _ _ _ _ _ _ H). split; [|symmetry; exact T].
  apply ginv_key, ginv_seed; [|apply rbytes_len]. apply ginv_user; [exact G|]. apply hash_pinv; [exact hash32|apply rbytes_len].
Qed.
(** Every call stores only tokens whose PIN state is the one in memory before
    or after the call. *)
Theorem step_wrote rnd s c s' o : inv s -> ginv (s_tok s) -> step w rnd s c = Ok (s', o) -> wrote (stored_tok (s_tok s) (s_tok s')) s s'.
Proof.
  intros I G H. destruct (objop c) as [h|] eqn:O.
  { eapply wrote_impl; [|eapply prims_wrote; [exact I|exact G|eapply objop_prims; eauto]]. intros t [A B]. split; auto. }
  assert (N : forall P, wrote P s s) by (intros P; apply wrote_none; reflexivity).
  assert (R : forall P, wrote (fun t => ginv t /\ tok0 t = tok0 P) s s' -> wrote (stored_tok (s_tok s) P) s s').
  { intros P. apply wrote_impl. intros t [A B]. split; auto. }
  destruct c; try discriminate O; cbn [step] in H; unfold with_slot, with_sess, need_lib in H.
  - unfold Initialize in H. destruct (_ =? 0)%Z; [|injection H as <- _; apply wrote_none; reflexivity].
    destruct (Token_Load _ _ _) as [t| |] eqn:L; cbn [bind] in H; try discriminate. injection H as <- _. apply wrote_none; reflexivity.
  - unfold Finalize in H. destruct (_ =? 0)%Z; [|injection H as <- _; apply wrote_none; reflexivity].
    destruct (store w rnd s) as [[c1 s1]| |] eqn:St; cbn [bind] in H; try discriminate.
    destruct (final_all _); cbn [bind] in H; try discriminate. destruct (free_all _); cbn [bind] in H; try discriminate. injection H as <- _.
    destruct (store_wrote (fun t => ginv t /\ tok0 t = tok0 (s_tok s)) _ _ _ _ (conj G eq_refl) St) as (ws & A & B & C).
    exists ws. split; [exact A|]. split; [exact B|]. eapply chunks_impl; [|exact C]. intros t [D E]. split; auto.
  - injection H as <- _. apply wrote_none; reflexivity.
  - destruct (0 <? _)%Z; [|sinv; apply N]. destruct (slot_ok slot); [|sinv; apply N]. unfold InitToken in H.
    repeat match type of H with (if ?b then rv_ _ _ else _) = _ => destruct b; [sinv; apply N|] end.
    destruct (TokenReset _ _ _ _ _) as [[c s1]| |] eqn:T; cbn [bind] in H; try discriminate. unfold rv_ in H. injection H as <- _.
    unfold TokenReset in T. destruct (free_all _); cbn [bind] in T; try discriminate. destruct (zlen label <? 32)%Z eqn:LL; [discriminate|].
    apply SetSOPin_wrote in T; [|cbn [set_tok s_tok]; split; [cbn [tok_init t_label]; rewrite firstn_length; unfold zlen in LL; lia|];
    split; [apply pin0_pinv|]; split; [apply pin0_pinv|]; split; [reflexivity|]; split; [reflexivity|constructor]].
    destruct T as (ws & A & B & C). apply R. exists ws. auto.
  - destruct (0 <? _)%Z; [|sinv; apply N]. destruct (sess_get s h); [|sinv; apply N]. unfold InitPIN in H.
    repeat match type of H with (if ?b then rv_ _ _ else _) = _ => destruct b; [sinv; apply N|] end.
    destruct (SetUserPin _ _ _ _) as [[c s1]| |] eqn:T; cbn [bind] in H; try discriminate. unfold rv_ in H. injection H as <- _.
    apply R. eapply SetUserPin_wrote; eauto.
  - destruct (0 <? _)%Z; [|sinv; apply N]. destruct (sess_get s h); [|sinv; apply N]. unfold SetPIN in H. cbv zeta in H.
    repeat match type of H with (if ?b then rv_ _ _ else _) = _ => destruct b; [sinv; apply N|] end.
    match type of H with bind ?r _ = _ => destruct r as [[c s1]| |] eqn:T end; cbn [bind] in H; try discriminate.
    unfold rv_ in H. injection H as <- _. apply R. destruct (_ =? _)%Z; [eapply SetSOPin_wrote; eauto|eapply SetUserPin_wrote; eauto].
  - destruct (0 <? s_count s)%Z eqn:Cn; [|sinv; apply N]. destruct (slot_ok slot); [|sinv; apply N]. 
    apply OpenSession_ok in H as [[-> _] | (l & x & P)]; [apply N| |exact I|lia]. cbv zeta in P. destruct P as (-> & _). apply wrote_none; reflexivity.
  - destruct (0 <? _)%Z; [|sinv; apply N]. destruct (sess_get s h) as [x|]; [|sinv; apply N]. unfold CloseSession in H.
    destruct (close_sess _ _) as [l| |]; cbn [bind] in H; try discriminate. destruct (existsb in_use l); [sinv; apply wrote_none; reflexivity|].
    destruct (Logout _ _) as [t| |] eqn:L; cbn [bind] in H; try discriminate. unfold rv_ in H. injection H as <- _. apply wrote_none; reflexivity.
  - destruct (0 <? _)%Z; [|sinv; apply N]. destruct (slot_ok slot); [|sinv; apply N]. destruct (close_all _); cbn [bind] in H; try discriminate.
    unfold rv_ in H. injection H as <- _. apply wrote_none; reflexivity.
  - destruct (0 <? _)%Z; [|sinv; apply N]. destruct (sess_get s h) as [x|]; [|sinv; apply N]. unfold Login in H. destruct (negb _); [sinv; apply N|].
    destruct (ut =? CKU_SO)%Z; [|destruct (ut =? CKU_USER)%Z; [|destruct (ut =? CKU_CONTEXT_SPECIFIC)%Z; sinv; apply N]].
    + destruct (SOLogin _ _ _ _ _) as [c t] eqn:L. unfold rv_ in H. injection H as <- _. apply wrote_none; reflexivity.
    + destruct (UserLogin _ _ _ _) as [[c t]| |] eqn:L; cbn [bind] in H; try discriminate. unfold rv_ in H. injection H as <- _. apply wrote_none; reflexivity.
  - destruct (0 <? _)%Z; [|sinv; apply N]. destruct (sess_get s h) as [x|]; [|sinv; apply N].
    destruct (Logout _ _) as [t| |] eqn:L; cbn [bind] in H; try discriminate. unfold rv_ in H. injection H as <- _. apply wrote_none; reflexivity.
  - destruct (0 <? _)%Z; [|sinv; apply N]. destruct (slot_ok slot); sinv; apply N.
Qed.

(** ** The token file of a token with any objects *)
Lemma tok_rt' t : ginv t -> fits_pin (t_so t) -> fits_pin (t_user t) -> exists b, tok_header t = Ok b /\ b <> [] /\ forall r,
  read_tok_file (b ++ r) = Ok (mkTF (t_label t) (norm_pin (t_so t)) (norm_pin (t_user t)) (t_seed t) (map o_type (t_objs t)), r).
Proof.
  intros (G1 & G2 & G3 & G4 & G5 & G6) F1 F2. set (l := map (fun o => obj_new 0 (o_type o)) (t_objs t)).
  assert (W : wf_tok (set_objs t l)).
  { assert (P : forall p, pinv p -> fits_pin p -> wf_pin p) by (intros q (A1 & A2 & A3) (B1 & B2 & B3); repeat split; try assumption; lia).
    unfold wf_tok. cbn [set_objs t_label t_so t_user t_seed t_objs]. split; [exact G1|]. split; [auto|]. split; [auto|]. split; [exact G4|].
    split; [unfold l, zlen in *; rewrite map_length; exact G5|]. unfold l. apply Forall_map. eapply Forall_impl; [|exact G6]. intros o Oi. pose proof (new_oinv 0 (o_type o)) as N.
    assert (T : u64r (o_type o)) by (unfold oinv in Oi; tauto). specialize (N T). unfold oinv, u64r, u32r in N. cbn in N. unfold wf_obj. cbn. unfold u64r in T.
    repeat split; try reflexivity; try lia; apply T. }
  destruct (tok_rt _ W) as (b & Hb & Rb). exists b. split; [|split].
  - rewrite <- Hb. unfold tok_header. cbn [set_objs t_label t_so t_user t_seed t_objs]. unfold l, zlen. rewrite map_length.
    replace (flat_map (fun o => w_ulong (o_type o)) (map (fun o => obj_new 0 (o_type o)) (t_objs t))) with (flat_map (fun o => w_ulong (o_type o)) (t_objs t)); [reflexivity|].
    clear. induction (t_objs t) as [|o r IH]; cbn [map flat_map]; [reflexivity|]. rewrite IH. reflexivity.
  - intros ->. specialize (Rb []). vm_compute in Rb. discriminate.
  - intros r. rewrite Rb. cbn [set_objs t_label t_so t_user t_seed t_objs]. f_equal. f_equal. f_equal. unfold l. rewrite map_map. reflexivity.
Qed.

(** ** Crashes *)
Lemma crash_app d a b d' : crash d (a ++ b) d' -> crash d a d' \/ crash (apply d a) b d'.
Proof.
  revert d. induction a as [|x a IH]; cbn [app]; intros d C; [right; exact C|].
  inversion C as [l|f bb k l|y l d1 C1]; subst; [left; constructor|left; constructor|].
  destruct (IH _ C1) as [D|D]; [left; constructor; exact D|right; exact D].
Qed.
Lemma apply_tok_store r t c t' ws d : Token_Store se r t = Ok (c, t', ws) -> exists h, tok_header t = Ok h /\ apply d ws (F_TOKEN, 0%nat) = Some h.
Proof.
  intros T. apply Token_Store_ops in T as (h & rest & Hh & -> & F). exists h. split; [exact Hh|].
  change (apply d (?a :: ?b :: rest)) with (apply (apply d [a; b]) rest).
  rewrite apply_other; [cbn [apply fold_left apply1]; rewrite !fs_set_same; reflexivity|].
  intros x J E. rewrite Forall_forall in F. destruct (F _ J) as [A _]. apply A. rewrite E. reflexivity.
Qed.
(** After a crash the token file is the old one, a strict prefix of a header that
    was being written, or such a header. *)
Lemma chunks_crash P ws : chunks P ws -> forall d d', crash d ws d' ->
  d' (F_TOKEN, 0%nat) = d (F_TOKEN, 0%nat) \/ exists t h k, P t /\ tok_header t = Ok h /\ d' (F_TOKEN, 0%nat) = Some (firstn k h).
Proof.
  assert (U : forall id o, Forall (fun w => wname w <> (F_TOKEN, 0%nat)) (Unstore id o)).
  { intros id o. unfold Unstore. constructor; [discriminate|]. destruct (key_kind o) as [k|] eqn:K; constructor; [|constructor].
    apply key_kind_not in K as [K _]. cbn. congruence. }
  induction 1 as [|id o ws C IH|r t c t' ws1 ws p T C IH]; intros d d' Cr.
  - inversion Cr. left. reflexivity.
  - apply crash_app in Cr. destruct Cr as [Cr|Cr].
    + left. eapply crash_other; [exact Cr|apply U].
    + specialize (IH _ _ Cr). rewrite apply_other in IH; [exact IH|]. specialize (U id o). rewrite Forall_forall in U. exact U.
  - apply crash_app in Cr. destruct Cr as [Cr|Cr].
    + apply Token_Store_ops in T as (h & rest & Hh & -> & F). apply crash_token in Cr; [|eapply Forall_impl; [|exact F]; cbn; tauto].
      destruct Cr as [-> | [(k & K & E) | [E | [E Hn]]]]; [auto|right; exists t, h, k; auto|right; exists t, h, (length h); rewrite firstn_all; auto|].
      right. exists t, h, 0%nat. auto.
    + destruct (apply_tok_store _ _ _ _ _ d T) as (h & Hh & A). destruct (IH _ _ Cr) as [E|E]; [|right; exact E].
      right. exists t, h, (length h). rewrite firstn_all, E, A. auto.
Qed.
(** The label, PIN state and seed of a token, as far as they are stored. *)
Definition head (t : token) := (t_label t, pin_view (t_so t), pin_view (t_user t), t_seed t).
Lemma norm_view p : pinv p -> fits_pin p -> pin_view (norm_pin p) = pin_view p.
Proof.
  intros (A1 & A2 & A3) _. unfold pin_view, norm_pin. cbn [p_hash p_len p_seed p_fail p_last p_tmo]. f_equal. f_equal. f_equal. f_equal. f_equal.
  set (h := firstn _ (p_hash p)). assert (Q : Z.to_nat (p_len p) = length h) by (unfold h; rewrite firstn_length; lia). rewrite Q. unfold overlay.
  rewrite firstn_app, firstn_all, Nat.sub_diag, firstn_O, app_nil_r. reflexivity.
Qed.
Lemma tok_file_load d uid tl f : Token_Load se d uid = Ok tl -> d (F_TOKEN, 0%nat) = Some f ->
  tl = tok_init (zeros 32) \/ exists tf r, read_tok_file f = Ok (tf, r) /\ t_label tl = tf_label tf /\ t_so tl = tf_so tf /\ t_user tl = tf_user tf /\
    t_seed tl = tf_seed tf /\ t_init tl = true /\ map o_type (t_objs tl) = tf_types tf.
Proof.
  intros L E. unfold Token_Load in L. rewrite E in L. unfold load_all in L. destruct (read_tok_file f) as [[tf r]| |]; cbn [bind] in L; try discriminate; [|injection L as <-; auto].
  destruct (load_objs _ _ _ _) as [l| |] eqn:Lo; cbn [bind] in L; try discriminate; [|injection L as <-; auto]. injection L as <-. right. exists tf, r. cbn.
  apply load_objs_types in Lo. auto 10.
Qed.
(** The same, read from the token file. *)
Definition file_head (d : fs) :=
  match d (F_TOKEN, 0%nat) with
  | Some f => match read_tok_file f with
              | Ok (tf, _) => Some (tf_label tf, pin_view (tf_so tf), pin_view (tf_user tf), tf_seed tf)
              | _ => None end
  | None => None
  end.
Theorem step_crash rnd s c s' o ws d' uid tcr : inv s -> ginv (s_tok s) ->
  fits_pin (t_so (s_tok s)) -> fits_pin (t_user (s_tok s)) -> fits_pin (t_so (s_tok s')) -> fits_pin (t_user (s_tok s')) ->
  step w rnd s c = Ok (s', o) -> s_log s' = s_log s ++ ws -> crash (s_fs s) ws d' -> Token_Load se d' uid = Ok tcr ->
  (s_fs s (F_TOKEN, 0%nat) = None /\ tcr = tok_fresh) \/ file_head (s_fs s) = Some (head tcr) \/
  head tcr = head (s_tok s) \/ head tcr = head (s_tok s') \/ tcr = tok_init (zeros 32).
Proof.
  intros I G F1 F2 F3 F4 H Lg Cr Lc. destruct (step_wrote _ _ _ _ _ I G H) as (ws' & A & _ & C). rewrite Lg in A. apply app_inv_head in A. subst ws'.
  destruct (chunks_crash _ _ C _ _ Cr) as [E | (t & h & k & (Gt & T) & Hh & E)].
  - destruct (s_fs s (F_TOKEN, 0%nat)) as [f|] eqn:Ef; [|left; unfold Token_Load in Lc; rewrite E in Lc; injection Lc as <-; auto].
    destruct (tok_file_load _ _ _ _ Lc E) as [-> | (tf & r & R & X1 & X2 & X3 & X4 & _)]; [auto 6|].
    right. left. unfold file_head. rewrite Ef, R. unfold head. rewrite X1, X2, X3, X4. reflexivity.
  - assert (Ft : fits_pin (t_so t) /\ fits_pin (t_user t)).
    { destruct T as [T|T]; apply tok0_eq in T as (_ & _ & T3 & T4 & _); rewrite T3, T4; auto. }
    destruct Ft as [Ft1 Ft2]. destruct (tok_rt' t Gt Ft1 Ft2) as (h' & Hh' & _ & Rt). rewrite Hh in Hh'. injection Hh' as <-.
    destruct (tok_file_load _ _ _ _ Lc E) as [-> | (tf & r & R & X1 & X2 & X3 & X4 & _)]; [auto 6|].
    specialize (Rt []). rewrite app_nil_r in Rt. destruct (Nat.ltb_spec k (length h)) as [K|K].
    + destruct (good_prefix _ _ _ tok_good Rt k K) as (e & Er). rewrite Er in R. discriminate.
    + rewrite firstn_all2 in R by exact K. rewrite Rt in R. injection R as <- _. cbn in X1, X2, X3, X4.
      assert (Hd : head tcr = head t).
      { unfold head. rewrite X1, X2, X3, X4. destruct Gt as (_ & P1 & P2 & _). rewrite !norm_view by assumption. reflexivity. }
      right. right. rewrite Hd. unfold head. destruct T as [T|T]; apply tok0_eq in T as (T1 & _ & T3 & T4 & T5 & _); rewrite T1, T3, T4, T5; auto.
Qed.
End W.
