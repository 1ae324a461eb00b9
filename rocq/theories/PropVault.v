(** C126: PINs survive restarts, in every history: the reference machine of Vault.v. *)
From Verif Require Import Base Codec Ops Object ObjectProofs Store StoreSpec StoreProofs Sys SysProofs SysProofs2 SysProofs3 SysProofs4 WfProofs LoginProofs RvProofs KeyProofs ToySys PropSys1 PropSys2 PropSys3
  PropStore Device DeviceProofs PropDevice Guard PropGuard Vault.
From Verif Require DurableProofs PropArchive.
Notation tidy := DurableProofs.tidy.
Notation saved := DurableProofs.saved.
Notation lib_op := DurableProofs.lib_op.
Notation pin_lasting := DurableProofs.pin_lasting.

Definition counters (p : pin) : Z * Z * Z := (p_fail p, p_last p, p_tmo p).
(** A token that is not initialised has no PINs. *)
Definition virgin (t : token) : Prop := t_init t = false -> forall r, p_len (pin_of r t) = 0%Z.
Definition pins_last (t t' : token) : Prop := t_init t' = t_init t /\ forall r, pin_lasting (pin_of r t') = pin_lasting (pin_of r t).
Lemma pins_last_refl t t' : t_init t' = t_init t -> t_so t' = t_so t -> t_user t' = t_user t -> pins_last t t'.
Proof. intros A B C. split; [exact A|]. intros []; cbn [pin_of]; congruence. Qed.
Lemma lasting_pins t t' : DurableProofs.lasting t' = DurableProofs.lasting t -> pins_last t t'.
Proof. unfold DurableProofs.lasting. intros E. injection E as E1 E2 E3 E4 E5 E6. intros. split; [assumption|]. intros []; cbn [pin_of]; unfold pin_lasting; congruence. Qed.
Lemma virgin_last t t' : virgin t -> pins_last t t' -> virgin t'.
Proof. intros V [A B] F r. rewrite A in F. specialize (V F r). specialize (B r). unfold pin_lasting in B. congruence. Qed.

Section W.
Variable w : world.
Notation se := (w_se w).
(** ** What calls do to the files *)
Lemma fs_same rnd s c s' o : lib_op c = false -> may_store c = false -> match c with OInitToken _ _ _ | OInitPIN _ _ | OSetPIN _ _ _ => False | _ => True end ->
  step w rnd s c = Ok (s', o) -> s_fs s' = s_fs s.
Proof.
  intros Lo M P E. destruct c; try discriminate Lo; try discriminate M; try contradiction; cbn [step] in E; unfold with_slot, with_sess, need_lib in E; (destruct (0 <? s_count s)%Z; [|sinv; reflexivity]).
  all: try (destruct (slot_ok slot); [|sinv; reflexivity]). all: try (destruct (sess_get s h) as [x|]; [|sinv; reflexivity]).
  - unfold OpenSession in E. cbv zeta in E. sinv; reflexivity.
  - unfold CloseSession in E. sinv; reflexivity.
  - sinv; reflexivity.
  - sinv; reflexivity.
  - unfold Login in E. sinv; reflexivity.
  - sinv; reflexivity.
  - sinv; reflexivity.
  - unfold with_object in E. sinv; reflexivity.
  - unfold need_rw, with_object in E. sinv; reflexivity.
  - unfold FindInit in E. sinv; reflexivity.
  - unfold FindNext in E. sinv; reflexivity.
  - sinv; reflexivity.
  - unfold need_rw, with_object, Wrap in E. sinv; reflexivity.
  - unfold with_object in E. sinv; reflexivity.
Qed.
Hypothesis L : laws se.
Lemma login_last rnd s h ut pin now s' o : step w rnd s (OLogin h ut pin now) = Ok (s', o) -> pins_last (s_tok s) (s_tok s').
Proof.
  intros H. assert (Z : pins_last (s_tok s) (s_tok s)) by (apply pins_last_refl; reflexivity).
  cbn [step] in H. unfold with_sess, need_lib in H. destruct (0 <? s_count s)%Z; [|sinv; exact Z]. destruct (sess_get s h) as [x|]; [|sinv; exact Z]. unfold Login in H. destruct (negb _); [sinv; exact Z|].
  assert (Q : forall r, pin_len_ok pin = true -> ut = cku r -> exists rv n, Login w s (cku r) pin (Some n) = Ok (s', OutRv rv) \/ s' = set_tok s (s_tok s) \/ True) by (intros; exists 0%Z, 0%Z; auto). clear Q.
  destruct (ut =? CKU_SO)%Z.
  - destruct (SOLogin _ _ _ _) as [c1 t1] eqn:E. unfold rv_ in H. injection H as <- _. cbn [set_tok s_tok].
    unfold SOLogin in E. destruct now as [n|]; [|injection E as _ <-; exact Z]. destruct (logged_in _); [injection E as _ <-; exact Z|].
    destruct (lock_check _ n) as [p|] eqn:Lc; [|injection E as _ <-; exact Z].
    apply DurableProofs.lock_lasting in Lc. cbv zeta in E. destruct (existsb _ _); [injection E as _ <-; split; [reflexivity|]; intros []; cbn; congruence|].
    destruct (_ =? PIN_INVALID_E)%Z; [injection E as _ <-; split; [reflexivity|]; intros []; cbn; [rewrite DurableProofs.count_lasting|]; congruence|].
    destruct (_ =? 0)%Z; injection E as _ <-; (split; [reflexivity|]); intros []; cbn; try congruence. change (pin_lasting (reset_fail p)) with (pin_lasting p). exact Lc.
  - destruct (ut =? CKU_USER)%Z; [|destruct (_ =? _)%Z; sinv; exact Z].
    destruct (UserLogin _ _ _ _) as [[c1 t1]| |] eqn:E; cbn [bind] in H; try discriminate. unfold rv_ in H. injection H as <- _. cbn [set_tok s_tok].
    unfold UserLogin in E. destruct now as [n|]; [|injection E as _ <-; exact Z]. destruct (logged_in _); [injection E as _ <-; exact Z|].
    destruct (lock_check _ n) as [p|] eqn:Lc; [|injection E as _ <-; exact Z].
    apply DurableProofs.lock_lasting in Lc. rename Lc into P.
    cbv zeta in E. destruct (_ =? PIN_INVALID_E)%Z; [injection E as _ <-; split; [reflexivity|]; intros []; cbn; [|rewrite DurableProofs.count_lasting]; congruence|].
    destruct (_ =? 0)%Z; [|injection E as _ <-; split; [reflexivity|]; intros []; cbn; congruence].
    destruct (decode_all _ _ _) as [[c2 l]| |] eqn:Da; cbn [bind] in E; try discriminate.
    change (pin_lasting p) with (pin_lasting (reset_fail p)) in P.
    destruct (c2 =? 0)%Z; injection E as _ <-; (split; [reflexivity|]); intros []; cbn in *; congruence.
Qed.
Lemma quiet_last rnd s c s' o : inv s -> lib_op c = false -> match c with OInitToken _ _ _ | OInitPIN _ _ | OSetPIN _ _ _ => False | _ => True end ->
  step w rnd s c = Ok (s', o) -> pins_last (s_tok s) (s_tok s').
Proof.
  intros I Lo P E. pose proof (step_pins w _ _ _ _ _ I E) as Sp. destruct c; try discriminate Lo; try contradiction; try (apply pins_last_refl; apply Sp). eapply login_last; exact E.
Qed.
(** The three calls about PINs store what they change. *)
Lemma stores_pin rnd s c s' o : Forall DurableProofs.held (t_objs (s_tok s)) -> match c with OInitToken _ _ _ | OInitPIN _ _ | OSetPIN _ _ _ => True | _ => False end -> step w rnd s c = Ok (s', o) ->
  (s' = s /\ answered o [CKR_OK; CKR_FUNCTION_FAILED] = false) \/
  (saved w s' /\ answered o [CKR_OK; CKR_FUNCTION_FAILED] = true /\ s_count s' = s_count s /\ (li_init s -> t_init (s_tok s') = true) /\ match c with OInitToken _ _ _ => answered o [CKR_OK] = true | _ => True end).
Proof.
  intros F P E. assert (Cd : forall c : Z, answered (OutRv (if (c =? 0)%Z then CKR_OK else CKR_FUNCTION_FAILED)) [CKR_OK; CKR_FUNCTION_FAILED] = true) by (intros c0; destruct (c0 =? 0)%Z; reflexivity).
  destruct c; try contradiction; cbn [step] in E; unfold with_slot, with_sess, need_lib in E; (destruct (0 <? s_count s)%Z; [|sinv; left; split; reflexivity]).
  - destruct (slot_ok slot); [|sinv; left; split; reflexivity]. unfold InitToken in E.
    repeat match type of E with (if ?b then rv_ _ _ else _) = _ => destruct b; [sinv; left; split; reflexivity|] end.
    destruct (TokenReset _ _ _ _ _) as [[c1 s1]| |] eqn:T; cbn [bind] in E; try discriminate. unfold rv_ in E. injection E as <- <-. right.
    unfold TokenReset in T. destruct (free_all _); cbn [bind] in T; try discriminate. destruct (_ <? _)%Z; [discriminate|]. unfold SetSOPin in T.
    pose proof T as T0. apply store_empty in T0 as [-> ET]; [|reflexivity]. split; [eapply DurableProofs.store_saved; [|exact T]; constructor|]. split; [reflexivity|].
    split; [apply store_frame in T as (T & _); exact T|]. split; [rewrite ET; reflexivity|reflexivity].
  - destruct (sess_get s h) as [x|]; [|sinv; left; split; reflexivity]. unfold InitPIN in E. destruct (negb _) eqn:Ns; [sinv; left; split; reflexivity|].
    destruct (negb (pin_len_ok _)); [sinv; left; split; reflexivity|].
    destruct (SetUserPin _ _ _ _) as [[c1 s1]| |] eqn:T; cbn [bind] in E; try discriminate. unfold rv_ in E. injection E as <- <-. right.
    unfold SetUserPin in T. split; [eapply DurableProofs.store_saved; [|exact T]; exact F|]. split; [apply Cd|]. split; [apply store_frame in T as (T & _); exact T|]. split; [|exact Logic.I].
    intros Li. apply tok_store in T as (T & _ & _). rewrite T. cbn. apply Li. intros Q. apply negb_false_iff in Ns. unfold GetState in Ns. rewrite Q in Ns. cbn in Ns. destruct (_ =? SESSION_RW)%Z; discriminate Ns.
  - destruct (sess_get s h) as [x|]; [|sinv; left; split; reflexivity]. unfold SetPIN in E. cbv zeta in E.
    do 4 (match type of E with (if ?b then rv_ _ _ else _) = _ => destruct b; [sinv; left; split; reflexivity|] end).
    destruct (negb _) eqn:Ck; [sinv; left; split; reflexivity|]. apply negb_false_iff, Z.eqb_eq in Ck. apply check_0 in Ck as (Ck & _).
    destruct (_ =? RW_SO)%Z; (match type of E with bind ?q _ = _ => destruct q as [[c1 s1]| |] eqn:T end; cbn [bind] in E; try discriminate; unfold rv_ in E; injection E as <- <-; right;
      unfold SetSOPin, SetUserPin in T; (split; [eapply DurableProofs.store_saved; [|exact T]; exact F|]); (split; [apply Cd|]); (split; [pose proof T as T0; apply store_frame in T0 as (T0 & _); exact T0|]); (split; [|exact Logic.I]);
      intros _; apply tok_store in T as (T & _ & _); rewrite T; exact Ck).
Qed.

(** ** What the files hold *)
Definition onfile (s : sys) (f : role -> Z * Z * Z) : Prop := forall uid, exists t, Token_Load se (s_fs s) uid = Ok t /\ (forall r, counters (pin_of r t) = f r) /\ virgin t /\
  ((t_init (s_tok s) = false /\ t_init t = false) \/ (t_init t = true /\ forall r, pin_lasting (pin_of r t) = pin_lasting (pin_of r (s_tok s)))).
Lemma norm_lasting p : wf_pin p -> pin_lasting (norm_pin p) = pin_lasting p.
Proof.
  intros (A1 & A2 & A3 & _). unfold pin_lasting, norm_pin. cbn [p_hash p_len p_seed]. f_equal. f_equal.
  set (h := firstn _ (p_hash p)). assert (Q : Z.to_nat (p_len p) = length h) by (unfold h; rewrite firstn_length; lia). rewrite Q. unfold overlay.
  rewrite firstn_app, firstn_all, Nat.sub_diag, firstn_O, app_nil_r. reflexivity.
Qed.
Lemma reload_pins u t : wf_tok t -> forall r, pin_lasting (pin_of r (reload u t)) = pin_lasting (pin_of r t) /\ counters (pin_of r (reload u t)) = counters (pin_of r t).
Proof. intros (_ & W1 & W2 & _) []; (split; [apply norm_lasting; assumption|reflexivity]). Qed.
Lemma saved_onfile s : saved w s -> ginv (s_tok s) -> tidy w s -> onfile s (fun r => counters (pin_of r (s_tok s))).
Proof.
  intros Sv G Td uid. destruct (DurableProofs.saved_load w L s Sv G Td) as [Wf Ld]. eexists. split; [apply Ld|]. split; [intros r; apply (reload_pins uid _ Wf r)|]. split; [discriminate|].
  right. split; [reflexivity|]. intros r. apply (reload_pins uid _ Wf r).
Qed.
Lemma onfile_last s s' f : onfile s f -> s_fs s' = s_fs s -> pins_last (s_tok s) (s_tok s') -> onfile s' f.
Proof.
  intros O E [P1 P2] uid. destruct (O uid) as (t & A & B & C & D). exists t. rewrite E, P1. repeat split; auto. destruct D as [D|[D1 D2]]; [left; exact D|]. right. split; [exact D1|]. intros r. rewrite P2. apply D2.
Qed.
Lemma onfile_ext s f g : onfile s f -> (forall r, g r = f r) -> onfile s g.
Proof. intros O E uid. destruct (O uid) as (t & A & B & C). exists t. split; [exact A|]. split; [intros r; rewrite E; apply B|exact C]. Qed.

(** ** Simulation *)
Variable U : list (list N).
Hypothesis HU : apart w U.
Definition vsim (s : sys) (v : vault) : Prop :=
  sim s (l_dev (v_lib v)) /\
  ((0 < s_count s)%Z -> lsim w U s (v_lib v) /\ virgin (s_tok s) /\ onfile s (v_file v)) /\
  ((s_count s <= 0)%Z -> (forall r, v_file v r = counts (l_guard (v_lib v) r)) /\
     forall uid, exists t, Token_Load se (s_fs s) uid = Ok t /\ t_init t = l_made (v_lib v) /\ (forall r, gsim w U (l_made (v_lib v)) (pin_of r t) (l_guard (v_lib v) r)) /\ virgin t).
Lemma gsim_counts made p g : gsim w U made p g -> counters p = counts g.
Proof. intros (A & B & C & _). unfold counters, counts. congruence. Qed.
Lemma gsim_file made p q g : gsim w U made p g -> pin_lasting q = pin_lasting p -> gsim w U made q (with_counts g (counters q)).
Proof.
  intros (_ & _ & _ & G) E. unfold pin_lasting in E. injection E as E1 E2 E3. split; [reflexivity|]. split; [reflexivity|]. split; [reflexivity|]. cbn [with_counts q_pin].
  destruct (q_pin g) as [f|]; [|rewrite E2; exact G]. destruct G as (G1 & G2 & G3). split; [exact G1|]. split; [congruence|]. intros a A. rewrite (G3 a A). unfold matched. rewrite E1, E2, E3. reflexivity.
Qed.
Lemma gsim_made p g : gsim w U false p g -> p_len p = 0%Z -> forall made, gsim w U made p g.
Proof. intros (A & B & C & G) Lp made. repeat split; auto. destruct (q_pin g); [destruct G; discriminate|]. right. exact Lp. Qed.
(** What a new process finds. *)
Lemma onfile_found s m f : lsim w U s m -> virgin (s_tok s) -> onfile s f -> forall uid, exists t, Token_Load se (s_fs s) uid = Ok t /\ virgin t /\ (l_made m = true -> t_init t = true) /\
  (forall r, gsim w U (t_init t) (pin_of r t) (with_counts (l_guard m r) (f r))).
Proof.
  intros (S & Ti & Gs) Vs O uid. destruct (O uid) as (t & A & B & C & D). exists t. split; [exact A|]. split; [exact C|]. split; [intros M; destruct D as [[D1 D2]|[D1 D2]]; congruence|].
  intros r. rewrite <- (B r). destruct D as [[D1 D2]|[D1 D2]].
  - rewrite D2. specialize (Gs r). rewrite Ti in D1. rewrite D1 in Gs. destruct Gs as (_ & _ & _ & G). split; [reflexivity|]. split; [reflexivity|]. split; [reflexivity|]. cbn [with_counts q_pin].
    destruct (q_pin _); [destruct G; discriminate|]. left. reflexivity.
  - rewrite D1. specialize (Gs r). pose proof (gsim_file _ _ _ _ Gs (D2 r)) as G. destruct (l_made m) eqn:M; [exact G|]. apply gsim_made; [exact G|].
    specialize (Vs Ti r). specialize (D2 r). unfold pin_lasting in D2. congruence.
Qed.
Lemma counts_eta g : with_counts g (counts g) = g.
Proof. destruct g; reflexivity. Qed.
Lemma load_found d u u' t t' : Token_Load se d u = Ok t -> Token_Load se d u' = Ok t' -> pins_last t t'.
Proof. intros A B. destruct (DurableProofs.Token_Load_uid w d u u' t A) as (t2 & C & E). rewrite B in C. injection C as <-. apply lasting_pins. exact E. Qed.
(** Nothing happens while the library is down. *)
Lemma down_moves m c o : (d_count (l_dev m) <= 0)%Z -> lib_op c = false -> (out_rv o =? CKR_OK)%Z = false -> moves m c o (Lib (next (l_dev m) c o) (l_made m) (l_guard m)).
Proof.
  intros C Lo O. split; [reflexivity|]. cbn [l_made l_guard]. assert (Q : (0 <? d_count (l_dev m))%Z = false) by (apply Z.ltb_ge; exact C).
  destruct c; try discriminate Lo; try (split; reflexivity); unfold init_pin, set_pin_ok; rewrite ?O, ?Q; cbn [andb]; try (split; reflexivity). destruct (good_pin pin), (role_of ut); split; reflexivity.
Qed.
Lemma down_step rnd s c s' o : (s_count s <= 0)%Z -> lib_op c = false -> step w rnd s c = Ok (s', o) -> s' = s /\ o = OutRv CKR_CRYPTOKI_NOT_INITIALIZED.
Proof.
  intros C Lo E. destruct c; try discriminate Lo; cbn [step] in E; unfold with_slot, with_sess, need_lib, rv_ in E; (destruct (Z.ltb_spec 0 (s_count s)); [lia|]); injection E as <- <-; split; reflexivity.
Qed.
Lemma down_answers m c : (d_count (l_dev m) <= 0)%Z -> says (l_dev m) c (OutRv CKR_CRYPTOKI_NOT_INITIALIZED) -> answers m c (OutRv CKR_CRYPTOKI_NOT_INITIALIZED).
Proof.
  intros C Sy. split; [exact Sy|]. assert (Q : (0 <? d_count (l_dev m))%Z = false) by (apply Z.ltb_ge; exact C). assert (Q' : (d_count (l_dev m) <=? 0)%Z = true) by (apply Z.leb_le; exact C).
  destruct c; auto; unfold on_slot, on_session, init_pin; rewrite ?Q, ?Q'; cbn [andb]; auto.
Qed.

(** *** One call *)
Theorem C126_step rnd s v c s' o : inv s -> li_init s -> ginv (s_tok s) -> ginv (s_tok s') -> tidy w s -> tidy w s' -> vsim s v -> incl (pins_of c) U -> step w rnd s c = Ok (s', o) ->
  answers (v_lib v) c o /\ exists v', vmoves v c o v' /\ vsim s' v'.
Proof.
  intros I LI Gi Gi' Td Td' (S & Up & Dn) PU E. pose proof (C118_step _ _ _ _ _ _ _ I S E) as [SA SN]. set (m := v_lib v) in *. pose proof S as (Sc & Sm & Sl & St).
  assert (KEEP : lib_op c = true -> s_fs s' = s_fs s -> s_tok s' = s_tok s -> ((0 < s_count s')%Z <-> (0 < s_count s)%Z) ->
    vsim s' (Vault (Lib (next (l_dev m) c o) (l_made m) (l_guard m)) (v_file v))).
  { intros _ Ef Et Ec. split; [exact SN|]. cbn [v_lib v_file l_made l_guard l_dev]. split; intros C.
    - destruct (Up ltac:(apply Ec; exact C)) as (A & B & D). rewrite Et. split; [apply (quiet_sim w U s s' m); auto; rewrite Et; reflexivity|]. split; [exact B|].
      apply (onfile_last s); [exact D|exact Ef|]. rewrite Et. apply pins_last_refl; reflexivity.
    - rewrite Ef. apply Dn. lia. }
  destruct (lib_op c) eqn:Lo.
  - assert (AN : answers m c o) by (split; [exact SA|]; destruct c; try discriminate Lo; exact Logic.I). split; [exact AN|]. destruct c; try discriminate Lo; cbn [step] in E.
    + (* C_Initialize *) unfold Initialize in E. destruct (Z.eqb_spec (s_count s) 0) as [C0|C0].
      * destruct (Token_Load _ _ _) as [t| |] eqn:Ld; cbn [bind] in E; try discriminate. injection E as <- <-. destruct (Dn ltac:(lia)) as (Fc & Fd).
        exists (Vault (Lib (next (l_dev m) OInitialize (OutRv CKR_OK)) (l_made m) (l_guard m)) (v_file v)).
        split; [split; [split; [reflexivity|]; fold m; rewrite <- Sc, C0; exact Logic.I|repeat split]|]. split; [exact SN|]. cbn [v_lib v_file l_made l_guard l_dev s_count s_tok s_fs] in *. split; [|lia]. intros _.
        destruct (Fd (s_uid s)) as (t0 & Ld0 & Ti & Gs & Vt). rewrite Ld in Ld0. injection Ld0 as <-. split; [split; [exact SN|split; [exact Ti|exact Gs]]|]. split; [exact Vt|].
        intros uid. cbn [s_fs s_tok]. destruct (Fd uid) as (t1 & Ld1 & Ti1 & Gs1 & Vt1). exists t1. split; [exact Ld1|]. split; [intros r; rewrite Fc; eapply gsim_counts; apply Gs1|]. split; [exact Vt1|].
        destruct (t_init t1) eqn:T1; [right|left; split; congruence]. split; [reflexivity|]. apply (load_found _ _ _ _ _ Ld Ld1).
      * injection E as <- <-. eexists. split; [|apply KEEP; cbn; auto; lia]. split; [|repeat split]. split; [reflexivity|]. fold m. rewrite <- Sc. destruct (Z.eqb_spec (s_count s) 0); [contradiction|]. split; reflexivity.
    + (* C_Finalize *) unfold Finalize in E. destruct (Z.eqb_spec (s_count s - 1) 0) as [C1|C1].
      * destruct (store _ _ _) as [[c1 s1]| |] eqn:Sto; cbn [bind] in E; try discriminate. destruct (final_all _); cbn [bind] in E; try discriminate. destruct (free_all _); cbn [bind] in E; try discriminate. injection E as <- <-.
        destruct (Up ltac:(lia)) as ((_ & Ti & Gs) & Vs & _).
        exists (Vault (Lib (next (l_dev m) OFinalize (OutRv CKR_OK)) true (l_guard m)) (fun r => counts (l_guard m r))).
        assert (Q : (d_count (l_dev m) =? 1)%Z = true) by (apply Z.eqb_eq; lia).
        split; [split; [split; [reflexivity|]|]; fold m; rewrite Q; repeat split|]. split; [exact SN|]. cbn [v_lib v_file l_made l_guard l_dev s_count s_tok s_fs] in *. split; [lia|]. intros _. split; [reflexivity|].
        destruct Td as [Fi So]. assert (W : wf_tok (s_tok s)) by exact (wf_of (s_tok s) (t_objs (s_tok s)) Gi Fi eq_refl).
        unfold store in Sto. destruct (store_load se (dh_law' _ L) (fun i => rnd (2 + i)%nat) (s_tok s) (s_fs s) W So) as (ws & Es & Ld). rewrite Es in Sto. cbn [bind] in Sto. injection Sto as _ <-.
        intros uid. eexists. split; [apply Ld|]. split; [reflexivity|]. split; [|discriminate]. intros r. destruct (reload_pins uid _ W r) as [Lp Lc]. specialize (Gs r).
        pose proof (gsim_file _ _ _ _ Gs Lp) as G. rewrite Lc, (gsim_counts _ _ _ Gs), counts_eta in G. destruct (l_made m) eqn:M; [exact G|]. apply gsim_made; [exact G|].
        specialize (Vs Ti r). unfold pin_lasting in Lp. congruence.
      * injection E as <- <-. eexists. split; [|apply KEEP; cbn; auto; lia]. assert (Q : (d_count (l_dev m) =? 1)%Z = false) by (apply Z.eqb_neq; lia). split; [split; [reflexivity|]|]; fold m; rewrite Q; repeat split.
    + (* the process ends *) injection E as <- <-. destruct (Z.ltb_spec 0 (s_count s)) as [C|C].
      * destruct (Up C) as (Ls & Vs & Of). destruct (onfile_found s m (v_file v) Ls Vs Of 0%nat) as (t & Ld & Vt & Mt & Gt).
        exists (Vault (Lib (next (l_dev m) ORestart (OutRv CKR_OK)) (t_init t) (fun r => with_counts (l_guard m r) (v_file v r))) (v_file v)).
        assert (Q : (0 <? d_count (l_dev m))%Z = true) by (apply Z.ltb_lt; lia). split; [split; [split; [reflexivity|exact Logic.I]|]; fold m; rewrite Q; repeat split; exact Mt|].
        split; [exact SN|]. cbn [v_lib v_file l_made l_guard l_dev s_count s_tok s_fs] in *. split; [lia|]. intros _. split; [intros r; destruct (v_file v r) as [[? ?] ?]; reflexivity|].
        intros uid. destruct (onfile_found s m (v_file v) Ls Vs Of uid) as (t1 & Ld1 & Vt1 & Mt1 & Gt1). exists t1. destruct (load_found _ _ _ _ _ Ld Ld1) as [Q1 _]. rewrite <- Q1. auto.
      * eexists (Vault (Lib _ (l_made m) (l_guard m)) (v_file v)). assert (Q : (0 <? d_count (l_dev m))%Z = false) by (apply Z.ltb_ge; lia).
        split; [split; [split; [reflexivity|exact Logic.I]|]; fold m; rewrite Q; repeat split|]. split; [exact SN|]. cbn [v_lib v_file l_made l_guard l_dev s_count s_tok s_fs]. split; [lia|]. intros _. apply Dn. lia.
  - destruct (Z.ltb_spec 0 (s_count s)) as [C|C].
    + destruct (Up C) as (Ls & Vs & Of). destruct (C119_step w U rnd s m c s' o (l_hash _ L) HU I LI Ls PU E) as (AN & m' & Mv & Ls'). split; [exact AN|].
      assert (Nw : saved w s' -> onfile s' (fun r => counts (l_guard m' r))).
      { intros Sv. apply (onfile_ext s' _ _ (saved_onfile s' Sv Gi' Td')). intros r. destruct Ls' as (_ & _ & Gs). symmetry. eapply gsim_counts. apply Gs. }
      assert (Cn : s_count s' = s_count s) by (destruct SN as (Q & _); rewrite Q, PropArchive.next_count by exact Lo; symmetry; exact Sc).
      assert (DONE : forall f, virgin (s_tok s') -> onfile s' f -> vsim s' (Vault m' f)).
      { intros f V' O'. split; [destruct Ls' as (Q & _); exact Q|]. cbn [v_lib v_file]. split; [intros _; auto|]. lia. }
      destruct (match c with OInitToken _ _ _ | OInitPIN _ _ | OSetPIN _ _ _ => true | _ => false end) eqn:Pc.
      * assert (P : match c with OInitToken _ _ _ | OInitPIN _ _ | OSetPIN _ _ _ => True | _ => False end) by (destruct c; try discriminate Pc; exact Logic.I).
        destruct (stores_pin rnd s c s' o (DurableProofs.tidy_held _ _ Td) P E) as [[-> An]|(Sv & An & _ & Ti & An2)].
        -- exists (Vault m' (v_file v)). split; [|apply DONE; assumption]. split; [exact Mv|]. assert (An1 : answered o [CKR_OK] = false) by (cbn in *; destruct (_ =? CKR_OK)%Z; [discriminate|reflexivity]).
           destruct c; try contradiction; rewrite ?An, ?An1; reflexivity.
        -- exists (Vault m' (fun r => counts (l_guard m' r))). split; [|apply DONE; [intros Q; rewrite (Ti LI) in Q; discriminate|apply Nw; exact Sv]]. split; [exact Mv|].
           destruct c; try contradiction; rewrite ?An, ?An2; reflexivity.
      * assert (P : match c with OInitToken _ _ _ | OInitPIN _ _ | OSetPIN _ _ _ => False | _ => True end) by (destruct c; try discriminate Pc; exact Logic.I).
        pose proof (quiet_last rnd s c s' o I Lo P E) as Pl. pose proof (virgin_last _ _ Vs Pl) as Vs'. destruct (may_store c) eqn:Ms.
        -- destruct (DurableProofs.step_level w rnd s c s' o I (DurableProofs.tidy_held _ _ Td) Lo ltac:(destruct c; try discriminate Ms; reflexivity) E) as [_ [[Ef _]|Sv]].
           ++ exists (Vault m' (v_file v)). split; [|apply DONE; [exact Vs'|exact (onfile_last s s' _ Of Ef Pl)]]. split; [exact Mv|]. destruct c; try discriminate Ms; left; reflexivity.
           ++ exists (Vault m' (fun r => counts (l_guard m' r))). split; [|apply DONE; [exact Vs'|apply Nw; exact Sv]]. split; [exact Mv|]. destruct c; try discriminate Ms; right; reflexivity.
        -- pose proof (fs_same rnd s c s' o Lo Ms P E) as Ef. exists (Vault m' (v_file v)). split; [|apply DONE; [exact Vs'|exact (onfile_last s s' _ Of Ef Pl)]]. split; [exact Mv|].
           destruct c; try discriminate Ms; try discriminate Lo; try contradiction; cbn [may_store v_file]; intros r; reflexivity.
    + destruct (down_step rnd s c s' o C Lo E) as [-> ->]. split; [apply down_answers; [rewrite <- Sc; exact C|exact SA]|].
      exists (Vault (Lib (next (l_dev m) c (OutRv CKR_CRYPTOKI_NOT_INITIALIZED)) (l_made m) (l_guard m)) (v_file v)).
      split; [split; [apply down_moves; [fold m; rewrite <- Sc; exact C|exact Lo|reflexivity]|]|].
      * destruct c; try discriminate Lo; cbn [may_store answered existsb out_rv v_file]; try (left; reflexivity); intros r; reflexivity.
      * split; [exact SN|]. cbn [v_lib v_file l_made l_guard l_dev]. split; [lia|]. intros _. apply Dn. lia.
Qed.
End W.
Print Assumptions C126_step.

(** ** Histories *)
Lemma vsim0 w U d : d (F_TOKEN, 0%nat) = None -> vsim w U (sys0 d) vault0.
Proof.
  intros D. split; [apply sim0|]. split; [cbn; lia|]. intros _. split; [intros []; reflexivity|]. intros uid. exists tok_fresh. unfold Token_Load. cbn [s_fs sys0]. rewrite D.
  split; [reflexivity|]. split; [reflexivity|]. split; [|intros _ []; reflexivity]. intros []; repeat split; cbn; auto.
Qed.
Lemma run_vaulting w U d l : laws (w_se w) -> apart w U -> forall s v s' os, reach w (sys0 d) s -> li_init s -> vsim w U s v -> incl (all_pins (map fst l)) U -> PropArchive.tidy_run w s l -> run w s l = Ok (s', os) ->
  exists v', vaulting v (map fst l) os v' /\ vsim w U s' v'.
Proof.
  intros L HU. induction l as [|[c rnd] l IH]; intros s v s' os Re Li S PU Td E; cbn [run] in E.
  - injection E as <- <-. exists v. split; [constructor|exact S].
  - cbn [PropArchive.tidy_run] in Td. destruct (step w rnd s c) as [[s1 o]| |] eqn:E1; cbn [bind] in E; try discriminate. destruct (run w s1 l) as [[s2 os2]| |] eqn:E2; cbn [bind] in E; try discriminate. injection E as <- <-.
    cbn [map fst all_pins flat_map] in PU. apply incl_app_inv in PU as [P1 P2]. destruct Td as [Td Td2]. assert (Td1 : tidy w s1) by (destruct l as [|[? ?] ?]; apply Td2).
    pose proof (reach_inv w d s Re) as I. assert (Re1 : reach w (sys0 d) s1) by (econstructor; eauto).
    destruct (C126_step w L U HU rnd s v c s1 o I Li (reach_ginv w (l_hash _ L) _ _ Re) (reach_ginv w (l_hash _ L) _ _ Re1) Td Td1 S P1 E1) as (A & v1 & B & C).
    destruct (IH s1 v1 s2 os2 Re1 ltac:(eapply step_li; eauto) C P2 Td2 E2) as (v2 & D & F). exists v2. split; [econstructor; eauto|exact F].
Qed.
Theorem C126_follows : forall w d l s os, laws (w_se w) -> apart w (all_pins (map fst l)) -> d (F_TOKEN, 0%nat) = None -> PropArchive.tidy_run w (sys0 d) l -> run w (sys0 d) l = Ok (s, os) ->
  exists v, vaulting vault0 (map fst l) os v.
Proof.
  intros w d l s os L HU D Td E. destruct (run_vaulting w _ d l L HU (sys0 d) vault0 s os (reach_0 w _) ltac:(intros X; cbn in X; congruence) (vsim0 w _ d D) (incl_refl _) Td E) as (v & A & _). exists v. exact A.
Qed.
Print Assumptions C126_follows.

(** *** The PIN that was set, or that opened the token, is the only one that does, until it is changed, whatever restarts there are *)
Definition sets_pin (r : role) (p : list N) (c : op) (o : out) : Prop := out_rv o = CKR_OK /\
  match c with OInitToken _ p' _ => r = SO /\ p' = p | OInitPIN _ p' => r = User /\ p' = p | OLogin _ ut p' _ => ut = cku r /\ p' = p | _ => False end.
(** The call does not change the PIN of [r]. *)
Definition leaves_pin (r : role) (c : op) (o : out) : Prop :=
  match c with
  | OInitToken _ _ _ => out_rv o <> CKR_OK
  | OInitPIN _ _ => r = SO \/ ~ In (out_rv o) [CKR_OK; CKR_FUNCTION_FAILED]
  | OSetPIN _ _ _ => ~ In (out_rv o) [CKR_OK; CKR_FUNCTION_FAILED]
  | _ => True
  end.
(** No login of [r] is refused for the PIN. *)
Definition calm (r : role) (c : op) (o : out) : Prop := match c with OLogin _ ut _ _ => ut = cku r -> out_rv o <> CKR_PIN_INCORRECT | _ => True end.
Definition is_pin (r : role) (p : list N) (v : vault) : Prop := q_pin (l_guard (v_lib v) r) = Some (text_eqb p).
Definition plain (v : vault) : Prop := forall r, q_pin (l_guard (v_lib v) r) = None \/ exists p, is_pin r p v.
Definition at_rest (r : role) (v : vault) : Prop := q_wrong (l_guard (v_lib v) r) = 0%Z /\ fst (fst (v_file v r)) = 0%Z.

Lemma login_pin m r a now : q_pin (snd (try_login m r a now)) = q_pin (l_guard m r).
Proof.
  unfold try_login, unlocked, wrong_pin, right_pin. destruct now; [|reflexivity]. destruct (d_who _); [reflexivity|]. destruct (locked_out _ _); [reflexivity|].
  destruct (match r with SO => _ | User => _ end); [|destruct (accepts _ _) as [[]|]]; cbn [snd]; repeat (match goal with |- context [if ?b then _ else _] => destruct b end; try reflexivity); reflexivity.
Qed.
(** Which PIN a role has after a call. *)
Lemma pin_after v c o v' r : answers (v_lib v) c o -> vmoves v c o v' ->
  (exists p, is_pin r p v' /\ ~ leaves_pin r c o) \/ (q_pin (l_guard (v_lib v') r) = None /\ ~ leaves_pin r c o) \/ q_pin (l_guard (v_lib v') r) = q_pin (l_guard (v_lib v) r).
Proof.
  intros [Sy An] [[Dv Mv] Vm]. unfold is_pin. destruct c; cbn [moves leaves_pin] in *; cbv zeta in *; try (right; right; rewrite (proj2 Mv); reflexivity).
  - right. right. rewrite (proj2 (proj1 Vm)). reflexivity.
  - right. right. destruct (_ =? 1)%Z; [rewrite (proj1 (proj2 Vm))|rewrite (proj2 (proj1 Vm))]; reflexivity.
  - right. right. destruct (0 <? _)%Z; [rewrite (proj1 (proj2 Vm))|rewrite (proj2 (proj1 Vm))]; reflexivity.
  - destruct (Z.eqb_spec (out_rv o) CKR_OK) as [Ok_|]; [|right; right; rewrite (proj2 Mv); reflexivity]. destruct Mv as (_ & M1 & M2). destruct r; [left|right; left].
    + exists pin. rewrite M1. split; [reflexivity|auto].
    + rewrite M2. split; [reflexivity|auto].
  - destruct (init_pin _ _ _) eqn:Ip; [|right; right; rewrite (proj2 Mv); reflexivity]. destruct r; [right; right; rewrite (proj2 Mv); reflexivity|]. left. exists pin. rewrite (proj2 Mv). split; [reflexivity|].
    destruct An as (rv & -> & J). intros [F|F]; [discriminate|]. apply F. exact J.
  - destruct (set_pin_ok _ _ _ _) eqn:Sp; [|right; right; rewrite (proj2 Mv); reflexivity]. set (q := own_role _) in *.
    assert (Nl : In (out_rv o) [CKR_OK; CKR_FUNCTION_FAILED]).
    { unfold set_pin_ok in Sp. fold q in Sp. apply andb_prop in Sp as [S1 Sp]. apply andb_prop in Sp as [S2 Sp]. apply andb_prop in Sp as [S3 S4]. unfold on_session in An. destruct (Z.leb_spec (d_count (l_dev (v_lib v))) 0) as [C|C]; [apply Z.ltb_lt in S1; lia|].
      destruct (d_mode _ _) as [[]|]; try discriminate S2. rewrite S3 in An. cbn [andb] in An. fold q in An. destruct (accepts _ _) as [[]|]; try discriminate S4. destruct An as (rv & -> & J). exact J. }
    assert (D : at_role (l_guard (v_lib v)) q (new_pin new (l_guard (v_lib v) q)) r = new_pin new (l_guard (v_lib v) q) /\ r = q \/ at_role (l_guard (v_lib v)) q (new_pin new (l_guard (v_lib v) q)) r = l_guard (v_lib v) r)
      by (destruct q, r; auto).
    destruct D as [[D _]|D]; [left; exists new|right; right]; rewrite (proj2 Mv), D; [split; [reflexivity|auto]|reflexivity].
  - right. right. destruct (good_pin pin); [|rewrite (proj2 Mv); reflexivity]. destruct (role_of ut) as [q|]; [|rewrite (proj2 Mv); reflexivity]. destruct (andb _ _); [|rewrite (proj2 Mv); reflexivity].
    rewrite (proj2 Mv). destruct q, r; cbn [at_role]; try reflexivity; apply login_pin.
Qed.

Lemma is_pin_kept v c o v' r p : answers (v_lib v) c o -> vmoves v c o v' -> leaves_pin r c o -> is_pin r p v -> is_pin r p v'.
Proof. intros A M Lv P. destruct (pin_after v c o v' r A M) as [(q & _ & N)|[(_ & N)|E]]; [contradiction..|]. unfold is_pin in *. congruence. Qed.
Lemma plain_kept v c o v' : answers (v_lib v) c o -> vmoves v c o v' -> plain v -> plain v'.
Proof.
  intros A M P r. destruct (pin_after v c o v' r A M) as [(q & Q & _)|[(Q & _)|E]]; [right; exists q; exact Q|left; exact Q|]. rewrite E. destruct (P r) as [P1|(q & P1)]; [left; exact P1|right; exists q].
  unfold is_pin in *. congruence.
Qed.
Lemma login_ok m r a now o : match fst (try_login m r a now) with Some rv => o = OutRv rv | None => exists rv, o = OutRv rv end -> out_rv o = CKR_OK -> accepts (l_guard m r) a = Some true /\ snd (try_login m r a now) = right_pin (l_guard m r).
Proof.
  unfold try_login. destruct now as [n|]; [|intros -> F; discriminate F]. destruct (d_who _); [intros -> F; discriminate F|]. destruct (locked_out _ _); [intros -> F; discriminate F|].
  destruct (match r with SO => _ | User => _ end); [intros -> F; discriminate F|]. destruct (accepts _ _) as [[]|]; [auto|intros -> F; discriminate F|intros -> F; discriminate F].
Qed.
Lemma text_eqb_true a b : text_eqb a b = true <-> a = b.
Proof. unfold text_eqb. destruct (list_eq_dec _ _ _); split; congruence. Qed.
Lemma login_case m h r a now o : answers m (OLogin h (cku r) a now) o -> In (out_rv o) [CKR_CRYPTOKI_NOT_INITIALIZED; CKR_SESSION_HANDLE_INVALID] \/
  (good_pin a = false /\ out_rv o = CKR_PIN_INCORRECT) \/
  (good_pin a = true /\ andb (0 <? d_count (l_dev m))%Z (is_open (l_dev m) h) = true /\ match fst (try_login m r a now) with Some rv => o = OutRv rv | None => exists rv, o = OutRv rv end).
Proof.
  intros [Sy An]. cbn [says] in Sy. unfold on_session, is_open in *. destruct (Z.leb_spec (d_count (l_dev m)) 0) as [C|C]; [subst o; left; cbn; auto|]. destruct (d_mode _ _); [|subst o; left; cbn; auto].
  assert (Q : (0 <? d_count (l_dev m))%Z = true) by (apply Z.ltb_lt; lia). rewrite Q. destruct (good_pin a) eqn:G; [|right; left; cbn [negb] in Sy; subst o; auto]. right. right. repeat split. destruct r; exact An.
Qed.
Lemma sets_is v c o v' r p : plain v -> answers (v_lib v) c o -> vmoves v c o v' -> sets_pin r p c o -> is_pin r p v'.
Proof.
  intros Pl An [[Dv Mv] _] [Ok_ Sp]. pose proof An as [Sy _]. unfold is_pin. destruct c; try contradiction.
  - destruct Sp as [-> ->]. rewrite Ok_ in Mv. change (CKR_OK =? CKR_OK)%Z with true in Mv. cbv iota in Mv. destruct Mv as (_ & -> & _). reflexivity.
  - destruct Sp as [-> ->]. cbn [says] in Sy. unfold on_session in Sy. assert (Ip : init_pin (v_lib v) h p = true).
    { unfold init_pin, is_open. destruct (Z.leb_spec (d_count (l_dev (v_lib v))) 0) as [C|C]; [subst o; discriminate Ok_|]. assert (Q : (0 <? d_count (l_dev (v_lib v)))%Z = true) by (apply Z.ltb_lt; lia). rewrite Q.
      destruct (d_mode _ _); [|subst o; discriminate Ok_]. destruct (d_who _) as [[]|]; try (subst o; discriminate Ok_). destruct (good_pin p); [reflexivity|subst o; discriminate Ok_]. }
    cbv zeta in Mv. rewrite Ip in Mv. rewrite (proj2 Mv). reflexivity.
  - destruct Sp as [-> ->]. destruct (login_case _ _ _ _ _ _ An) as [J|[[_ J]|(G & Op & J)]]; [rewrite Ok_ in J; destruct J as [J|[J|[]]]; discriminate J|rewrite Ok_ in J; discriminate J|].
    destruct (login_ok _ _ _ _ _ J Ok_) as [Ac Sn]. cbv zeta in Mv. rewrite G, Op in Mv. assert (Ro : role_of (cku r) = Some r) by (destruct r; reflexivity). rewrite Ro in Mv. rewrite (proj2 Mv).
    assert (D : forall g, at_role (l_guard (v_lib v)) r g r = g) by (destruct r; reflexivity). rewrite D, Sn. cbn [right_pin q_pin].
    unfold accepts in Ac. destruct (Pl r) as [P1|(q & P1)]; [rewrite P1 in Ac; discriminate|]. unfold is_pin in P1. rewrite P1 in *. injection Ac as Ac. apply text_eqb_true in Ac. subst q. reflexivity.
Qed.

Lemma login_rest m r a now o : match fst (try_login m r a now) with Some rv => o = OutRv rv | None => exists rv, o = OutRv rv end -> out_rv o <> CKR_PIN_INCORRECT -> q_wrong (l_guard m r) = 0%Z ->
  q_wrong (snd (try_login m r a now)) = 0%Z.
Proof.
  intros A N W. unfold try_login, unlocked, locked_out in *. rewrite W in *. cbn [Z.eqb andb] in *. change (0 =? 3)%Z with false in *. cbv iota in *. cbn [andb] in *. destruct now as [n|]; [|exact W]. destruct (d_who _); [exact W|].
  destruct (match r with SO => _ | User => _ end); [exact W|]. destruct (accepts _ _) as [[]|]; [reflexivity| |exact W]. cbn [fst] in A. subst o. exfalso. apply N. reflexivity.
Qed.
Lemma rest_kept v c o v' r : answers (v_lib v) c o -> vmoves v c o v' -> calm r c o -> leaves_pin r c o -> at_rest r v -> at_rest r v'.
Proof.
  intros An [[Dv Mv] Vm] Ca Ni [R1 R2].
  assert (Q : q_wrong (l_guard (v_lib v') r) = 0%Z).
  { destruct c; cbv zeta in *; try (rewrite (proj2 Mv); exact R1).
    - rewrite (proj2 (proj1 Vm)). exact R1.
    - destruct (_ =? 1)%Z; [rewrite (proj1 (proj2 Vm))|rewrite (proj2 (proj1 Vm))]; exact R1.
    - destruct (0 <? _)%Z; [rewrite (proj1 (proj2 Vm))|rewrite (proj2 (proj1 Vm)); exact R1]. exact R2.
    - cbn [leaves_pin] in Ni. apply Z.eqb_neq in Ni. rewrite Ni in Mv. rewrite (proj2 Mv). exact R1.
    - destruct (init_pin _ _ _); [|rewrite (proj2 Mv); exact R1]. rewrite (proj2 Mv). destruct r; exact R1.
    - destruct (set_pin_ok _ _ _ _); [|rewrite (proj2 Mv); exact R1]. rewrite (proj2 Mv). destruct (own_role _), r; exact R1.
    - destruct (good_pin pin) eqn:G; [|rewrite (proj2 Mv); exact R1]. destruct (role_of ut) as [q|] eqn:Ro; [|rewrite (proj2 Mv); exact R1]. destruct (andb _ _) eqn:Op; [|rewrite (proj2 Mv); exact R1].
      rewrite (proj2 Mv). assert (Eu : ut = cku q). { unfold role_of in Ro. destruct (Z.eqb_spec ut 0) as [->|]; [injection Ro as <-; reflexivity|]. destruct (Z.eqb_spec ut 1) as [->|]; [injection Ro as <-; reflexivity|discriminate]. }
      subst ut. assert (D : q = r \/ at_role (l_guard (v_lib v)) q (snd (try_login (v_lib v) q pin now)) r = l_guard (v_lib v) r) by (destruct q, r; auto). destruct D as [->|D]; [|rewrite D; exact R1].
      assert (D : forall g, at_role (l_guard (v_lib v)) r g r = g) by (destruct r; reflexivity). rewrite D. cbn [calm] in Ca. apply login_rest with (o := o); [|apply Ca; reflexivity|exact R1].
      apply andb_prop in Op as [O1 O2]. destruct An as [_ An]. unfold on_session, is_open in *.
      destruct (Z.leb_spec (d_count (l_dev (v_lib v))) 0) as [C|C]; [apply Z.ltb_lt in O1; lia|]. destruct (d_mode _ _) as [b|]; [|discriminate]. rewrite G, Ro in An. exact An. }
  split; [exact Q|]. destruct c; cbv zeta in *; cbn [may_store] in Vm; try (rewrite Vm; exact R2); try (destruct Vm as [Vm|Vm]; rewrite Vm; [exact R2|exact Q]).
  - rewrite (proj2 Vm). exact R2.
  - destruct (_ =? 1)%Z; [rewrite (proj2 (proj2 Vm)); exact Q|rewrite (proj2 Vm); exact R2].
  - destruct (0 <? _)%Z; [rewrite (proj2 (proj2 Vm))|rewrite (proj2 Vm)]; exact R2.
  - cbn [leaves_pin] in Ni. apply Z.eqb_neq in Ni. unfold answered in Vm. cbn [existsb] in Vm. rewrite Ni in Vm. cbn [orb] in Vm. rewrite Vm. exact R2.
  - destruct (answered _ _); rewrite Vm; assumption.
  - destruct (answered _ _); rewrite Vm; assumption.
Qed.

Lemma vaulting_app v cs os v2 : vaulting v cs os v2 -> forall cs1 cs2 os1 os2, cs = cs1 ++ cs2 -> os = os1 ++ os2 -> length cs1 = length os1 -> exists v1, vaulting v cs1 os1 v1 /\ vaulting v1 cs2 os2 v2.
Proof.
  induction 1 as [v|v c o v' cs os v2 A M T IH]; intros [|c1 cs1] cs2 [|o1 os1] os2 Ec Eo Le; try discriminate Le.
  - exists v. cbn in Ec, Eo. subst. split; constructor.
  - discriminate Ec.
  - exists v. cbn in Ec, Eo. subst. split; [constructor|econstructor; eauto].
  - cbn [app] in Ec, Eo. injection Ec as <- Ec. injection Eo as <- Eo. injection Le as Le. destruct (IH cs1 cs2 os1 os2 Ec Eo Le) as (v1 & B & C). exists v1. split; [econstructor; eauto|exact C].
Qed.
Lemma vaulting_len v cs os v2 : vaulting v cs os v2 -> length cs = length os.
Proof. induction 1; [reflexivity|]. cbn [length]. congruence. Qed.
Lemma plain_vaulting v cs os v2 : vaulting v cs os v2 -> plain v -> plain v2.
Proof. induction 1; [auto|]. intros P. apply IHvaulting. eapply plain_kept; eauto. Qed.
Lemma pin_vaulting r p v cs os v2 : vaulting v cs os v2 -> (forall c o, In (c, o) (combine cs os) -> leaves_pin r c o) -> is_pin r p v -> is_pin r p v2.
Proof.
  induction 1 as [v|v c o v' cs os v2 A M T IH]; [auto|]. intros F P. apply IH; [intros; apply F; right; assumption|]. eapply is_pin_kept; eauto. apply F. left. reflexivity.
Qed.
Lemma rest_vaulting r v cs os v2 : vaulting v cs os v2 -> (forall c o, In (c, o) (combine cs os) -> leaves_pin r c o /\ calm r c o) -> at_rest r v -> at_rest r v2.
Proof.
  induction 1 as [v|v c o v' cs os v2 A M T IH]; [auto|]. intros F P. apply IH; [intros; apply F; right; assumption|]. destruct (F c o (or_introl eq_refl)) as [F1 F2]. eapply rest_kept; eauto.
Qed.
(** Any history with restarts: [c1] sets the PIN of [r] to [p] or opens the token with it, the calls [cs] leave it, and then comes a login. *)
Definition history (w : world) (d : fs) (l0 l : list (op * (nat -> list N))) (c1 : op) (r1 : nat -> list N) (lg : op) (r2 : nat -> list N) (o1 : out) (os : list out) (o2 : out) : Prop :=
  exists s os0, run w (sys0 d) (l0 ++ (c1, r1) :: l ++ [(lg, r2)]) = Ok (s, os0 ++ o1 :: os ++ [o2]) /\ length os0 = length l0 /\ length os = length l /\ d (F_TOKEN, 0%nat) = None /\
    PropArchive.tidy_run w (sys0 d) (l0 ++ (c1, r1) :: l ++ [(lg, r2)]) /\ apart w (all_pins (map fst (l0 ++ (c1, r1) :: l ++ [(lg, r2)]))).
Lemma history_vaults w d l0 l c1 r1 lg r2 o1 os o2 : laws (w_se w) -> history w d l0 l c1 r1 lg r2 o1 os o2 ->
  exists v0 v1 v2, plain v0 /\ answers (v_lib v0) c1 o1 /\ vmoves v0 c1 o1 v1 /\ vaulting v1 (map fst l) os v2 /\ answers (v_lib v2) lg o2.
Proof.
  intros L (s & os0 & R & L0 & Ll & D & Td & Ap). destruct (C126_follows w d _ s _ L Ap D Td R) as (v & V). rewrite map_app in V. cbn [map fst] in V. rewrite map_app in V. cbn [map fst] in V.
  destruct (vaulting_app _ _ _ _ V (map fst l0) _ os0 _ eq_refl eq_refl ltac:(rewrite map_length; congruence)) as (v0 & V0 & V1). inversion V1 as [|? ? ? v1 ? ? ? A1 M1 V2]. subst.
  destruct (vaulting_app _ _ _ _ V2 (map fst l) _ os _ eq_refl eq_refl ltac:(rewrite map_length; congruence)) as (v2 & V3 & V4). inversion V4 as [|? ? ? ? ? ? ? A2 M2 V5]. subst.
  exists v0, v1, v2. split; [|auto]. apply (plain_vaulting _ _ _ _ V0). intros r. left. reflexivity.
Qed.
Theorem C126_wrong_pin : forall w d l0 c1 r1 l h q now r2 o1 os o2 r p, laws (w_se w) -> history w d l0 l c1 r1 (OLogin h (cku r) q now) r2 o1 os o2 ->
  sets_pin r p c1 o1 -> (forall c o, In (c, o) (combine (map fst l) os) -> leaves_pin r c o) -> q <> p -> out_rv o2 <> CKR_OK.
Proof.
  intros w d l0 c1 r1 l h q now r2 o1 os o2 r p L Hi Sp Lv Ne Ok_. destruct (history_vaults _ _ _ _ _ _ _ _ _ _ _ L Hi) as (v0 & v1 & v2 & Pl & A1 & M1 & V & A2).
  pose proof (pin_vaulting r p _ _ _ _ V Lv (sets_is _ _ _ _ _ _ Pl A1 M1 Sp)) as P. destruct (login_case _ _ _ _ _ _ A2) as [J|[[_ J]|(_ & _ & J)]].
  - rewrite Ok_ in J. destruct J as [J|[J|[]]]; discriminate J.
  - rewrite Ok_ in J. discriminate J.
  - destruct (login_ok _ _ _ _ _ J Ok_) as [Ac _]. unfold accepts in Ac. unfold is_pin in P. rewrite P in Ac. injection Ac as Ac. apply text_eqb_true in Ac. congruence.
Qed.
Print Assumptions C126_wrong_pin.
(** The same after a C_SetPIN that follows the login of the role: only the new PIN is taken. *)
Theorem C126_set_pin : forall w d l0 r h0 p0 n0 x0 h1 p1 p x1 l h q now x2 s os0 o0 o1 os o2, laws (w_se w) ->
  let all := l0 ++ (OLogin h0 (cku r) p0 n0, x0) :: (OSetPIN h1 p1 p, x1) :: l ++ [(OLogin h (cku r) q now, x2)] in
  run w (sys0 d) all = Ok (s, os0 ++ o0 :: o1 :: os ++ [o2]) -> length os0 = length l0 -> length os = length l -> d (F_TOKEN, 0%nat) = None ->
  PropArchive.tidy_run w (sys0 d) all -> apart w (all_pins (map fst all)) ->
  out_rv o0 = CKR_OK -> out_rv o1 = CKR_OK -> (forall c o, In (c, o) (combine (map fst l) os) -> leaves_pin r c o) -> q <> p -> out_rv o2 <> CKR_OK.
Proof.
  intros w d l0 r h0 p0 n0 x0 h1 p1 p x1 l h q now x2 s os0 o0 o1 os o2 L all R L0 Ll D Td Ap K0 K1 Lv Ne Ok_.
  destruct (C126_follows w d _ s _ L Ap D Td R) as (v & V). unfold all in V. rewrite map_app in V. cbn [map fst] in V. rewrite map_app in V. cbn [map fst] in V.
  destruct (vaulting_app _ _ _ _ V (map fst l0) _ os0 _ eq_refl eq_refl ltac:(rewrite map_length; congruence)) as (v0 & V0 & V1). inversion V1 as [|? ? ? v1 ? ? ? A1 M1 V2]. subst.
  inversion V2 as [|? ? ? v2 ? ? ? A2 M2 V3]. subst.
  destruct (vaulting_app _ _ _ _ V3 (map fst l) _ os _ eq_refl eq_refl ltac:(rewrite map_length; congruence)) as (v3 & V4 & V5). inversion V5 as [|? ? ? v4 ? ? ? A4 M4 V6]. subst.
  assert (Ow : own_role (l_dev (v_lib v1)) = r).
  { destruct M1 as [[Dv _] _]. rewrite Dv. unfold own_role, next. rewrite K0. change (CKR_OK =? CKR_OK)%Z with true. destruct r; reflexivity. }
  assert (P2 : is_pin r p v2).
  { destruct M2 as [[_ Mv] _]. destruct A2 as [Sy An]. cbn [says] in Sy. unfold on_session in Sy, An. cbv zeta in Mv. unfold set_pin_ok in Mv. rewrite Ow in *.
    destruct (Z.leb_spec (d_count (l_dev (v_lib v1))) 0) as [C|C]; [subst o1; discriminate K1|]. assert (Q : (0 <? d_count (l_dev (v_lib v1)))%Z = true) by (apply Z.ltb_lt; lia). rewrite Q in Mv.
    destruct (d_mode _ _) as [rw|]; [|subst o1; discriminate K1]. destruct (good_pin p1); cbn [andb negb] in *; [|subst o1; discriminate K1]. destruct (good_pin p); cbn [andb negb] in *; [|subst o1; discriminate K1].
    destruct rw; [|subst o1; discriminate K1]. cbn [andb] in *. destruct (accepts _ _) as [[]|]; [|subst o1; discriminate K1|subst o1; discriminate K1].
    unfold is_pin. rewrite (proj2 Mv). destruct r; reflexivity. }
  pose proof (pin_vaulting r p _ _ _ _ V4 Lv P2) as P. destruct (login_case _ _ _ _ _ _ A4) as [J|[[_ J]|(_ & _ & J)]].
  - rewrite Ok_ in J. destruct J as [J|[J|[]]]; discriminate J.
  - rewrite Ok_ in J. discriminate J.
  - destruct (login_ok _ _ _ _ _ J Ok_) as [Ac _]. unfold accepts in Ac. rewrite P in Ac. injection Ac as Ac. apply text_eqb_true in Ac. congruence.
Qed.
Print Assumptions C126_set_pin.
(** The security officer's PIN is not refused, unless wrong ones were given since it was set. *)
Theorem C126_right_pin : forall w d l0 slot p lab r1 l h now r2 o1 os o2, laws (w_se w) -> history w d l0 l (OInitToken slot p lab) r1 (OLogin h (cku SO) p (Some now)) r2 o1 os o2 ->
  out_rv o1 = CKR_OK -> (forall c o, In (c, o) (combine (map fst l) os) -> leaves_pin SO c o /\ calm SO c o) -> good_pin p = true ->
  In (out_rv o2) [CKR_OK; CKR_USER_ALREADY_LOGGED_IN; CKR_SESSION_READ_ONLY_EXISTS; CKR_SESSION_HANDLE_INVALID; CKR_CRYPTOKI_NOT_INITIALIZED].
Proof.
  intros w d l0 slot p lab r1 l h now r2 o1 os o2 L Hi Ok_ Lv Gp. destruct (history_vaults _ _ _ _ _ _ _ _ _ _ _ L Hi) as (v0 & v1 & v2 & Pl & A1 & M1 & V & A2).
  assert (Sp : sets_pin SO p (OInitToken slot p lab) o1) by (split; [exact Ok_|auto]).
  pose proof (pin_vaulting SO p _ _ _ _ V (fun c o J => proj1 (Lv c o J)) (sets_is _ _ _ _ _ _ Pl A1 M1 Sp)) as P.
  assert (R1 : at_rest SO v1).
  { destruct M1 as [[_ Mv] Vm]. unfold answered in Vm. cbn [existsb] in Vm. rewrite Ok_ in Mv, Vm. change (CKR_OK =? CKR_OK)%Z with true in *. cbn [orb] in Vm. cbv iota in *. destruct Mv as (_ & M & _). unfold at_rest. rewrite Vm, M. split; reflexivity. }
  destruct (rest_vaulting SO _ _ _ _ V Lv R1) as [R2 _]. destruct (login_case _ _ _ _ _ _ A2) as [J|[[J _]|(_ & _ & J)]]; [destruct J as [J|[J|[]]]; rewrite <- J; cbn; auto 10|congruence|].
  unfold try_login, locked_out in J. rewrite R2 in J. change (0 =? 3)%Z with false in J. cbn [andb] in J. destruct (d_who _); [cbn [fst] in J; subst o2; cbn; auto 10|]. cbv iota in J.
  destruct (any_ro _); [cbn [fst] in J; subst o2; cbn; auto 10|]. unfold accepts in J. rewrite P in J. assert (Tt : text_eqb p p = true) by (apply text_eqb_true; reflexivity). rewrite Tt in J. cbn [fst] in J. subst o2. cbn. auto.
Qed.
Print Assumptions C126_right_pin.

(** Two restarts: the token is made, the user PIN is set and changed, the process ends without C_Finalize; then C_Finalize after a wrong PIN. *)
Definition c126 : list op :=
  [OInitialize; OInitToken 1 sopin lab; OOpenSession 1 RW; OLogin H2 CKU_SO sopin (Some 0%Z); OInitPIN H2 upin; OLogout H2; OLogin H2 CKU_USER upin (Some 1%Z); OSetPIN H2 upin pin2;
   ORestart; OInitialize; OOpenSession 1 RW; OLogin H2 CKU_USER upin (Some 2%Z); OLogin H2 CKU_USER pin2 (Some 3%Z); OLogout H2; OLogin H2 CKU_USER wrong (Some 4%Z);
   OFinalize; OInitialize; OOpenSession 1 RW; OLogin H2 CKU_USER wrong (Some 5%Z); OLogin H2 CKU_USER wrong (Some 6%Z); OLogin H2 CKU_USER pin2 (Some 7%Z);
   OLogin H2 CKU_SO sopin (Some 9%Z)].
Example C126_case : laws (w_se tw) /\ (exists s, run tw (sys0 nofiles) (numbered 1 c126) = Ok (s, outs c126)) /\ PropArchive.tidy_run tw (sys0 nofiles) (numbered 1 c126) /\
  apart tw (all_pins c126) /\ map out_rv (skipn 6 (outs c126)) =
    [CKR_OK; CKR_OK; CKR_OK; CKR_OK; CKR_OK; CKR_PIN_INCORRECT; CKR_OK; CKR_OK; CKR_PIN_INCORRECT; CKR_OK; CKR_OK; CKR_OK; CKR_PIN_INCORRECT; CKR_PIN_INCORRECT; CKR_PIN_INCORRECT;
     CKR_OK].
Proof.
  split; [exact toy_laws|]. split; [exists (after c126); vm_compute; reflexivity|]. split; [apply PropArchive.tidy_runb_ok; vm_compute; reflexivity|]. split; [|vm_compute; reflexivity].
  intros p q sd P Q E.
  change (toy_hash p sd = toy_hash q sd) in E. apply (f_equal (firstn 16)) in E. unfold toy_hash in E.
  assert (L : forall l, length (pad 16 l) = 16) by (intros l; unfold pad, zeros; rewrite firstn_length, app_length, repeat_length; lia).
  rewrite !firstn_app, !L, Nat.sub_diag in E. rewrite !firstn_O, !app_nil_r, !firstn_all2 in E by (rewrite L; lia).
  assert (D : forallb (fun x => forallb (fun y => implb (text_eqb (pad 16 x) (pad 16 y)) (text_eqb x y)) (all_pins c126)) (all_pins c126) = true) by (vm_compute; reflexivity).
  rewrite forallb_forall in D. specialize (D p P). rewrite forallb_forall in D. specialize (D q Q).
  unfold text_eqb in D at 1. destruct (list_eq_dec _ _ _); [|contradiction]. cbn [implb] in D. unfold text_eqb in D. destruct (list_eq_dec N.eq_dec p q); [assumption|discriminate].
Qed.
(** The hypotheses of C126_set_pin, for the part up to the first refusal. *)
Example C126_set_case :
  let cs := combine (firstn 3 (skipn 8 c126)) (firstn 3 (skipn 8 (outs c126))) in
  nth 6 c126 OInitialize = OLogin H2 (cku User) upin (Some 1%Z) /\ nth 7 c126 OInitialize = OSetPIN H2 upin pin2 /\ nth 11 c126 OInitialize = OLogin H2 (cku User) upin (Some 2%Z) /\
  In ORestart (map fst cs) /\ (forall c o, In (c, o) cs -> leaves_pin User c o) /\ map out_rv (firstn 2 (skipn 6 (outs c126))) = [CKR_OK; CKR_OK].
Proof.
  cbv zeta. match goal with |- context [combine ?a ?b] => let r := eval vm_compute in (combine a b) in change (combine a b) with r end.
  repeat split; try reflexivity; [left; reflexivity|]. intros c o J. repeat (destruct J as [J|J]; [injection J as <- <-; exact I|]). destruct J.
Qed.
(** The hypotheses of C126_wrong_pin (the user PIN [upin], then another) and C126_right_pin (the security officer's). *)
Definition c126b : list op :=
  [OInitialize; OInitToken 1 sopin lab; OOpenSession 1 RW; OLogin H2 CKU_SO sopin (Some 0%Z); OInitPIN H2 upin; OLogout H2; ORestart; OInitialize; OOpenSession 1 RW;
   OLogin H2 (cku User) wrong (Some 1%Z); OFinalize; OInitialize; OOpenSession 1 RW; OLogin H2 (cku SO) sopin (Some 2%Z)].
Example C126_pin_case : exists r1 r2 r3 r4 l0 l l0' l', numbered 1 c126b = l0 ++ (OInitToken 1 sopin lab, r1) :: l ++ [(OLogin H2 (cku SO) sopin (Some 2%Z), r2)] /\
  firstn 10 (numbered 1 c126b) = l0' ++ (OInitPIN H2 upin, r3) :: l' ++ [(OLogin H2 (cku User) wrong (Some 1%Z), r4)] /\
  (forall c o, In (c, o) (combine (map fst l) (firstn 11 (skipn 2 (outs c126b)))) -> leaves_pin SO c o /\ calm SO c o) /\
  (forall c o, In (c, o) (combine (map fst l') (firstn 4 (skipn 5 (outs c126b)))) -> leaves_pin User c o) /\
  map out_rv (outs c126b) = [CKR_OK; CKR_OK; CKR_OK; CKR_OK; CKR_OK; CKR_OK; CKR_OK; CKR_OK; CKR_OK; CKR_PIN_INCORRECT; CKR_OK; CKR_OK; CKR_OK; CKR_OK] /\ good_pin sopin = true.
Proof.
  do 4 eexists. exists (firstn 1 (numbered 1 c126b)), (firstn 11 (skipn 2 (numbered 1 c126b))), (firstn 4 (numbered 1 c126b)), (firstn 4 (skipn 5 (numbered 1 c126b))).
  split; [reflexivity|]. split; [reflexivity|]. split; [|split; [|split; vm_compute; reflexivity]].
  - match goal with |- context [combine ?a ?b] => let r := eval vm_compute in (combine a b) in change (combine a b) with r end.
    intros c o J. repeat (destruct J as [J|J]; [injection J as <- <-; split; cbn; first [exact I|left; reflexivity|intros; discriminate|auto]|]). destruct J.
  - match goal with |- context [combine ?a ?b] => let r := eval vm_compute in (combine a b) in change (combine a b) with r end.
    intros c o J. repeat (destruct J as [J|J]; [injection J as <- <-; cbn; exact I|]). destruct J.
Qed.
