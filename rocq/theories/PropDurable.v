(** Durability: C102. *)
From Verif Require Import Base Codec CodecProofs Ops ToyEnv Object ObjectProofs PropObject Store StoreSpec StoreProofs Sys SysProofs SysProofs2 SysProofs3 SysProofs4
  LoginProofs WfProofs KeyProofs CrashProofs DiskProofs ToySys PropStore PropStore3 DurableProofs DurableKeys.

(** ** C102: what a call answered CKR_OK for is not undone by the end of the process *)
(** The process ends without C_Finalize; another starts. *)
Definition C102_claim (w : world) : Prop := forall d s rnd1 s1 o1 rnd2 s2 o2,
  reach w (sys0 d) s -> (0 < s_count s)%Z -> t_init (s_tok s) = true -> tidy w s ->
  step w rnd1 s ORestart = Ok (s1, o1) -> step w rnd2 s1 OInitialize = Ok (s2, o2) -> lasting (s_tok s2) = lasting (s_tok s).

(** Deciding [tidy]. *)
Definition fits_valb (v : sval) : bool := match v with SV b => (zlen b <? 2^31)%Z | SNull n => (n =? 0)%Z end.
Definition within (a b x : Z) : bool := andb (a <=? x)%Z (x <? b)%Z.
Definition fits_pinb (p : pin) : bool :=
  andb (within (-2^31) (2^31) (p_fail p)) (andb (within (-2^63) (2^63) (p_last p)) (within (-2^63) (2^63) (p_tmo p))).
Definition storableb (se : senv) (o : obj) : bool :=
  if is_cert o then match o_data o with KCert l b => andb (andb (0 <? l)%Z (l <=? zlen b)%Z) (andb (l <? 2^31)%Z (negb (is_sym o))) | _ => false end
  else andb (match key_kind o with None => false | _ => true end)
      (andb (match o_keyData o with Some kd => (zlen kd <? 2^31)%Z | None => false end)
            (orb (negb (o_type o =? CKK_DH)%Z) (match as_dh o with
               | Ok (p, g, _, _) => andb (0 <=? fst (se_dh_der se p g))%Z (zlen (snd (se_dh_der se p g)) <? 2^31)%Z | _ => false end))).
Definition tidyb (w : world) (s : sys) : bool :=
  andb (andb (fits_pinb (t_so (s_tok s))) (fits_pinb (t_user (s_tok s))))
       (forallb (fun o => andb (andb (fits_valb (o_keyId o)) (fits_valb (o_label o))) (storableb (w_se w) o)) (t_objs (s_tok s))).
Lemma fits_pinb_ok p : fits_pinb p = true -> fits_pin p.
Proof. unfold fits_pinb, within. rewrite !andb_true_iff, !Z.leb_le, !Z.ltb_lt. unfold fits_pin. lia. Qed.
Lemma fits_valb_ok v : fits_valb v = true -> fits_val v.
Proof. destruct v; cbn [fits_valb fits_val]; [apply Z.ltb_lt|apply Z.eqb_eq]. Qed.
Lemma storableb_ok se o : storableb se o = true -> storable se o.
Proof.
  unfold storableb, storable. destruct (is_cert o).
  - destruct (o_data o) eqn:OD; try discriminate. rewrite !andb_true_iff, Z.leb_le, !Z.ltb_lt, negb_true_iff. intros ((A & B) & C & D). do 2 eexists. split; [reflexivity|]. auto.
  - rewrite !andb_true_iff. intros (A & B & C). split; [destruct (key_kind o); [discriminate|discriminate A]|]. split.
    + destruct (o_keyData o) as [kd|]; [|discriminate]. exists kd. split; [reflexivity|apply Z.ltb_lt; exact B].
    + intros T. rewrite T, Z.eqb_refl in C. cbn [negb orb] in C. destruct (as_dh o) as [[[[p g] l] b]| |]; try discriminate.
      rewrite andb_true_iff, Z.leb_le, Z.ltb_lt in C. exists p, g, l, b. auto.
Qed.
Lemma tidyb_ok w s : tidyb w s = true -> tidy w s.
Proof.
  unfold tidyb, tidy, fits. rewrite !andb_true_iff, forallb_forall. intros ((A & B) & C).
  split; [split; [apply fits_pinb_ok, A|split; [apply fits_pinb_ok, B|]]|]; apply Forall_forall; intros o I; specialize (C o I); rewrite !andb_true_iff in C; destruct C as ((C1 & C2) & C3).
  - split; apply fits_valb_ok; assumption.
  - apply storableb_ok; exact C3.
Qed.
(** Deciding [steady] for a given history. *)
Fixpoint steadyb (w : world) (s : sys) (l : list (op * (nat -> list N))) : bool :=
  match l with
  | [] => true
  | (c, r) :: l' => match step w r s c with
                    | Ok (s1, _) => andb (andb (negb (sets_token c)) (tidyb w s1)) (steadyb w s1 l')
                    | _ => false end
  end.
Lemma steadyb_ok w d s l s' o : steady w d s -> steadyb w s l = true -> run w s l = Ok (s', o) -> steady w d s'.
Proof.
  revert s o. induction l as [|[c r] l IH]; cbn [steadyb run]; intros s o Sd B R; [congruence|].
  destruct (step w r s c) as [[s1 o1]| |] eqn:E; cbn [bind] in R; try discriminate. rewrite !andb_true_iff, negb_true_iff in B. destruct B as ((B1 & B2) & B3).
  destruct (run w s1 l) as [[s2 o2]| |] eqn:R1; cbn [bind] in R; try discriminate. injection R as <- _.
  eapply IH; [|exact B3|exact R1]. eapply sd_step; eauto. apply tidyb_ok, B2.
Qed.
Lemma after_steady l : steadyb tw (sys0 nofiles) (numbered 1 l) = true -> (match hist l with Ok _ => True | _ => False end) -> steady tw nofiles (after l).
Proof.
  unfold after, hist. intros B. destruct (run _ _ _) as [[s o]| |] eqn:E; try contradiction. intros _. eapply steadyb_ok; [constructor|exact B|exact E].
Qed.

(** C_SetAttributeValue on a token object answers CKR_OK and changes the label in
    memory only. *)
Definition relabel : list op := setup ++ [OOpenSession 1 RW; userlogin upin; OCreateObject H2 (tokenly aes_tmpl);
  OSetAttributeValue H2 (2^28 + 1) [mkA CKA_LABEL (AV [7; 7]%N)]].
Example relabel_ok : last (rvs relabel) 1%Z = CKR_OK.
Proof. vm_compute. reflexivity. Qed.
Theorem C102_refuted : ~ C102_claim tw.
Proof.
  intros Cl. set (s := after relabel).
  destruct (step tw (rnd 0) s ORestart) as [[s1 o1]| |] eqn:E1; [|vm_compute in E1; discriminate..].
  destruct (step tw (rnd 0) s1 OInitialize) as [[s2 o2]| |] eqn:E2; [|vm_compute in E1; injection E1 as <- _; vm_compute in E2; discriminate..].
  assert (R : reach tw (sys0 nofiles) s) by (apply after_reach; vm_compute; exact Logic.I).
  assert (C : (0 < s_count s)%Z) by (vm_compute; reflexivity).
  assert (Ti : t_init (s_tok s) = true) by (vm_compute; reflexivity).
  assert (Td : tidy tw s) by (apply tidyb_ok; vm_compute; reflexivity).
  pose proof (Cl _ _ _ _ _ _ _ _ R C Ti Td E1 E2) as X.
  vm_compute in E1. injection E1 as <- _. vm_compute in E2. injection E2 as <- _. vm_compute in X. discriminate X.
Qed.
Print Assumptions C102_refuted.

(** Proved: histories without a change of attributes of token objects in which
    every state could be stored. In them the end of the process at any moment
    between calls undoes nothing. *)
Theorem C102_partial w d s rnd1 s1 o1 rnd2 s2 o2 : laws (w_se w) ->
  steady w d s -> (0 < s_count s)%Z -> t_init (s_tok s) = true ->
  step w rnd1 s ORestart = Ok (s1, o1) -> step w rnd2 s1 OInitialize = Ok (s2, o2) ->
  o2 = OutRv CKR_OK /\ lasting (s_tok s2) = lasting (s_tok s).
Proof.
  intros L Sd C Ti E1 E2. cbn [step] in E1, E2. injection E1 as <- _. unfold Initialize in E2. cbn [s_count s_fs s_uid] in E2. change (0 =? 0)%Z with true in E2. cbv iota in E2.
  destruct (steady_synced w L d s Sd C Ti (s_uid s)) as (t & A & B). rewrite A in E2. cbn [bind] in E2. injection E2 as <- <-. auto.
Qed.
Print Assumptions C102_partial.
(** Keys created and destroyed, the PIN changed, logout, a login that fails. *)
Definition busy : list op := zoo ++ [ODestroyObject H2 (2^28 + 3); OSetAttributeValue H2 1 []; OSetPIN H2 upin pin2; OLogout H2; userlogin wrong;
  OFinalize; OInitialize; OOpenSession 1 RW; userlogin pin2; OCreateObject H2 (tokenly aes_tmpl)].
Example C102_example : steady tw nofiles (after busy) /\ (0 < s_count (after busy))%Z /\ t_init (s_tok (after busy)) = true /\ length (t_objs (s_tok (after busy))) = 7%nat.
Proof. split; [apply after_steady; vm_compute; [reflexivity|exact Logic.I]|]. vm_compute. auto. Qed.

(** ** The keys *)
(** A key the user could read is there again when the user has logged in after
    the process ended. *)
Definition C102_keys_claim (w : world) : Prop :=
  laws (w_se w) -> forall d p s o rnd1 s1 o1 rnd2 s2 o2 rnd3 fl s3 h3, as_user w d p s -> tidy w s -> is_readable_key s o ->
  step w rnd1 s ORestart = Ok (s1, o1) -> step w rnd2 s1 OInitialize = Ok (s2, o2) -> step w rnd3 s2 (OOpenSession 1 fl) = Ok (s3, OutH CKR_OK h3) ->
  readable_by w p s3 h3 o.
(** The user changes the PIN; until logout the key data in memory and in the files
    is that encrypted under the key of the old PIN, and the files have the new
    PIN. *)
Theorem C102_keys_refuted : ~ C102_keys_claim tw.
Proof.
  intros Cl.
  destruct (step tw (rnd 7) (after zoo) (OSetPIN H2 upin pin2)) as [[s o]| |] eqn:E; [|vm_compute in E; discriminate..].
  assert (Eo : o = OutRv CKR_OK) by (vm_compute in E; injection E as _ <-; reflexivity). subst o.
  assert (A : as_user tw nofiles pin2 s) by exact (au_set _ _ _ _ _ _ _ _ _ zoo_user E).
  vm_compute in E. injection E as <-. match type of A with as_user _ _ _ ?q => set (s := q) in * end.
  destruct (step tw (rnd 0) s ORestart) as [[s1 o1]| |] eqn:E1; [|vm_compute in E1; discriminate..].
  destruct (step tw (rnd 0) s1 OInitialize) as [[s2 o2]| |] eqn:E2; [|vm_compute in E1; injection E1 as <- _; vm_compute in E2; discriminate..].
  destruct (step tw (rnd 0) s2 (OOpenSession 1 RW)) as [[s3 o3]| |] eqn:E3; [|vm_compute in E1; injection E1 as <- _; vm_compute in E2; injection E2 as <- _; vm_compute in E3; discriminate..].
  assert (Eo : o3 = OutH CKR_OK H2) by (vm_compute in E1; injection E1 as <- _; vm_compute in E2; injection E2 as <- _; vm_compute in E3; injection E3 as _ <-; reflexivity). subst o3.
  set (ok := nth 0 (t_objs (s_tok s)) (obj_new 0 0)).
  assert (K : is_readable_key s ok).
  { split; [apply nth_In; vm_compute; lia|split; [vm_compute; discriminate|vm_compute; reflexivity]]. }
  assert (Td : tidy tw s) by (apply tidyb_ok; vm_compute; reflexivity).
  destruct (Cl toy_laws nofiles pin2 s ok _ _ _ _ _ _ _ _ _ _ A Td K E1 E2 E3 (rnd 0) 0%Z) as (s5 & E5 & o' & I & V & _ & N).
  assert (B : forallb (fun o => orb (negb (o_handle o =? o_handle ok)%Z) (o_enc o)) (t_objs (s_tok s5)) = true).
  { vm_compute in E1; injection E1 as <- _; vm_compute in E2; injection E2 as <- _; vm_compute in E3; injection E3 as <-; vm_compute in E5; injection E5 as <-. vm_compute. reflexivity. }
  rewrite forallb_forall in B. apply (f_equal (fun v => snd (fst (fst (fst (fst (fst (fst (fst (fst (fst v)))))))))) ) in V. cbn [obj_view fst snd] in V.
  specialize (B _ I). cbv beta in B. rewrite V, N, Z.eqb_refl in B. discriminate.
Qed.
Print Assumptions C102_keys_refuted.

(** Proved for a process in which the user logs in once and changes no PIN
    ([one_login]), after any [steady] history of earlier processes: the login
    succeeds unless the PIN is locked in the files, every object is back, and so
    is every key that could be read. *)
Theorem C102_keys_partial w d p s rnd1 s1 o1 rnd2 s2 o2 rnd3 fl s3 h3 : laws (w_se w) -> pub_laws (w_se w) -> one_login w d p true s ->
  step w rnd1 s ORestart = Ok (s1, o1) -> step w rnd2 s1 OInitialize = Ok (s2, o2) -> step w rnd3 s2 (OOpenSession 1 fl) = Ok (s3, OutH CKR_OK h3) ->
  forall rnd n, lock_check (t_user (s_tok s3)) n <> None -> exists s4, step w rnd s3 (OLogin h3 CKU_USER p (Some n)) = Ok (s4, OutRv CKR_OK) /\
  Forall2 (fun o o' => obj_view o' = obj_view o /\ (o_class o <> CKO_CERTIFICATE -> o_enc o = false -> same_key o o' /\ o_enc o' = false))
    (t_objs (s_tok s)) (t_objs (s_tok s4)).
Proof.
  intros L P O E1 E2 E3 rnd n Lk. pose proof (one_user _ _ _ _ O) as A. pose proof (as_user_opened _ _ _ _ L A) as (O1 & O2 & O3 & O4 & O5).
  pose proof (as_user_reach _ _ _ _ A) as R. destruct (one_ready w L P _ _ _ _ O) as (St & _ & Ok_). specialize (Ok_ eq_refl).
  assert (Ti : t_init (s_tok s) = true) by apply O2.
  assert (R1 : reach w (sys0 d) s1) by (eapply reach_step; eauto). assert (R2 : reach w (sys0 d) s2) by (eapply reach_step; eauto).
  cbn [step] in E1, E2. injection E1 as <- _. unfold Initialize in E2. cbn [s_count s_fs s_uid] in E2. change (0 =? 0)%Z with true in E2. cbv iota in E2.
  destruct (St Ti (s_uid s)) as (t & Ld & La & Tw). rewrite Ld in E2. cbn [bind] in E2. injection E2 as <- _.
  pose proof (reach_inv _ _ _ R2) as I2. cbn [step] in E3. unfold with_slot, need_lib in E3. cbn [s_count] in E3. change (0 <? 1)%Z with true in E3. change (slot_ok 1) with true in E3. cbv iota in E3.
  apply OpenSession_ok in E3 as [(_ & rv & Q & _) | (l & x & E3)]; [discriminate| |exact I2|reflexivity]. cbv zeta in E3.
  destruct E3 as (Es & Eh & Sl & _ & _ & _ & _ & Ix & Ux & _). injection Eh as Eh. subst h3.
  assert (Tk : s_tok s3 = t) by (rewrite Es; reflexivity). rewrite Tk in Lk.
  assert (Gt : exists x', sess_get s3 (ss_h x) = Some x').
  { rewrite Es. apply (opened_get _ _ _ _ Sl Ix). destruct (negb _); discriminate. }
  destruct Gt as (x' & Gt).
  assert (Cn : s_count s3 = 1%Z) by (rewrite Es; reflexivity).
  cbn [step]. unfold with_sess, need_lib. rewrite Cn. change (0 <? 1)%Z with true. cbv iota. rewrite Gt.
  unfold Login. rewrite O5. cbn [negb]. change (CKU_USER =? CKU_SO)%Z with false. change (CKU_USER =? CKU_USER)%Z with true. cbv iota. rewrite Tk.
  unfold lasting, pin_lasting in La. injection La as _ Li _ _ _ U1 U2 U3 Sd Vw.
  unfold UserLogin. rewrite (Token_Load_public w _ _ _ Ld). destruct (lock_check (t_user t) n) as [q|] eqn:Lc; [|contradiction]. cbv zeta.
  apply lock_same in Lc as (K1 & K2 & K3 & _).
  assert (C : CheckPin w (set_user t q) q p = 0%Z).
  { apply check_0. destruct O2 as (_ & D2 & D3). cbn [pin_of] in D2, D3. cbn [set_user t_init]. rewrite Li, K1, K2, K3, U1, U2, U3. auto. }
  rewrite C. change (0 =? PIN_INVALID_E)%Z with false. change (0 =? 0)%Z with true. cbv iota. cbn [set_key set_user t_key t_objs]. rewrite Sd, <- O4.
  assert (Da : exists l2, decode_all w (t_key (s_tok s)) (t_objs t) = Ok (0%Z, l2) /\
    Forall2 (fun o o' => o_enc o = false -> is_cert o = false -> same_key o o' /\ o_enc o' = false) (t_objs (s_tok s)) l2).
  { clear - Ok_ Tw. induction Tw as [|o od l ld T F IH]; cbn [decode_all]; [eexists; split; [reflexivity|constructor]|]. inversion Ok_ as [|? ? [_ G] Ok2]; subst.
    destruct (G _ T) as (o2 & D & K). rewrite D. cbn [bind]. change (negb (0 =? 0)%Z) with false. cbv iota. destruct (IH Ok2) as (l2 & E & Q). rewrite E. cbn [bind].
    eexists. split; [reflexivity|]. constructor; assumption. }
  destruct Da as (l2 & Da & F2). pose proof Da as Di. apply decode_all_ident in Di as [Di _]. apply views_ident in Di. rewrite Vw in Di. rewrite Da. cbn [bind]. change (0 =? 0)%Z with true. cbv iota. cbn [bind].
  eexists. split; [reflexivity|]. cbn [set_tok s_tok set_login set_objs t_objs].
  clear - F2 Di. induction F2 as [|o o' l l' H F IH]; constructor; cbn [map] in Di; pose proof (f_equal (@hd _ (obj_view o)) Di) as D1; pose proof (f_equal (@tl _) Di) as D2; cbn [hd tl] in D1, D2.
  - split; [exact D1|]. intros C E. apply H; [exact E|]. unfold is_cert. apply Z.eqb_neq. exact C.
  - apply IH. exact D2.
Qed.
Print Assumptions C102_keys_partial.

(** Deciding [one_login] for a given history. *)
Definition calmb (c : op) : bool :=
  match c with OInitialize | OFinalize | ORestart | OInitToken _ _ _ | OInitPIN _ _ | OSetPIN _ _ _ | OLogin _ _ _ _ => false | _ => true end.
Definition beforeb (w : world) (s : sys) (c : op) : bool :=
  match c with
  | OLogin _ ut p _ => orb (ut =? CKU_SO)%Z (negb (CheckPin w (s_tok s) (t_user (s_tok s)) p =? 0)%Z)
  | _ => calmb c
  end.
Lemma calmb_ok c : calmb c = true -> calm c.
Proof. destruct c; try discriminate; exact (fun _ => Logic.I). Qed.
Lemma beforeb_ok w s c : beforeb w s c = true -> before w s c.
Proof.
  destruct c; try exact (calmb_ok _). cbn [beforeb before]. rewrite orb_true_iff, Z.eqb_eq, negb_true_iff, Z.eqb_neq. intros [H|H]; [left; exact H|right].
  intros R. apply H. apply right_check in R. exact R.
Qed.
Fixpoint one_run (w : world) (p : list N) (b : bool) (s : sys) (l : list (op * (nat -> list N))) : option (bool * sys) :=
  match l with
  | [] => Some (b, s)
  | (c, r) :: l' =>
      match step w r s c with
      | Ok (s1, o) =>
          if negb (andb (tidyb w s1) (negb (sets_token c))) then None
          else if b then (if andb (calmb c) (t_login (s_tok s1) =? RW_USER)%Z then one_run w p true s1 l' else None)
          else if beforeb w s c then one_run w p false s1 l'
          else match c, o with
               | OLogin _ ut q (Some _), OutRv 0%Z => if andb (ut =? CKU_USER)%Z (if list_eq_dec N.eq_dec q p then true else false) then one_run w p true s1 l' else None
               | _, _ => None end
      | _ => None end
  end.
Lemma one_run_ok w d p l : forall b s b' s', one_login w d p b s -> one_run w p b s l = Some (b', s') -> one_login w d p b' s'.
Proof.
  induction l as [|[c r] l IH]; cbn [one_run]; intros b s b' s' O H; [injection H as <- <-; exact O|].
  destruct (step w r s c) as [[s1 o]| |] eqn:E; try discriminate. destruct (andb (tidyb w s1) _) eqn:T; [|discriminate]. cbn [negb] in H. apply andb_true_iff in T as [T NS].
  apply negb_true_iff in NS. apply tidyb_ok in T. destruct b.
  - destruct (andb _ _) eqn:C; [|discriminate]. apply andb_true_iff in C as [C U]. apply Z.eqb_eq in U. eapply IH; [|exact H]. eapply ol_after; eauto. apply calmb_ok; exact C.
  - destruct (beforeb w s c) eqn:B. { eapply IH; [|exact H]. eapply ol_before; eauto. apply beforeb_ok; exact B. }
    destruct c; try discriminate. destruct now as [n|]; [|discriminate]. destruct o; try discriminate. destruct rv; try discriminate. destruct (andb _ _) eqn:C; [|discriminate]. apply andb_true_iff in C as [C U].
    apply Z.eqb_eq in C. destruct (list_eq_dec N.eq_dec pin p) as [->|]; [|discriminate]. subst ut. eapply IH; [|exact H]. eapply ol_login; eauto.
Qed.
Lemma toy_pub : pub_laws tse.
Proof.
  constructor; cbn.
  - intros der a b r H. exists r. auto.
  - intros der a b r H. exists r. auto.
  - intros der a. destruct der as [|x [|y [|z der]]]; discriminate.
  - intros der a. destruct der as [|x [|y der]]; discriminate.
Qed.
(** The seven keys of [zoo] from an earlier process; then a wrong PIN, the right
    one, a key created, one destroyed and one copied. *)
Definition earlier : list op := zoo ++ [OFinalize].
Definition later : list op := [OOpenSession 1 RW; userlogin wrong; userlogin upin; OCreateObject H2 (tokenly aes_tmpl); ODestroyObject H2 (2^28 + 3);
  OCreateObject H2 aes_tmpl; OSetAttributeValue H2 1 []; OCopyObject H2 (2^28 + 1) []].
Definition later_start : sys := match step tw (rnd 500) (after earlier) OInitialize with Ok (s, _) => s | _ => sys0 nofiles end.
Definition later_end : sys := match one_run tw upin false later_start (numbered 501 later) with Some (_, s) => s | None => sys0 nofiles end.
Lemma later_one : one_login tw nofiles upin true later_end.
Proof.
  assert (Sd : steady tw nofiles (after earlier)) by (apply after_steady; vm_compute; [reflexivity|exact Logic.I]).
  assert (S0 : one_login tw nofiles upin false later_start).
  { destruct (step tw (rnd 500) (after earlier) OInitialize) as [[s o]| |] eqn:E; [|vm_compute in E; discriminate..].
    assert (Q : s = later_start) by (unfold later_start; rewrite E; reflexivity). rewrite <- Q. eapply ol_start; [exact Sd|vm_compute; reflexivity|exact E|]. rewrite Q. apply tidyb_ok. vm_compute. reflexivity. }
  apply (one_run_ok tw nofiles upin (numbered 501 later) false later_start true later_end S0).
  unfold later_end. destruct (one_run tw upin false later_start (numbered 501 later)) as [[b s]|] eqn:E; [|vm_compute in E; discriminate].
  assert (b = true); [|subst; reflexivity]. vm_compute in E. injection E as <- _. reflexivity.
Qed.
Example C102_keys_example : one_login tw nofiles upin true later_end /\ (length (t_objs (s_tok later_end)) = 7)%nat /\
  forallb (fun o => andb (negb (o_enc o)) (negb (is_cert o))) (t_objs (s_tok later_end)) = true.
Proof. split; [exact later_one|]. split; vm_compute; reflexivity. Qed.
