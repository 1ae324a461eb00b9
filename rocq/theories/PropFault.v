(** C98-C101: what the library does when the storage fails. *)
From Verif Require Import Base Codec Ops Object Store StoreSpec StoreProofs Sys SysProofs Fault FaultProofs FaultProofs2 FaultProofs3 FaultProofs4 ToyEnv ToySys PropObject PropStore.
From Coq Require Import List.
Import ListNotations.
Open Scope nat_scope.
Open Scope list_scope.

(** Without faults the calls are those of Sys.v. *)
Theorem C98_calm w ft rnd s c : (forall n, f_write ft n = Good) -> (forall f, f_read ft f = All) ->
  fstep w ft rnd s c = step w rnd s c.
Proof. intros A B. apply fstep_calm. split; assumption. Qed.
Print Assumptions C98_calm.

(** ** C98: a call that answers CKR_OK has stored what it says *)
(** For faults of a kind [F] and calls of a kind [K]: the files are those the same call
    leaves when nothing fails. *)
Definition C98_claim (F : faults -> Prop) (K : op -> Prop) (w : world) : Prop :=
  forall d s ft rnd c s' o s1 o1, freach w (sys0 d) s -> F ft -> K c -> (forall f, f_read ft f = All) ->
  fstep w ft rnd s c = Ok (s', o) -> out_rv o = CKR_OK -> step w rnd s c = Ok (s1, o1) ->
  forall f, s_fs s' f = s_fs s1 f.
(** Every failure is reported by the operation that fails. *)
Definition reported (ft : faults) : Prop := forall n k, f_write ft n <> Lost k.
Definition sets_pin (c : op) : Prop := match c with OInitToken _ _ _ | OInitPIN _ _ | OSetPIN _ _ _ => True | _ => False end.
(** The calls that set a PIN, unless the failure shows only after fwrite. *)
Theorem C98_partial w : C98_claim reported sets_pin w /\
  (forall ft rnd s c s' o, reported ft -> sets_pin c -> fstep w ft rnd s c = Ok (s', o) -> out_rv o = CKR_OK ->
     step w rnd s c = Ok (s', o)).
Proof.
  assert (G : forall ft rnd s c s' o, reported ft -> sets_pin c -> fstep w ft rnd s c = Ok (s', o) -> out_rv o = CKR_OK ->
     step w rnd s c = Ok (s', o)).
  { intros ft rr s c s' o A P H K. destruct (fstep_pin_ok w ft rr s c s' o) as (s1 & E & _ & Q); [destruct c; try contradiction; reflexivity|exact H|exact K|].
    rewrite (Q A). exact E. }
  split; [|exact G]. intros d s ft rr c s' o s1 o1 _ A P _ H K S f. rewrite (G _ _ _ _ _ _ A P H K) in S. injection S; intros; subst. reflexivity.
Qed.
Print Assumptions C98_partial.
(** All other calls answer the same whatever the storage does. *)
Theorem C98_deaf w ft rnd s c s' o s1 o1 : ~ sets_pin c -> c <> OInitialize ->
  fstep w ft rnd s c = Ok (s', o) -> step w rnd s c = Ok (s1, o1) -> o = o1.
Proof.
  intros P I H S. apply (fstep_agree w ft rnd s c) with (s' := s') (s1 := s1); auto.
  destruct c; try reflexivity; [contradiction I; reflexivity|contradiction P; exact Logic.I..].
Qed.
Print Assumptions C98_deaf.

(** Operation [n] fails. *)
Definition failing (n : nat) : faults := mkF (fun i => if (i =? n)%nat then Fails 0 else Good) (fun _ => All).
(** From operation [n] on nothing gets to the device. *)
Definition full (n : nat) : faults := mkF (fun i => if (n <=? i)%nat then Lost 0 else Good) (fun _ => All).
Lemma reach_freach w s0 s : reach w s0 s -> freach w s0 s.
Proof.
  induction 1 as [|s rr c s' o R IH H]; [constructor|]. apply (freach_step w s0 (mkF (fun _ => Good) (fun _ => All)) s rr c s' o IH).
  rewrite C98_calm by reflexivity. exact H.
Qed.
Definition inuse : list op := setup ++ [OOpenSession 1 RW; userlogin upin].
Definition now : nat := length (s_log (after inuse)).
Lemma inuse_reach : freach tw (sys0 nofiles) (after inuse).
Proof. apply reach_freach, after_reach. vm_compute. exact Logic.I. Qed.
Definition make_key : op := OCreateObject H2 (tokenly aes_tmpl).
(** C_CreateObject answers CKR_OK though nothing could be opened. *)
Theorem C98_refuted : ~ C98_claim reported (fun _ => True) tw.
Proof.
  intros C. destruct (fstep tw (failing now) (rnd 9) (after inuse) make_key) as [[s' o]| |] eqn:F; [|vm_compute in F; discriminate..].
  destruct (step tw (rnd 9) (after inuse) make_key) as [[s1 o1]| |] eqn:S; [|vm_compute in S; discriminate..].
  assert (Rp : reported (failing now)) by (intros n k; cbn; destruct (n =? now)%nat; discriminate).
  assert (K : out_rv o = CKR_OK) by (vm_compute in F; injection F as _ <-; reflexivity).
  specialize (C nofiles _ _ _ _ _ _ _ _ inuse_reach Rp Logic.I (fun _ => eq_refl) F K S (F_OBJECT, 0)).
  vm_compute in F. injection F as <- _. vm_compute in S. injection S as <- _. vm_compute in C. discriminate C.
Qed.
Print Assumptions C98_refuted.
(** C_SetPIN answers CKR_OK though the disk is full; the files are empty. *)
Definition newpin : op := OSetPIN H2 upin pin2.
Theorem C98_pin_refuted : ~ C98_claim (fun _ => True) sets_pin tw.
Proof.
  intros C. destruct (fstep tw (full now) (rnd 9) (after inuse) newpin) as [[s' o]| |] eqn:F; [|vm_compute in F; discriminate..].
  destruct (step tw (rnd 9) (after inuse) newpin) as [[s1 o1]| |] eqn:S; [|vm_compute in S; discriminate..].
  assert (K : out_rv o = CKR_OK) by (vm_compute in F; injection F as _ <-; reflexivity).
  specialize (C nofiles _ (full now) (rnd 9) newpin _ _ _ _ inuse_reach Logic.I Logic.I (fun _ => eq_refl) F K S (F_TOKEN, 0)).
  vm_compute in F. injection F as <- _. vm_compute in S. injection S as <- _. vm_compute in C. discriminate C.
Qed.
Print Assumptions C98_pin_refuted.
(** The next process: what it answers to login with the old and the new PIN. *)
Definition next (d : fs) (l : list op) : option (list Z) :=
  match run tw (sys0 d) (numbered 500 l) with Ok (_, os) => Some (map out_rv os) | _ => None end.
Definition login2 : list op := [OInitialize; OOpenSession 1 RW; userlogin upin; userlogin pin2].
Definition files_after (ft : faults) (c : op) : fs := match fstep tw ft (rnd 9) (after inuse) c with Ok (s, _) => s_fs s | _ => nofiles end.
Example C98_case : next (files_after (mkF (fun _ => Good) (fun _ => All)) newpin) login2 = Some [CKR_OK; CKR_OK; CKR_PIN_INCORRECT; CKR_OK] /\
  next (files_after (full now) newpin) login2 = Some [CKR_OK; CKR_OK; CKR_USER_PIN_NOT_INITIALIZED; CKR_USER_PIN_NOT_INITIALIZED].
Proof. vm_compute. split; reflexivity. Qed.
Example C98_meets : exists s' o, reported (failing (now + 7)) /\ fstep tw (failing (now + 7)) (rnd 9) (after inuse) newpin = Ok (s', o) /\ out_rv o = CKR_OK /\ s_fs s' (F_TOKEN, 0) <> s_fs (after inuse) (F_TOKEN, 0).
Proof.
  destruct (fstep tw (failing (now + 7)) (rnd 9) (after inuse) newpin) as [[s' o]| |] eqn:F; [|vm_compute in F; discriminate..].
  exists s', o. split; [intros n k; cbn; destruct (n =? now + 7)%nat; discriminate|]. split; [reflexivity|].
  vm_compute in F. injection F as <- <-. split; [reflexivity|]. vm_compute. discriminate.
Qed.

(** ** C99: a PIN change that fails leaves the old PIN *)
Definition C99_claim (w : world) : Prop := forall d s ft rnd h old new s' o, freach w (sys0 d) s -> reported ft ->
  fstep w ft rnd s (OSetPIN h old new) = Ok (s', o) -> out_rv o <> CKR_OK ->
  t_user (s_tok s') = t_user (s_tok s) /\ t_so (s_tok s') = t_so (s_tok s).
Definition C99_disk_claim (w : world) : Prop := forall d s ft rnd h old new s' o, freach w (sys0 d) s -> reported ft ->
  fstep w ft rnd s (OSetPIN h old new) = Ok (s', o) -> out_rv o <> CKR_OK -> forall f, s_fs s' f = s_fs s f.
(** Refused for another reason than a failed storage: nothing changes. If the token
    file cannot be opened the files are as before. The memory is in every case what
    it is when nothing fails. *)
Ltac fpeel H := repeat match type of H with
  | (match ?x with _ => _ end) = Ok _ => destruct x eqn:?; try discriminate H
  end.
Theorem C99_partial w ft rnd s h old new s' o : fstep w ft rnd s (OSetPIN h old new) = Ok (s', o) -> out_rv o <> CKR_OK ->
  (out_rv o <> CKR_FUNCTION_FAILED -> s' = s) /\
  (forall k, f_write ft (length (s_log s)) = Fails k -> forall f, s_fs s' f = s_fs s f) /\
  (forall s1 o1, step w rnd s (OSetPIN h old new) = Ok (s1, o1) -> t_user (s_tok s') = t_user (s_tok s1) /\ t_so (s_tok s') = t_so (s_tok s1)).
Proof.
  intros H K. split; [|split].
  - intros K2. cbn [fstep] in H. unfold with_sess, need_lib, FSetPIN in H. cbv zeta in H. fpeel H;
    try (apply rv_inv in H as [-> ->]; reflexivity);
    match type of H with bind ?r _ = _ => destruct r as [[c2 s2]| |]; cbn [bind] in H; try discriminate H end;
    apply rv_inv in H as [-> ->]; cbn in K, K2; destruct (c2 =? 0)%Z; contradiction.
  - intros k Fk. cbn [fstep] in H. unfold with_sess, need_lib, FSetPIN in H. cbv zeta in H. fpeel H;
    try (apply rv_inv in H as [-> ->]; reflexivity).
    assert (Q : forall t c2 s2, fstore w ft rnd (set_tok s t) = Ok (c2, s2) -> forall f, s_fs s2 f = s_fs s f).
    { intros t c2 s2 Hs. unfold fstore in Hs. destruct (tok_header _); cbn [bind] in Hs; try discriminate.
      cbn [performs s_log set_tok s_fs] in Hs. rewrite Fk in Hs. cbn in Hs. injection Hs as <- <-. reflexivity. }
    match type of H with bind (if ?b then _ else _) _ = _ => destruct b end.
    + destruct (FSetSOPin _ _ _ _ _) as [[c2 s2]| |] eqn:E; cbn [bind] in H; try discriminate H. apply rv_inv in H as [-> ->]. exact (Q _ _ _ E).
    + destruct (FSetUserPin _ _ _ _ _) as [[c2 s2]| |] eqn:E; cbn [bind] in H; try discriminate H. apply rv_inv in H as [-> ->]. exact (Q _ _ _ E).
  - intros s1 o1 S. destruct (fstep_pin_mem w ft rnd s (OSetPIN h old new) s' o s1 o1 eq_refl H S) as (_ & _ & _ & T & _).
    apply tok0_eq in T. split; apply T.
Qed.
Print Assumptions C99_partial.
Theorem C99_refuted : ~ C99_claim tw.
Proof.
  intros C. destruct (fstep tw (failing now) (rnd 9) (after inuse) newpin) as [[s' o]| |] eqn:F; [|vm_compute in F; discriminate..].
  assert (Rp : reported (failing now)) by (intros n k; cbn; destruct (n =? now)%nat; discriminate).
  assert (K : out_rv o <> CKR_OK) by (vm_compute in F; injection F as _ <-; discriminate).
  destruct (C nofiles _ _ _ _ _ _ _ _ inuse_reach Rp F K) as [C1 _]. vm_compute in F. injection F as <- _. vm_compute in C1. discriminate C1.
Qed.
Print Assumptions C99_refuted.
(** Writing the token file fails after it has been emptied: C_SetPIN answers
    CKR_FUNCTION_FAILED, and the token is gone from the disk. *)
Theorem C99_disk_refuted : ~ C99_disk_claim tw.
Proof.
  intros C. destruct (fstep tw (failing (now + 1)) (rnd 9) (after inuse) newpin) as [[s' o]| |] eqn:F; [|vm_compute in F; discriminate..].
  assert (Rp : reported (failing (now + 1))) by (intros n k; cbn; destruct (n =? now + 1)%nat; discriminate).
  assert (K : out_rv o <> CKR_OK) by (vm_compute in F; injection F as _ <-; discriminate).
  specialize (C nofiles _ _ _ _ _ _ _ _ inuse_reach Rp F K (F_TOKEN, 0)). vm_compute in F. injection F as <- _. vm_compute in C. discriminate C.
Qed.
Print Assumptions C99_disk_refuted.
(** In this process the new PIN is the PIN although the change was refused; in the next
    the old one is, or none. *)
Definition then_ (ft : faults) (c : op) (l : list op) : option (list Z) :=
  match fstep tw ft (rnd 9) (after inuse) c with Ok (s, o) => match run tw s (numbered 500 l) with Ok (_, os) => Some (out_rv o :: map out_rv os) | _ => None end | _ => None end.
Example C99_case : then_ (failing now) newpin [OLogout H2; userlogin upin; userlogin pin2] = Some [CKR_FUNCTION_FAILED; CKR_OK; CKR_PIN_INCORRECT; CKR_OK] /\
  next (files_after (failing now) newpin) login2 = Some [CKR_OK; CKR_OK; CKR_OK; CKR_USER_ALREADY_LOGGED_IN] /\
  next (files_after (failing (now + 1)) newpin) login2 = Some [CKR_OK; CKR_OK; CKR_USER_PIN_NOT_INITIALIZED; CKR_USER_PIN_NOT_INITIALIZED].
Proof. vm_compute. repeat split. Qed.

(** ** C100: a failing storage causes no undefined behaviour *)
Definition C100_claim (w : world) : Prop := forall d s ft rnd c s1 o1 u, freach w (sys0 d) s ->
  step w rnd s c = Ok (s1, o1) -> fstep w ft rnd s c <> Undef u.
(** C_DestroyObject opens its first file and then cannot open the second. *)
Definition second_open_fails (ft : faults) (s : sys) : Prop :=
  (forall k, f_write ft (length (s_log s)) <> Fails k) /\ exists k, f_write ft (length (s_log s) + 1) = Fails k.
Theorem C100_partial w ft rnd s c s1 o1 u : step w rnd s c = Ok (s1, o1) ->
  (match c with ODestroyObject _ _ => ~ second_open_fails ft s | _ => True end) -> fstep w ft rnd s c <> Undef u.
Proof. intros S Nd E. pose proof (fstep_keeps w ft rnd s c Nd _ S) as G. rewrite E in G. exact G. Qed.
Print Assumptions C100_partial.
Definition havekey : list op := inuse ++ [make_key].
Definition drop : op := ODestroyObject H2 (2^28 + 1).
Definition later : nat := length (s_log (after havekey)).
Theorem C100_refuted : ~ C100_claim tw.
Proof.
  intros C. assert (R : freach tw (sys0 nofiles) (after havekey)) by (apply reach_freach, after_reach; vm_compute; exact Logic.I).
  destruct (step tw (rnd 9) (after havekey) drop) as [[s1 o1]| |] eqn:S; [|vm_compute in S; discriminate..].
  apply (C nofiles _ (failing (later + 1)) _ _ _ _ UB_use_after_free R S). vm_compute. reflexivity.
Qed.
Print Assumptions C100_refuted.
(** The first open failing, or both, or the second write, is survived. *)
Definition ok (r : res (sys * out)) : option Z := match r with Ok (_, o) => Some (out_rv o) | _ => None end.
Example C100_case : ok (fstep tw (failing later) (rnd 9) (after havekey) drop) = Some CKR_OK /\
  ok (fstep tw (mkF (fun _ => Fails 0) (fun _ => All)) (rnd 9) (after havekey) drop) = Some CKR_OK /\
  ok (fstep tw (failing (later + 2)) (rnd 9) (after havekey) drop) = Some CKR_OK /\
  ok (fstep tw (failing (later + 1)) (rnd 9) (after havekey) drop) = None.
Proof. vm_compute. repeat split. Qed.
Example C100_meets : ~ second_open_fails (failing later) (after havekey) /\ ok (step tw (rnd 9) (after havekey) drop) = Some CKR_OK.
Proof.
  split; [|vm_compute; reflexivity]. intros [A _]. unfold failing, later in A. cbn [f_write] in A. rewrite Nat.eqb_refl in A. exact (A 0 eq_refl).
Qed.

(** ** C101: a read that fails does not destroy the stored token *)
(** One process cannot read some file, does nothing and ends; the next process finds
    what it would have found without it. *)
Definition C101_claim (w : world) : Prop := laws (w_se w) -> forall d s ft rnd s1 o1 rnd2 s2 o2 s3 o3 s4 o4, reach w (sys0 d) s -> s_count s = 0%Z ->
  (forall n, f_write ft n = Good) ->
  fstep w ft rnd (sys0 (s_fs s)) OInitialize = Ok (s1, o1) -> fstep w ft rnd2 s1 OFinalize = Ok (s2, o2) ->
  step w rnd (sys0 (s_fs s)) OInitialize = Ok (s3, o3) -> step w rnd (sys0 (s_fs s2)) OInitialize = Ok (s4, o4) ->
  tok_view (s_tok s4) = tok_view (s_tok s3).
(** The read itself changes no file; and faults in files that are not there, or beyond
    the end of a file, change nothing at all. *)
Theorem C101_partial w ft rnd s s1 o1 : fstep w ft rnd s OInitialize = Ok (s1, o1) ->
  (forall f, s_fs s1 f = s_fs s f) /\ s_log s1 = s_log s /\
  ((forall f b, s_fs s f = Some b -> f_read ft f = All \/ exists n, f_read ft f = Short n /\ (length b <= n)) ->
   step w rnd s OInitialize = Ok (s1, o1)).
Proof.
  cbn [fstep step]. intros H. split; [|split].
  - unfold FInitialize in H. destruct (_ =? 0)%Z; [destruct (Token_Load _ _ _); cbn [bind] in H; try discriminate|]; injection H as <- _; reflexivity.
  - unfold FInitialize in H. destruct (_ =? 0)%Z; [destruct (Token_Load _ _ _); cbn [bind] in H; try discriminate|]; injection H as <- _; reflexivity.
  - intros Q. unfold FInitialize, Initialize in *. rewrite (Token_Load_ext (w_se w) (s_fs s) (readable ft (s_fs s))) in H; [exact H|].
    intros f. unfold readable. destruct (s_fs s f) as [b|] eqn:E; [|destruct (f_read ft f); reflexivity].
    destruct (Q f b E) as [->|(n & -> & L)]; [reflexivity|]. rewrite firstn_all2 by exact L. reflexivity.
Qed.
Print Assumptions C101_partial.
Definition unreadable (f : fname) : faults := mkF (fun _ => Good) (fun g => if fname_eqb g f then Shut else All).
Definition ended : list op := havekey ++ [OFinalize].
Definition careless_ (f : fname) : option sys :=
  match fstep tw (unreadable f) (rnd 9) (sys0 (s_fs (after ended))) OInitialize with
  | Ok (s1, _) => match fstep tw (unreadable f) (rnd 10) s1 OFinalize with Ok (s2, _) => Some s2 | _ => None end
  | _ => None end.
(** The token file cannot be opened once; C_Initialize and C_Finalize answer CKR_OK;
    SO PIN, user PIN and objects are gone. *)
Theorem C101_refuted : ~ C101_claim tw.
Proof.
  intros C. pose (ft := unreadable (F_TOKEN, 0)).
  destruct (fstep tw ft (rnd 9) (sys0 (s_fs (after ended))) OInitialize) as [[s1 o1]| |] eqn:F1; [|vm_compute in F1; discriminate..].
  destruct (fstep tw ft (rnd 10) s1 OFinalize) as [[s2 o2]| |] eqn:F2; [|vm_compute in F1; injection F1 as <- _; vm_compute in F2; discriminate..].
  destruct (step tw (rnd 9) (sys0 (s_fs (after ended))) OInitialize) as [[s3 o3]| |] eqn:F3; [|vm_compute in F3; discriminate..].
  destruct (step tw (rnd 9) (sys0 (s_fs s2)) OInitialize) as [[s4 o4]| |] eqn:F4;
    [|vm_compute in F1; injection F1 as <- _; vm_compute in F2; injection F2 as <- _; vm_compute in F4; discriminate..].
  assert (R : reach tw (sys0 nofiles) (after ended)) by (apply after_reach; vm_compute; exact Logic.I).
  assert (E := C toy_laws nofiles _ ft _ _ _ _ _ _ _ _ _ _ R ltac:(vm_compute; reflexivity) (fun _ => eq_refl) F1 F2 F3 F4).
  apply (f_equal snd) in E. apply (f_equal (@length _)) in E. vm_compute in F1. injection F1 as <- _. vm_compute in F2. injection F2 as <- _.
  vm_compute in F3. injection F3 as <- _. vm_compute in F4. injection F4 as <- _. vm_compute in E. discriminate E.
Qed.
Print Assumptions C101_refuted.
(** The same when only the file of one key cannot be read: all objects are gone, and so
    are the PINs. *)
Example C101_case : option_map (fun s => next (s_fs s) login2) (careless_ (F_TOKEN, 0)) = Some (Some [CKR_OK; CKR_OK; CKR_USER_PIN_NOT_INITIALIZED; CKR_USER_PIN_NOT_INITIALIZED]) /\
  option_map (fun s => next (s_fs s) login2) (careless_ (F_SYMMKEY, 0)) = Some (Some [CKR_OK; CKR_OK; CKR_USER_PIN_NOT_INITIALIZED; CKR_USER_PIN_NOT_INITIALIZED]) /\
  next (s_fs (after ended)) login2 = Some [CKR_OK; CKR_OK; CKR_OK; CKR_USER_ALREADY_LOGGED_IN].
Proof. vm_compute. repeat split. Qed.
