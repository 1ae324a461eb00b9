(** C113: an operation goes on with the key it was started with, whatever calls come in between. *)
From Verif Require Import Base Cbc CbcSpec Ops OpsSpec OpsCbcProofs OpsProofs OpsProofs2 OpsClaims OpsFinal Object ObjectProofs Store Sys SysProofs SysProofs2 SysProofs3 SysProofs4 WfProofs ObjFrame ObjProofs HandleProofs FindState UseProofs
  KeyHeld ToyEnv ToySys PropObject PropSys1 PropSys2 PropKeys PropInUse PropFind PropOps.
From Coq Require Import List Bool.
Import ListNotations.
Open Scope nat_scope.
Open Scope list_scope.

(** The operation calls that session [h] makes in a history, with their answers. *)
Fixpoint mine (h : Z) (l : list (op * (nat -> list N))) (os : list out) : list (call * outc) :=
  match l, os with
  | (OCrypto h' c _, _) :: l', OutC r :: os' => if (h' =? h)%Z then (c, r) :: mine h l' os' else mine h l' os'
  | _ :: l', _ :: os' => mine h l' os'
  | _, _ => []
  end.
(** Every call of the history either continues the operation of session [h], or is no operation call of
    that session and does not end it. *)
Definition goes_on (h : Z) (c : op) : Prop :=
  (exists k hk, c = OCrypto h k hk /\ data_kind k <> None) \/ aside h c.
(** One object, under one number. *)
Definition only (u : nat) (ko : keyobj) : nat -> option keyobj := fun v => if (v =? u)%nat then Some ko else None.

(** The claim: after an Init call with key [o] the session is told what it would be told if the key stayed
    as it was. *)
Definition C113_claim (w : world) : Prop :=
  forall d s h x ini ini' hk o ko rnd l s' r os, reach w (sys0 d) s -> sess_get s h = Some x ->
    find_obj s x hk = Some o -> view w o = Ok ko -> with_key ini (o_uid o) = Some ini' ->
    run w s ((OCrypto h ini hk, rnd) :: l) = Ok (s', r :: os) -> out_rv r = CKR_OK -> (forall c rn, In (c, rn) l -> goes_on h c) ->
    exists p, Ops.run (w_ev w) (only (o_uid o) ko) (ss_op x) (ini' :: map fst (mine h l os)) = Ok (p, fail Query CKR_OK :: map snd (mine h l os)).

(** Another session sets the value of the key between the two parts of a message ... *)
Definition two_open : list op := setup ++ [OOpenSession 1 RW; OOpenSession 1 RW; OLogin H1 CKU_USER upin (Some 9%Z); OCreateObject H1 tok_aes].
Definition KT : Z := (2 ^ 28 + 1)%Z.
Definition new_value : template := [mkA CKA_VALUE (AV (repeat 9%N 16))].
Definition ini_gcm : op := OCrypto H2 (KEncryptInit M_AES_GCM gcm_iv 0) KT.
Definition part (m : list N) : op := OCrypto H2 (KEncryptUpdate m (Buf 64)) 0.
Definition numb (l : list op) : list (op * (nat -> list N)) := map (fun c => (c, rnd 0)) l.
Definition between : list op := [part [1; 2; 3]%N; OSetAttributeValue H1 KT new_value; part [1; 2; 3]%N].
Lemma goes_all h l : forallb (fun c => match c with OCrypto h' k _ => (h' =? h)%Z && match data_kind k with Some _ => true | None => false end
    | OSetAttributeValue _ _ _ | OLogout _ => true | _ => false end) l = true -> forall c rn, In (c, rn) (numb l) -> goes_on h c.
Proof.
  intros F c rn J. apply in_map_iff in J as (c0 & E & J). injection E as -> <-. rewrite forallb_forall in F. specialize (F c J).
  destruct c; try discriminate F; try (right; split; [discriminate|split; [discriminate|reflexivity]]).
  apply andb_prop in F as [F1 F2]. apply Z.eqb_eq in F1. subst h0. left. exists c, hk. split; [reflexivity|]. destruct (data_kind c); discriminate.
Qed.
Theorem C113_refuted : ~ C113_claim tw.
Proof.
  intros C. remember (match run tw (after two_open) (numb (ini_gcm :: between)) with Ok q => q | _ => (sys0 nofiles, []) end) as q eqn:Q.
  assert (R : run tw (after two_open) (numb (ini_gcm :: between)) = Ok q) by (rewrite Q; vm_compute; reflexivity).
  destruct q as [s' os]. destruct os as [|r os]; [vm_compute in Q; discriminate Q|].
  remember (match sess_get (after two_open) H2 with Some x => x | None => mkS 0 0 [] false [] 0 op_zero end) as x eqn:X.
  assert (G : sess_get (after two_open) H2 = Some x) by (rewrite X; vm_compute; reflexivity).
  remember (match find_obj (after two_open) x KT with Some o => o | None => aes_obj end) as o eqn:O.
  assert (Fo : find_obj (after two_open) x KT = Some o) by (rewrite O, X; vm_compute; reflexivity).
  specialize (C nofiles (after two_open) H2 x (KEncryptInit M_AES_GCM gcm_iv 0) (KEncryptInit M_AES_GCM gcm_iv (o_uid o)) KT o (mkKey CKK_AES (repeat 7%N 16) [] 0) (rnd 0) (numb between) s' r os).
  destruct C as (p & C); [apply after_reach; vm_compute; exact Logic.I|exact G|exact Fo|rewrite O, X; vm_compute; reflexivity|reflexivity|exact R| |apply goes_all; vm_compute; reflexivity|].
  - apply (f_equal snd) in Q. cbn [snd] in Q. apply (f_equal (fun l => out_rv (hd (OutRv 0%Z) l))) in Q. cbn [hd] in Q. rewrite Q. vm_compute. reflexivity.
  - assert (E : os = snd (s', os)) by reflexivity. apply (f_equal (fun q => tl (snd q))) in Q. cbn [tl snd] in Q. rewrite Q, O, X in C. vm_compute in C. discriminate C.
Qed.
Print Assumptions C113_refuted.
(** ... or the user logs out: the library clears the keys of the token, and the session goes on encrypting under
    the key of sixteen zeros, though the key is neither private nor sensitive. The answers are all CKR_OK. *)
Definition logged_out : list op := two_open ++ [ini_gcm; OLogout H1; part [1; 2; 3]%N].
Theorem C113_logout_refuted :
  reach tw (sys0 nofiles) (after logged_out) /\ rvs logged_out = repeat CKR_OK (List.length logged_out) /\
  nth (List.length logged_out - 1) (outs logged_out) (OutRv 0%Z) = OutC (mkOut CKR_OK 3 (stream (repeat 0%N 16) (repeat 0%N 12) [1; 2; 3]%N)) /\
  outs (two_open ++ [ini_gcm; part [1; 2; 3]%N]) = firstn (List.length two_open + 1) (outs logged_out) ++ [OutC (mkOut CKR_OK 3 (stream (repeat 7%N 16) (repeat 0%N 12) [1; 2; 3]%N))] /\
  stream (repeat 0%N 16) (repeat 0%N 12) [1; 2; 3]%N <> stream (repeat 7%N 16) (repeat 0%N 12) [1; 2; 3]%N.
Proof. split; [apply after_reach; vm_compute; exact Logic.I|]. repeat (split; [vm_compute; reflexivity|]). vm_compute. discriminate. Qed.
Print Assumptions C113_logout_refuted.

(** ** What holds *)
Section W.
Variable w : world.
Lemma mine_aside h c rnd l o os : aside h c -> mine h ((c, rnd) :: l) (o :: os) = mine h l os.
Proof.
  intros (A & _). destruct c; try reflexivity. cbn [mine]. destruct o; try reflexivity. destruct (Z.eqb_spec h0 h) as [->|N]; [|reflexivity]. exfalso. apply A; reflexivity.
Qed.
Lemma run_split s c rnd l s' os : run w s ((c, rnd) :: l) = Ok (s', os) -> exists s1 o os', step w rnd s c = Ok (s1, o) /\ run w s1 l = Ok (s', os') /\ os = o :: os'.
Proof.
  cbn [run]. destruct (step w rnd s c) as [[s1 o]| |]; cbn [bind]; try discriminate. destruct (run w s1 l) as [[s2 os']| |] eqn:R; cbn [bind]; try discriminate.
  intros E. injection E as <- <-. exists s1, o, os'. auto.
Qed.
Lemma copied_run s h x l s' os : inv s -> sess_get s h = Some x -> copied (os_mech (ss_op x)) = true -> run w s l = Ok (s', os) -> (forall c rn, In (c, rn) l -> goes_on h c) ->
  forall objs, exists x', sess_get s' h = Some x' /\ Ops.run (w_ev w) objs (ss_op x) (map fst (mine h l os)) = Ok (ss_op x', map snd (mine h l os)).
Proof.
  intros I G C R F objs. revert s x os I G C R F. induction l as [|[c rnd] l IH]; intros s x os I G C R F.
  - cbn [run] in R. injection R as <- <-. exists x. split; [exact G|reflexivity].
  - apply run_split in R as (s1 & o & os' & S & R & ->). pose proof (step_inv w _ _ _ _ _ I S) as I1.
    assert (F' : forall c rn, In (c, rn) l -> goes_on h c) by (intros c0 r0 J; apply (F c0 r0); right; exact J).
    destruct (F c rnd (or_introl eq_refl)) as [(k & hk & -> & D)|A].
    + destruct (data_kind k) as [kd|] eqn:Dk; [|contradiction]. destruct (data_call_run w _ _ _ _ _ _ _ _ _ I (get_count _ _ _ I G) G Dk S) as (ob & p & r & E1 & -> & G1 & _).
      assert (C1 : copied (os_mech (ss_op (set_op x p))) = true). { destruct (step_data_frame _ _ _ _ _ _ _ Dk E1) as (_ & Q & _). cbn [set_op ss_op]. rewrite Q. exact C. }
      destruct (IH _ _ _ I1 G1 C1 R F') as (x' & Gx & E2). exists x'. split; [exact Gx|]. cbn [mine]. rewrite Z.eqb_refl. cbn [map fst snd Ops.run].
      rewrite (data_no_key (w_ev w) objs ob (ss_op x) k kd Dk C), E1. cbn [bind]. cbn [set_op ss_op] in E2. rewrite E2. reflexivity.
    + destruct (aside_op w _ _ _ _ _ _ _ I A S G) as (x1 & G1 & E1). rewrite (mine_aside _ _ _ _ _ _ A). rewrite <- E1. apply (IH _ _ _ I1 G1); [rewrite E1; exact C|exact R|exact F'].
Qed.
(** The Init call alone. *)
Lemma init_run s h x ini ini' hk o ko rnd s1 r : inv s -> sess_get s h = Some x -> find_obj s x hk = Some o -> view w o = Ok ko -> with_key ini (o_uid o) = Some ini' ->
  step w rnd s (OCrypto h ini hk) = Ok (s1, r) ->
  exists p rc, Ops.step (w_ev w) (only (o_uid o) ko) (ss_op x) ini' = Ok (p, rc) /\ r = OutC rc /\ s1 = put_sess s (set_op x p) /\ sess_get s1 h = Some (set_op x p).
Proof.
  intros I G Fo V K S. cbn [step] in S. unfold with_sess, need_lib in S. pose proof (get_count _ _ _ I G) as Cn. apply Z.ltb_lt in Cn. rewrite Cn, G in S.
  destruct (with_key ini 0) as [c0|] eqn:K0; [|destruct ini; discriminate]. unfold with_object in S. rewrite Fo, K in S. unfold run_init in S. rewrite V in S. cbn [bind] in S.
  change (fun u => if (u =? o_uid o)%nat then Some ko else None) with (only (o_uid o) ko) in S.
  destruct (Ops.step _ _ _ _) as [[p rc]| |]; cbn [bind] in S; try discriminate. injection S as <- <-. exists p, rc. split; [reflexivity|]. split; [reflexivity|]. split; [reflexivity|].
  eapply sess_get_put; [apply inv_uniq; exact I|exact G|reflexivity|reflexivity].
Qed.
Lemma init_ok ev objs st c u st' r : with_key c u = Some c -> Ops.step ev objs st c = Ok (st', r) -> o_rv r = CKR_OK ->
  r = fail Query CKR_OK /\ os_curr st' = Some u /\ Some (os_mech st') = init_mech c.
Proof.
  intros K H R.
  destruct c; try discriminate K; injection K as <-; cbn [Ops.step] in H; unfold init_call in H; (destruct (objs u) as [ko|]; [|injection H as _ <-; discriminate R]);
    unfold C_EncryptInit, C_DecryptInit, C_SignInit, C_VerifyInit in H; destruct m;
    unfold rsa_noparam, oaep_init, pss_init, Ops.cbc_init, gcm_init, hmac_init, ecdsa_init, SetGcmParams in H; inv_step; inv_pair; first [discriminate R|repeat split].
Qed.
Lemma spared_run s h x o ko l s' os : inv s -> sess_get s h = Some x -> os_curr (ss_op x) = Some (o_uid o) -> has s h o -> view w o = Ok ko ->
  run w s l = Ok (s', os) -> (forall c rn, In (c, rn) l -> goes_on h c /\ spared (o_handle o) c) ->
  exists x', sess_get s' h = Some x' /\ Ops.run (w_ev w) (only (o_uid o) ko) (ss_op x) (map fst (mine h l os)) = Ok (ss_op x', map snd (mine h l os)).
Proof.
  revert s x os. induction l as [|[c rnd] l IH]; intros s x os I G C Hs V R F.
  - cbn [run] in R. injection R as <- <-. exists x. split; [exact G|reflexivity].
  - apply run_split in R as (s1 & q & os' & S & R & ->). pose proof (step_inv w _ _ _ _ _ I S) as I1.
    assert (F' : forall c rn, In (c, rn) l -> goes_on h c /\ spared (o_handle o) c) by (intros c0 r0 J; apply (F c0 r0); right; exact J).
    destruct (F c rnd (or_introl eq_refl)) as [[(k & hk & -> & D)|A] Sp].
    + destruct (data_kind k) as [kd|] eqn:Dk; [|contradiction]. pose proof (objop_prims w _ _ _ _ _ _ I (eq_refl : objop (OCrypto h k hk) = Some h) S) as P.
      destruct (data_call_run w _ _ _ _ _ _ _ _ _ I (get_count _ _ _ I G) G Dk S) as (ob & p & r & E1 & -> & G1 & _ & Vw).
      pose proof (prims_has w _ _ _ _ _ _ I P Sp Hs) as H1.
      assert (C1 : os_curr (ss_op (set_op x p)) = Some (o_uid o)). { destruct (step_data_frame _ _ _ _ _ _ _ Dk E1) as (Q & _). cbn [set_op ss_op]. rewrite Q. exact C. }
      destruct (IH _ _ _ I1 G1 C1 H1 V R F') as (x' & Gx & E2). exists x'. split; [exact Gx|]. cbn [mine]. rewrite Z.eqb_refl. cbn [map fst snd Ops.run].
      specialize (Vw _ C). destruct (has_find _ _ _ I Hs) as (o' & Fo & Ec). rewrite Fo in Vw. destruct Vw as (k0 & V0 & Ob). rewrite (core_view w _ _ Ec), V in V0. injection V0 as <-.
      rewrite (data_same_key (w_ev w) (only (o_uid o) ko) ob (ss_op x) k kd (o_uid o) Dk C); [|unfold only; rewrite Nat.eqb_refl; symmetry; exact Ob].
      rewrite E1. cbn [bind]. cbn [set_op ss_op] in E2. rewrite E2. reflexivity.
    + destruct (aside_op w _ _ _ _ _ _ _ I A S G) as (x1 & G1 & E1). rewrite (mine_aside _ _ _ _ _ _ A). rewrite <- E1.
      apply (IH _ _ _ I1 G1); [rewrite E1; exact C|exact (step_has w _ _ _ _ _ _ _ _ I A Sp S G Hs)|exact V|exact R|exact F'].
Qed.
Lemma find_has s h x hk o : sess_get s h = Some x -> find_obj s x hk = Some o -> has s h o.
Proof. intros G Fo. apply sess_get_in in G as (X & Hx & _). apply SysProofs3.find_obj_in in Fo as (J & E). exists x, o. split; [exact X|]. split; [exact Hx|]. split; [|reflexivity]. unfold place. rewrite E. exact J. Qed.
End W.

(** For AES-CBC, CBC-PAD and HMAC the claim holds: the Init call copies the key, and neither logging out nor
    C_SetAttributeValue nor even C_DestroyObject of the key, through whatever session, shows in the operation. *)
Theorem C113_copied_partial w d s h x ini ini' hk o ko m rnd l s' r os : reach w (sys0 d) s -> sess_get s h = Some x ->
  find_obj s x hk = Some o -> view w o = Ok ko -> with_key ini (o_uid o) = Some ini' -> init_mech ini = Some m -> copied m = true ->
  run w s ((OCrypto h ini hk, rnd) :: l) = Ok (s', r :: os) -> out_rv r = CKR_OK -> (forall c rn, In (c, rn) l -> goes_on h c) ->
  exists p, Ops.run (w_ev w) (only (o_uid o) ko) (ss_op x) (ini' :: map fst (mine h l os)) = Ok (p, fail Query CKR_OK :: map snd (mine h l os)).
Proof.
  intros Re G Fo V K M C R Rv F. pose proof (reach_inv w d s Re) as I. apply run_split in R as (s1 & q & os' & S & R & E). injection E as <- <-.
  destruct (init_run w _ _ _ _ _ _ _ _ _ _ _ I G Fo V K S) as (p & rc & E1 & -> & _ & G1).
  assert (K' : with_key ini' (o_uid o) = Some ini' /\ init_mech ini' = init_mech ini) by (destruct ini; try discriminate K; injection K as <-; split; reflexivity). destruct K' as [K' M'].
  destruct (init_ok _ _ _ _ _ _ _ K' E1 Rv) as (-> & _ & Mm). rewrite M', M in Mm. injection Mm as Mm.
  pose proof (step_inv w _ _ _ _ _ I S) as I1.
  destruct (copied_run w s1 h (set_op x p) l s' os I1 G1) with (objs := only (o_uid o) ko) as (x' & _ & E2); [cbn [set_op ss_op]; rewrite Mm; exact C|exact R|exact F|].
  exists (ss_op x'). cbn [Ops.run]. rewrite E1. cbn [bind]. cbn [set_op ss_op] in E2. rewrite E2. reflexivity.
Qed.
Print Assumptions C113_copied_partial.
(** For every mechanism: if no call in between names the handle of the key to C_DestroyObject or
    C_SetAttributeValue and, for a key on the token, nobody logs in or out or initialises the token. *)
Theorem C113_partial w d s h x ini ini' hk o ko rnd l s' r os : reach w (sys0 d) s -> sess_get s h = Some x ->
  find_obj s x hk = Some o -> view w o = Ok ko -> with_key ini (o_uid o) = Some ini' ->
  run w s ((OCrypto h ini hk, rnd) :: l) = Ok (s', r :: os) -> out_rv r = CKR_OK -> (forall c rn, In (c, rn) l -> goes_on h c /\ spared hk c) ->
  exists p, Ops.run (w_ev w) (only (o_uid o) ko) (ss_op x) (ini' :: map fst (mine h l os)) = Ok (p, fail Query CKR_OK :: map snd (mine h l os)).
Proof.
  intros Re G Fo V K R Rv F. pose proof (reach_inv w d s Re) as I. apply run_split in R as (s1 & q & os' & S & R & E). injection E as <- <-.
  destruct (init_run w _ _ _ _ _ _ _ _ _ _ _ I G Fo V K S) as (p & rc & E1 & -> & _ & G1).
  assert (K' : with_key ini' (o_uid o) = Some ini') by (destruct ini; try discriminate K; injection K as <-; reflexivity).
  destruct (init_ok _ _ _ _ _ _ _ K' E1 Rv) as (-> & Cu & _). pose proof (step_inv w _ _ _ _ _ I S) as I1.
  pose proof (objop_prims w _ _ _ _ _ _ I (eq_refl : objop (OCrypto h ini hk) = Some h) S) as P.
  pose proof (prims_has w _ _ _ _ _ _ I P Logic.I (find_has _ _ _ _ _ G Fo)) as Hs.
  assert (Eh : o_handle o = hk) by (apply SysProofs3.find_obj_in in Fo; tauto).
  destruct (spared_run w s1 h (set_op x p) o ko l s' os I1 G1) as (x' & _ & E2); [exact Cu|exact Hs|exact V|exact R|rewrite Eh; exact F|].
  exists (ss_op x'). cbn [Ops.run]. rewrite E1. cbn [bind]. cbn [set_op ss_op] in E2. rewrite E2. reflexivity.
Qed.
Print Assumptions C113_partial.

(** With C41: a signature made in parts is the HMAC of all the data under the key that was there at C_SignInit,
    whatever happens to the key meanwhile and whatever other sessions do. *)
Theorem C113_hmac_partial w d s h x hk o ko a chunks n rnd l s' r os : reach w (sys0 d) s -> sess_get s h = Some x ->
  find_obj s x hk = Some o -> view w o = Ok ko -> ko_type ko = CKK_GENERIC_SECRET -> e_hmac_ok (w_ev w) a (ko_data ko) = true ->
  Forall (fun c => (zlen c < 2^32)%Z) chunks -> (hmac_sz a <= n < 2^32)%Z ->
  run w s ((OCrypto h (KSignInit (M_HMAC a) MPnull 0) hk, rnd) :: l) = Ok (s', r :: os) -> (forall c rn, In (c, rn) l -> goes_on h c) ->
  map fst (mine h l os) = map KSignUpdate chunks ++ [KSignFinal (Buf n)] ->
  map snd (mine h l os) = repeat (mkOut CKR_OK 0 []) (List.length chunks) ++ [mkOut CKR_OK (hmac_sz a) (e_hmac (w_ev w) a (ko_data ko) (concat chunks))].
Proof.
  intros Re G Fo V T Hk Fc Fn R F E.
  assert (Ob : only (o_uid o) ko (o_uid o) = Some ko) by (unfold only; rewrite Nat.eqb_refl; reflexivity).
  destruct (C41_sign_multipart (w_ev w) (only (o_uid o) ko) (ss_op x) a (o_uid o) ko chunks n Ob T Hk Fc Fn) as (st' & outs & Q & Fo2).
  assert (Rv : out_rv r = CKR_OK).
  { pose proof R as R0. apply run_split in R0 as (s1 & q & os' & S & R0 & Eq). injection Eq as <- <-.
    destruct (init_run w _ _ _ (KSignInit (M_HMAC a) MPnull 0) (KSignInit (M_HMAC a) MPnull (o_uid o)) _ _ _ _ _ _ (reach_inv w d s Re) G Fo V eq_refl S) as (p & rc & E1 & -> & _).
    cbn [Ops.run] in Q. rewrite E1 in Q. cbn [bind] in Q. cbn [out_rv]. destruct (Ops.run _ _ _ _) as [[p2 os2]| |]; cbn [bind] in Q; try discriminate. injection Q as _ Q.
    destruct outs as [|o1 outs]; [cbn in Q; injection Q as -> _; reflexivity|]. cbn in Q. injection Q as -> _. inversion Fo2. subst. reflexivity. }
  destruct (C113_copied_partial w d s h x (KSignInit (M_HMAC a) MPnull 0) (KSignInit (M_HMAC a) MPnull (o_uid o)) hk o ko (M_HMAC a) rnd l s' r os Re G Fo V eq_refl eq_refl eq_refl R Rv F) as (p & Q2).
  rewrite E in Q2. change (Ops.run (w_ev w) (only (o_uid o) ko) (ss_op x) (KSignInit (M_HMAC a) MPnull (o_uid o) :: map KSignUpdate chunks ++ [KSignFinal (Buf n)]) = Ok (p, fail Query CKR_OK :: map snd (mine h l os))) in Q2.
  rewrite Q in Q2. injection Q2 as _ Q2.
  assert (L : List.length (map snd (mine h l os)) = S (List.length chunks)) by (rewrite map_length, <- (map_length fst), E, app_length, map_length; cbn; lia).
  destruct outs as [|o1 outs].
  { apply (f_equal (@List.tl _)) in Q2. cbn [app tl] in Q2. rewrite <- Q2 in L. discriminate L. }
  apply (f_equal (@List.tl _)) in Q2. cbn [app tl] in Q2. rewrite <- Q2 in *. clear Q2. rewrite app_length in L. cbn in L. f_equal.
  inversion Fo2 as [|? ? _ Fo3]. subst. assert (L2 : List.length outs = List.length chunks) by lia. rewrite <- L2. clear - Fo3.
  induction outs as [|y outs IH]; [reflexivity|]. inversion Fo3. subst. cbn. f_equal. apply IH. assumption.
Qed.
Print Assumptions C113_hmac_partial.

(** Non-trivial histories that meet the hypotheses. First: while session H2 makes a signature in parts, the
    other one changes the value of the key, logs out and destroys the key. *)
Definition gen_tok : template := [mkA CKA_TOKEN (AV [1%N]); mkA CKA_CLASS (ULONG CKO_SECRET_KEY); mkA CKA_KEY_TYPE (ULONG CKK_GENERIC_SECRET); mkA CKA_VALUE (AV (repeat 7%N 16))].
Definition mac_open : list op := setup ++ [OOpenSession 1 RW; OOpenSession 1 RW; OLogin H1 CKU_USER upin (Some 9%Z); OCreateObject H1 gen_tok].
Definition mac_init : op := OCrypto H2 (KSignInit (M_HMAC H_SHA256) MPnull 0) KT.
Definition mac_calls : list op := [OCrypto H2 (KSignUpdate [1; 2]%N) 0; OSetAttributeValue H1 KT new_value; OLogout H1; OCrypto H2 (KSignUpdate [3]%N) 0; ODestroyObject H1 KT; OCrypto H2 (KSignFinal (Buf 64)) 0].
Example mac_case :
  rvs (mac_open ++ mac_init :: mac_calls) = repeat CKR_OK (List.length mac_open + 7) /\
  forallb (fun c => match c with OCrypto h' k _ => (h' =? H2)%Z && match data_kind k with Some _ => true | None => false end | OCloseSession _ => false | _ => negb (ends_all c) && negb (cryptop c) end) mac_calls = true /\
  map snd (mine H2 (numb mac_calls) (skipn (List.length mac_open + 1) (outs (mac_open ++ mac_init :: mac_calls)))) =
    repeat (mkOut CKR_OK 0 []) 2 ++ [mkOut CKR_OK 32 (toy_hmac H_SHA256 (repeat 7%N 16) [1; 2; 3]%N)] /\
  toy_hmac H_SHA256 (repeat 7%N 16) [1; 2; 3]%N <> toy_hmac H_SHA256 (repeat 9%N 16) [1; 2; 3]%N.
Proof. repeat (split; [vm_compute; reflexivity|]). vm_compute. discriminate. Qed.
(** Second, AES-GCM with the same key on the token: other objects are made, changed and destroyed and searched for by both sessions. *)
Definition busy : list op := [part [1]%N; OCreateObject H1 tok_aes; OSetAttributeValue H2 (KT + 1) new_value; OFindObjectsInit H2 []; OFindObjects H2 9; part [1; 2]%N; OFindObjectsFinal H2;
  ODestroyObject H2 (KT + 1); OSetPIN H1 upin (upin ++ [4]%N); OCreateObject H2 aes_tmpl; ODestroyObject H2 1; part [1; 2; 3]%N].
Lemma busy_spared c rn : In (c, rn) (numb busy) -> goes_on H2 c /\ spared KT c.
Proof.
  intros J. apply in_map_iff in J as (c0 & E & J). injection E as -> <-. cbn in J.
  repeat (destruct J as [<-|J]; [split; [first [left; eexists; eexists; split; [reflexivity|discriminate]|right; split; [discriminate|split; [discriminate|reflexivity]]]|first [exact Logic.I|vm_compute; discriminate]]|]). destruct J.
Qed.
Example busy_case :
  rvs (two_open ++ ini_gcm :: busy) = repeat CKR_OK (List.length two_open + 13) /\
  map snd (mine H2 (numb busy) (skipn (List.length two_open + 1) (outs (two_open ++ ini_gcm :: busy)))) =
    map (fun m => mkOut CKR_OK (zlen m) (stream (repeat 7%N 16) (repeat 0%N 12) m)) [[1]; [1; 2]; [1; 2; 3]]%N.
Proof. split; vm_compute; reflexivity. Qed.
