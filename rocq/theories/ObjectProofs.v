(** Lemmas about the object and attribute model. *)
From Verif Require Import Base Ops Object.

Arguments Z.land : simpl never.
Arguments Z.lor : simpl never.
Arguments Z.ldiff : simpl never.

(** ** Flags *)
Lemma has_flag_bit fl i : (0 <= i)%Z -> has_flag fl (2^i) = Z.testbit fl i.
Proof.
  intros Hi. unfold has_flag.
  destruct (Z.testbit fl i) eqn:T.
  - apply Z.eqb_eq, Z.bits_inj'. intros k Hk.
    rewrite Z.land_spec, Z.pow2_bits_eqb by lia.
    destruct (Z.eqb_spec i k); [subst; rewrite T|rewrite andb_false_r]; reflexivity.
  - apply Z.eqb_neq. intros E.
    assert (H : Z.testbit (Z.land fl (2^i)) i = true)
      by (rewrite E; apply Z.pow2_bits_true; lia).
    rewrite Z.land_spec, T in H. discriminate.
Qed.

Lemma put_flag_bit fl i j s : (0 <= i)%Z -> (0 <= j)%Z ->
  Z.testbit (put_flag fl (2^j) s) i = if (i =? j)%Z then s else Z.testbit fl i.
Proof.
  intros Hi Hj. unfold put_flag.
  destruct s.
  - rewrite Z.lor_spec, Z.pow2_bits_eqb by lia.
    rewrite Z.eqb_sym. destruct (Z.eqb_spec i j); destruct (Z.testbit fl i); reflexivity.
  - rewrite Z.ldiff_spec, Z.pow2_bits_eqb by lia.
    rewrite (Z.eqb_sym j i). destruct (Z.eqb_spec i j); destruct (Z.testbit fl i); reflexivity.
Qed.

Lemma has_put_same fl i s : (0 <= i)%Z -> has_flag (put_flag fl (2^i) s) (2^i) = s.
Proof. intros. rewrite has_flag_bit, put_flag_bit, Z.eqb_refl by lia. reflexivity. Qed.

Lemma has_put_other fl i j s : (0 <= i)%Z -> (0 <= j)%Z -> i <> j ->
  has_flag (put_flag fl (2^j) s) (2^i) = has_flag fl (2^i).
Proof.
  intros. rewrite !has_flag_bit, put_flag_bit by lia.
  destruct (Z.eqb_spec i j); [lia|reflexivity].
Qed.

Lemma land_bit_zero fl i : (0 <= i)%Z -> (Z.land fl (2^i) =? 0)%Z = negb (Z.testbit fl i).
Proof.
  intros Hi. destruct (Z.testbit fl i) eqn:T; cbn [negb].
  - apply Z.eqb_neq. intros E.
    assert (H : Z.testbit (Z.land fl (2^i)) i = false) by (rewrite E; apply Z.bits_0).
    rewrite Z.land_spec, T, Z.pow2_bits_true in H by lia. discriminate.
  - apply Z.eqb_eq, Z.bits_inj'. intros k Hk.
    rewrite Z.land_spec, Z.pow2_bits_eqb, Z.bits_0 by lia.
    destruct (Z.eqb_spec i k); [subst; rewrite T|rewrite andb_false_r]; reflexivity.
Qed.

(** ** set_loop *)
Section Proofs.
Variable oe : oenv.

Lemma set_rv_ok c : set_rv c = CKR_OK <-> c = 0%Z.
Proof.
  unfold set_rv, CKR_OK, CKR_ATTRIBUTE_VALUE_INVALID, CKR_BUFFER_TOO_SMALL, CKR_FUNCTION_FAILED.
  destruct (Z.eqb_spec c 0); [tauto|].
  destruct (c =? BAD_FUNC_ARG)%Z; [lia|]. destruct (c =? BUFFER_E)%Z; lia.
Qed.

Lemma set_loop_ok_cons o a t o' :
  set_loop o (a :: t) = Ok (CKR_OK, o') ->
  exists o1, SetAttr o a = Ok (0%Z, o1) /\ set_loop o1 t = Ok (CKR_OK, o').
Proof.
  cbn [set_loop]. destruct (SetAttr o a) as [[c o1]|?|?]; cbn [bind]; try discriminate.
  destruct (Z.eqb_spec (set_rv c) CKR_OK) as [E|E].
  - apply (proj1 (set_rv_ok c)) in E. subst. intros H. exists o1. auto.
  - intros H. injection H as H1 _. congruence.
Qed.

Lemma set_loop_ok_app o t1 t2 o' :
  set_loop o (t1 ++ t2) = Ok (CKR_OK, o') ->
  exists o1, set_loop o t1 = Ok (CKR_OK, o1) /\ set_loop o1 t2 = Ok (CKR_OK, o').
Proof.
  revert o. induction t1 as [|a t1 IH]; intros o H.
  - exists o. split; [reflexivity|exact H].
  - cbn [app] in H. apply set_loop_ok_cons in H. destruct H as (o1 & E1 & E2).
    apply IH in E2. destruct E2 as (o2 & F1 & F2). exists o2. split; [|exact F2].
    cbn [set_loop]. rewrite E1. cbn. exact F1.
Qed.

(** A property of the object kept by every entry is kept by the loop. *)
Lemma set_loop_keep (P : obj -> Prop) (Q : attr -> Prop) t :
  (forall o a c o', Q a -> SetAttr o a = Ok (c, o') -> P o -> P o') ->
  Forall Q t -> forall o rv o', set_loop o t = Ok (rv, o') -> P o -> P o'.
Proof.
  intros HK HQ. induction HQ as [|a t Ha HQ IH]; intros o rv o' H HP.
  - injection H as _ <-. exact HP.
  - cbn [set_loop] in H. destruct (SetAttr o a) as [[c o1]|?|?] eqn:E; cbn in H; try discriminate.
    assert (P o1) by (eapply HK; eauto).
    destruct (set_rv c =? CKR_OK)%Z; [eapply IH; eauto|].
    injection H as _ <-. assumption.
Qed.

(** ** What SetAttr can change *)
Definition same_core (o o' : obj) : Prop :=
  o_uid o' = o_uid o /\ o_type o' = o_type o /\ o_handle o' = o_handle o /\ o_size o' = o_size o /\
  o_kgm o' = o_kgm o /\ o_onTok o' = o_onTok o /\ o_local o' = o_local o /\ o_data o' = o_data o /\
  o_iv o' = o_iv o /\ o_keyData o' = o_keyData o /\ o_enc o' = o_enc o.

Lemma same_core_refl o : same_core o o.
Proof. repeat split. Qed.
Lemma same_core_trans a b c : same_core a b -> same_core b c -> same_core a c.
Proof. unfold same_core. intuition congruence. Qed.

Ltac case_if H :=
  match type of H with
  | context [if ?b then _ else _] => let E := fresh "E" in destruct b eqn:E
  end.

Lemma SetAttr_core o a c o' : SetAttr o a = Ok (c, o') -> same_core o o'.
Proof.
  unfold SetAttr. intros H.
  destruct (set_opflag_of (a_type a)); [injection H as _ <-; repeat split|].
  destruct (set_flag_of (a_type a)); [injection H as _ <-; repeat split|].
  repeat (case_if H; [try (injection H as _ <-; repeat split; fail)|]).
  - destruct (new_sval _ _) as [[? ?]|?|?]; cbn in H; try discriminate.
    injection H as _ <-. repeat split.
  - destruct (new_sval _ _) as [[? ?]|?|?]; cbn in H; try discriminate.
    injection H as _ <-. repeat split.
  - destruct (v_len (a_val a) =? 8)%Z; injection H as _ <-; repeat split.
  - destruct (v_len (a_val a) =? 8)%Z; injection H as _ <-; repeat split.
  - injection H as _ <-; repeat split.
Qed.

Lemma set_loop_core t o rv o' : set_loop o t = Ok (rv, o') -> same_core o o'.
Proof.
  intros H.
  refine (set_loop_keep (same_core o) (fun _ => True) t _ _ o rv o' H (same_core_refl o)).
  - intros o1 a c o2 _ E Hc. eapply same_core_trans; [exact Hc|]. eapply SetAttr_core; eauto.
  - apply Forall_forall. auto.
Qed.

(** ** What SetKey can change *)
Lemma SetRsaKey_frame o v c o' :
  SetRsaKey oe o v = (c, o') -> exists d n, o' = set_size (set_data o d) n.
Proof.
  unfold SetRsaKey. intros H.
  assert (F : forall d, set_data o d = set_size (set_data o d) (o_size o)) by reflexivity.
  assert (G : forall d n, set_size (set_data o d) n = set_size (set_data o d) n) by reflexivity.
  do 8 (match type of H with context [set_mpi oe (nth ?i v None)] =>
          destruct (set_mpi oe (nth i v None)) as [? ?]; cbv beta iota zeta in H;
          match type of H with (if ?b then _ else _) = _ => destruct b;
            [injection H as _ <-; eexists _, (o_size o); apply F|] end end).
  destruct (nth 8 v None) as [b|].
  - destruct (zlen b =? 8)%Z; [injection H as _ <-; eexists _, _; reflexivity|].
    destruct (zlen b =? 0)%Z; injection H as _ <-; eexists _, (o_size o); apply F.
  - injection H as _ <-; eexists _, (o_size o); apply F.
Qed.

Lemma SetEcKey_frame o v c o' :
  SetEcKey oe o v = Ok (c, o') -> exists d, o' = set_data o d.
Proof.
  unfold SetEcKey. intros H.
  destruct (match nth 0 v None with None => _ | Some b => _ end) as [c0 k0].
  destruct (negb (c0 =? 0)%Z); [injection H as _ <-; eexists; reflexivity|].
  destruct (match nth 1 v None with None => _ | Some b => _ end) as [c1 k1].
  destruct (negb (c1 =? 0)%Z); [injection H as _ <-; eexists; reflexivity|].
  destruct (nth 2 v None) as [b|]; [|injection H as _ <-; eexists; reflexivity].
  destruct (EcSetPoint _ _ _) as [[c2 k3]|?|?]; cbn in H; try discriminate.
  destruct (negb (c2 =? 0)%Z); injection H as _ <-; eexists; reflexivity.
Qed.

Lemma SetDhKey_frame o v c o' :
  SetDhKey oe o v = Ok (c, o') -> exists d, o' = set_data o d.
Proof.
  unfold SetDhKey. intros H.
  destruct (as_dh o) as [[[[p0 g0] l] buf]|?|?]; cbn [bind] in H; try discriminate.
  destruct (match nth 0 v None with None => _ | Some b => _ end) as [c0 [p g]].
  destruct (negb (c0 =? 0)%Z); [injection H as _ <-; eexists; reflexivity|].
  destruct (nth 2 v None) as [b|]; [|injection H as _ <-; eexists; reflexivity].
  destruct (_ <? _)%Z; injection H as _ <-; eexists; reflexivity.
Qed.

Lemma SetSecretKey_frame o v c o' :
  SetSecretKey o v = Ok (c, o') -> exists d, o' = set_data o d.
Proof.
  unfold SetSecretKey. intros H.
  match type of H with (if ?b then _ else _) = _ => destruct b end;
    [injection H as _ <-; eexists; reflexivity|].
  destruct (nth 1 v None) as [b|]; [|injection H as _ <-; eexists; reflexivity].
  match type of H with (if ?b then _ else _) = _ => destruct b end;
    [injection H as _ <-; eexists; reflexivity|].
  match type of H with (if ?b then _ else _) = _ => destruct b end; [discriminate|].
  injection H as _ <-; eexists; reflexivity.
Qed.

Lemma SetCert_frame o v c o' : SetCert o v = (c, o') -> exists d, o' = set_data o d.
Proof.
  unfold SetCert. intros H.
  match type of H with (if ?b then _ else _) = _ => destruct b end;
    [injection H as _ <-; eexists; reflexivity|].
  destruct (nth 1 v None) as [b|]; [|injection H as _ <-; eexists; reflexivity].
  destruct (_ <? _)%Z; injection H as _ <-; eexists; reflexivity.
Qed.

Lemma SetKey_frame o v c o' :
  SetKey oe o v = Ok (c, o') -> exists d n, o' = set_size (set_data o d) n.
Proof.
  assert (F : forall d, set_data o d = set_size (set_data o d) (o_size o)) by reflexivity.
  unfold SetKey. intros H.
  case_if H; [injection H as H; apply SetCert_frame in H; destruct H as [d ->]; eauto|].
  case_if H; [injection H as H; eapply SetRsaKey_frame; eauto|].
  case_if H; [apply SetEcKey_frame in H; destruct H as [d ->]; eauto|].
  case_if H; [apply SetDhKey_frame in H; destruct H as [d ->]; eauto|].
  apply SetSecretKey_frame in H; destruct H as [d ->]; eauto.
Qed.

(** A successful SetAttributeValue: key data, then the loop. *)
Lemma SetAttributeValue_ok rw o t o' :
  SetAttributeValue oe rw o t = Ok (CKR_OK, o') ->
  rw = true /\ check_attrs true t = CKR_OK /\
  exists ps v o1, params_of o = Some ps /\ param_vals t ps = Some v /\
    SetKey oe o v = Ok (0%Z, o1) /\ set_loop o1 t = Ok (CKR_OK, o').
Proof.
  unfold SetAttributeValue. destruct rw; cbn [negb]; [|discriminate].
  destruct (Z.eqb_spec (check_attrs true t) CKR_OK) as [Ec|Ec]; cbn [negb];
    [|intros H; injection H as H _; congruence].
  destruct (params_of o) as [ps|] eqn:EP; [|discriminate].
  destruct (param_vals t ps) as [v|] eqn:EV; [|discriminate].
  destruct (SetKey oe o v) as [[c o1]|?|?] eqn:EK; cbn [bind]; try discriminate.
  destruct (c =? MEMORY_E)%Z; [discriminate|].
  destruct (Z.eqb_spec c 0); cbn [negb]; [|discriminate].
  subst. intros H. split; [reflexivity|]. split; [exact Ec|].
  exists ps, v, o1. auto.
Qed.

(** Every entry of a checked template passes check_attr. *)
Lemma check_attrs_Forall set t :
  check_attrs set t = CKR_OK <-> Forall (fun a => check_attr set a = CKR_OK) t.
Proof.
  induction t as [|a t IH]; cbn [check_attrs]; [split; auto|].
  rewrite Forall_cons_iff, <- IH.
  destruct (Z.eqb_spec (check_attr set a) CKR_OK) as [E|E]; tauto.
Qed.
End Proofs.
