(** C86: a key given to C_CreateObject is the key the new object holds, and its numbers read back. *)
From Verif Require Import Base Codec Cbc CbcProofs CbcSpec Ops OpsSpec OpsCbcProofs OpsProofs OpsProofs2 OpsProofs3 OpsProofs4 OpsFinal ToyEnv Object ObjectSpec ObjectProofs AttrProofs PropObject PropObject2
  Store StoreSpec Sys SysProofs SysProofs2 SysProofs3 SysProofs4 WfProofs ToySys PropStore PropStore2 ObjFrame ObjProofs HandleProofs QuotaProofs DiskHandles PropObj PropKeys PropKeys2.

(** ** Specification *)
(** The number a string of bytes stands for, most significant byte first (PKCS #11: "Big integer"). *)
Fixpoint value (b : list N) : N := match b with [] => 0 | x :: r => x * 256 ^ N.of_nat (length r) + value r end%N.
(** The numbers of a key, each under the attribute that gives it. *)
Definition number (d : kdata) (ty : Z) : option N :=
  match d with
  | KRsa r => if (ty =? 0x120)%Z then Some (r_n r) else if (ty =? 0x122)%Z then Some (r_e r) else if (ty =? 0x123)%Z then Some (r_d r)
    else if (ty =? 0x124)%Z then Some (r_p r) else if (ty =? 0x125)%Z then Some (r_q r) else if (ty =? 0x126)%Z then Some (r_dP r)
    else if (ty =? 0x127)%Z then Some (r_dQ r) else if (ty =? 0x128)%Z then Some (r_u r) else None
  | KEc k => if (ty =? 0x11)%Z then Some (ec_k k) else None
  | KDh p g _ _ => if (ty =? 0x130)%Z then Some p else if (ty =? 0x132)%Z then Some g else None
  | _ => None
  end.
Definition rsa_numbers : list Z := [0x120; 0x122; 0x123; 0x124; 0x125; 0x126; 0x127; 0x128]%Z.
(** The attributes that are numbers, per key type: RSA 0, DH 2, EC 3. *)
Definition numbers (kt : Z) : list Z := if (kt =? 0)%Z then rsa_numbers else if (kt =? 3)%Z then [0x11]%Z else if (kt =? 2)%Z then [0x130; 0x132]%Z else [].
(** A template for a key of type [kt] in which no attribute occurs twice. *)
Definition key_tmpl (kt : Z) (t : template) : Prop :=
  NoDup (map a_type t) /\ In (mkA CKA_KEY_TYPE (ULONG kt)) t /\ forall b, In (mkA CKA_CLASS (AV b)) t -> ulong_of b <> CKO_CERTIFICATE.
(** wc_DhSetKey reads prime and base as big-endian numbers. *)
Definition dh_law (w : world) : Prop := forall p g r, oe_dh_set (w_oe w) p g = (0%Z, r) -> r = (value p, value g).
(** The new object reached through [h] after the call. *)
Definition made (s : sys) (h ho : Z) (o : obj) : Prop := exists x, sess_get s h = Some x /\ In o (within s x) /\ o_handle o = ho.

Definition C86_claim (w : world) : Prop :=
  forall d s h t rnd s' ho kt ty b, reach w (sys0 d) s -> key_tmpl kt t -> In kt [0; 2; 3]%Z -> In ty (numbers kt) -> In (mkA ty (AV b)) t ->
    step w rnd s (OCreateObject h t) = Ok (s', OutH CKR_OK ho) -> exists o, made s' h ho o /\ number (o_data o) ty = Some (value b).

(** A DH prime given without a base is thrown away and the call still succeeds. *)
Definition half_dh : template := [mkA CKA_CLASS (ULONG CKO_PUBLIC_KEY); mkA CKA_KEY_TYPE (ULONG CKK_DH); mkA CKA_PRIME (AV [23%N])].
Definition opened : list op := setup ++ [OOpenSession 1 RW].
Example toy_dh : dh_law tw.
Proof.
  intros p g r H. injection H as <-. assert (A : forall l a, fold_left (fun a b => a * 256 + b)%N l a = (a * 256 ^ N.of_nat (length l) + value l)%N).
  { induction l as [|x l IH]; intros a; cbn [fold_left value length]; [rewrite N.pow_0_r; lia|]. rewrite IH, Nat2N.inj_succ, N.pow_succ_r'. lia. }
  unfold be_n. rewrite !A. reflexivity.
Qed.
Theorem C86_refuted : ~ C86_claim tw.
Proof.
  intros C. assert (R : reach tw (sys0 nofiles) (after opened)) by (apply after_reach; vm_compute; exact Logic.I).
  assert (E : match step tw (rnd 0) (after opened) (OCreateObject H2 half_dh) with
    | Ok (s1, OutH 0 ho) => match sess_get s1 H2 with Some x => forallb (fun o => orb (negb (o_handle o =? ho)%Z) match number (o_data o) CKA_PRIME with Some 23%N => false | _ => true end) (within s1 x) | _ => false end
    | _ => false end = true) by (vm_compute; reflexivity).
  destruct (step tw (rnd 0) (after opened) (OCreateObject H2 half_dh)) as [[s1 o1]| |] eqn:E1; [|discriminate E..]. destruct o1 as [|rv ho| | | | | |]; try discriminate E.
  destruct rv; try discriminate E. destruct (sess_get s1 H2) as [x|] eqn:X; [|discriminate E]. rewrite forallb_forall in E.
  destruct (C nofiles (after opened) H2 half_dh (rnd 0) s1 ho 2%Z CKA_PRIME [23%N] R) as (o & (x' & X' & J & Hh) & Nm); [|cbn; auto..|exact E1|].
  - split; [|split; [cbn; auto|intros b [J|[J|[J|[]]]]; try discriminate J; injection J as <-; intros Eu; vm_compute in Eu; discriminate Eu]]. cbn. repeat constructor; cbn; intuition discriminate.
  - rewrite X in X'. injection X' as <-. apply E in J. rewrite Hh, Z.eqb_refl, Nm in J. discriminate J.
Qed.
Print Assumptions C86_refuted.

(** ** Numbers and bytes *)
Lemma be_n_value b : be_n b = value b.
Proof.
  assert (A : forall l a, fold_left (fun a b => a * 256 + b)%N l a = (a * 256 ^ N.of_nat (length l) + value l)%N).
  { induction l as [|x l IH]; intros a; cbn [fold_left value length]; [rewrite N.pow_0_r; lia|]. rewrite IH, Nat2N.inj_succ, N.pow_succ_r'. lia. }
  unfold be_n. rewrite A. lia.
Qed.
Lemma value_app a b : value (a ++ b) = (value a * 256 ^ N.of_nat (length b) + value b)%N.
Proof. induction a as [|x a IH]; cbn [app value]; [lia|]. rewrite IH, app_length, Nat2N.inj_add, N.pow_add_r. lia. Qed.
Lemma be_fuel f : forall n acc, (n < 2 ^ N.of_nat f)%N -> value (be_of_fuel f n acc) = (n * 256 ^ N.of_nat (length acc) + value acc)%N.
Proof.
  induction f as [|f IH]; intros n acc L; cbn [be_of_fuel]; [cbn in L; assert (n = 0)%N by lia; subst; lia|].
  destruct (N.eqb_spec n 0) as [->|N0]; [lia|]. rewrite IH.
  - cbn [value length]. rewrite Nat2N.inj_succ, N.pow_succ_r'. pose proof (N.div_mod n 256 ltac:(lia)) as D. set (q := (n / 256)%N) in *. set (r := (n mod 256)%N) in *. rewrite D. lia.
  - rewrite Nat2N.inj_succ, N.pow_succ_r' in L. apply N.div_lt_upper_bound; [lia|]. lia.
Qed.
Lemma be_of_value n : value (be_of n) = n.
Proof.
  unfold be_of. rewrite be_fuel; [cbn; lia|]. rewrite N2Nat.id. destruct (N.eq_dec n 0) as [->|N0]; [reflexivity|]. apply N.size_gt.
Qed.
Lemma be_fuel_len f : forall n acc k, (n < 256 ^ N.of_nat k)%N -> length (be_of_fuel f n acc) <= k + length acc.
Proof.
  induction f as [|f IH]; intros n acc k L; cbn [be_of_fuel]; [lia|]. destruct (N.eqb_spec n 0) as [->|N0]; [lia|].
  destruct k as [|k]; [cbn in L; lia|]. specialize (IH (n / 256)%N ((n mod 256)%N :: acc) k). cbn [length] in IH.
  assert (n / 256 < 256 ^ N.of_nat k)%N; [|lia]. rewrite Nat2N.inj_succ, N.pow_succ_r' in L. apply N.div_lt_upper_bound; lia.
Qed.
Lemma value_bound b : Base.bytes_ok b -> (value b < 256 ^ N.of_nat (length b))%N.
Proof.
  induction 1 as [|x b Hx _ IH]; [reflexivity|]. cbn [value length]. rewrite Nat2N.inj_succ, N.pow_succ_r'. unfold Base.byte_ok in Hx. set (P := (256 ^ N.of_nat (length b))%N) in *. clearbody P. assert (x * P <= 255 * P)%N by (apply N.mul_le_mono_r; lia). lia.
Qed.
Lemma be_of_len b : Base.bytes_ok b -> (zlen (be_of (value b)) <= zlen b)%Z.
Proof. intros B. apply value_bound in B. pose proof (be_fuel_len (N.to_nat (N.size (value b))) _ [] _ B) as L. fold (be_of (value b)) in L. unfold zlen. cbn in L. lia. Qed.

(** ** The template *)
Lemma first_of t : forall ty v, NoDup (map a_type t) -> In (mkA ty v) t -> find_first t ty = Some (mkA ty v).
Proof.
  unfold find_first. induction t as [|a t IH]; intros ty v D J; [destruct J|]. cbn [map] in D. inversion D as [|? ? D1 D2]; subst. cbn [find]. destruct J as [->|J].
  - cbn [a_type]. rewrite Z.eqb_refl. reflexivity.
  - destruct (Z.eqb_spec (a_type a) ty) as [E|_]; [|apply IH; assumption]. exfalso. apply D1. rewrite E. exact (in_map a_type _ _ J).
Qed.
Lemma last_of t ty v : NoDup (map a_type t) -> In (mkA ty v) t -> find_last t ty = Some (mkA ty v).
Proof.
  intros D J. unfold find_last. apply first_of; [rewrite map_rev; apply NoDup_rev; exact D|]. apply in_rev in J. exact J.
Qed.
Lemma ulong_tmpl b k : tmpl_ulong (mkA k (AV b)) = if (zlen b =? 8)%Z then Some (ulong_of b) else None.
Proof. reflexivity. Qed.

(** What a successful C_CreateObject did. *)
Lemma created w d s h t rnd s' ho kt : reach w (sys0 d) s -> key_tmpl kt t -> In kt [0; 2; 3; 16; 31]%Z -> step w rnd s (OCreateObject h t) = Ok (s', OutH CKR_OK ho) ->
  exists uid cls ps v o1 o, cls <> CKO_CERTIFICATE /\ params_of (set_class (obj_new uid kt) cls) = Some ps /\ param_vals t ps = Some v /\ SetKey (w_oe w) (set_class (obj_new uid kt) cls) v = Ok (0%Z, o1) /\
    made s' h ho o /\ o_data o = o_data o1 /\ o_type o = kt /\ o_class o <> CKO_CERTIFICATE.
Proof.
  intros R (D & Kt & Nc) Hk H. pose proof (reach_inv w _ _ R) as I. cbn [step] in H. unfold with_sess, need_lib in H. destruct (0 <? s_count s)%Z; [|discriminate H]. destruct (sess_get s h) as [x|] eqn:X; [|discriminate H].
  unfold need_rw in H. destruct (is_rw x) eqn:RW; cbn [negb] in H; [|discriminate H]. unfold Create in H. destruct (CreateObject _ _ _ _) as [[rv o]| |] eqn:C; cbn [bind] in H; try discriminate H. cbv zeta in H.
  destruct o as [o|]; [|discriminate H]. destruct (AddObject _ _ _ _ _ _) as [[[rv2 h2] s2]| |] eqn:A; cbn [bind] in H; try discriminate H. injection H as <- -> <-.
  apply (AddObject_same w rnd (bump s 1) h x) in A as (x' & X' & (o2 & J & Hh & Sk1 & Sk2 & Sk3) & _); [|exact (inv_uniq s I)|exact X].
  assert (Kl : tmpl_ulong (mkA CKA_KEY_TYPE (ULONG kt)) = Some kt) by (cbn in Hk; repeat destruct Hk as [<-|Hk]; [..|destruct Hk]; reflexivity).
  assert (Q : exists cls, cls <> CKO_CERTIFICATE /\ NewObject (w_oe w) true (s_uid s) kt cls t = Ok (rv, Some o) /\ (forall b, In (mkA CKA_CLASS (AV b)) t -> ulong_of b = cls)).
  { rewrite RW in C. unfold CreateObject in C. cbv zeta in C.
    assert (Go : forall cls, cls <> CKO_CERTIFICATE -> (let '(ty, good) := if (cls =? CKO_CERTIFICATE)%Z then (CKA_CERTIFICATE_TYPE, [0; 1; 2]%Z) else (CKA_KEY_TYPE, [CKK_RSA; CKK_EC; CKK_DH; CKK_AES; CKK_GENERIC_SECRET]) in
      match find_last t ty with None => Ok (CKR_TEMPLATE_INCOMPLETE, None) | Some a => match tmpl_ulong a with None => Ok (CKR_ATTRIBUTE_VALUE_INVALID, None)
        | Some k => if mem k good then NewObject (w_oe w) true (s_uid s) k cls t else Ok (CKR_ATTRIBUTE_VALUE_INVALID, None) end end) = Ok (rv, Some o) -> NewObject (w_oe w) true (s_uid s) kt cls t = Ok (rv, Some o)).
    { intros cls Ne G. destruct (Z.eqb_spec cls CKO_CERTIFICATE); [contradiction|]. rewrite (last_of t _ _ D Kt), Kl in G. destruct (mem kt _); [exact G|discriminate G]. }
    destruct (find_last t CKA_CLASS) as [a|] eqn:F.
    - destruct (tmpl_ulong a) as [cls|] eqn:U; [|discriminate C]. assert (Fi : In a t /\ a_type a = CKA_CLASS). { unfold find_last in F. apply find_some in F as [F1 F2]. apply in_rev in F1. apply Z.eqb_eq in F2. auto. } destruct Fi as [Fi Ft].
      destruct a as [aty av]. cbn [a_type] in Ft. subst aty. unfold tmpl_ulong in U. cbn [a_val] in U. destruct av as [b| |]; try discriminate U. destruct (zlen b =? 8)%Z; [|discriminate U]. injection U as <-.
      exists (ulong_of b). split; [exact (Nc b Fi)|]. split; [apply Go; [exact (Nc b Fi)|exact C]|]. intros b' J'. pose proof (last_of t _ _ D J') as L'. rewrite F in L'. injection L' as ->. reflexivity.
    - exists UNAVAILABLE. split; [discriminate|]. split; [apply Go; [discriminate|exact C]|]. intros b' J'. rewrite (last_of t _ _ D J') in F. discriminate F. }
  destruct Q as (cls & Ne & Nw & Cl). pose proof (NewObject_some _ _ _ _ _ _ _ _ Nw) as ->. apply NewObject_ok in Nw. apply SetAttributeValue_ok in Nw as (_ & Ck & ps & v & o1 & P & V & K & L).
  exists (s_uid s), cls, ps, v, o1, o2. split; [exact Ne|]. split; [exact P|]. split; [exact V|]. split; [exact K|]. split; [exists x'; auto|].
  pose proof (set_loop_core _ _ _ _ L) as (_ & L2 & _ & _ & _ & _ & _ & L8 & _). split; [congruence|].
  apply SetKey_frame in K as (dd & n & ->). split; [rewrite Sk3, L2; reflexivity|]. rewrite Sk2. enough (o_class o = cls) by congruence.
  apply (set_loop_keep (fun o => o_class o = cls) (fun a => a_type a = CKA_CLASS -> ulong_of (v_bytes (a_val a)) = cls)) in L; [exact L| | |reflexivity].
  - clear. intros o a c o' Na E Ec. unfold SetAttr in E. destruct (set_opflag_of _); [injection E as _ <-; exact Ec|]. destruct (set_flag_of _); [injection E as _ <-; exact Ec|].
    destruct (Z.eqb_spec (a_type a) CKA_CLASS) as [Eq|_]; [injection E as _ <-; exact (Na Eq)|].
    destruct (a_type a =? CKA_ID)%Z; [destruct (new_sval _ _) as [[? ?]| |]; cbn [bind] in E; try discriminate E; injection E as _ <-; exact Ec|].
    destruct (a_type a =? CKA_LABEL)%Z; [destruct (new_sval _ _) as [[? ?]| |]; cbn [bind] in E; try discriminate E; injection E as _ <-; exact Ec|].
    repeat match type of E with (if ?b then _ else _) = _ => destruct b end; injection E as _ <-; exact Ec.
  - apply Forall_forall. intros [aty av] Ja Ea. cbn [a_type] in Ea. subst aty. cbn [a_val]. rewrite check_attrs_Forall, Forall_forall in Ck. specialize (Ck _ Ja). unfold check_attr in Ck. change (kind_of (a_type (mkA CKA_CLASS av))) with (Some AK_ulong) in Ck. cbv iota in Ck. cbn [a_val] in Ck.
    destruct av as [b|n0|b].
    + exact (Cl b Ja).
    + discriminate Ck.
    + destruct (v_len (AUnav b) =? 8)%Z eqn:E8; [|discriminate Ck]. unfold v_len in E8. discriminate E8.
Qed.
Lemma given t ps v i ty b : NoDup (map a_type t) -> param_vals t ps = Some v -> nth_error ps i = Some ty -> In (mkA ty (AV b)) t -> nth i v None = Some b.
Proof. intros D V E J. rewrite (param_vals_at _ _ _ _ _ V E), (first_of t ty (AV b) D J). reflexivity. Qed.
Lemma absent t ps v i ty : param_vals t ps = Some v -> nth_error ps i = Some ty -> ~ In ty (map a_type t) -> nth i v None = None.
Proof.
  intros V E J. rewrite (param_vals_at _ _ _ _ _ V E). destruct (find_first t ty) as [a|] eqn:F; [|reflexivity]. exfalso. apply J. unfold find_first in F. apply find_some in F as [F1 F2].
  apply Z.eqb_eq in F2. rewrite <- F2. apply in_map. exact F1.
Qed.

(** ** RSA *)
(** The protection attributes let the number be seen. A private number is also not shown when the private exponent is zero. *)
Definition shown (o : obj) (ty : Z) : Prop :=
  In ty [0x120; 0x122; 0x130; 0x132]%Z \/ (Z.land (o_flag o) FL_SENSITIVE = 0%Z /\ extractable o /\ (o_type o = CKK_RSA -> number (o_data o) CKA_PRIVATE_EXPONENT <> Some 0%N)).
(** C_GetAttributeValue gives bytes that stand for [n]. *)
Definition reads_number (w : world) (o : obj) (ty : Z) (n : N) : Prop := exists b, api_reads (w_oe w) o ty b /\ value b = n.

Lemma set_mpi_value oe v c n : set_mpi oe v = (c, n) -> c = 0%Z -> n = match v with Some b => value b | None => 0%N end.
Proof. unfold set_mpi. destruct v as [b|]; [|intros H _; injection H as _ <-; reflexivity]. destruct (Z.eqb_spec (oe_mp_read oe b) 0); intros H E; injection H as H1 <-; [apply be_n_value|congruence]. Qed.
Lemma SetRsaKey_numbers oe o v o1 : SetRsaKey oe o v = (0%Z, o1) -> exists r, o_data o1 = KRsa r /\
  forall i ty, nth_error [0x120; 0x123; 0x124; 0x125; 0x126; 0x127; 0x128; 0x122]%Z i = Some ty -> number (KRsa r) ty = Some (match nth i v None with Some b => value b | None => 0%N end).
Proof.
  unfold SetRsaKey. cbv zeta. intros H.
  destruct (set_mpi oe (nth 0 v None)) as [c0 n0] eqn:E0. destruct (Z.eqb_spec c0 0) as [C0|]; cbn [negb] in H; [|congruence].
  destruct (set_mpi oe (nth 1 v None)) as [c1 n1] eqn:E1. destruct (Z.eqb_spec c1 0) as [C1|]; cbn [negb] in H; [|congruence].
  destruct (set_mpi oe (nth 2 v None)) as [c2 n2] eqn:E2. destruct (Z.eqb_spec c2 0) as [C2|]; cbn [negb] in H; [|congruence].
  destruct (set_mpi oe (nth 3 v None)) as [c3 n3] eqn:E3. destruct (Z.eqb_spec c3 0) as [C3|]; cbn [negb] in H; [|congruence].
  destruct (set_mpi oe (nth 4 v None)) as [c4 n4] eqn:E4. destruct (Z.eqb_spec c4 0) as [C4|]; cbn [negb] in H; [|congruence].
  destruct (set_mpi oe (nth 5 v None)) as [c5 n5] eqn:E5. destruct (Z.eqb_spec c5 0) as [C5|]; cbn [negb] in H; [|congruence].
  destruct (set_mpi oe (nth 6 v None)) as [c6 n6] eqn:E6. destruct (Z.eqb_spec c6 0) as [C6|]; cbn [negb] in H; [|congruence].
  destruct (set_mpi oe (nth 7 v None)) as [c7 n7] eqn:E7. destruct (Z.eqb_spec c7 0) as [C7|]; cbn [negb] in H; [|congruence].
  assert (D : o_data o1 = KRsa (mkRsa n0 n1 n2 n3 n4 n5 n6 n7)).
  { destruct (nth 8 v None) as [b|]; [|injection H as <-; reflexivity]. destruct (zlen b =? 8)%Z; [injection H as <-; reflexivity|]. destruct (zlen b =? 0)%Z; [injection H as <-; reflexivity|discriminate H]. }
  eexists. split; [exact D|]. intros i ty Hi.
  apply set_mpi_value in E0, E1, E2, E3, E4, E5, E6, E7; try assumption.
  do 8 (destruct i as [|i]; [injection Hi as <-; cbn [nth]; cbn; f_equal; assumption|]). destruct i; discriminate Hi.
Qed.
Lemma reads_mpi w o ty n : kind_of ty = Some AK_data -> (zlen (be_of n) < UNAVAILABLE)%Z -> (forall buf, GetAttr (w_oe w) o ty buf = Ok (get_mpi n buf)) -> reads_number w o ty n.
Proof.
  intros Kd Ls G. exists (be_of n). split; [|apply be_of_value]. intros buf Lb. unfold GetAttributeValue. cbn [check_attrs]. unfold check_attr. cbn [a_type]. rewrite Kd. cbn [andb]. cbn [Z.eqb CKR_OK].
  cbn [get_loop a_type a_val buf_of v_len]. rewrite G. unfold get_mpi, get_data. cbn [bind]. rewrite Lb, Z.ltb_irrefl. cbn [fst get_rv Z.eqb]. unfold put. destruct (Z.eqb_spec (zlen (be_of n)) UNAVAILABLE); [lia|].
  change (get_rv 0 =? CKR_OK)%Z with true. cbn [bind]. unfold overlay, zlen. rewrite Nat2Z.id, firstn_app, Nat.sub_diag, firstn_all. cbn [firstn]. rewrite app_nil_r. reflexivity.
Qed.
Lemma noPriv_off o : Z.land (o_flag o) FL_SENSITIVE = 0%Z -> extractable o -> noPriv o = false.
Proof. intros A B. unfold noPriv. rewrite A, Z.eqb_refl. destruct (Z.eqb_spec (Z.land (o_flag o) FL_EXTRACTABLE) 0); [contradiction|reflexivity]. Qed.
Lemma rsa_reads w o r ty n : o_data o = KRsa r -> o_type o = CKK_RSA -> In ty rsa_numbers -> number (KRsa r) ty = Some n -> (zlen (be_of n) < UNAVAILABLE)%Z -> shown o ty -> reads_number w o ty n.
Proof.
  intros D T J Nm L Sh. assert (Kd : kind_of ty = Some AK_data) by (cbn in J; intuition (subst; reflexivity)). apply reads_mpi; [exact Kd|exact L|]. intros buf.
  assert (Np : In ty [0x123; 0x124; 0x125; 0x126; 0x127; 0x128]%Z -> orb (noPriv o) (r_d r =? 0)%N = false).
  { intros Jp. destruct Sh as [Sh|(S1 & S2 & S3)]; [cbn in Jp, Sh; intuition (subst; discriminate)|]. rewrite noPriv_off; [|assumption..]. specialize (S3 T). rewrite D in S3. cbn in S3. destruct (N.eqb_spec (r_d r) 0) as [E|]; [rewrite E in S3; destruct (S3 eq_refl)|reflexivity]. }
  assert (G : GetAttr (w_oe w) o ty buf = RsaGetAttr o ty buf).
  { unfold GetAttr. cbn in J. repeat destruct J as [<-|J]; [..|destruct J]; cbn [get_flag_of Z.eqb Pos.eqb]; rewrite T; cbn; rewrite ?Bool.andb_false_r; reflexivity. }
  rewrite G. unfold RsaGetAttr, as_rsa. rewrite D. cbn [bind]. cbn in J. repeat destruct J as [<-|J]; [..|destruct J]; cbn in Nm; injection Nm as <-; try reflexivity; rewrite Np by (cbn; tauto); reflexivity.
Qed.
Theorem C86_rsa_partial w d s h t rnd s' ho : reach w (sys0 d) s -> key_tmpl 0 t -> step w rnd s (OCreateObject h t) = Ok (s', OutH CKR_OK ho) ->
  exists o, made s' h ho o /\ (forall ty b, In ty rsa_numbers -> In (mkA ty (AV b)) t -> number (o_data o) ty = Some (value b)) /\
    (forall ty, In ty rsa_numbers -> ~ In ty (map a_type t) -> number (o_data o) ty = Some 0%N) /\
    (forall ty b, In ty rsa_numbers -> In (mkA ty (AV b)) t -> Base.bytes_ok b -> (zlen b < UNAVAILABLE)%Z -> shown o ty -> reads_number w o ty (value b)).
Proof.
  intros R K H. destruct (created w d s h t rnd s' ho 0%Z R K (or_introl eq_refl) H) as (uid & cls & ps & v & o1 & o & Ne & P & V & Sk & M & D & T & Cl). destruct K as (Nd & _).
  unfold params_of in P. cbn [o_class o_type set_class obj_new] in P. unfold SetKey in Sk. cbn [o_class o_type set_class obj_new] in Sk. destruct (Z.eqb_spec cls CKO_CERTIFICATE); [contradiction|]. cbn in P. injection P as <-.
  change (0 =? CKK_RSA)%Z with true in Sk. cbv iota in Sk. injection Sk as Sk. apply SetRsaKey_numbers in Sk as (r & D1 & Nr). rewrite D1 in D.
  assert (Ix : forall ty, In ty rsa_numbers -> exists i, nth_error [0x120; 0x123; 0x124; 0x125; 0x126; 0x127; 0x128; 0x122]%Z i = Some ty /\ nth_error rsaParams i = Some ty).
  { intros ty J. cbn in J. destruct J as [<-|[<-|[<-|[<-|[<-|[<-|[<-|[<-|[]]]]]]]]]; [exists 0|exists 7|exists 1|exists 2|exists 3|exists 4|exists 5|exists 6]; split; reflexivity. }
  assert (A : forall ty b, In ty rsa_numbers -> In (mkA ty (AV b)) t -> number (o_data o) ty = Some (value b)).
  { intros ty b J Jt. destruct (Ix ty J) as (i & I1 & I2). rewrite D, (Nr i ty I1), (given t _ v i ty b Nd V I2 Jt). reflexivity. }
  exists o. split; [exact M|]. split; [exact A|]. split.
  - intros ty J Jt. destruct (Ix ty J) as (i & I1 & I2). rewrite D, (Nr i ty I1), (absent t _ v i ty V I2 Jt). reflexivity.
  - intros ty b J Jt B L Sh. eapply rsa_reads; eauto; [rewrite <- D; apply A; assumption|]. pose proof (be_of_len b B). lia.
Qed.
Print Assumptions C86_rsa_partial.

(** ** Elliptic curves *)
(** What is asked of the curve functions of wolfCrypt: the object identifier of a curve is the one it was found by, importing a point keeps the curve and leaves a key that has its public part, and an imported point of full length is exported again. Nothing is asked about the private value: wc_ecc_import_x963_ex is given the whole key. *)
Record ec_laws (w : world) : Prop := mkEcLaws {
  el_oid : forall oid id, oe_curve (w_oe w) oid = Some id -> oe_oid (w_oe w) id = oid;
  el_import : forall k b k', oe_import (w_oe w) k b = (0%Z, k') -> ec_curve k' = ec_curve k /\ (ec_kind k <> 3%Z -> ec_kind k' <> 3%Z);
  el_point : forall k b k' id, oe_import (w_oe w) k b = (0%Z, k') -> ec_curve k = Some id -> zlen b = u32 (oe_ecsize (w_oe w) id * 2 + 1) -> oe_export (w_oe w) id (ec_pt k') = (0%Z, b)
}.
Example toy_ec : ec_laws tw.
Proof.
  constructor.
  - cbn. intros oid id. destruct (list_eq_dec N.eq_dec oid p256) as [->|]; [intros H; reflexivity|discriminate].
  - cbn. intros k b k' H. injection H as <-. auto.
  - intros k b k' id H _ L. injection H as <-. change (u32 _) with 65%Z in L. change (oe_export (w_oe tw) id b = (0%Z, b)). change (oe_export (w_oe tw) id b) with (0%Z, firstn 65 (b ++ zeros 65)). f_equal. rewrite firstn_app. unfold zlen in L. assert (E : length b = 65) by lia. rewrite E. change (65 - 65) with 0. rewrite firstn_O, app_nil_r. apply firstn_all2. lia.
Qed.

(** The DER forms: an object identifier, and an octet string with the shortest length. *)
Definition der_oid (oid : list N) : list N := 6%N :: N.of_nat (length oid) :: oid.
Definition der_octets (b : list N) : list N := if (zlen b <? 128)%Z then 4%N :: N.of_nat (length b) :: b else 4%N :: 129%N :: N.of_nat (length b) :: b.

Lemma EcSetParams_ok oe k der k' : EcSetParams oe k der = (0%Z, k') -> exists oid id, der = der_oid oid /\ oe_curve oe oid = Some id /\ k' = mkEc (Some id) (ec_kind k) (ec_k k) (ec_pt k).
Proof.
  unfold EcSetParams. destruct der as [|a [|l oid]]; [discriminate|discriminate|]. cbn [nth skipn]. intros H.
  assert (Z2 : zlen (a :: l :: oid) = (zlen oid + 2)%Z) by (unfold zlen; cbn [length]; lia). rewrite Z2 in H. destruct (_ <? 2)%Z; [discriminate H|]. destruct (N.eqb_spec a 6); cbn [negb] in H; [|discriminate H].
  destruct (Z.eqb_spec (Z.of_N l) (zlen oid + 2 - 2)); cbn [negb] in H; [|discriminate H]. destruct (oe_curve oe oid) as [id|] eqn:C; [|discriminate H]. cbv zeta in H. destruct (Z.eqb_spec (oe_set_curve oe id) 0); [|congruence].
  injection H as <-. exists oid, id. split; [|auto]. unfold der_oid. subst a. do 2 f_equal. unfold zlen in *. lia.
Qed.
Lemma EcSetPoint_ok oe k der k' : EcSetPoint oe k der = Ok (0%Z, k') -> exists pt id, ec_curve k = Some id /\ oe_import oe k pt = (0%Z, k') /\
  ((zlen pt < 128)%Z /\ der = 4%N :: N.of_nat (length pt) :: pt \/ der = 4%N :: 129%N :: N.of_nat (length pt) :: pt).
Proof.
  unfold EcSetPoint. destruct (zlen der <? 3)%Z eqn:L3; [discriminate|]. destruct der as [|a [|l [|m pt]]]; [discriminate L3..|]. cbn [nth]. destruct (N.eqb_spec a 4) as [->|]; cbn [negb]; [|discriminate]. cbv zeta.
  destruct (128 <=? l)%N eqn:Lg; cbn [andb].
  - destruct (N.eqb_spec l 129) as [->|]; cbn [negb]; [|discriminate]. cbn [nth Nat.add skipn]. destruct (Z.eqb_spec (Z.of_N m) (zlen (4%N :: 129%N :: m :: pt) - Z.of_nat 3)) as [E|]; cbn [negb]; [|discriminate].
    destruct (ec_curve k) as [id|]; [|discriminate]. intros H. injection H as H. exists pt, id. split; [reflexivity|]. split; [exact H|]. right. do 3 f_equal. unfold zlen in E. cbn [length] in E. lia.
  - cbn [nth Nat.add skipn]. destruct (Z.eqb_spec (Z.of_N l) (zlen (4%N :: l :: m :: pt) - Z.of_nat 2)) as [E|]; cbn [negb]; [|discriminate].
    destruct (ec_curve k) as [id|]; [|discriminate]. intros H. injection H as H. exists (m :: pt), id. split; [reflexivity|]. split; [exact H|]. left. unfold zlen in E. apply N.leb_gt in Lg. cbn [length] in *. split; [unfold zlen; cbn [length]; lia|]. do 2 f_equal. lia.
Qed.
(** What the parts of the template make of an empty key: [k1] after curve and private value, [k] after the point. *)
Lemma SetEcKey_parts oe o v o1 : SetEcKey oe o v = Ok (0%Z, o1) -> exists k1 k, o_data o1 = KEc k /\
  (forall der, nth 0 v None = Some der -> exists oid id, der = der_oid oid /\ oe_curve oe oid = Some id /\ ec_curve k1 = Some id) /\
  (forall b, nth 1 v None = Some b -> ec_k k1 = value b /\ ec_kind k1 <> 1%Z) /\
  (nth 2 v None = None -> k = k1) /\ (forall der, nth 2 v None = Some der -> ec_kind k1 <> 3%Z /\ EcSetPoint oe k1 der = Ok (0%Z, k)).
Proof.
  unfold SetEcKey. cbv zeta. intros H.
  destruct (match nth 0 v None with Some b => EcSetParams oe ec0 b | None => (0%Z, ec0) end) as [c0 k0] eqn:E0. destruct (Z.eqb_spec c0 0) as [->|]; cbn [negb] in H; [|congruence].
  assert (A0 : forall der, nth 0 v None = Some der -> exists oid id, der = der_oid oid /\ oe_curve oe oid = Some id /\ ec_curve k0 = Some id).
  { intros der E. rewrite E in E0. apply EcSetParams_ok in E0 as (oid & id & X1 & X2 & ->). exists oid, id. auto. }
  destruct (match nth 1 v None with Some b => let '(c, x) := set_mpi oe (Some b) in (c, mkEc (ec_curve k0) 3 x (ec_pt k0)) | None => (0%Z, k0) end) as [c1 k1] eqn:E1. destruct (Z.eqb_spec c1 0) as [->|]; cbn [negb] in H; [|congruence].
  assert (A1 : ec_curve k1 = ec_curve k0 /\ forall b, nth 1 v None = Some b -> ec_k k1 = value b /\ ec_kind k1 = 3%Z).
  { destruct (nth 1 v None) as [b|]; [|injection E1 as <-; split; [reflexivity|discriminate]]. destruct (set_mpi oe (Some b)) as [c x] eqn:M. injection E1 as -> <-. split; [reflexivity|]. intros b' E. injection E as <-. split; [|reflexivity]. cbn [ec_k]. exact (set_mpi_value _ _ _ _ M eq_refl). }
  destruct A1 as [A1 A2]. destruct (nth 2 v None) as [b|].
  - destruct (EcSetPoint _ _ _) as [[c2 k3]| |] eqn:E2; cbn [bind] in H; try discriminate H. destruct (Z.eqb_spec c2 0) as [->|]; cbn [negb] in H; [|congruence]. injection H as <-. exists (mkEc (ec_curve k1) (if (ec_kind k1 =? 3)%Z then 2 else 1)%Z (ec_k k1) (ec_pt k1)), k3. split; [reflexivity|]. cbn [ec_curve ec_k ec_kind] in *.
    split; [intros der E; cbn; rewrite A1; exact (A0 der E)|]. split; [intros b' E; cbn; split; [apply A2; exact E|]; destruct (A2 b' E) as [_ ->]; discriminate|]. split; [discriminate|]. intros der E. injection E as <-. split; [|exact E2].
    cbn. destruct (ec_kind k1 =? 3)%Z; discriminate.
  - injection H as <-. exists k1, k1. split; [reflexivity|]. split; [intros der E; rewrite A1; exact (A0 der E)|]. split; [intros b' E; destruct (A2 b' E) as [-> ->]; split; [reflexivity|discriminate]|]. split; [reflexivity|discriminate].
Qed.
Lemma reads_bytes w o ty b : kind_of ty = Some AK_data -> (zlen b < UNAVAILABLE)%Z -> GetAttr (w_oe w) o ty (Some (zlen b)) = Ok (0%Z, Some (zlen b), b) -> api_reads (w_oe w) o ty b.
Proof.
  intros Kd Ls G buf Lb. unfold GetAttributeValue. cbn [check_attrs]. unfold check_attr. cbn [a_type]. rewrite Kd. cbn [andb]. cbn [Z.eqb CKR_OK].
  cbn [get_loop a_type a_val buf_of v_len]. rewrite Lb, G. cbn [bind fst get_rv Z.eqb]. unfold put. destruct (Z.eqb_spec (zlen b) UNAVAILABLE); [lia|].
  change (get_rv 0 =? CKR_OK)%Z with true. cbn [bind]. unfold overlay, zlen. rewrite Nat2Z.id, firstn_app, Nat.sub_diag, firstn_all. cbn [firstn]. rewrite app_nil_r. reflexivity.
Qed.
Lemma ec_get w o ty buf : o_type o = CKK_EC -> o_class o <> CKO_CERTIFICATE -> In ty [CKA_EC_PARAMS; CKA_VALUE; CKA_EC_POINT] -> GetAttr (w_oe w) o ty buf = EcGetAttr (w_oe w) o ty buf.
Proof.
  intros T C J. unfold GetAttr. destruct (Z.eqb_spec (o_class o) CKO_CERTIFICATE); [contradiction|]. cbn [andb]. rewrite T. cbn in J. destruct J as [<-|[<-|[<-|[]]]]; reflexivity.
Qed.
Theorem C86_ec_partial w d s h t rnd s' ho : reach w (sys0 d) s -> ec_laws w -> key_tmpl 3 t -> step w rnd s (OCreateObject h t) = Ok (s', OutH CKR_OK ho) ->
  exists o k, made s' h ho o /\ o_data o = KEc k /\
    (forall der, In (mkA CKA_EC_PARAMS (AV der)) t -> exists oid id, der = der_oid oid /\ oe_curve (w_oe w) oid = Some id /\ ec_curve k = Some id /\ (Base.bytes_ok der -> api_reads (w_oe w) o CKA_EC_PARAMS der)) /\
    (forall b, In (mkA CKA_VALUE (AV b)) t -> ~ In CKA_EC_POINT (map a_type t) ->
      number (o_data o) CKA_VALUE = Some (value b) /\ (Base.bytes_ok b -> (zlen b < UNAVAILABLE)%Z -> shown o CKA_VALUE -> reads_number w o CKA_VALUE (value b))) /\
    (forall pt, In (mkA CKA_EC_POINT (AV (der_octets pt))) t -> exists k1 id, ec_curve k1 = Some id /\ oe_import (w_oe w) k1 pt = (0%Z, k) /\ (forall b, In (mkA CKA_VALUE (AV b)) t -> ec_k k1 = value b) /\
      (Base.bytes_ok (der_octets pt) -> zlen pt = u32 (oe_ecsize (w_oe w) id * 2 + 1) -> api_reads (w_oe w) o CKA_EC_POINT (der_octets pt))).
Proof.
  intros R E K H. destruct (created w d s h t rnd s' ho 3%Z R K (or_intror (or_intror (or_introl eq_refl))) H) as (uid & cls & ps & v & o1 & o & Ne & P & V & Sk & M & D & T & Cl). destruct K as (Nd & _).
  unfold params_of in P. cbn [o_class o_type set_class obj_new] in P. unfold SetKey in Sk. cbn [o_class o_type set_class obj_new] in Sk. destruct (Z.eqb_spec cls CKO_CERTIFICATE); [contradiction|]. cbn in P. injection P as <-.
  change (3 =? CKK_RSA)%Z with false in Sk. change (3 =? CKK_EC)%Z with true in Sk. cbv iota in Sk. apply SetEcKey_parts in Sk as (k1 & k & D1 & A0 & A1 & A2 & A3). rewrite D1 in D.
  assert (Cu : ec_curve k = ec_curve k1). { destruct (nth 2 v None) as [der|]; [|rewrite (A2 eq_refl); reflexivity]. destruct (A3 der eq_refl) as [_ X]. apply EcSetPoint_ok in X as (pt & id & _ & X & _). apply (el_import w E) in X as [X _]. exact X. }
  exists o, k. split; [exact M|]. split; [exact D|]. split; [|split].
  - intros der J. destruct (A0 der (given t _ v 0 _ der Nd V eq_refl J)) as (oid & id & De & Co & C1). exists oid, id. split; [exact De|]. split; [exact Co|]. split; [congruence|]. intros B.
    assert (Ol : (N.of_nat (length oid) < 256)%N) by (rewrite De in B; inversion B as [|? ? _ B1]; inversion B1 as [|? ? B2 _]; exact B2).
    assert (Zl : zlen der = (zlen oid + 2)%Z) by (rewrite De; unfold der_oid, zlen; cbn [length]; lia).
    apply reads_bytes; [reflexivity|rewrite Zl; unfold zlen, UNAVAILABLE; lia|]. rewrite ec_get; [|exact T|exact Cl|cbn; auto]. unfold EcGetAttr, as_ec. rewrite D. cbn [bind]. change (CKA_EC_PARAMS =? CKA_EC_PARAMS)%Z with true. cbv iota. unfold GetEcParams. rewrite Cu, C1. cbv zeta. rewrite (el_oid w E oid id Co).
    rewrite Zl, Z.ltb_irrefl. do 2 f_equal. rewrite De. unfold der_oid. rewrite N.mod_small by exact Ol. rewrite Nat2N.id, firstn_all. reflexivity.
  - intros b J Np. pose proof (absent t _ v 2 _ V eq_refl Np) as N2. rewrite (A2 N2) in *. destruct (A1 b (given t _ v 1 _ b Nd V eq_refl J)) as [Kv Kk]. split; [rewrite D; cbn; rewrite Kv; reflexivity|]. intros B L Sh.
    apply reads_mpi; [reflexivity|pose proof (be_of_len b B); lia|]. intros buf. rewrite ec_get; [|exact T|exact Cl|cbn; auto]. unfold EcGetAttr, as_ec. rewrite D. cbn [bind]. cbv zeta. change (CKA_VALUE =? CKA_EC_PARAMS)%Z with false. change (CKA_VALUE =? CKA_VALUE)%Z with true. cbv iota.
    destruct Sh as [Sh|(S1 & S2 & _)]; [cbn in Sh; intuition discriminate|]. rewrite noPriv_off by assumption. destruct (Z.eqb_spec (ec_kind k1) 1); [contradiction|]. cbn [orb]. rewrite Kv. reflexivity.
  - intros pt J. destruct (A3 _ (given t _ v 2 _ _ Nd V eq_refl J)) as [K3 X]. apply EcSetPoint_ok in X as (pt' & id & C1 & X & De).
    assert (pt' = pt) as ->. { unfold der_octets in De. destruct (zlen pt <? 128)%Z eqn:L; destruct De as [[Ls De]|De]; injection De; intros; subst; try congruence; unfold zlen in *; cbn [length] in *; lia. }
    exists k1, id. split; [exact C1|]. split; [exact X|]. split; [intros b Jb; apply A1; exact (given t _ v 1 _ b Nd V eq_refl Jb)|]. intros B Lp.
    pose proof (el_point w E _ _ _ _ X C1 Lp) as Ex. apply (el_import w E) in X as [X Xk]. specialize (Xk K3).
    assert (Pl : (N.of_nat (length pt) < 256)%N). { unfold der_octets in B. destruct (zlen pt <? 128)%Z; inversion B as [|? ? _ B1]; inversion B1 as [|? ? B2 B3]; [exact B2|inversion B3 as [|? ? B4 _]; exact B4]. }
    assert (Zl : zlen (der_octets pt) = (zlen pt + 2 + (if (128 <=? zlen pt)%Z then 1 else 0))%Z). { unfold der_octets. destruct (Z.ltb_spec (zlen pt) 128), (Z.leb_spec 128 (zlen pt)); try lia; unfold zlen; cbn [length]; lia. }
    apply reads_bytes; [reflexivity|rewrite Zl; unfold zlen, UNAVAILABLE; destruct (_ <=? _)%Z; lia|]. rewrite ec_get; [|exact T|exact Cl|cbn; auto]. unfold EcGetAttr, as_ec. rewrite D. cbn [bind]. cbv zeta.
    change (CKA_EC_POINT =? CKA_EC_PARAMS)%Z with false. change (CKA_EC_POINT =? CKA_VALUE)%Z with false. change (CKA_EC_POINT =? CKA_EC_POINT)%Z with true. cbv iota. destruct (Z.eqb_spec (ec_kind k) 3); [contradiction|]. unfold GetEcPoint. rewrite Cu, C1. cbv zeta. rewrite <- Lp, Ex.
    rewrite Zl. destruct (_ <? zlen pt)%Z eqn:Lz; [exfalso; destruct (128 <=? zlen pt)%Z; lia|]. change (0 =? 0)%Z with true. cbv iota.
    assert (Wd : (4%N :: (if (128 <=? zlen pt)%Z then [129%N] else []) ++ [Z.to_N (zlen pt mod 256)]) ++ pt = der_octets pt).
    { unfold der_octets. rewrite Z.mod_small by (unfold zlen; lia). assert (Zn : Z.to_N (zlen pt) = N.of_nat (length pt)) by (unfold zlen; lia). rewrite Zn. destruct (Z.ltb_spec (zlen pt) 128), (Z.leb_spec 128 (zlen pt)); try lia; reflexivity. }
    cbn [app] in *. rewrite Wd, Zl, Z.ltb_irrefl. reflexivity.
Qed.
Print Assumptions C86_ec_partial.

(** ** Diffie-Hellman: with prime and base both given. *)
Theorem C86_dh_partial w d s h t rnd s' ho p g : reach w (sys0 d) s -> dh_law w -> key_tmpl 2 t -> In (mkA CKA_PRIME (AV p)) t -> In (mkA CKA_BASE (AV g)) t -> step w rnd s (OCreateObject h t) = Ok (s', OutH CKR_OK ho) ->
  exists o, made s' h ho o /\ number (o_data o) CKA_PRIME = Some (value p) /\ number (o_data o) CKA_BASE = Some (value g) /\
    (Base.bytes_ok p -> (zlen p < UNAVAILABLE)%Z -> reads_number w o CKA_PRIME (value p)) /\ (Base.bytes_ok g -> (zlen g < UNAVAILABLE)%Z -> reads_number w o CKA_BASE (value g)).
Proof.
  intros R E K Jp Jg H. destruct (created w d s h t rnd s' ho 2%Z R K (or_intror (or_introl eq_refl)) H) as (uid & cls & ps & v & o1 & o & Ne & P & V & Sk & M & D & T & Cl). destruct K as (Nd & _).
  unfold params_of in P. cbn [o_class o_type set_class obj_new] in P. unfold SetKey in Sk. cbn [o_class o_type set_class obj_new] in Sk. destruct (Z.eqb_spec cls CKO_CERTIFICATE); [contradiction|]. cbn in P. injection P as <-.
  change (2 =? CKK_RSA)%Z with false in Sk. change (2 =? CKK_EC)%Z with false in Sk. change (2 =? CKK_DH)%Z with true in Sk. cbv iota in Sk.
  unfold SetDhKey, as_dh in Sk. cbn [o_data set_class obj_new bind] in Sk. rewrite (given t _ v 0 _ p Nd V eq_refl Jp), (given t _ v 1 _ g Nd V eq_refl Jg) in Sk.
  destruct (oe_dh_set (w_oe w) p g) as [c0 [pn gn]] eqn:Ds. destruct (Z.eqb_spec c0 0) as [->|]; cbn [negb] in Sk; [|congruence]. apply E in Ds. injection Ds as -> ->.
  assert (D2 : exists l b, o_data o = KDh (value p) (value g) l b). { destruct (nth 2 v None) as [b|]; [destruct (_ <? _)%Z; [discriminate Sk|]|]; injection Sk as <-; eexists _, _; exact D. } destruct D2 as (l & b & D2).
  exists o. split; [exact M|]. rewrite D2. split; [reflexivity|]. split; [reflexivity|].
  assert (G : forall ty buf, In ty [CKA_PRIME; CKA_BASE] -> GetAttr (w_oe w) o ty buf = DhGetAttr o ty buf).
  { intros ty buf J. unfold GetAttr. destruct (Z.eqb_spec (o_class o) CKO_CERTIFICATE); [contradiction|]. cbn [andb]. rewrite T. cbn in J. destruct J as [<-|[<-|[]]]; reflexivity. }
  split; intros B L; (apply reads_mpi; [reflexivity|pose proof (be_of_len _ B); lia|]; intros buf; rewrite G by (cbn; auto); unfold DhGetAttr, as_dh; rewrite D2; reflexivity).
Qed.
Print Assumptions C86_dh_partial.

(** ** Cases *)
Definition rsa_full : template := [mkA CKA_CLASS (ULONG CKO_PRIVATE_KEY); mkA CKA_KEY_TYPE (ULONG CKK_RSA); mkA CKA_EXTRACTABLE TRUE; mkA CKA_MODULUS (AV [0; 12; 161]%N); mkA CKA_PUBLIC_EXPONENT (AV [17%N]);
  mkA CKA_PRIVATE_EXPONENT (AV [10; 193]%N); mkA CKA_PRIME_1 (AV [61%N]); mkA CKA_PRIME_2 (AV [53%N]); mkA CKA_EXPONENT_1 (AV [54%N]); mkA CKA_EXPONENT_2 (AV [49%N]); mkA CKA_COEFFICIENT (AV [38%N])].
Definition ec_full : template := [mkA CKA_CLASS (ULONG CKO_PRIVATE_KEY); mkA CKA_KEY_TYPE (ULONG CKK_EC); mkA CKA_EXTRACTABLE TRUE; mkA CKA_EC_PARAMS (AV (der_oid p256)); mkA CKA_VALUE (AV [1; 2; 3]%N)].
Definition ec_open : template := [mkA CKA_CLASS (ULONG CKO_PUBLIC_KEY); mkA CKA_KEY_TYPE (ULONG CKK_EC); mkA CKA_EC_PARAMS (AV (der_oid p256)); mkA CKA_EC_POINT (AV (der_octets (4%N :: repeat 9%N 64)))].
Definition dh_full : template := half_dh ++ [mkA CKA_BASE (AV [5%N])].
Definition import_of (t : template) (tys : list Z) : option (list (option N) * list (option (list N))) :=
  match step tw (rnd 0) (after opened) (OCreateObject H2 t) with
  | Ok (s1, OutH 0 ho) => match sess_get s1 H2 with
    | Some x => match find (fun o => o_handle o =? ho)%Z (within s1 x) with
      | Some o => Some (map (number (o_data o)) tys, map (fun ty => match GetAttributeValue (w_oe tw) o [mkA ty (AV (zeros 67))] with Ok (_, [mkA _ (AV b)]) => Some b | _ => None end) tys)
      | None => None end
    | None => None end
  | _ => None end.
Example C86_rsa_case : key_tmpl 0 rsa_full /\ import_of rsa_full rsa_numbers = Some ([Some 3233; Some 17; Some 2753; Some 61; Some 53; Some 54; Some 49; Some 38]%N,
  [Some [12; 161]; Some [17]; Some [10; 193]; Some [61]; Some [53]; Some [54]; Some [49]; Some [38]]%N).
Proof.
  split; [|vm_compute; reflexivity]. split; [cbn; repeat constructor; cbn; intuition discriminate|]. split; [cbn; auto|]. intros b J. cbn [In rsa_full] in J.
  repeat (destruct J as [J|J]; [try discriminate J; injection J as <-; intros Eu; vm_compute in Eu; discriminate Eu|]). destruct J.
Qed.
Example C86_ec_case : import_of ec_full [CKA_VALUE; CKA_EC_PARAMS] = Some ([Some 66051%N; None], [Some [1; 2; 3]%N; Some (der_oid p256)]).
Proof. vm_compute. reflexivity. Qed.
Example C86_point_case : import_of ec_open [CKA_EC_POINT] = Some ([None], [Some (4 :: 65 :: 4 :: repeat 9 64)%N]).
Proof. vm_compute. reflexivity. Qed.
Example C86_dh_case : import_of dh_full [CKA_PRIME; CKA_BASE] = Some ([Some 23; Some 5]%N, [Some [23]; Some [5]]%N) /\ import_of half_dh [CKA_PRIME] = Some ([Some 0%N], [Some []]).
Proof. split; vm_compute; reflexivity. Qed.
