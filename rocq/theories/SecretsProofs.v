(** Keys made with two values, and whole histories. *)
From Verif Require Import Base Codec Ops OpsSpec OpsProofs Object ObjectSpec ObjectProofs HistProofs Store Sys SysProofs SysProofs2 SysProofs3 SysProofs4 UseProofs Isolate IsolateProofs2 PropObject PropObject2 Secrets SecretsStep.

(** ** Templates that differ in CKA_VALUE *)
Lemma but_type a b : but_value a b -> a_type b = a_type a.
Proof. intros [->|(-> & -> & _)]; reflexivity. Qed.
Lemma but_same a b : but_value a b -> a_type a <> CKA_VALUE -> a = b.
Proof. intros [E|(E & _)] N; [exact E|contradiction]. Qed.
Lemma but_check a b : but_value a b -> check_attr true b = check_attr true a.
Proof.
  intros [->|(E1 & E2 & x & y & V1 & V2 & L)]; [reflexivity|]. unfold check_attr, a_len. rewrite E1, E2, V1, V2. change (kind_of CKA_VALUE) with (Some AK_data). cbv beta iota. cbn [v_len]. rewrite (zlen_len _ _ L). reflexivity.
Qed.
Lemma but_checks t1 t2 : Forall2 but_value t1 t2 -> check_attrs true t2 = check_attrs true t1.
Proof. induction 1 as [|a b t1 t2 E F IH]; [reflexivity|]. cbn [check_attrs]. rewrite (but_check _ _ E), IH. reflexivity. Qed.
Lemma Forall2_rev' {A B} (P : A -> B -> Prop) l1 l2 : Forall2 P l1 l2 -> Forall2 P (rev l1) (rev l2).
Proof. induction 1 as [|a b l1 l2 E F IH]; [constructor|]. cbn. apply Forall2_app; [exact IH|constructor; [exact E|constructor]]. Qed.
Lemma but_find t1 t2 ty : Forall2 but_value t1 t2 -> ty <> CKA_VALUE -> find (fun a => a_type a =? ty)%Z t2 = find (fun a => a_type a =? ty)%Z t1.
Proof.
  intros F N. pose proof (Forall2_find but_value (fun a => a_type a =? ty)%Z t1 t2 (fun a b E => f_equal (fun z => (z =? ty)%Z) (eq_sym (but_type a b E))) F) as R.
  destruct (find _ t1) as [a|] eqn:E1, (find _ t2) as [b|]; try contradiction; [|reflexivity]. apply find_some in E1 as [_ E1]. apply Z.eqb_eq in E1. f_equal. symmetry. apply but_same; [exact R|congruence].
Qed.
Lemma but_last t1 t2 ty : Forall2 but_value t1 t2 -> ty <> CKA_VALUE -> find_last t2 ty = find_last t1 ty.
Proof. intros F N. apply but_find; [apply Forall2_rev'; exact F|exact N]. Qed.
Lemma but_token t1 t2 : Forall2 but_value t1 t2 -> tmpl_token t2 = tmpl_token t1.
Proof. intros F. unfold tmpl_token. rewrite (but_last _ _ CKA_TOKEN F); [reflexivity|discriminate]. Qed.
Definition lenR (u v : option (list N)) : Prop := match u, v with Some x, Some y => length x = length y | None, None => True | _, _ => False end.
Lemma but_params t1 t2 : Forall2 but_value t1 t2 ->
  (param_vals t1 secretParams = None /\ param_vals t2 secretParams = None) \/
  exists n v1 v2, param_vals t1 secretParams = Some [n; v1] /\ param_vals t2 secretParams = Some [n; v2] /\ lenR v1 v2.
Proof.
  intros F. unfold secretParams. cbn [param_vals]. assert (E : find_first t2 CKA_VALUE_LEN = find_first t1 CKA_VALUE_LEN) by (apply but_find; [exact F|discriminate]). rewrite E.
  pose proof (Forall2_find but_value (fun a => a_type a =? CKA_VALUE)%Z t1 t2 (fun a b E => f_equal (fun z => (z =? CKA_VALUE)%Z) (eq_sym (but_type a b E))) F) as R.
  fold (find_first t1 CKA_VALUE) in R. fold (find_first t2 CKA_VALUE) in R.
  assert (G : (match find_first t1 CKA_VALUE with Some (mkA _ (ANull _)) => None | Some a => Some (Some (v_bytes (a_val a)) :: []) | None => Some (None :: []) end = None /\
               match find_first t2 CKA_VALUE with Some (mkA _ (ANull _)) => None | Some a => Some (Some (v_bytes (a_val a)) :: []) | None => Some (None :: []) end = None) \/
              exists v1 v2, match find_first t1 CKA_VALUE with Some (mkA _ (ANull _)) => None | Some a => Some (Some (v_bytes (a_val a)) :: []) | None => Some (None :: []) end = Some [v1] /\
               match find_first t2 CKA_VALUE with Some (mkA _ (ANull _)) => None | Some a => Some (Some (v_bytes (a_val a)) :: []) | None => Some (None :: []) end = Some [v2] /\ lenR v1 v2).
  { destruct (find_first t1 CKA_VALUE) as [[ty1 va]|], (find_first t2 CKA_VALUE) as [[ty2 vb]|]; try contradiction; [|right; exists None, None; repeat split].
    destruct R as [R|(_ & _ & x & y & V1 & V2 & L)].
    - injection R as <- <-. destruct va as [x|n|x]; [right|left; split; reflexivity|right]; do 2 eexists; (split; [reflexivity|split; [reflexivity|reflexivity]]).
    - cbn in V1, V2. subst va vb. right. do 2 eexists. split; [reflexivity|]. split; [reflexivity|exact L]. }
  cbv beta iota in G |- *. destruct (find_first t1 CKA_VALUE_LEN) as [[ty0 v0]|].
  - destruct v0 as [x|n|x]; cbn [a_val] in *.
    + destruct G as [(-> & ->)|(v1 & v2 & -> & -> & L)]; [left; auto|right; exists (Some (v_bytes (AV x))), v1, v2; auto].
    + left; auto.
    + destruct G as [(-> & ->)|(v1 & v2 & -> & -> & L)]; [left; auto|right; exists (Some (v_bytes (AUnav x))), v1, v2; auto].
  - destruct G as [(-> & ->)|(v1 & v2 & -> & -> & L)]; [left; auto|right; exists None, v1, v2; auto].
Qed.

(** ** Setting the key and the attributes *)
Definition fullR (d1 d2 : kdata) : Prop := exists l b1 b2, d1 = KSym l b1 /\ d2 = KSym l b2 /\ length b1 = SYM_BUF /\ length b2 = SYM_BUF.
Lemma fullR_dataR d1 d2 : fullR d1 d2 -> dataR d1 d2.
Proof. intros (l & b1 & b2 & E1 & E2 & L1 & L2). exists l, b1, b2. repeat split; auto. congruence. Qed.
Definition pairR (o : obj) (p q : Z * obj) : Prop := fst p = fst q /\ exists d1 d2, snd p = set_data o d1 /\ snd q = set_data o d2 /\ fullR d1 d2.
Lemma zeros_len n : length (zeros n) = n.
Proof. apply repeat_length. Qed.
Lemma secret_R o n v1 v2 : lenR v1 v2 -> rel (pairR o) (SetSecretKey o [n; v1]) (SetSecretKey o [n; v2]).
Proof.
  intros L. unfold SetSecretKey. cbn [nth]. cbv zeta.
  assert (Fl : forall c l, pairR o (c, set_data o (KSym l (zeros SYM_BUF))) (c, set_data o (KSym l (zeros SYM_BUF)))).
  { intros c l. split; [reflexivity|]. eexists _, _. split; [reflexivity|]. split; [reflexivity|]. exists l, (zeros SYM_BUF), (zeros SYM_BUF). rewrite zeros_len. auto. }
  match goal with |- rel _ (if ?b then _ else _) _ => destruct b end; [apply Fl|].
  destruct v1 as [x|], v2 as [y|]; cbn in L; try contradiction; [|apply Fl]. rewrite (zlen_len _ _ L). destruct (andb _ _); [apply Fl|]. destruct (Z.ltb_spec (Z.of_nat SYM_BUF) (if (match n with Some b => u32 (ulong_of b) | None => 0 end =? 0)%Z then u32 (zlen y) else match n with Some b => u32 (ulong_of b) | None => 0%Z end)) as [Lt|Ge]; [reflexivity|].
  split; [reflexivity|]. eexists _, _. split; [reflexivity|]. split; [reflexivity|].
  assert (Q : forall z : list N, length (overlay (zeros SYM_BUF) (firstn (Z.to_nat (if (match n with Some b => u32 (ulong_of b) | None => 0 end =? 0)%Z then u32 (zlen y) else match n with Some b => u32 (ulong_of b) | None => 0%Z end)) z)) = SYM_BUF).
  { intros z. unfold overlay. rewrite app_length, skipn_length, firstn_length, zeros_len. lia. }
  eexists _, _, _. split; [reflexivity|]. split; [reflexivity|]. split; apply Q.
Qed.
Lemma SetAttr_data o d a : SetAttr (set_data o d) a = ('(c, p) <- SetAttr o a ;; Ok (c, set_data p d)).
Proof.
  unfold SetAttr. cbv zeta. destruct (set_opflag_of _); [reflexivity|]. destruct (set_flag_of _); [reflexivity|]. cbn [set_data o_keyId o_label o_type o_class].
  destruct (_ =? CKA_CLASS)%Z; [reflexivity|]. destruct (_ =? CKA_ID)%Z; [destruct (new_sval _ _) as [[? ?]| |]; reflexivity|]. destruct (_ =? CKA_LABEL)%Z; [destruct (new_sval _ _) as [[? ?]| |]; reflexivity|].
  destruct (_ =? CKA_START_DATE)%Z; [destruct (_ =? 8)%Z; reflexivity|]. destruct (_ =? CKA_END_DATE)%Z; [destruct (_ =? 8)%Z; reflexivity|].
  repeat match goal with |- (if ?b then _ else _) = _ => destruct b; [reflexivity|] end. reflexivity.
Qed.
Lemma SetAttr_but o a b : but_value a b -> SetAttr o b = SetAttr o a.
Proof. intros [->|(E1 & E2 & _)]; [reflexivity|]. unfold SetAttr. rewrite E1, E2. reflexivity. Qed.
Lemma set_loop_R t1 t2 d : Forall2 but_value t1 t2 -> forall o, set_loop (set_data o d) t2 = ('(c, p) <- set_loop o t1 ;; Ok (c, set_data p d)).
Proof.
  induction 1 as [|a b t1 t2 E F IH]; intros o; [reflexivity|]. cbn [set_loop]. rewrite (SetAttr_but _ _ _ E), SetAttr_data. destruct (SetAttr o a) as [[c p]| |]; cbn [bind]; [|reflexivity..].
  destruct (_ =? CKR_OK)%Z; [apply IH|reflexivity].
Qed.
Lemma SetAttr_keeps o a c p : SetAttr o a = Ok (c, p) -> o_data p = o_data o /\ o_type p = o_type o /\ o_uid p = o_uid o /\ (a_type a <> CKA_CLASS -> o_class p = o_class o) /\ (a_type a = CKA_CLASS -> o_class p = ulong_of (v_bytes (a_val a))).
Proof.
  unfold SetAttr. cbv zeta. destruct (set_opflag_of (a_type a)) eqn:Q1. { intros H. injection H as _ <-. repeat split. intros E. rewrite E in Q1. discriminate Q1. }
  destruct (set_flag_of (a_type a)) eqn:Q2. { intros H. injection H as _ <-. repeat split. intros E. rewrite E in Q2. discriminate Q2. }
  destruct (Z.eqb_spec (a_type a) CKA_CLASS) as [E|N]. { intros H. injection H as _ <-. repeat split. intros N. contradiction. }
  intros H. enough (o_data p = o_data o /\ o_type p = o_type o /\ o_uid p = o_uid o /\ o_class p = o_class o) as (A & B & C & D) by (repeat split; auto; intros; contradiction).
  destruct (_ =? CKA_ID)%Z; [destruct (new_sval _ _) as [[? ?]| |]; cbn [bind] in H; try discriminate H; injection H as _ <-; repeat split|]. destruct (_ =? CKA_LABEL)%Z; [destruct (new_sval _ _) as [[? ?]| |]; cbn [bind] in H; try discriminate H; injection H as _ <-; repeat split|].
  destruct (_ =? CKA_START_DATE)%Z; [destruct (_ =? 8)%Z; injection H as _ <-; repeat split|]. destruct (_ =? CKA_END_DATE)%Z; [destruct (_ =? 8)%Z; injection H as _ <-; repeat split|].
  repeat match type of H with (if ?b then _ else _) = _ => destruct b; [injection H as _ <-; repeat split|] end. injection H as _ <-. repeat split.
Qed.
Lemma loop_keeps t : all_say t CKA_CLASS [CKO_SECRET_KEY] -> forall o c p, set_loop o t = Ok (c, p) -> o_data p = o_data o /\ o_type p = o_type o /\ o_uid p = o_uid o /\ (o_class o = CKO_SECRET_KEY -> o_class p = CKO_SECRET_KEY).
Proof.
  induction t as [|a t IH]; intros S o c p H; cbn [set_loop] in H; [injection H as _ <-; auto|].
  destruct (SetAttr o a) as [[c1 o1]|?|?] eqn:E; cbn [bind] in H; try discriminate H. destruct (SetAttr_keeps _ _ _ _ E) as (A & B & C & D1 & D2).
  assert (D : o_class o = CKO_SECRET_KEY -> o_class o1 = CKO_SECRET_KEY).
  { intros O. destruct (Z.eq_dec (a_type a) CKA_CLASS) as [Ec|Nc]; [|rewrite D1; assumption]. destruct (S a (or_introl eq_refl) Ec) as (v & [<-|[]] & Ev). rewrite (D2 Ec), Ev. reflexivity. }
  destruct (_ =? CKR_OK)%Z; [|injection H as _ <-; auto]. destruct (IH (fun a0 I => S a0 (or_intror I)) _ _ _ H) as (A' & B' & C' & D'). repeat split; [congruence|congruence|congruence|auto].
Qed.
Lemma loop_protected t o p : protects t -> Z.testbit (o_flag o) 2 = false -> set_loop o t = Ok (CKR_OK, p) -> protected p.
Proof.
  intros P O L. destruct P as [(t1 & t2 & -> & Lf)|[(t1 & t2 & -> & Lf)|Lf]].
  - left. apply (set_loop_said t1 CKA_SENSITIVE 1%N t2) in L; [exact L|left; reflexivity|exact Lf].
  - right. apply (set_loop_said t1 CKA_EXTRACTABLE 0%N t2) in L; [exact L|right; left; reflexivity|exact Lf].
  - right. apply (set_loop_keeps t _ _ CKA_EXTRACTABLE) in L; [|right; left; reflexivity|exact Lf]. change (prot_bit CKA_EXTRACTABLE) with 2%Z in L. congruence.
Qed.

(** ** Two new keys *)
Definition newR (uid : nat) (p q : Z * option obj) : Prop :=
  fst p = fst q /\ match snd p, snd q with
  | Some o1, Some o2 => o_uid o1 = uid /\ hid o1 /\ exists d, o2 = set_data o1 d /\ fullR (o_data o1) d
  | None, None => True
  | _, _ => False
  end.
Lemma new_R oe rw uid ty t1 t2 : In ty [CKK_AES; CKK_GENERIC_SECRET] -> all_say t1 CKA_CLASS [CKO_SECRET_KEY] -> protects t1 -> Forall2 but_value t1 t2 ->
  rel (newR uid) (NewObject oe rw uid ty CKO_SECRET_KEY t1) (NewObject oe rw uid ty CKO_SECRET_KEY t2).
Proof.
  intros Ty S P F. unfold NewObject, SetAttributeValue. destruct rw; cbn [negb]; [|split; [reflexivity|exact I]]. rewrite (but_checks _ _ F). destruct (Z.eqb_spec (check_attrs true t1) CKR_OK) as [Ec|Ec]; cbn [negb bind].
  2:{ destruct (Z.eqb_spec (check_attrs true t1) CKR_OK); [contradiction|]. split; [reflexivity|exact I]. }
  assert (Ep : params_of (set_class (obj_new uid ty) CKO_SECRET_KEY) = Some secretParams) by (destruct Ty as [<-|[<-|[]]]; reflexivity). rewrite Ep.
  destruct (but_params _ _ F) as [(-> & ->)|(n & v1 & v2 & -> & -> & L)]; [split; [reflexivity|exact I]|].
  assert (Ek : forall v, SetKey oe (set_class (obj_new uid ty) CKO_SECRET_KEY) v = SetSecretKey (set_class (obj_new uid ty) CKO_SECRET_KEY) v) by (intros v; destruct Ty as [<-|[<-|[]]]; reflexivity). rewrite !Ek.
  pose proof (secret_R (set_class (obj_new uid ty) CKO_SECRET_KEY) n v1 v2 L) as R.
  destruct (SetSecretKey _ [n; v1]) as [[c p]| |], (SetSecretKey _ [n; v2]) as [[c' q]| |]; cbn in R; try contradiction; cbn [bind rel]; try exact R. destruct R as (E & d1 & d2 & E1 & E2 & D). cbn in E, E1, E2. subst c' p q.
  destruct (_ =? MEMORY_E)%Z; [split; [reflexivity|exact I]|]. destruct (negb (c =? 0)%Z); [split; [reflexivity|exact I]|].
  change (set_data (set_class (obj_new uid ty) CKO_SECRET_KEY) d2) with (set_data (set_data (set_class (obj_new uid ty) CKO_SECRET_KEY) d1) d2). rewrite (set_loop_R _ _ d2 F).
  destruct (set_loop _ t1) as [[rv p]| |] eqn:El; cbn [bind rel]; [|reflexivity..]. split; [reflexivity|]. cbn [fst snd]. destruct (Z.eqb_spec rv CKR_OK) as [->|]; [|exact I].
  destruct (loop_keeps _ S _ _ _ El) as (A & B & C & K). cbn in A, B, C. specialize (K eq_refl). split; [exact C|]. split.
  - split; [unfold is_sym; rewrite B; destruct Ty as [<-|[<-|[]]]; reflexivity|]. split; [unfold is_cert; rewrite K; reflexivity|]. apply protected_noPriv. refine (loop_protected _ _ _ P _ El); reflexivity.
  - exists d2. split; [reflexivity|]. rewrite A. exact D.
Qed.
Lemma find_last_in t ty a : find_last t ty = Some a -> In a t /\ a_type a = ty.
Proof. unfold find_last. intros H. apply find_some in H as [I E]. apply in_rev in I. apply Z.eqb_eq in E. auto. Qed.
Lemma find_last_some t ty a : In a t -> a_type a = ty -> exists b, find_last t ty = Some b.
Proof.
  intros I E. unfold find_last. destruct (find _ (rev t)) as [b|] eqn:F; [eauto|]. exfalso. apply in_rev in I. pose proof (find_none _ _ F a I) as N. cbv beta in N. rewrite E, Z.eqb_refl in N. discriminate N.
Qed.
Lemma create_R oe rw uid t1 t2 : hides t1 -> (exists a, In a t1 /\ a_type a = CKA_CLASS) -> Forall2 but_value t1 t2 ->
  rel (newR uid) (CreateObject oe rw uid t1) (CreateObject oe rw uid t2).
Proof.
  intros (S & St & P) (a & Ia & Ea) F. unfold CreateObject. cbv zeta. rewrite (but_last _ _ CKA_CLASS F) by discriminate. destruct (find_last_some _ _ _ Ia Ea) as [b Eb]. rewrite Eb. apply find_last_in in Eb as [Ib Tb].
  destruct (S b Ib Tb) as (v & [<-|[]] & Ev). assert (Etb : tmpl_ulong b = Some CKO_SECRET_KEY) by (unfold tmpl_ulong; rewrite Ev; reflexivity). rewrite Etb. change (CKO_SECRET_KEY =? CKO_CERTIFICATE)%Z with false. cbv iota.
  rewrite (but_last _ _ CKA_KEY_TYPE F) by discriminate. destruct (find_last t1 CKA_KEY_TYPE) as [k|] eqn:Ek; [|split; [reflexivity|exact I]]. apply find_last_in in Ek as [Ik Tk].
  destruct (St k Ik Tk) as (v & Iv & Evk). assert (Et : tmpl_ulong k = Some v) by (unfold tmpl_ulong; rewrite Evk; destruct Iv as [<-|[<-|[]]]; reflexivity). rewrite Et.
  assert (Em : mem v [CKK_RSA; CKK_EC; CKK_DH; CKK_AES; CKK_GENERIC_SECRET] = true) by (destruct Iv as [<-|[<-|[]]]; reflexivity). rewrite Em. apply new_R; assumption.
Qed.

Lemma Forall2_mono {A B} (P Q : A -> B -> Prop) l1 l2 : (forall a b, P a b -> Q a b) -> Forall2 P l1 l2 -> Forall2 Q l1 l2.
Proof. intros H. induction 1; constructor; auto. Qed.
(** ** Steps and histories *)
Section R.
Variable w : world.
Hypothesis Sl : sealing (w_se w).
Lemma tobj_more T u o1 o2 : tobj w T o1 o2 -> tobj w (u :: T) o1 o2.
Proof. intros [E|[I K]]; [left; exact E|right; split; [right; exact I|exact K]]. Qed.
Lemma sobj_more T u o1 o2 : sobj T o1 o2 -> sobj (u :: T) o1 o2.
Proof. intros [E|[I K]]; [left; exact E|right; split; [right; exact I|exact K]]. Qed.
Lemma sess_more T u l1 l2 : (forall x, In x l1 -> cur x <> Some u) -> Forall2 (sessR T) l1 l2 -> Forall2 (sessR (u :: T)) l1 l2.
Proof.
  intros N F. induction F as [|a b l1 l2 E F IH]; [constructor|]. constructor; [|apply IH; intros x I; apply N; right; exact I]. destruct E as [(l & -> & Fl) C]. split.
  - exists l. split; [reflexivity|]. eapply Forall2_mono; [|exact Fl]. intros; apply sobj_more; assumption.
  - intros v Cv [<-|I]; [exact (N a (or_introl eq_refl) Cv)|exact (C v Cv I)].
Qed.
Lemma sysR_more T u s1 s2 : (forall x, In x (s_sess s1) -> cur x <> Some u) -> sysR w T s1 s2 -> sysR w (u :: T) s1 s2.
Proof.
  intros N (A & B & F & (l & E & Fl)). split; [exact A|]. split; [exact B|]. split; [apply sess_more; assumption|]. exists l. split; [exact E|]. eapply Forall2_mono; [|exact Fl]. intros; apply tobj_more; assumption.
Qed.
Lemma newR_sobj T uid p q o1 o2 : newR uid (p, Some o1) (q, Some o2) -> sobj (uid :: T) o1 o2.
Proof. intros (_ & E & H & d & -> & D). right. split; [left; symmetry; exact E|]. split; [exact H|]. exists d. split; [reflexivity|apply fullR_dataR; exact D]. Qed.
Lemma but_refl t : Forall2 but_value t t.
Proof. apply Forall2_eq. intros a. left. reflexivity. Qed.
Theorem secret_step T rnd s1 s2 c1 c2 : sysR w T s1 s2 -> apart s1 -> two_secrets c1 c2 -> rel (outR w (s_uid s1 :: T)) (step w rnd s1 c1) (step w rnd s2 c2).
Proof.
  intros K0 [A _] S. assert (K : sysR w (s_uid s1 :: T) s1 s2) by (apply sysR_more; [intros x I C; specialize (A x _ I C); lia|exact K0]). clear K0. destruct S as [h t1 t2 H Hc F|h t k1 k2 H]; cbn [step].
  - apply with_sess_R; [exact K|]. intros x1 x2 _ X. apply need_rw_R; auto. unfold Create. rewrite (sessR_rw _ _ _ X), (uid_R _ _ _ _ K). eapply rel_bind; [apply (create_R (w_oe w) (is_rw x1) (s_uid s1) t1 t2); assumption|].
    intros [rv [o1|]] [rv' [o2|]] R; try (destruct R as [_ R]; contradiction R); cbv zeta.
    + apply added; [exact Sl|apply sysR_bump; exact K|exact X|eapply newR_sobj; exact R|apply but_token; exact F].
    + destruct R as [E _]. cbn in E. subst rv'. apply stay, sysR_bump; exact K.
  - apply with_sess_R; [exact K|]. intros x1 x2 _ X. unfold GenKey. rewrite (sessR_rw _ _ _ X), (uid_R _ _ _ _ K). destruct H as (Hs & _ & P).
    eapply rel_bind; [apply (new_R (w_oe w) (is_rw x1) (s_uid s1) CKK_AES t t); [left; reflexivity|exact Hs|exact P|apply but_refl]|].
    intros [rv [o1|]] [rv' [o2|]] R; try (destruct R as [_ R]; contradiction R); cbv zeta.
    + destruct R as (_ & Eu & Hd & d & -> & (l & b1 & b2 & E1 & -> & L1 & L2)). cbn [snd] in *. unfold as_sym. cbn [set_data o_data]. rewrite E1. cbn [bind]. rewrite (zlen_len b1 b2) by congruence.
      destruct (Z.ltb_spec (zlen b2) l) as [Lt|Ge]; [reflexivity|]. apply added; [exact Sl|apply sysR_bump; exact K|exact X| |reflexivity].
      right. split; [left; symmetry; exact Eu|]. split; [exact Hd|]. eexists. split; [reflexivity|]. eexists _, _, _. split; [reflexivity|]. split; [reflexivity|]. apply overlay_same; [congruence|].
      unfold zlen in Ge. rewrite !firstn_length, !app_length, zeros_len. lia.
    + destruct R as [E _]. cbn in E. subst rv'. apply stay, sysR_bump; exact K.
Qed.
Lemma sysR_refl s : sysR w [] s s.
Proof.
  split; [reflexivity|]. split; [reflexivity|]. split; [|apply tokR_refl]. apply Forall2_eq. intros x. split; [exists (ss_objs x); split; [destruct x; reflexivity|apply Forall2_eq, sobj_refl]|intros u _ []].
Qed.
Theorem histories_R T s1 l1 l2 : two_histories w careful s1 T l1 l2 -> forall s2, inv s1 -> apart s1 -> sysR w T s1 s2 ->
  rel (fun p q => snd p = snd q) (run w s1 l1) (run w s2 l2).
Proof.
  induction 1 as [s T|s T c rnd s' o l1 l2 C N H Th IH|s T c1 c2 rnd s' o l1 l2 S H Th IH]; intros s2 I A K; [reflexivity|..]; cbn [run].
  - pose proof (step_R w T Sl rnd s s2 c I K C N) as R. rewrite H in *. destruct (step w rnd s2 c) as [[s2' o']| |]; cbn in R; try contradiction. destruct R as [R E]. cbn in R, E. subst o'. cbn [bind].
    eapply rel_bind; [apply IH; [eapply step_inv; eassumption|eapply step_apart; eassumption|exact R]|]. intros [a1 b1] [a2 b2] E. cbn in E |- *. congruence.
  - pose proof (secret_step T rnd s s2 c1 c2 K A S) as R. rewrite H in *. destruct (step w rnd s2 c2) as [[s2' o']| |]; cbn in R; try contradiction. destruct R as [R E]. cbn in R, E. subst o'. cbn [bind].
    eapply rel_bind; [apply IH; [eapply step_inv; eassumption|eapply step_apart; eassumption|exact R]|]. intros [a1 b1] [a2 b2] E. cbn in E |- *. congruence.
Qed.
End R.
