(** Properties of objects, continued: C27 (well-formedness), C28, C47, C61, C62. *)
From Verif Require Import Base Ops Object ObjectSpec ObjectProofs AttrProofs HistProofs GetProofs PropObject.

(** ** C27, continued: the objects C_CreateObject makes are well-formed *)
(** Templates without NULL names, with lengths that fit the key buffer. *)
Definition sane (a : attr) : Prop :=
  (In (a_type a) [CKA_LABEL; CKA_ID] -> exists b, a_val a = AV b) /\
  (a_type a = CKA_VALUE_LEN -> (u32 (ulong_of (v_bytes (a_val a))) <= 512)%Z).

Lemma u32_nonneg v : (0 <= u32 v)%Z.
Proof. unfold u32. lia. Qed.

Lemma SetAttr_wf oe o a c o' : sane a -> check_attr true a = CKR_OK ->
  wf_obj oe o -> SetAttr o a = Ok (c, o') -> wf_obj oe o'.
Proof.
  intros [Hs _] Hc W H. unfold SetAttr in H.
  destruct (set_opflag_of (a_type a)); [injection H as _ <-; exact W|].
  destruct (set_flag_of (a_type a)); [injection H as _ <-; exact W|].
  destruct (a_type a =? CKA_CLASS)%Z; [injection H as _ <-; exact W|].
  destruct W as (W1 & W2 & W3 & W4 & W5).
  assert (D : In (a_type a) [CKA_START_DATE; CKA_END_DATE] -> length (v_bytes (a_val a)) = 8).
  { intros Hd. unfold check_attr in Hc.
    assert (Ek : kind_of (a_type a) = Some AK_date) by (destruct Hd as [<-|[<-|[]]]; reflexivity).
    rewrite Ek in Hc. destruct (a_val a) as [b|n|b]; cbn [v_len v_bytes] in *; [|discriminate|].
    - destruct (Z.eqb_spec (zlen b) 8) as [E|E]; [unfold zlen in E; lia|discriminate].
    - discriminate. }
  destruct (Z.eqb_spec (a_type a) CKA_ID) as [E|_].
  { destruct (Hs ltac:(rewrite E; cbn; auto)) as [b Eb]. rewrite Eb in H. cbn in H. injection H as _ <-.
    repeat split; auto. cbn. discriminate. }
  destruct (Z.eqb_spec (a_type a) CKA_LABEL) as [E|_].
  { destruct (Hs ltac:(rewrite E; cbn; auto)) as [b Eb]. rewrite Eb in H. cbn in H. injection H as _ <-.
    repeat split; auto. cbn. discriminate. }
  destruct (Z.eqb_spec (a_type a) CKA_START_DATE) as [E|_].
  { destruct (v_len (a_val a) =? 8)%Z; injection H as _ <-; repeat split; auto.
    cbn [set_start o_start]. apply D. rewrite E. cbn. auto. }
  destruct (Z.eqb_spec (a_type a) CKA_END_DATE) as [E|_].
  { destruct (v_len (a_val a) =? 8)%Z; injection H as _ <-; repeat split; auto.
    cbn [set_end o_end]. apply D. rewrite E. cbn. auto. }
  repeat match type of H with
  | (if ?b then _ else _) = _ => destruct b; [injection H as _ <-; repeat split; auto|]
  end.
  injection H as _ <-; repeat split; auto.
Qed.

Lemma set_loop_wf oe t : Forall sane t -> Forall (fun a => check_attr true a = CKR_OK) t ->
  forall o rv o', wf_obj oe o -> set_loop o t = Ok (rv, o') -> wf_obj oe o'.
Proof.
  induction t as [|a t IH]; intros Hs Hc o rv o' W H; [injection H as _ <-; exact W|].
  apply Forall_cons_iff in Hs, Hc. destruct Hs as [Ha Hs], Hc as [Hca Hc]. cbn [set_loop] in H.
  destruct (SetAttr o a) as [[c o1]|?|?] eqn:E; cbn [bind] in H; try discriminate.
  assert (W1 := SetAttr_wf oe o a c o1 Ha Hca W E).
  destruct (set_rv c =? CKR_OK)%Z; [eapply IH; eauto|injection H as _ <-; exact W1].
Qed.

Lemma overlay_zlen buf b : (zlen b <= zlen buf)%Z -> zlen (overlay buf b) = zlen buf.
Proof. unfold overlay, zlen. rewrite app_length, skipn_length. lia. Qed.
Lemma zlen_zeros n : zlen (zeros n) = Z.of_nat n.
Proof. unfold zlen, zeros. rewrite repeat_length. reflexivity. Qed.

(** Buffers have the size the struct gives them. *)
Definition buffers_ok (o : obj) : Prop :=
  match o_data o with
  | KSym _ b => zlen b = Z.of_nat SYM_BUF
  | KDh _ _ _ b => zlen b = Z.of_nat DH_BUF
  | KCert _ b => zlen b = Z.of_nat CERT_BUF
  | _ => True
  end.
Definition wf_data (o : obj) : Prop :=
  match o_data o with KSym l b | KDh _ _ l b | KCert l b => (0 <= l <= zlen b)%Z | _ => True end.

Lemma param_vals_nth t p ps v : param_vals t (p :: ps) = Some v ->
  nth 0 v None = match find_first t p with Some a => Some (v_bytes (a_val a)) | None => None end.
Proof.
  cbn [param_vals]. destruct (find_first t p) as [[ty [b|n|b]]|]; cbn [a_val]; try discriminate;
    destruct (param_vals t ps); try discriminate; intros H; injection H as <-; reflexivity.
Qed.

Lemma SetKey_wf oe o t ps v c o1 : o_type o <> CKK_EC ->
  Forall sane t -> params_of o = Some ps -> param_vals t ps = Some v ->
  buffers_ok o /\ wf_data o -> SetKey oe o v = Ok (c, o1) -> buffers_ok o1 /\ wf_data o1.
Proof.
  intros Hne Hs EP EV [B W] H. unfold SetKey, params_of in *.
  destruct (o_class o =? CKO_CERTIFICATE)%Z.
  { injection H as H. unfold SetCert in H.
    match type of H with (if ?b then _ else _) = _ => destruct b end;
      [injection H as _ <-; cbn [buffers_ok wf_data set_data o_data]; rewrite zlen_zeros; split; [reflexivity|lia]|].
    destruct (nth 1 v None) as [b|];
      [|injection H as _ <-; cbn [buffers_ok wf_data set_data o_data]; rewrite zlen_zeros; split; [reflexivity|lia]].
    destruct (Z.ltb_spec (Z.of_nat CERT_BUF) (zlen b));
      [injection H as _ <-; cbn [buffers_ok wf_data set_data o_data]; rewrite zlen_zeros; split; [reflexivity|lia]|].
    injection H as _ <-. cbn [buffers_ok wf_data set_data o_data].
    rewrite overlay_zlen; rewrite zlen_zeros; [|assumption]. split; [reflexivity|]. unfold zlen in *. lia. }
  destruct (o_type o =? CKK_RSA)%Z.
  { injection H as H. unfold SetRsaKey in H.
    assert (R : forall r, buffers_ok (set_data o (KRsa r)) /\ wf_data (set_data o (KRsa r))) by (intros; split; exact I).
    repeat match type of H with
    | (let '(_, _) := ?x in _) = _ => destruct x as [? ?]
    | (if ?b then _ else _) = _ => destruct b; [injection H as _ <-; apply R|]
    end.
    destruct (nth 8 v None) as [b|]; [|injection H as _ <-; apply R].
    destruct (zlen b =? 8)%Z; [injection H as _ <-; split; exact I|].
    destruct (zlen b =? 0)%Z; injection H as _ <-; apply R. }
  destruct (Z.eqb_spec (o_type o) CKK_EC); [contradiction|].
  destruct (o_type o =? CKK_DH)%Z.
  { unfold SetDhKey in H.
    destruct (as_dh o) as [[[[p0 g0] l] buf]|?|?] eqn:EA; cbn [bind] in H; try discriminate.
    assert (Q : zlen buf = Z.of_nat DH_BUF /\ (0 <= l <= zlen buf)%Z).
    { unfold as_dh in EA. unfold buffers_ok, wf_data in *. destruct (o_data o); try discriminate;
        injection EA as <- <- <- <-; [|auto]. rewrite zlen_zeros. split; [reflexivity|lia]. }
    assert (Q' : forall p g, buffers_ok (set_data o (KDh p g l buf)) /\ wf_data (set_data o (KDh p g l buf)))
      by (intros; exact Q).
    destruct (match nth 0 v None with None => _ | Some b => _ end) as [c0 [p g]].
    destruct (negb (c0 =? 0)%Z); [injection H as _ <-; apply Q'|].
    destruct (nth 2 v None) as [b|]; [|injection H as _ <-; apply Q'].
    destruct (Z.ltb_spec (Z.of_nat DH_BUF) (zlen b)); [injection H as _ <-; apply Q'|].
    injection H as _ <-. cbn [buffers_ok wf_data set_data o_data]. destruct Q as [Q1 Q2].
    rewrite overlay_zlen by lia. split; [exact Q1|]. unfold zlen in *. lia. }
  destruct (orb (o_type o =? CKK_AES)%Z (o_type o =? CKK_GENERIC_SECRET)%Z); [|discriminate].
  injection EP as <-. pose proof (param_vals_nth _ _ _ _ EV) as E0.
  unfold SetSecretKey in H.
  assert (Z0 : forall l, (0 <= l <= 512)%Z ->
     buffers_ok (set_data o (KSym l (zeros SYM_BUF))) /\ wf_data (set_data o (KSym l (zeros SYM_BUF)))).
  { intros l Hl. cbn [buffers_ok wf_data set_data o_data]. rewrite zlen_zeros. split; [reflexivity|].
    change (Z.of_nat SYM_BUF) with 512%Z. lia. }
  match type of H with (if ?b then _ else _) = _ => destruct b end;
    [injection H as _ <-; apply Z0; lia|].
  assert (K : (0 <= match nth 0 v None with Some b => u32 (ulong_of b) | None => 0%Z end <= 512)%Z).
  { rewrite E0. destruct (find_first t CKA_VALUE_LEN) as [a|] eqn:Ef; [|lia].
    split; [apply u32_nonneg|]. unfold find_first in Ef. apply find_some in Ef. destruct Ef as [Ef1 Ef2].
    apply Z.eqb_eq in Ef2. rewrite Forall_forall in Hs. destruct (Hs a Ef1) as [_ Hs2]. auto. }
  set (klen := match nth 0 v None with Some b => u32 (ulong_of b) | None => 0%Z end) in *.
  destruct (nth 1 v None) as [b|]; [|injection H as _ <-; apply Z0; exact K].
  destruct (andb _ _); [injection H as _ <-; apply Z0; exact K|].
  match type of H with (if ?x then _ else _) = _ => destruct x eqn:Eo end; [discriminate|].
  apply Z.ltb_ge in Eo. injection H as _ <-. cbn [buffers_ok wf_data set_data o_data].
  assert (L : (zlen (firstn (Z.to_nat (if (klen =? 0)%Z then u32 (zlen b) else klen)) b) <= zlen (zeros SYM_BUF))%Z).
  { rewrite zlen_zeros. unfold zlen. rewrite firstn_length.
    change (Z.of_nat SYM_BUF) with 512%Z in *. pose proof (u32_nonneg (Z.of_nat (length b))).
    unfold zlen in Eo. revert Eo. destruct (klen =? 0)%Z; lia. }
  rewrite overlay_zlen by exact L. rewrite zlen_zeros. split; [reflexivity|].
  pose proof (u32_nonneg (zlen b)). revert Eo. destruct (klen =? 0)%Z; lia.
Qed.

(** Every sane template keeps an object readable, and new objects are. For EC keys
    wolfCrypt decides whether the point can be exported. *)
Theorem C27_wf_preserved :
  forall oe rw o t rv o', o_type o <> CKK_EC -> Forall sane t ->
    wf_obj oe o -> buffers_ok o -> SetAttributeValue oe rw o t = Ok (rv, o') ->
    wf_obj oe o' /\ buffers_ok o'.
Proof.
  intros oe rw o t rv o' Hne Hs W B H. unfold SetAttributeValue in H.
  destruct (negb rw); [injection H as _ <-; auto|].
  destruct (Z.eqb_spec (check_attrs true t) CKR_OK) as [Ec|Ec]; cbn [negb] in H;
    [|injection H as _ <-; auto].
  apply check_attrs_Forall in Ec.
  destruct (params_of o) as [ps|] eqn:EP; [|injection H as _ <-; auto].
  destruct (param_vals t ps) as [v|] eqn:EV; [|injection H as _ <-; auto].
  destruct (SetKey oe o v) as [[c o1]|?|?] eqn:EK; cbn [bind] in H; try discriminate.
  assert (WD : wf_data o).
  { destruct W as (_ & _ & _ & _ & W). unfold wf_data. destruct (o_data o); auto. }
  destruct (SetKey_wf oe o t ps v c o1 Hne Hs EP EV (conj B WD) EK) as [B1 W1].
  pose proof (SetKey_frame oe o v c o1 EK) as (d & n & E1).
  assert (Hec : forall k, o_data o1 <> KEc k).
  { intros k Hk. unfold SetKey in EK.
    destruct (o_class o =? CKO_CERTIFICATE)%Z.
    { injection EK as EK. unfold SetCert in EK.
      repeat match type of EK with
      | (if ?b then _ else _) = _ => destruct b
      | match ?x with _ => _ end = _ => destruct x
      end; injection EK as _ <-; discriminate Hk. }
    destruct (o_type o =? CKK_RSA)%Z.
    { injection EK as EK. unfold SetRsaKey in EK.
      repeat match type of EK with
      | (let '(_, _) := ?x in _) = _ => destruct x as [? ?]
      | (if ?b then _ else _) = _ => destruct b
      | match ?x with _ => _ end = _ => destruct x
      end; injection EK as _ <-; discriminate Hk. }
    destruct (Z.eqb_spec (o_type o) CKK_EC); [contradiction|].
    destruct (o_type o =? CKK_DH)%Z.
    { unfold SetDhKey in EK. destruct (as_dh o) as [[[[? ?] ?] ?]|?|?]; cbn [bind] in EK; try discriminate.
      repeat match type of EK with
      | (let '(_, _) := ?x in _) = _ => destruct x as [? [? ?]]
      | (if ?b then _ else _) = _ => destruct b
      | match ?x with _ => _ end = _ => destruct x
      end; injection EK as _ <-; discriminate Hk. }
    unfold SetSecretKey in EK.
    match type of EK with (if ?b then _ else _) = _ => destruct b end; [injection EK as _ <-; discriminate Hk|].
    destruct (nth 1 v None); [|injection EK as _ <-; discriminate Hk].
    destruct (andb _ _); [injection EK as _ <-; discriminate Hk|].
    match type of EK with (if ?b then _ else _) = _ => destruct b end; [discriminate|].
    injection EK as _ <-; discriminate Hk. }
  assert (WO1 : wf_obj oe o1).
  { destruct W as (Wa & Wb & Wc & Wd & _). rewrite E1. unfold wf_obj.
    cbn [set_size set_data o_label o_keyId o_start o_end o_data]. repeat split; auto.
    unfold wf_data in W1. rewrite E1 in W1, Hec. cbn [set_size set_data o_data] in W1, Hec.
    destruct d as [|? ?|? ? ? ?|? ?|?|k]; auto. destruct (Hec k eq_refl). }
  destruct (c =? MEMORY_E)%Z; [injection H as _ <-; auto|].
  destruct (negb (c =? 0)%Z); [injection H as _ <-; auto|].
  split; [eapply set_loop_wf; eauto|].
  apply set_loop_core in H. destruct H as (_ & _ & _ & _ & _ & _ & _ & H & _).
  unfold buffers_ok. rewrite H. exact B1.
Qed.
Print Assumptions C27_wf_preserved.

Theorem C27_create_wf :
  forall oe rw uid t o, Forall sane t -> CreateObject oe rw uid t = Ok (CKR_OK, Some o) ->
    o_type o <> CKK_EC -> wf_obj oe o /\ buffers_ok o.
Proof.
  intros oe rw uid t o Hs H Hne. apply CreateObject_set in H. destruct H as (ty & cls & H).
  pose proof H as H2. apply SetAttributeValue_ok in H2. destruct H2 as (_ & _ & ps & v & o1 & _ & _ & HK & HL).
  apply SetKey_frame in HK. destruct HK as (d & n & E). apply set_loop_core in HL.
  eapply C27_wf_preserved; [|exact Hs| | |exact H].
  - destruct HL as (_ & HL & _). rewrite HL, E in Hne. exact Hne.
  - repeat split; cbn; discriminate.
  - exact I.
Qed.
Print Assumptions C27_create_wf.
Example C27_create_case : Forall sane aes_tmpl /\ o_type aes_obj <> CKK_EC.
Proof.
  split; [|discriminate]. repeat constructor; cbn; intros; try discriminate; intuition discriminate.
Qed.

(** ** C28: sensitive values do not leave through attribute calls *)
(** Key data that differ only in the secret part. *)
Definition differ_in_secret (d1 d2 : kdata) : Prop :=
  match d1, d2 with
  | KDh p1 g1 l1 b1, KDh p2 g2 l2 b2 => p1 = p2 /\ g1 = g2 /\ l1 = l2 /\ length b1 = length b2
  | _, _ => same_public d1 d2
  end.
Definition secret_key (o : obj) : Prop := In (o_class o) [CKO_PRIVATE_KEY; CKO_SECRET_KEY].
(** Marked sensitive (WP11_FLAG_SENSITIVE, 0x2) or not marked extractable
    (WP11_FLAG_EXTRACTABLE, 0x4): internal.h 102-110. *)
Definition protected (o : obj) : Prop := Z.testbit (o_flag o) 1 = true \/ Z.testbit (o_flag o) 2 = false.
Definition C28_claim (keys : obj -> Prop) : Prop :=
  forall oe o d2 hs, secret_key o -> protected o -> keys o ->
    differ_in_secret (o_data o) d2 -> hrun oe (set_data o d2) hs = hrun oe o hs.

Definition dh_priv (b : list N) : obj :=
  set_flag (set_class (set_data (obj_new 0 CKK_DH) (KDh 23 5 2 (b ++ zeros 510))) CKO_PRIVATE_KEY)
    FL_SENSITIVE.
(** Turn the class of a sensitive DH private key into CKO_PUBLIC_KEY, then read it. *)
Theorem C28_no_leak_refuted : ~ C28_claim (fun _ => True).
Proof.
  intros H.
  specialize (H toe (dh_priv [9; 8]%N) (KDh 23 5 2 ([7; 6]%N ++ zeros 510))
    [HSet true [mkA CKA_CLASS (ULONG CKO_PUBLIC_KEY)]; HGet [mkA CKA_VALUE (AV [0; 0]%N)]]).
  assert (E : forall P : Prop, (hrun toe (dh_priv [9; 8]%N)
    [HSet true [mkA CKA_CLASS (ULONG CKO_PUBLIC_KEY)]; HGet [mkA CKA_VALUE (AV [0; 0]%N)]]
    = [Ok (OSet 0); Ok (OGet 0 [mkA CKA_VALUE (AV [9; 8]%N)])] -> P) -> P).
  { intros P K. apply K. vm_compute. reflexivity. }
  apply E. clear E. intros E. rewrite E in H.
  assert (H' := H ltac:(vm_compute; tauto) ltac:(left; reflexivity) I ltac:(vm_compute; auto)).
  vm_compute in H'. discriminate H'.
Qed.
Print Assumptions C28_no_leak_refuted.

(** What holds: for RSA, EC, AES and generic secrets, no history of attribute calls
    and searches distinguishes two objects that differ only in the secret. Missing: DH. *)
Definition not_dh (o : obj) : Prop :=
  o_type o <> CKK_DH /\ forall p g l b, o_data o <> KDh p g l b.
Lemma protected_noPriv o : protected o -> noPriv o = true.
Proof.
  intros [H|H]; unfold noPriv; apply orb_true_iff; [left; apply negb_true_iff|right].
  - apply Z.eqb_neq. intros E. apply (f_equal (fun x => Z.testbit x 1)) in E. rewrite Z.land_spec, H in E. discriminate E.
  - apply Z.eqb_eq. apply Z.bits_inj'. intros n Hn. rewrite Z.land_spec, Z.bits_0. change FL_EXTRACTABLE with (2^2)%Z. rewrite Z.pow2_bits_eqb by lia.
    destruct (Z.eqb_spec 2 n) as [<-|]; [rewrite H; reflexivity|apply andb_false_r].
Qed.
Theorem C28_no_leak_partial : C28_claim not_dh.
Proof.
  intros oe o d2 hs Hc Hn [Ht Hk] Hd. apply protected_noPriv in Hn. apply hrun_hidden. split; [exact Hn|]. split.
  { intros E. unfold secret_key in Hc. rewrite E in Hc. cbn in Hc. intuition discriminate. }
  split; [exact Ht|].
  destruct (o_data o) as [|? ?|p g l b|? ?|?|?], d2; cbn [differ_in_secret same_public] in *; auto.
  destruct (Hk p g l b eq_refl).
Qed.
Print Assumptions C28_no_leak_partial.

(** The same whatever else is stored with the object (encoded form, nonce). *)
Theorem C28_stored_form_partial :
  forall oe o d2 iv kd en hs, secret_key o -> protected o -> not_dh o ->
    differ_in_secret (o_data o) d2 -> hrun oe (set_store (set_data o d2) iv kd en) hs = hrun oe o hs.
Proof. intros. rewrite hrun_store. apply C28_no_leak_partial; assumption. Qed.
Print Assumptions C28_stored_form_partial.

(** For DH: the value cannot be read as long as the key is protected and private. *)
Theorem C28_dh_partial :
  forall oe o b, o_type o = CKK_DH -> o_class o = CKO_PRIVATE_KEY -> protected o ->
    forall rv t', GetAttributeValue oe o [mkA CKA_VALUE (AV b)] = Ok (rv, t') ->
    t' = [mkA CKA_VALUE (AUnav b)].
Proof.
  intros oe o b Ht Hc Hn rv t' H. apply protected_noPriv in Hn.
  change (GetAttributeValue oe o [mkA CKA_VALUE (AV b)]) with (get_loop oe o [mkA CKA_VALUE (AV b)]) in H.
  unfold get_loop in H. cbn [a_type a_val buf_of v_len] in H.
  assert (E : GetAttr oe o CKA_VALUE (Some (zlen b)) = DhGetAttr o CKA_VALUE (Some (zlen b))).
  { unfold GetAttr. change (get_flag_of CKA_VALUE) with (@None Z). cbv beta iota.
    rewrite Hc, Ht. reflexivity. }
  rewrite E in H. unfold DhGetAttr in H. destruct (as_dh o) as [[[[p g] l] bb]|?|?]; cbn [bind] in H; try discriminate.
  rewrite Hc, Hn in H. cbn in H. injection H as _ <-. reflexivity.
Qed.
Print Assumptions C28_dh_partial.

(** From the template: the last CKA_SENSITIVE says true, the last CKA_EXTRACTABLE
    says false, or there is no CKA_EXTRACTABLE. *)
Definition said (t : template) (ty : Z) (b : N) : Prop := exists t1 t2, t = t1 ++ mkA ty (AV [b]) :: t2 /\ last_for t2 ty.
Definition protects (t : template) : Prop := said t CKA_SENSITIVE 1%N \/ said t CKA_EXTRACTABLE 0%N \/ last_for t CKA_EXTRACTABLE.
Definition prot_bit (ty : Z) : Z := if (ty =? CKA_SENSITIVE)%Z then 1%Z else 2%Z.
Lemma SetAttr_prot o a c o' ty : In ty [CKA_SENSITIVE; CKA_EXTRACTABLE] -> SetAttr o a = Ok (c, o') ->
  Z.testbit (o_flag o') (prot_bit ty) = if (a_type a =? ty)%Z then v_bool (a_val a) else Z.testbit (o_flag o) (prot_bit ty).
Proof.
  intros I H. unfold SetAttr in H. destruct (set_opflag_of (a_type a)) as [f|] eqn:Q.
  { injection H as _ <-. destruct (Z.eqb_spec (a_type a) ty) as [E|]; [|reflexivity]. rewrite E in Q. destruct I as [<-|[<-|[]]]; discriminate Q. }
  destruct (set_flag_of (a_type a)) as [f|] eqn:Q2.
  { injection H as _ <-. cbn [set_flag o_flag]. unfold set_flag_of in Q2.
    assert (F : exists i, f = (2^i)%Z /\ (0 <= i)%Z /\ (i =? prot_bit ty)%Z = (a_type a =? ty)%Z).
    { repeat match type of Q2 with (if (?x =? ?y)%Z then _ else _) = _ => let E := fresh "E" in destruct (Z.eqb_spec x y) as [E|E]; [injection Q2 as <-; rewrite E|] end; try discriminate Q2;
      [exists 0%Z|exists 1%Z|exists 2%Z|exists 3%Z|exists 4%Z|exists 5%Z|exists 6%Z|exists 7%Z|exists 8%Z]; (split; [reflexivity|split; [lia|]]); destruct I as [<-|[<-|[]]]; reflexivity. }
    destruct F as (i & -> & Hi & Ei). rewrite put_flag_bit by (try lia; unfold prot_bit; destruct (ty =? CKA_SENSITIVE)%Z; lia). rewrite Z.eqb_sym, Ei. reflexivity. }
  assert (Ne : (a_type a =? ty)%Z = false). { destruct (Z.eqb_spec (a_type a) ty) as [E|]; [|reflexivity]. rewrite E in Q2. destruct I as [<-|[<-|[]]]; discriminate Q2. }
  rewrite Ne. clear Q Q2.
  repeat match type of H with
  | (if ?b then _ else _) = _ => destruct b
  | (match (if ?b then _ else _) with _ => _ end) = _ => destruct b
  | bind (new_sval ?x ?y) _ = _ => destruct (new_sval x y) as [[? ?]|?|?]; cbn [bind] in H; try discriminate H
  end; injection H as _ <-; reflexivity.
Qed.
Lemma set_loop_keeps t : forall o o' ty, In ty [CKA_SENSITIVE; CKA_EXTRACTABLE] -> last_for t ty -> set_loop o t = Ok (CKR_OK, o') -> Z.testbit (o_flag o') (prot_bit ty) = Z.testbit (o_flag o) (prot_bit ty).
Proof.
  induction t as [|a t IH]; intros o o' ty I L H; cbn [set_loop] in H; [injection H as <-; reflexivity|]. inversion L as [|x l La Lt]; subst.
  destruct (SetAttr o a) as [[c o1]|?|?] eqn:S; cbn [bind] in H; try discriminate H. destruct (set_rv c =? CKR_OK)%Z eqn:R; [|injection H as E _; rewrite E in R; discriminate R].
  rewrite (IH _ _ _ I Lt H), (SetAttr_prot _ _ _ _ _ I S). destruct (Z.eqb_spec (a_type a) ty); [contradiction|reflexivity].
Qed.
Lemma set_loop_said t1 ty b t2 : forall o o', In ty [CKA_SENSITIVE; CKA_EXTRACTABLE] -> last_for t2 ty -> set_loop o (t1 ++ mkA ty (AV [b]) :: t2) = Ok (CKR_OK, o') -> Z.testbit (o_flag o') (prot_bit ty) = negb (b =? 0)%N.
Proof.
  induction t1 as [|a t1 IH]; intros o o' I L H; cbn [set_loop app] in H.
  - destruct (SetAttr o _) as [[c o1]|?|?] eqn:S; cbn [bind] in H; try discriminate H. destruct (set_rv c =? CKR_OK)%Z eqn:R; [|injection H as E _; rewrite E in R; discriminate R].
    rewrite (set_loop_keeps _ _ _ _ I L H), (SetAttr_prot _ _ _ _ _ I S). cbn [a_type a_val]. rewrite Z.eqb_refl. reflexivity.
  - destruct (SetAttr o a) as [[c o1]|?|?] eqn:S; cbn [bind] in H; try discriminate H. destruct (set_rv c =? CKR_OK)%Z eqn:R; [|injection H as E _; rewrite E in R; discriminate R]. eapply IH; eauto.
Qed.
Lemma created_protected oe rw uid t o : CreateObject oe rw uid t = Ok (CKR_OK, Some o) -> protects t -> protected o.
Proof.
  intros H P. apply CreateObject_set in H. destruct H as (ty & cls & H). apply SetAttributeValue_ok in H as (_ & _ & ps & v & o1 & _ & _ & K & L). apply SetKey_frame in K as (d & n & ->).
  destruct P as [(t1 & t2 & -> & Lf)|[(t1 & t2 & -> & Lf)|Lf]].
  - left. apply (set_loop_said t1 CKA_SENSITIVE 1%N t2) in L; [exact L|left; reflexivity|exact Lf].
  - right. apply (set_loop_said t1 CKA_EXTRACTABLE 0%N t2) in L; [exact L|right; left; reflexivity|exact Lf].
  - right. apply (set_loop_keeps t _ _ CKA_EXTRACTABLE) in L; [|right; left; reflexivity|exact Lf]. exact L.
Qed.
Theorem C28_created_partial :
  forall oe rw uid t o d2 hs, CreateObject oe rw uid t = Ok (CKR_OK, Some o) -> protects t -> secret_key o -> not_dh o ->
    differ_in_secret (o_data o) d2 -> hrun oe (set_data o d2) hs = hrun oe o hs.
Proof. intros oe rw uid t o d2 hs H P. intros. apply C28_no_leak_partial; auto. eapply created_protected; eauto. Qed.
Print Assumptions C28_created_partial.
(** A key marked both sensitive and extractable. *)
Example C28_created_case : exists o, CreateObject toe true 0 (aes_tmpl ++ [mkA CKA_EXTRACTABLE TRUE; mkA CKA_SENSITIVE TRUE]) = Ok (CKR_OK, Some o) /\
  protects (aes_tmpl ++ [mkA CKA_EXTRACTABLE TRUE; mkA CKA_SENSITIVE TRUE]) /\ secret_key o /\ not_dh o.
Proof.
  eexists. split; [vm_compute; reflexivity|]. split; [|split; [vm_compute; tauto|split; [discriminate|discriminate]]].
  left. exists (aes_tmpl ++ [mkA CKA_EXTRACTABLE TRUE]), []. split; [rewrite <- app_assoc; reflexivity|constructor].
Qed.

Example C28_case :
  secret_key (set_flag aes_obj FL_SENSITIVE) /\ protected (set_flag aes_obj FL_SENSITIVE) /\
  differ_in_secret (o_data aes_obj) (KSym 16 (repeat 9%N 16 ++ zeros 496)) /\
  hrun toe (set_flag aes_obj FL_SENSITIVE)
    [HGet [mkA CKA_VALUE (AV (zeros 16))]; HSet true [mkA CKA_SENSITIVE FALSE; mkA CKA_EXTRACTABLE TRUE];
     HGet [mkA CKA_VALUE (AV (zeros 16))]; HMatch [mkA CKA_VALUE (AV [])]]
  = [Ok (OGet 0 [mkA CKA_VALUE (AUnav (zeros 16))]); Ok (OSet 0);
     Ok (OGet 0 [mkA CKA_VALUE (AV [])]); Ok (OMatch true)].
Proof. split; [vm_compute; auto|]. split; [left; reflexivity|]. repeat split; vm_compute; reflexivity. Qed.

(** ** C47: imported values *)
(** The space for CKA_VALUE in an object. *)
Definition value_space (o : obj) : Z :=
  if (o_class o =? CKO_CERTIFICATE)%Z then 4096%Z else 512%Z.
Definition holds_bytes (o : obj) : Prop :=
  o_class o = CKO_CERTIFICATE \/ In (o_type o) [CKK_DH; CKK_AES; CKK_GENERIC_SECRET].
(** The value C_CreateObject takes: the first CKA_VALUE of the template. *)
Definition gives_value (t : template) (b : list N) : Prop :=
  find_first t CKA_VALUE = Some (mkA CKA_VALUE (AV b)).
Definition C47_refuses (keys : obj -> Prop) : Prop :=
  forall oe o t b, keys o -> gives_value t b -> (value_space o < zlen b)%Z ->
    (exists rv o', SetAttributeValue oe true o t = Ok (rv, o') /\ rv <> CKR_OK) \/
    (exists u, SetAttributeValue oe true o t = Undef u /\ u = UB_union).
Definition C47_stores (keys : obj -> Prop) (tmpl : template -> Prop) : Prop :=
  forall oe o t b o', keys o -> tmpl t -> gives_value t b ->
    SetAttributeValue oe true o t = Ok (CKR_OK, o') -> stored_value o' = Some b.

Theorem C47_refuses_refuted : ~ C47_refuses holds_bytes.
Proof.
  intros H.
  destruct (H toe (set_class (obj_new 0 CKK_GENERIC_SECRET) CKO_SECRET_KEY)
              [mkA CKA_VALUE (AV (repeat 1%N 600))] (repeat 1%N 600)) as [(rv & o' & E & _)|(u & E & Eu)].
  - right. cbn. auto.
  - reflexivity.
  - vm_compute. reflexivity.
  - vm_compute in E. discriminate E.
  - vm_compute in E. subst u. discriminate E.
Qed.
Print Assumptions C47_refuses_refuted.

(** CKA_VALUE_LEN 16 with a 32 byte value: half of the key is dropped. *)
Theorem C47_stores_refuted : ~ C47_stores holds_bytes (fun _ => True).
Proof.
  intros H.
  assert (E := H toe (set_class (obj_new 0 CKK_AES) CKO_SECRET_KEY)
    [mkA CKA_VALUE (AV (repeat 1%N 32)); mkA CKA_VALUE_LEN (ULONG 16)] (repeat 1%N 32) _
    ltac:(right; cbn; auto) I eq_refl ltac:(vm_compute; reflexivity)).
  vm_compute in E. discriminate E.
Qed.
Print Assumptions C47_stores_refuted.

Lemma param_vals_at t ps v i p : param_vals t ps = Some v -> nth_error ps i = Some p ->
  nth i v None = match find_first t p with Some a => Some (v_bytes (a_val a)) | None => None end.
Proof.
  revert v i. induction ps as [|q ps IH]; intros v i H Hi; [destruct i; discriminate|].
  cbn [param_vals] in H.
  destruct i as [|i]; cbn [nth_error] in Hi.
  - injection Hi as ->. destruct (find_first t p) as [[ty [b|n|b]]|]; cbn [a_val]; try discriminate;
      destruct (param_vals t ps); try discriminate; injection H as <-; reflexivity.
  - destruct (find_first t q) as [[ty [b|n|b]]|]; try discriminate;
      destruct (param_vals t ps) as [l|]; try discriminate; injection H as <-; cbn [nth]; eauto.
Qed.

Lemma stored_loop o t rv o' : set_loop o t = Ok (rv, o') -> stored_value o' = stored_value o.
Proof.
  intros H. apply set_loop_core in H. destruct H as (_ & _ & _ & _ & _ & _ & _ & H & _).
  unfold stored_value. rewrite H. reflexivity.
Qed.

Definition dh_or_cert (o : obj) : Prop := o_class o = CKO_CERTIFICATE \/ o_type o = CKK_DH.

Lemma SetKey_value oe o v c o1 b : dh_or_cert o ->
  (o_class o = CKO_CERTIFICATE -> nth 1 v None = Some b) ->
  (o_class o <> CKO_CERTIFICATE -> nth 2 v None = Some b) ->
  SetKey oe o v = Ok (c, o1) ->
  (c = 0%Z -> (zlen b <= value_space o)%Z /\ stored_value o1 = Some b).
Proof.
  intros Hk H1 H2 H ->. unfold SetKey, value_space in *.
  destruct (Z.eqb_spec (o_class o) CKO_CERTIFICATE) as [Ec|Ec].
  - injection H as H. unfold SetCert in H. rewrite (H1 Ec) in H.
    match type of H with (if ?x then _ else _) = _ => destruct x end; [discriminate|].
    destruct (Z.ltb_spec (Z.of_nat CERT_BUF) (zlen b)); [discriminate|].
    injection H as <-. split; [exact H0|]. cbn [stored_value set_data o_data]. f_equal.
    unfold overlay, zlen. rewrite Nat2Z.id, firstn_app, Nat.sub_diag, firstn_all, app_nil_r. reflexivity.
  - assert (Et : o_type o = CKK_DH) by (destruct Hk; [contradiction|assumption]).
    rewrite Et in H. change (CKK_DH =? CKK_RSA)%Z with false in H. change (CKK_DH =? CKK_EC)%Z with false in H.
    change (CKK_DH =? CKK_DH)%Z with true in H. cbv iota in H.
    unfold SetDhKey in H. rewrite (H2 Ec) in H.
    destruct (as_dh o) as [[[[p0 g0] l] buf]|?|?]; cbn [bind] in H; try discriminate.
    destruct (match nth 0 v None with None => _ | Some x => _ end) as [c0 [p g]].
    destruct (Z.eqb_spec c0 0); cbn [negb] in H; [|injection H as H _; contradiction].
    destruct (Z.ltb_spec (Z.of_nat DH_BUF) (zlen b)); [discriminate|].
    injection H as <-. split; [exact H0|]. cbn [stored_value set_data o_data]. f_equal.
    unfold overlay, zlen. rewrite Nat2Z.id, firstn_app, Nat.sub_diag, firstn_all, app_nil_r. reflexivity.
Qed.

(** What holds: DH keys and certificates. *)
Lemma C47_dh_cert oe o t b rv o' : dh_or_cert o -> gives_value t b ->
  SetAttributeValue oe true o t = Ok (rv, o') -> rv = CKR_OK ->
  (zlen b <= value_space o)%Z /\ stored_value o' = Some b.
Proof.
  intros Hk Hg H ->. apply SetAttributeValue_ok in H.
  destruct H as (_ & _ & ps & v & o1 & EP & EV & HK & HL).
  rewrite (stored_loop _ _ _ _ HL). eapply SetKey_value; eauto.
  - intros Ec. unfold params_of in EP. rewrite Ec in EP. injection EP as <-.
    rewrite (param_vals_at t _ v 1 CKA_VALUE EV eq_refl), Hg. reflexivity.
  - intros Ec. unfold params_of in EP. destruct (Z.eqb_spec (o_class o) CKO_CERTIFICATE); [contradiction|].
    assert (Et : o_type o = CKK_DH) by (destruct Hk; [contradiction|assumption]).
    rewrite Et in EP. injection EP as <-.
    rewrite (param_vals_at t _ v 2 CKA_VALUE EV eq_refl), Hg. reflexivity.
Qed.

Theorem C47_stores_partial : C47_stores dh_or_cert (fun _ => True).
Proof. intros oe o t b o' Hk _ Hg H. eapply C47_dh_cert; eauto. Qed.
Print Assumptions C47_stores_partial.

Theorem C47_refuses_partial : C47_refuses dh_or_cert.
Proof.
  intros oe o t b Hk Hg Hl.
  destruct (SetAttributeValue oe true o t) as [[rv o']|e|u] eqn:E.
  - left. exists rv, o'. split; [reflexivity|]. intros Er.
    destruct (C47_dh_cert oe o t b rv o' Hk Hg E Er). lia.
  - exfalso. unfold SetAttributeValue in E. cbn [negb] in E.
    destruct (negb (check_attrs true t =? CKR_OK)%Z); [discriminate|].
    destruct (params_of o) as [ps|]; [|discriminate].
    destruct (param_vals t ps) as [v|]; [|discriminate].
    assert (L : forall x o2, set_loop o2 t <> Err x).
    { clear. intros x. induction t as [|a t IH]; intros o2; [discriminate|]. cbn [set_loop].
      assert (S1 : forall y, SetAttr o2 a <> Err y).
      { intros y. unfold SetAttr, new_sval.
        repeat match goal with
        | |- context [match ?z with _ => _ end] => destruct z; cbn [bind]; try discriminate
        end. }
      destruct (SetAttr o2 a) as [[c o3]|y|?]; cbn [bind]; [|destruct (S1 y eq_refl)|discriminate].
      destruct (set_rv c =? CKR_OK)%Z; [apply IH|discriminate]. }
    destruct (SetKey oe o v) as [[c o1]|y|?] eqn:EK; cbn [bind] in E; [|clear L|discriminate].
    + destruct (c =? MEMORY_E)%Z; [discriminate|]. destruct (negb (c =? 0)%Z); [discriminate|].
      exact (L _ _ E).
    + unfold SetKey in EK. destruct (o_class o =? CKO_CERTIFICATE)%Z; [discriminate|].
      destruct (o_type o =? CKK_RSA)%Z; [discriminate|].
      unfold SetEcKey, SetDhKey, SetSecretKey, EcSetPoint, as_dh in EK.
      repeat match type of EK with
      | context [match ?z with _ => _ end] => destruct z; cbn [bind] in EK; try discriminate
      end.
  - right. exists u. split; [reflexivity|].
    unfold SetAttributeValue in E. cbn [negb] in E.
    destruct (negb (check_attrs true t =? CKR_OK)%Z); [discriminate|].
    destruct (params_of o) as [ps|] eqn:EP; [|discriminate].
    destruct (param_vals t ps) as [v|] eqn:EV; [|discriminate].
    destruct (SetKey oe o v) as [[c o1]|y|u'] eqn:EK; cbn [bind] in E; [|discriminate|].
    + exfalso. destruct (c =? MEMORY_E)%Z; [discriminate|].
      destruct (Z.eqb_spec c 0); cbn [negb] in E; [|discriminate].
      destruct (SetKey_value oe o v c o1 b Hk) as [X _]; auto; [..|lia].
      * intros Ec. unfold params_of in EP. rewrite Ec in EP. injection EP as <-.
        rewrite (param_vals_at t _ v 1 CKA_VALUE EV eq_refl), Hg. reflexivity.
      * intros Ec. unfold params_of in EP. destruct (Z.eqb_spec (o_class o) CKO_CERTIFICATE); [contradiction|].
        assert (Et : o_type o = CKK_DH) by (destruct Hk; [contradiction|assumption]).
        rewrite Et in EP. injection EP as <-.
        rewrite (param_vals_at t _ v 2 CKA_VALUE EV eq_refl), Hg. reflexivity.
    + injection E as <-. unfold SetKey in EK.
      destruct (Z.eqb_spec (o_class o) CKO_CERTIFICATE); [discriminate|].
      destruct Hk as [?|Et]; [contradiction|]. rewrite Et in EK.
      change (CKK_DH =? CKK_RSA)%Z with false in EK. change (CKK_DH =? CKK_EC)%Z with false in EK.
      change (CKK_DH =? CKK_DH)%Z with true in EK. cbv iota in EK.
      unfold SetDhKey, as_dh in EK. destruct (o_data o); cbn [bind] in EK; try congruence;
        destruct (match nth 0 v None with None => _ | Some x => _ end) as [c0 [p' g']];
        destruct (negb (c0 =? 0)%Z); try discriminate; destruct (nth 2 v None); try discriminate;
        match type of EK with (if ?z then _ else _) = _ => destruct z end; discriminate.
Qed.
Print Assumptions C47_refuses_partial.

(** Secret keys: a value of at most 512 bytes is stored completely when
    CKA_VALUE_LEN is absent or agrees with it; otherwise a prefix is stored. *)
Theorem C47_secret_partial :
  forall oe o t b o', o_class o <> CKO_CERTIFICATE -> In (o_type o) [CKK_AES; CKK_GENERIC_SECRET] ->
    gives_value t b -> (zlen b < 2^32)%Z -> SetAttributeValue oe true o t = Ok (CKR_OK, o') ->
    exists k, (0 <= k <= 512)%Z /\ (k <= zlen b)%Z /\
      stored_value o' = Some (firstn (Z.to_nat k) b) /\
      (k = zlen b \/ exists a, In a t /\ a_type a = CKA_VALUE_LEN /\ k = u32 (ulong_of (v_bytes (a_val a)))).
Proof.
  intros oe o t b o' Hc Ht Hg Hb H. apply SetAttributeValue_ok in H.
  destruct H as (_ & _ & ps & v & o1 & EP & EV & HK & HL).
  rewrite (stored_loop _ _ _ _ HL). unfold params_of in EP. unfold SetKey in HK.
  destruct (Z.eqb_spec (o_class o) CKO_CERTIFICATE); [contradiction|].
  assert (EP' : ps = secretParams /\ SetSecretKey o v = Ok (0%Z, o1)).
  { destruct Ht as [Ht|[Ht|[]]]; rewrite <- Ht in EP, HK; injection EP as <-; auto. }
  destruct EP' as [-> HK']. clear HK EP.
  pose proof (param_vals_at t _ v 0 CKA_VALUE_LEN EV eq_refl) as E0.
  pose proof (param_vals_at t _ v 1 CKA_VALUE EV eq_refl) as E1. rewrite Hg in E1. cbn [a_val v_bytes] in E1.
  unfold SetSecretKey in HK'. rewrite E1 in HK'.
  match type of HK' with (if ?x then _ else _) = _ => destruct x end; [discriminate|].
  set (klen := match nth 0 v None with Some b0 => u32 (ulong_of b0) | None => 0%Z end) in *.
  destruct (andb (negb (klen =? 0)%Z) (zlen b <? klen)%Z) eqn:Ea; [discriminate|].
  match type of HK' with (if ?x then _ else _) = _ => destruct x eqn:Eo end; [discriminate|].
  apply Z.ltb_ge in Eo. change (Z.of_nat SYM_BUF) with 512%Z in Eo. injection HK' as <-.
  assert (Eu : u32 (zlen b) = zlen b) by (unfold u32; apply Z.mod_small; unfold zlen in *; lia).
  assert (K0 : (0 <= klen)%Z) by (unfold klen; destruct (nth 0 v None); [apply u32_nonneg|lia]).
  exists (if (klen =? 0)%Z then u32 (zlen b) else klen).
  assert (Kb : (0 <= (if (klen =? 0)%Z then u32 (zlen b) else klen) <= zlen b)%Z).
  { destruct (Z.eqb_spec klen 0); [unfold zlen in *; lia|]. cbn [negb andb] in Ea. apply Z.ltb_ge in Ea. lia. }
  repeat split; try lia.
  - cbn [stored_value set_data o_data]. f_equal.
    set (k := if (klen =? 0)%Z then u32 (zlen b) else klen) in *.
    assert (Lk : length (firstn (Z.to_nat k) b) = Z.to_nat k) by (rewrite firstn_length; unfold zlen in *; lia).
    unfold overlay. rewrite firstn_app, Lk, Nat.sub_diag. cbn [firstn].
    rewrite app_nil_r, firstn_firstn, Nat.min_id. reflexivity.
  - destruct (Z.eqb_spec klen 0) as [E|E]; [left; exact Eu|]. right. unfold klen in *. rewrite E0 in *.
    destruct (find_first t CKA_VALUE_LEN) as [a|] eqn:Ef; [|contradiction].
    exists a. unfold find_first in Ef. apply find_some in Ef. destruct Ef as [Ef1 Ef2].
    apply Z.eqb_eq in Ef2. auto.
Qed.
Print Assumptions C47_secret_partial.

Example C47_case :
  dh_or_cert (set_class (obj_new 0 CKK_DH) CKO_PRIVATE_KEY) /\
  gives_value [mkA CKA_LABEL (AV []); mkA CKA_VALUE (AV (repeat 3%N 600))] (repeat 3%N 600) /\
  (exists o', SetAttributeValue toe true (set_class (obj_new 0 CKK_DH) CKO_PRIVATE_KEY)
     [mkA CKA_LABEL (AV []); mkA CKA_VALUE (AV (repeat 3%N 600))] = Ok (CKR_FUNCTION_FAILED, o')) /\
  stored_value aes_obj = Some (repeat 7%N 16).
Proof.
  split; [right; reflexivity|]. split; [reflexivity|]. split; [eexists|]; vm_compute; reflexivity.
Qed.

(** ** C61: C_CopyObject *)
Definition copied (oe : oenv) (src : obj) (t : template) (o' : obj) : Prop :=
  exists uid t' tok, CopyObject oe true uid src t = Ok (CKR_OK, t', Some (tok, o')).
Definition C61_unlisted : Prop :=
  forall oe src t o' ty b, copied oe src t o' -> In ty (text_attrs ++ usage_attrs) ->
    Forall (fun a => a_type a <> ty) t -> api_reads oe src ty b -> api_reads oe o' ty b.
Definition C61_listed : Prop :=
  forall oe src t1 ty b t2 o', copied oe src (t1 ++ mkA ty (AV b) :: t2) o' ->
    In ty (text_attrs ++ usage_attrs) -> Forall (fun a => a_type a <> ty) t2 -> api_reads oe o' ty b.

Definition labelled : obj := set_label aes_obj (SV [65; 66]%N).
(** A copy made with an empty template has no label and no key value. *)
Theorem C61_unlisted_refuted : ~ C61_unlisted.
Proof.
  intros H.
  assert (C : copied toe labelled [] (set_data (obj_new 1 CKK_AES) (KSym 0 (zeros 512)))).
  { exists 1, [], 0%N. vm_compute. reflexivity. }
  assert (A := H toe labelled [] _ CKA_LABEL [65; 66]%N C).
  assert (R : api_reads toe (set_data (obj_new 1 CKK_AES) (KSym 0 (zeros 512))) CKA_LABEL [65; 66]%N).
  { apply A; [cbn; auto|constructor|].
    intros [|x [|y [|z buf]]] Hl; try (unfold zlen in Hl; cbn [length] in Hl; lia); vm_compute; reflexivity. }
  specialize (R [0; 0]%N eq_refl). vm_compute in R. discriminate R.
Qed.
Print Assumptions C61_unlisted_refuted.

(** A label given in the template is ignored: the copy has the source's. *)
Theorem C61_listed_refuted : ~ C61_listed.
Proof.
  intros H.
  assert (C : copied toe labelled ([] ++ mkA CKA_LABEL (AV [67; 68]%N) :: [])
                (set_label (set_data (obj_new 1 CKK_AES) (KSym 0 (zeros 512))) (SV [65; 66]%N))).
  { exists 1, [mkA CKA_LABEL (AV [65; 66]%N)], 0%N. vm_compute. reflexivity. }
  assert (R := H toe labelled [] CKA_LABEL [67; 68]%N [] _ C ltac:(cbn; auto) ltac:(constructor)).
  specialize (R [0; 0]%N eq_refl). vm_compute in R. discriminate R.
Qed.
Print Assumptions C61_listed_refuted.

Lemma get_loop_ok_app oe o t1 a t2 t' :
  get_loop oe o (t1 ++ a :: t2) = Ok (CKR_OK, t') ->
  exists t1' g t2', t' = t1' ++ mkA (a_type a) (put (a_val a) g) :: t2' /\
    GetAttr oe o (a_type a) (buf_of (a_val a)) = Ok g /\ get_rv (fst (fst g)) = CKR_OK /\
    map a_type t2' = map a_type t2.
Proof.
  assert (M : forall t rv t', get_loop oe o t = Ok (rv, t') -> map a_type t' = map a_type t).
  { induction t as [|x t IH]; intros rv t'' H; [injection H as _ <-; reflexivity|].
    cbn [get_loop] in H. destruct (GetAttr oe o (a_type x) _) as [g|?|?]; cbn [bind] in H; try discriminate.
    destruct (get_rv _ =? CKR_OK)%Z.
    - destruct (get_loop oe o t) as [[rv' r']|?|?]; cbn [bind] in H; try discriminate.
      injection H as _ <-. cbn [map a_type]. f_equal. eapply IH; reflexivity.
    - injection H as _ <-. reflexivity. }
  revert t'. induction t1 as [|x t1 IH]; intros t' H.
  - cbn [app get_loop] in H. destruct (GetAttr oe o (a_type a) _) as [g|?|?]; cbn [bind] in H; try discriminate.
    destruct (Z.eqb_spec (get_rv (fst (fst g))) CKR_OK) as [E|E]; [|injection H as H _; contradiction].
    destruct (get_loop oe o t2) as [[rv' r']|?|?] eqn:E2; cbn [bind] in H; try discriminate.
    injection H as -> <-. exists [], g, r'. repeat split; auto. eapply M; eauto.
  - cbn [app get_loop] in H. destruct (GetAttr oe o (a_type x) _) as [g|?|?]; cbn [bind] in H; try discriminate.
    destruct (Z.eqb_spec (get_rv (fst (fst g))) CKR_OK) as [E|E]; [|injection H as H _; contradiction].
    destruct (get_loop oe o (t1 ++ a :: t2)) as [[rv' r']|?|?] eqn:E2; cbn [bind] in H; try discriminate.
    injection H as -> <-. destruct (IH _ eq_refl) as (t1' & g' & t2' & -> & Hg & Hr & Hm).
    exists (mkA (a_type x) (put (a_val x) g) :: t1'), g', t2'. auto.
Qed.

(** What holds: the copy has the source's type, and an attribute listed in the
    template has the source's value. Missing: unlisted attributes, and the values
    given in the template. *)
Theorem C61_copy_partial :
  forall oe src t1 ty x t2 o' b, copied oe src (t1 ++ mkA ty (AV x) :: t2) o' ->
    In ty (CKA_CLASS :: text_attrs ++ usage_attrs) -> ty <> CKA_UNWRAP ->
    last_for t2 ty -> (ty = CKA_WRAP -> last_for t2 CKA_UNWRAP) ->
    bytes_ok b -> small b -> api_reads oe src ty b ->
    o_type o' = o_type src /\ api_reads oe o' ty b.
Proof.
  intros oe src t1 ty x t2 o' b (uid & t' & tok & H) Hin Hu Hl Hw Hb Hs Hr.
  assert (Hp : In ty plain).
  { cbn [In app text_attrs usage_attrs plain] in *. intuition. }
  unfold CopyObject in H. destruct (tmpl_token _) as [tk|]; [|discriminate].
  destruct (GetAttributeValue oe src _) as [[rv tg]|?|?] eqn:EG; cbn [bind] in H; try discriminate.
  destruct (Z.eqb_spec rv CKR_OK) as [->|]; cbn [negb] in H; [|discriminate].
  destruct (SetAttributeValue oe true (obj_new uid (o_type src)) tg) as [[rv2 o2]|?|?] eqn:ES;
    cbn [bind] in H; try discriminate.
  destruct (Z.eqb_spec rv2 CKR_OK) as [->|]; [|discriminate]. injection H as <- <- <-.
  split.
  { pose proof ES as E2. apply SetAttributeValue_ok in E2. destruct E2 as (_ & _ & ps & v & o1 & _ & _ & HK & HL).
    apply SetKey_frame in HK. destruct HK as (d & n & E). apply set_loop_core in HL.
    destruct HL as (_ & HL & _). rewrite HL, E. reflexivity. }
  unfold GetAttributeValue in EG. destruct (check_attrs false _ =? CKR_OK)%Z eqn:Ec.
  2:{ injection EG as EG _. rewrite EG in Ec. discriminate Ec. }
  apply get_loop_ok_app in EG. destruct EG as (t1' & g & t2' & -> & Hg & Hrv & Hm).
  cbn [a_type a_val buf_of v_len] in *.
  pose proof (reads_field oe src ty b Hp Hr) as Hf.
  assert (Hlen : (zlen b <= zlen x)%Z).
  { destruct (Z.le_gt_cases (zlen b) (zlen x)) as [|Hlt]; [assumption|exfalso].
    destruct g as [[c lo] w]. cbn [fst] in Hrv.
    rewrite (field_get_small oe src ty b _ Hp Hf Hlt) in Hg.
    injection Hg as <- <- <-. discriminate Hrv. }
  rewrite (field_get oe src ty b Hp Hf (zlen x) Hlen) in Hg. injection Hg as <-.
  assert (Ep : put (AV x) (0%Z, Some (zlen b), b) = AV b).
  { unfold put. destruct (Z.eqb_spec (zlen b) UNAVAILABLE) as [E|_].
    { unfold small, UNAVAILABLE in *. lia. }
    f_equal. unfold overlay, zlen. rewrite Nat2Z.id, firstn_app, Nat.sub_diag, firstn_all. cbn [firstn].
    apply app_nil_r. }
  rewrite Ep in ES.
  assert (T : forall p, last_for t2 p -> last_for t2' p).
  { clear - Hm. unfold last_for. revert t2 Hm. induction t2' as [|y t2' IH]; intros [|z t2] Hm p HF;
      try discriminate; constructor; cbn [map] in Hm; injection Hm as E1 E2; apply Forall_cons_iff in HF.
    - rewrite E1. apply HF.
    - eapply IH; [exact E2|apply HF]. }
  eapply (C25_readback_partial oe true (obj_new uid (o_type src)) t1' ty b t2'); try exact ES; auto.
  intros Hd. destruct Hd as [-> | ->].
  - change (field src CKA_START_DATE) with (dfield (o_start src)) in Hf. unfold dfield in Hf.
    destruct (N.eqb_spec (nth 0 (o_start src) 0%N) 0); [discriminate|]. injection Hf as <-. assumption.
  - change (field src CKA_END_DATE) with (dfield (o_end src)) in Hf. unfold dfield in Hf.
    destruct (N.eqb_spec (nth 0 (o_end src) 0%N) 0); [discriminate|]. injection Hf as <-. assumption.
Qed.
Print Assumptions C61_copy_partial.

Example C61_case :
  copied toe labelled ([mkA CKA_VALUE (AV (zeros 16))] ++ mkA CKA_LABEL (AV [67; 68; 69]%N) :: [])
    (set_label (set_data (obj_new 1 CKK_AES) (KSym 16 (repeat 7%N 16 ++ zeros 496))) (SV [65; 66]%N)) /\
  api_reads toe labelled CKA_LABEL [65; 66]%N.
Proof.
  split.
  - exists 1, [mkA CKA_VALUE (AV (repeat 7%N 16)); mkA CKA_LABEL (AV [65; 66]%N)], 0%N. vm_compute. reflexivity.
  - intros [|x [|y [|z buf]]] Hl; try (unfold zlen in Hl; cbn [length] in Hl; lia); vm_compute; reflexivity.
Qed.

(** ** C62: template validation *)
Definition C62_claim (bools : list Z) : Prop :=
  forall oe rw o t, Exists (bad_entry bools) t ->
    exists rv, SetAttributeValue oe rw o t = Ok (rv, o) /\ rv <> CKR_OK.

(** CKA_TOKEN is checked as a byte string: any length passes. *)
Theorem C62_validation_refuted : ~ C62_claim std_bool.
Proof.
  intros H. destruct (H toe true aes_obj [mkA CKA_TOKEN (AV [1; 2; 3]%N)]) as (rv & E & Hrv).
  - constructor. right. left. split; [cbn; auto|discriminate].
  - vm_compute in E. discriminate E.
Qed.
Print Assumptions C62_validation_refuted.

Lemma bad_check a : bad_entry std_bool_no_token a -> check_attr true a <> CKR_OK.
Proof.
  intros H. unfold check_attr.
  assert (F1 : forall n, a_len a <> n -> match a_val a with
     | ANull _ => CKR_ATTRIBUTE_VALUE_INVALID
     | v => if (v_len v =? n)%Z then CKR_OK else CKR_BUFFER_TOO_SMALL end <> CKR_OK).
  { intros n Hn. unfold a_len in Hn. destruct (a_val a); cbn [v_len] in *; [|discriminate|];
      match goal with |- (if (?x =? ?y)%Z then _ else _) <> _ => destruct (Z.eqb_spec x y) end;
      try contradiction; discriminate. }
  destruct H as [H|[[H Hl]|[H Hl]]].
  - destruct (kind_of (a_type a)) as [k|] eqn:Ek; [|discriminate].
    exfalso. apply H. unfold kind_of in Ek. destruct (find _ attr_table) as [[ty k']|] eqn:Ef; [|discriminate].
    apply find_some in Ef. destruct Ef as [Ef1 Ef2]. cbn [fst] in Ef2. apply Z.eqb_eq in Ef2. subst ty.
    assert (A : In (a_type a) (map fst attr_table)).
    { change (a_type a) with (fst (a_type a, k')). apply in_map. exact Ef1. }
    assert (B : forallb (fun z => existsb (Z.eqb z) (std_ulong ++ std_bool ++ std_date ++ std_bytes))
                  (map fst attr_table) = true) by (vm_compute; reflexivity).
    rewrite forallb_forall in B. specialize (B _ A). apply existsb_exists in B.
    destruct B as (z & Hz & Ez). apply Z.eqb_eq in Ez. rewrite Ez. exact Hz.
  - assert (Ek : kind_of (a_type a) = Some AK_bool).
    { clear - H. in_cases H; rewrite <- H; reflexivity. }
    rewrite Ek. specialize (F1 1%Z Hl). cbv zeta.
    destruct (Z.eqb_spec (match a_val a with
     | ANull _ => CKR_ATTRIBUTE_VALUE_INVALID
     | v => if (v_len v =? 1)%Z then CKR_OK else CKR_BUFFER_TOO_SMALL end) CKR_OK) as [E|E]; [contradiction|].
    cbn [negb]. exact E.
  - assert (Ek : kind_of (a_type a) = Some AK_ulong \/ kind_of (a_type a) = Some AK_date).
    { clear - H. unfold std_ulong, std_date in H. cbn [app] in H. in_cases H; rewrite <- H; vm_compute; auto. }
    specialize (F1 8%Z Hl). destruct Ek as [-> | ->]; exact F1.
Qed.

Lemma bad_checks t : Exists (bad_entry std_bool_no_token) t -> check_attrs true t <> CKR_OK.
Proof.
  intros H E. apply check_attrs_Forall in E. apply Exists_exists in H. destruct H as (a & Ha & Hb).
  rewrite Forall_forall in E. exact (bad_check a Hb (E a Ha)).
Qed.

(** What holds: every other unknown type or wrong length is refused and nothing
    changes. Missing: the length of CKA_TOKEN. *)
Theorem C62_validation_partial : C62_claim std_bool_no_token.
Proof.
  intros oe rw o t H. apply C26_rejected_unchanged. right. apply bad_checks. exact H.
Qed.
Print Assumptions C62_validation_partial.

(** New objects (C_CreateObject, C_GenerateKey, C_GenerateKeyPair): none is made. *)
Theorem C62_create_partial :
  forall oe rw uid t, Exists (bad_entry std_bool_no_token) t ->
    (exists rv, CreateObject oe rw uid t = Ok (rv, None) /\ rv <> CKR_OK) /\
    (forall ty cls, exists rv, NewObject oe rw uid ty cls t = Ok (rv, None) /\ rv <> CKR_OK).
Proof.
  intros oe rw uid t H.
  assert (N : forall ty cls, exists rv, NewObject oe rw uid ty cls t = Ok (rv, None) /\ rv <> CKR_OK).
  { intros ty cls. destruct (C62_validation_partial oe rw (set_class (obj_new uid ty) cls) t H) as (rv & E & Hr).
    exists rv. unfold NewObject. rewrite E. cbn [bind]. destruct (Z.eqb_spec rv CKR_OK); [contradiction|auto]. }
  split; [|exact N]. unfold CreateObject.
  assert (R1 : exists rv, @Ok (Z * option obj) (CKR_ATTRIBUTE_VALUE_INVALID, None) = Ok (rv, None) /\ rv <> CKR_OK)
    by (eexists; split; [reflexivity|discriminate]).
  assert (R2 : exists rv, @Ok (Z * option obj) (CKR_TEMPLATE_INCOMPLETE, None) = Ok (rv, None) /\ rv <> CKR_OK)
    by (eexists; split; [reflexivity|discriminate]).
  destruct (find_last t CKA_CLASS) as [a|].
  - destruct (tmpl_ulong a) as [cls|]; [|exact R1].
    destruct (cls =? CKO_CERTIFICATE)%Z; cbv beta iota zeta.
    + destruct (find_last t CKA_CERTIFICATE_TYPE) as [a2|]; [|exact R2].
      destruct (tmpl_ulong a2) as [k|]; [|exact R1]. destruct (mem k _); [apply N|exact R1].
    + destruct (find_last t CKA_KEY_TYPE) as [a2|]; [|exact R2].
      destruct (tmpl_ulong a2) as [k|]; [|exact R1]. destruct (mem k _); [apply N|exact R1].
  - change (UNAVAILABLE =? CKO_CERTIFICATE)%Z with false. cbv beta iota zeta.
    destruct (find_last t CKA_KEY_TYPE) as [a2|]; [|exact R2].
    destruct (tmpl_ulong a2) as [k|]; [|exact R1]. destruct (mem k _); [apply N|exact R1].
Qed.
Print Assumptions C62_create_partial.

Example C62_case :
  Exists (bad_entry std_bool_no_token) [mkA CKA_LABEL (AV []); mkA CKA_ENCRYPT (AV [1; 1]%N)] /\
  Exists (bad_entry std_bool_no_token) [mkA 0x999 (AV [])].
Proof.
  split.
  - apply Exists_cons_tl. constructor. right. left. split; [cbn; intuition|discriminate].
  - constructor. left. vm_compute. intuition discriminate.
Qed.
