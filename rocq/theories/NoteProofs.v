(** The attributes of the library's objects follow the notes of Note.v. *)
From Verif Require Import Base Ops Object ObjectSpec ObjectProofs AttrProofs Store StoreSpec Sys SysProofs SysProofs2 SysProofs3 SysProofs4
  HeapProofs AttrFrame AttrProofs2 ObjFrame ObjProofs Device Table Note.
Notation plain := AttrProofs.plain.

(** ** Values *)
Definition holds (o : obj) (ty : Z) (v : list N) : Prop :=
  In ty plain /\ field o ty = Some v /\ small v /\ (In ty [CKA_START_DATE; CKA_END_DATE] -> zlen v = 8%Z).
Lemma face_field o o' ty : face o' = face o -> field o' ty = field o ty.
Proof. intros E. exact (f_equal (fun x => field x ty) E). Qed.
Lemma face_handle o o' : face o' = face o -> o_handle o' = o_handle o.
Proof. intros E. exact (f_equal o_handle E). Qed.
Lemma holds_field o o' ty v : field o' ty = field o ty -> holds o ty v -> holds o' ty v.
Proof. intros E (A & B & C). split; [exact A|]. split; [congruence|exact C]. Qed.
Lemma touches_affects ty a : touches ty a = true <-> affects a ty.
Proof.
  unfold touches, affects. rewrite orb_true_iff, andb_true_iff, !Z.eqb_eq. tauto.
Qed.
Lemma untouched_affects ty t : existsb (touches ty) t = false -> Forall (fun a => ~ affects a ty) t.
Proof.
  intros E. apply Forall_forall. intros a I A. apply touches_affects in A.
  assert (K : existsb (touches ty) t = true) by (apply existsb_exists; eauto). congruence.
Qed.
Lemma followed_plain ty : is_followed ty = true -> In ty plain.
Proof. unfold is_followed. intros E. apply existsb_exists in E as (x & I & E). apply Z.eqb_eq in E. subst x. exact I. Qed.
Lemma told_split t ty v : told t ty = Some v ->
  exists t1 t2, t = t1 ++ mkA ty (AV v) :: t2 /\ existsb (touches ty) t2 = false /\ is_followed ty = true /\ lasting ty v = true.
Proof.
  induction t as [|a r IH]; cbn [told]; [discriminate|]. destruct (existsb (touches ty) r) eqn:E.
  - intros K. destruct (IH K) as (t1 & t2 & -> & A). exists (a :: t1), t2. auto.
  - unfold tells. destruct (Z.eqb_spec (a_type a) ty) as [Et|]; cbn [andb]; [|discriminate]. destruct (is_followed ty) eqn:F; [|discriminate].
    destruct a as [ty' [v'| |]]; cbn [a_val a_type] in *; try discriminate. destruct (lasting ty v') eqn:L; [|discriminate]. intros K. injection K as ->. subst ty'.
    exists [], r. auto.
Qed.
Section W.
Variable w : world.
Notation oe := (w_oe w).
Lemma told_holds rw o t o' ty v : SetAttributeValue oe rw o t = Ok (CKR_OK, o') -> told t ty = Some v -> holds o' ty v.
Proof.
  intros S T. apply told_split in T as (t1 & t2 & -> & N & F & L). apply followed_plain in F. unfold lasting in L. apply andb_prop in L as [L D]. apply andb_prop in L as [B Sm].
  apply bytes_okb_spec in B. destruct (SetAttributeValue_set oe rw o t1 ty v t2 o' F B (untouched_affects _ _ N)) as [E C]; [|exact S|].
  - intros K. assert (Dt : is_date ty = true) by (unfold is_date; destruct K as [->| ->]; reflexivity). rewrite Dt in D. intros Z. rewrite Z in D. discriminate.
  - split; [exact F|]. split; [exact E|]. split; [unfold small; lia|]. intros K. exact (check_date _ _ _ K C).
Qed.
Lemma set_holds rw o t o' ty v was : SetAttributeValue oe rw o t = Ok (CKR_OK, o') -> (forall v, was ty = Some v -> holds o ty v) -> of_set t was ty = Some v -> holds o' ty v.
Proof.
  intros S W. unfold of_set. destruct (existsb _ t) eqn:E; [eapply told_holds; eauto|]. intros K. specialize (W v K). eapply holds_field; [|exact W].
  eapply SetAttributeValue_frame; [apply W|apply untouched_affects; exact E|exact S].
Qed.
(** A failing call changes no field its template does not touch. *)
Lemma SetAttributeValue_frame_any rw o t rv o' ty : In ty plain -> Forall (fun a => ~ affects a ty) t -> SetAttributeValue oe rw o t = Ok (rv, o') -> field o' ty = field o ty.
Proof.
  intros P F H. unfold SetAttributeValue in H. destruct (negb rw); [injection H as _ <-; reflexivity|]. cbv zeta in H. destruct (negb _); [injection H as _ <-; reflexivity|].
  destruct (params_of o); [|injection H as _ <-; reflexivity]. destruct (param_vals t l); [|injection H as _ <-; reflexivity].
  destruct (SetKey oe o l0) as [[c o1]| |] eqn:K; cbn [bind] in H; try discriminate. apply SetKey_frame in K as (d & n & ->).
  destruct (c =? MEMORY_E)%Z; [injection H as _ <-; reflexivity|]. destruct (negb _); [injection H as _ <-; reflexivity|].
  rewrite (set_loop_field_frame t _ _ _ ty P F H). reflexivity.
Qed.
Lemma failed_holds rw o t rv o' ty v was : SetAttributeValue oe rw o t = Ok (rv, o') -> (forall v, was ty = Some v -> holds o ty v) -> of_failed t was ty = Some v -> holds o' ty v.
Proof.
  intros S W. unfold of_failed. destruct (existsb _ t) eqn:E; [discriminate|]. intros K. specialize (W v K). eapply holds_field; [|exact W].
  eapply SetAttributeValue_frame_any; [apply W|apply untouched_affects; exact E|exact S].
Qed.
Lemma set_loop_rv t : forall o rv o', set_loop o t = Ok (rv, o') -> untouched rv = false.
Proof.
  induction t as [|a r IH]; intros o rv o' H; cbn [set_loop] in H; [injection H as <- _; reflexivity|].
  destruct (SetAttr o a) as [[c o1]| |]; cbn [bind] in H; try discriminate. destruct (_ =? CKR_OK)%Z; [eauto|]. injection H as <- _.
  unfold set_rv. destruct (c =? 0)%Z; [reflexivity|]. destruct (c =? BAD_FUNC_ARG)%Z; [reflexivity|]. destruct (c =? BUFFER_E)%Z; reflexivity.
Qed.
Lemma untouched_same rw o t rv o' ty : SetAttributeValue oe rw o t = Ok (rv, o') -> untouched rv = true -> field o' ty = field o ty.
Proof.
  intros H U. unfold SetAttributeValue in H. destruct (negb rw); [injection H as _ <-; reflexivity|]. cbv zeta in H. destruct (negb _); [injection H as _ <-; reflexivity|].
  destruct (params_of o); [|injection H as _ <-; reflexivity]. destruct (param_vals t l); [|injection H as _ <-; reflexivity].
  destruct (SetKey oe o l0) as [[c o1]| |] eqn:K; cbn [bind] in H; try discriminate.
  destruct (c =? MEMORY_E)%Z; [injection H as <- _; discriminate U|]. destruct (negb _); [injection H as <- _; discriminate U|].
  apply set_loop_rv in H. congruence.
Qed.

(** ** Reading *)
Lemma field_query o ty b : In ty plain -> field o ty = Some b -> GetAttr oe o ty None = Ok (0%Z, Some (zlen b), []).
Proof.
  intros Hin Hf.
  in_cases Hin; subst ty;
    unfold field in Hf;
    lazymatch type of Hf with
    | context [usage_bit ?x] => let r := eval vm_compute in (usage_bit x) in change (usage_bit x) with r in Hf
    end; cbv beta iota in Hf;
    unfold GetAttr;
    lazymatch goal with
    | |- context [get_flag_of ?x] =>
        let r := eval cbv -[CKF_ENCRYPT CKF_DECRYPT CKF_SIGN CKF_SIGN_RECOVER CKF_VERIFY CKF_VERIFY_RECOVER CKF_WRAP CKF_DERIVE] in (get_flag_of x) in change (get_flag_of x) with r
    end; cbv beta iota.
  1-8: injection Hf as <-; reflexivity.
  - transitivity (get_sval (o_label o) None); [reflexivity|]. destruct (o_label o) as [x|l]; cbn [sfield] in Hf; [injection Hf as ->; reflexivity|]. destruct (Z.eqb_spec l 0); [|discriminate]. injection Hf as <-. subst l. reflexivity.
  - transitivity (get_sval (o_keyId o) None); [reflexivity|]. destruct (o_keyId o) as [x|l]; cbn [sfield] in Hf; [injection Hf as ->; reflexivity|]. destruct (Z.eqb_spec l 0); [|discriminate]. injection Hf as <-. subst l. reflexivity.
  - transitivity (Ok (get_date (o_start o) None)); [reflexivity|]. change (dfield (o_start o) = Some b) in Hf. unfold dfield in Hf. unfold get_date. destruct (nth 0 (o_start o) 0 =? 0)%N; [discriminate|]. injection Hf as <-. reflexivity.
  - transitivity (Ok (get_date (o_end o) None)); [reflexivity|]. change (dfield (o_end o) = Some b) in Hf. unfold dfield in Hf. unfold get_date. destruct (nth 0 (o_end o) 0 =? 0)%N; [discriminate|]. injection Hf as <-. reflexivity.
  - injection Hf as <-. reflexivity.
Qed.
Lemma put_room buf v : (zlen v <= zlen buf)%Z -> small v -> put (AV buf) (0%Z, Some (zlen v), v) = AV v.
Proof.
  intros L S. unfold put. destruct (Z.eqb_spec (zlen v) UNAVAILABLE) as [E|_]; [unfold small in S; lia|]. f_equal.
  unfold overlay, zlen. rewrite Nat2Z.id, firstn_app, Nat.sub_diag. cbn [firstn]. rewrite app_nil_r. apply firstn_all.
Qed.
Lemma entry_reads o ty v b b' : holds o ty v -> filled ty v b = Some b' ->
  check_attr false (mkA ty b) = CKR_OK /\ exists g, GetAttr oe o ty (buf_of b) = Ok g /\ fst (fst g) = 0%Z /\ put b g = b'.
Proof.
  intros (P & F & S & D) E. destruct b as [buf|l|]; cbn [filled] in E; [| |discriminate].
  - destruct (orb _ _) eqn:R; [|discriminate]. injection E as <-. assert (L : (zlen v <= zlen buf)%Z) by (apply orb_prop in R as [R|R]; [lia|apply andb_prop in R as [_ R]; lia]).
    split.
    + apply orb_prop in R as [R|R]; [apply (check_get_plain o ty v buf P F D); lia|]. apply andb_prop in R as [R _]. unfold is_text in R.
      apply orb_prop in R as [R|R]; apply Z.eqb_eq in R; subst ty; reflexivity.
    + eexists. cbn [buf_of v_len]. split; [apply field_get; eassumption|]. split; [reflexivity|]. apply put_room; assumption.
  - injection E as <-. split.
    + unfold check_attr. cbn [a_type a_val]. in_cases P; subst ty; reflexivity.
    + eexists. cbn [buf_of]. split; [apply field_query; eassumption|]. split; reflexivity.
Qed.
Lemma answer_reads o f t t' : (forall ty v, f ty = Some v -> holds o ty v) -> answer f t = Some t' -> GetAttributeValue oe o t = Ok (CKR_OK, t').
Proof.
  intros Hf A. assert (K : check_attrs false t = CKR_OK /\ get_loop oe o t = Ok (CKR_OK, t')).
  { revert t' A. induction t as [|[ty b] r IH]; intros t' A; cbn [answer] in A; [injection A as <-; split; reflexivity|]. cbn [a_type a_val] in A.
    destruct (f ty) as [v|] eqn:E; [|discriminate]. destruct (answer f r) as [r'|]; [|discriminate]. destruct (filled ty v b) as [b'|] eqn:Fl; [|discriminate]. injection A as <-.
    destruct (IH r' eq_refl) as [C G]. destruct (entry_reads o ty v b b' (Hf _ _ E) Fl) as (C1 & g & G1 & G2 & G3). split.
    - cbn [check_attrs]. rewrite C1. exact C.
    - cbn [get_loop]. cbn [a_type a_val]. rewrite G1. cbn [bind]. rewrite G2. change (get_rv 0 =? CKR_OK)%Z with true. cbv iota. rewrite G. cbn [bind]. rewrite G3. reflexivity. }
  destruct K as [C G]. unfold GetAttributeValue. rewrite C. exact G.
Qed.

(** ** New objects hold what their template says *)
Definition from (t : template) (ob : obj) : Prop :=
  exists rw o1 o2, SetAttributeValue oe rw o1 t = Ok (CKR_OK, o2) /\ forall ty, field ob ty = field o2 ty.
Lemma from_holds t ob ty v : from t ob -> told t ty = Some v -> holds ob ty v.
Proof. intros (rw & o1 & o2 & S & F) T. eapply holds_field; [apply F|]. eapply told_holds; eauto. Qed.
Lemma from_field t o o' : from t o -> (forall ty, field o' ty = field o ty) -> from t o'.
Proof. intros (rw & o1 & o2 & S & F) E. exists rw, o1, o2. split; [exact S|]. intros ty. rewrite E. apply F. Qed.
Lemma NewObject_from rw u ty cl t rv o : NewObject oe rw u ty cl t = Ok (rv, Some o) -> from t o.
Proof.
  unfold NewObject. intros H. destruct (SetAttributeValue _ _ _ _) as [[c o1]| |] eqn:E; cbn [bind] in H; try discriminate.
  injection H as -> H. destruct (Z.eqb_spec rv CKR_OK) as [->|]; [|discriminate]. injection H as ->. do 3 eexists. split; [exact E|reflexivity].
Qed.
Lemma CreateObject_from rw u t rv o : CreateObject oe rw u t = Ok (rv, Some o) -> from t o.
Proof.
  unfold CreateObject. intros H. sinv; try (eapply NewObject_from; eassumption).
  all: destruct (_ =? CKO_CERTIFICATE)%Z in *; sinv; try (eapply NewObject_from; eassumption).
Qed.
Lemma pair_from m pub priv g p q :
  (match m with KP_RSA => RsaGen pub priv g | KP_EC => EcGen pub priv g | _ => DhGen pub priv g end) = Ok (Some (p, q)) ->
  (forall ty, field p ty = field pub ty) /\ (forall ty, field q ty = field priv ty).
Proof. destruct m; cbn; unfold RsaGen, EcGen, DhGen; intros H; sinv; auto. Qed.

(** The object added: handle [h], fields of [o]. *)
Definition like (h : Z) (o ob : obj) : Prop := o_handle ob = h /\ forall ty, field ob ty = field o ty.
Lemma like_face h o a b : like h o a -> face b = face a -> like h o b.
Proof. intros [A B] E. split; [rewrite (face_handle _ _ E); exact A|]. intros ty. rewrite (face_field _ _ ty E). apply B. Qed.
Lemma add_like rnd s x b o c h s' : uniq (s_sess s) -> In x (s_sess s) -> AddToSession w rnd s x b o = Ok (c, h, s') -> newer (fun ob => c = 0%Z /\ like h o ob) s s'.
Proof.
  unfold AddToSession. intros U I H. destruct (b =? 0)%N.
  - destruct (_ <=? _)%Z; injection H as <- <- <-; [apply newer_under, under_refl|].
    destruct (live_put_sess s x (set_sobjs x (set_handle (set_onTok o (N.odd b)) (next_handle (ss_objs x) b) :: ss_objs x)) U I eq_refl) as (p & q & E1 & E2).
    intros y Y. rewrite E2 in Y. cbn [set_sobjs ss_objs] in Y. rewrite in_app_iff in Y. destruct Y as [Y|[<-|Y]].
    + left. exists y. split; [rewrite E1, in_app_iff; auto|reflexivity].
    + right. split; [reflexivity|]. split; reflexivity.
    + left. exists y. split; [rewrite E1, in_app_iff; auto|reflexivity].
  - destruct (_ <=? _)%Z; [injection H as <- <- <-; apply newer_under, under_refl|]. destruct (Encode _ _ _ _) as [[c1 o2]| |] eqn:E; cbn [bind] in H; try discriminate.
    destruct (negb _); [injection H as <- <- <-; apply newer_under, under_refl|].
    destruct (store w rnd _) as [[c2 s1]| |] eqn:S; cbn [bind] in H; try discriminate. injection H as <- <- <-. apply store_under in S.
    intros y Y. destruct (S y Y) as (p & P & F). unfold live in P. cbn [set_tok s_tok s_sess set_objs t_objs app] in P. destruct P as [P|P].
    + right. split; [reflexivity|]. eapply like_face; [|exact F]. subst p. split; [reflexivity|]. intros ty. apply Encode_ident in E. exact (f_equal (fun z => field z ty) E).
    + left. exists p. split; [exact P|exact F].
Qed.
Lemma addo_like rnd s x t o c h s' : uniq (s_sess s) -> In x (s_sess s) -> AddObject w rnd s x t o = Ok (c, h, s') -> newer (fun ob => c = CKR_OK /\ like h o ob) s s'.
Proof.
  unfold AddObject. intros U I H. destruct (tmpl_token t); [|injection H as <- <- <-; apply newer_under, under_refl].
  destruct (AddToSession _ _ _ _ _ _) as [[[c1 h1] s1]| |] eqn:A; cbn [bind] in H; try discriminate. injection H as <- <- <-.
  intros y Y. destruct (add_like _ _ _ _ _ _ _ _ U I A y Y) as [K|[-> K]]; [left; exact K|right; split; [reflexivity|exact K]].
Qed.
Definition born (o : out) (t : template) (ob : obj) : Prop := o = OutH CKR_OK (o_handle ob) /\ from t ob.
Lemma addo_born rnd s x t o c h s' : uniq (s_sess s) -> In x (s_sess s) -> AddObject w rnd s x t o = Ok (c, h, s') -> from t o -> newer (born (OutH c h) t) s s'.
Proof.
  intros U I A F y Y. destruct (addo_like _ _ _ _ _ _ _ _ U I A y Y) as [K|[-> [K1 K2]]]; [left; exact K|right]. split; [rewrite K1; reflexivity|]. eapply from_field; eauto.
Qed.

Lemma Create_born rnd s x t s' o : inv s -> In x (s_sess s) -> Create w rnd s x t = Ok (s', o) -> newer (born o t) s s'.
Proof.
  unfold Create. intros V I H. destruct (CreateObject _ _ _ _) as [[rv [ob|]]| |] eqn:C; cbn [bind] in H; try discriminate.
  - destruct (AddObject _ _ _ _ _ _) as [[[c h] s1]| |] eqn:A; cbn [bind] in H; try discriminate. injection H as <- <-. apply (newer_bump _ s 1). eapply addo_born; [| |exact A|]; [exact (inv_uniq s V)|exact I|eapply CreateObject_from; eauto].
  - unfold rv_ in H. injection H as <- <-. apply newer_same. reflexivity.
Qed.
Lemma GenKey_born rnd s x t key s' o : inv s -> In x (s_sess s) -> GenKey w rnd s x t key = Ok (s', o) -> newer (born o t) s s'.
Proof.
  intros V I H. unfold GenKey in H. destruct (NewObject _ _ _ _ _ _) as [[rv [ob|]]| |] eqn:C; cbn [bind] in H; try discriminate.
  - destruct (as_sym ob) as [[l b]| |]; cbn [bind] in H; try discriminate. destruct (_ <? _)%Z; [discriminate|]. destruct (AddObject _ _ _ _ _ _) as [[[c h] s1]| |] eqn:A; cbn [bind] in H; try discriminate. injection H as <- <-.
    apply (newer_bump _ s 1). eapply addo_born; [| |exact A|]; [exact (inv_uniq s V)|exact I|]. eapply from_field; [eapply NewObject_from; eauto|reflexivity].
  - unfold rv_ in H. injection H as <- <-. apply newer_same. reflexivity.
Qed.
Lemma Unwrap_born rnd s x m mp uk wr t s' o : inv s -> In x (s_sess s) -> Unwrap w rnd s x m mp uk wr t = Ok (s', o) -> newer (born o t) s s'.
Proof.
  intros V I H. unfold Unwrap in H. destruct (negb (is_cbc_pad m)); [injection H as <- <-; apply newer_same; reflexivity|].
  cbv beta zeta in H. destruct (find_last t CKA_KEY_TYPE) as [a|]; [|injection H as <- <-; apply newer_same; reflexivity]. destruct (tmpl_ulong a) as [v|]; [|injection H as <- <-; apply newer_same; reflexivity].
  destruct (negb _); [injection H as <- <-; apply newer_same; reflexivity|]. destruct (find_last t CKA_CLASS) as [a2|]; [|injection H as <- <-; apply newer_same; reflexivity]. destruct (tmpl_ulong a2) as [v2|]; [|injection H as <- <-; apply newer_same; reflexivity].
  destruct (negb _); [injection H as <- <-; apply newer_same; reflexivity|]. destruct (negb _); [injection H as <- <-; apply newer_same; reflexivity|]. destruct (negb _); [injection H as <- <-; apply newer_same; reflexivity|].
  destruct (run_init _ _ _ _ _) as [[x1 o1]| |] eqn:R1; cbn [bind] in H; try discriminate.
  assert (Q1 : exists p, x1 = set_op x p). { unfold run_init in R1. match type of R1 with bind ?A _ = _ => destruct A end; cbn [bind] in R1; try discriminate. match type of R1 with bind ?A _ = _ => destruct A as [[p r]| |] end; cbn [bind] in R1; try discriminate. injection R1 as <- <-. exists p. reflexivity. }
  assert (L : forall y p, y = set_op x p -> live (put_sess s y) = live s).
  { intros y p ->. destruct (live_put_sess s x (set_op x p) (inv_uniq s V) I eq_refl) as (f & g & E1 & E2). rewrite E1, E2. reflexivity. }
  destruct (negb _); [injection H as <- <-; apply newer_same; destruct Q1 as [p E]; exact (L _ _ E)|].
  destruct (run_cont _ _ _ _) as [[x2 o2]| |] eqn:R2; cbn [bind] in H; try discriminate.
  assert (Q2 : exists p, x2 = set_op x p). { unfold run_cont in R2. match type of R2 with bind ?A _ = _ => destruct A end; cbn [bind] in R2; try discriminate. match type of R2 with bind ?A _ = _ => destruct A as [[p r]| |] end; cbn [bind] in R2; try discriminate. injection R2 as <- <-. destruct Q1 as [q ->]. exists p. reflexivity. }
  destruct Q2 as [p E2]. specialize (L _ _ E2).
  destruct (negb _); [injection H as <- <-; apply newer_same; exact L|].
  destruct (NewObject _ _ _ _ _ _) as [[rv [ob|]]| |] eqn:C; cbn [bind] in H; try discriminate; [|injection H as <- <-; apply newer_same; exact L].
  destruct (w_p8_dec w (o_out o2)) as [c r]. destruct (negb _); [injection H as <- <-; apply newer_same; exact L|].
  destruct (AddObject _ _ _ _ _ _) as [[[c3 h3] s4]| |] eqn:A; cbn [bind] in H; try discriminate. injection H as <- <-.
  assert (N : newer (born (OutH c3 h3) t) (put_sess s x2) s4).
  { apply (newer_bump _ (put_sess s x2) 1). eapply addo_born; [| |exact A|].
    - cbn [bump set_uid s_sess put_sess set_sess]. unfold uniq, upd_sess. rewrite map_map. erewrite map_ext; [exact (inv_uniq s V)|]. intros y. cbn beta. destruct (Z.eqb_spec (ss_h y) (ss_h x2)) as [Eh|]; [symmetry; exact Eh|reflexivity].
    - cbn [bump set_uid s_sess put_sess set_sess]. unfold upd_sess. apply in_map_iff. exists x. split; [|exact I]. rewrite E2. cbn. rewrite Z.eqb_refl. reflexivity.
    - eapply from_field; [eapply NewObject_from; exact C|reflexivity]. }
  intros y Y. destruct (N y Y) as [(z & Z & F)|Q]; [left; exists z; rewrite <- L; auto|right; exact Q].
Qed.
Lemma Derive_born rnd s x m b sec t s' o : inv s -> In x (s_sess s) -> Derive w rnd s x m b sec t = Ok (s', o) -> newer (born o t) s s'.
Proof.
  intros V I H. unfold Derive in H.
  assert (Q : match sec with None => rv_ s CKR_FUNCTION_FAILED | Some sec => '(rv, o) <- CreateObject (w_oe w) (is_rw x) (s_uid s) t ;;
     let s1 := bump s 1 in match o with None => rv_ s1 rv | Some o => '(c, _, d) <- GetAttr (w_oe w) o CKA_VALUE_LEN (Some 8%Z) ;;
      if negb (c =? 0)%Z then rv_ s1 CKR_OK else let vl := u32 (ulong_of d) in let sl := if andb (0 <? vl)%Z (vl <=? zlen sec)%Z then vl else zlen sec in
      if (sl <? zlen sec)%Z then Undef UB_read_overflow else '(c2, o1) <- SetSecretKey o [None; Some sec] ;;
      if negb (c2 =? 0)%Z then rv_ s1 CKR_FUNCTION_FAILED else '(rv2, h, s2) <- AddObject w rnd s1 x t o1 ;; Ok (s2, OutH rv2 h) end end = Ok (s', o) ->
    newer (born o t) s s').
  { clear H. intros H. destruct sec as [sec|]; [|injection H as <- <-; apply newer_same; reflexivity]. destruct (CreateObject _ _ _ _) as [[rv [ob|]]| |] eqn:C; cbn [bind] in H; try discriminate.
    2:{ unfold rv_ in H. injection H as <- <-. apply newer_same. reflexivity. }
    destruct (GetAttr _ _ _ _) as [[[c0 l0] d]| |]; cbn [bind] in H; try discriminate. destruct (negb _); [injection H as <- <-; apply newer_same; reflexivity|]. cbv zeta in H. match type of H with (if ?b then _ else _) = _ => destruct b; [discriminate|] end.
    destruct (SetSecretKey _ _) as [[c2 o1]| |] eqn:K; cbn [bind] in H; try discriminate. destruct (negb _); [injection H as <- <-; apply newer_same; reflexivity|].
    destruct (AddObject _ _ _ _ _ _) as [[[c h] s2]| |] eqn:A; cbn [bind] in H; try discriminate. injection H as <- <-.
    apply (newer_bump _ s 1). eapply addo_born; [| |exact A|]; [exact (inv_uniq s V)|exact I|]. eapply from_field; [eapply CreateObject_from; exact C|]. apply SetSecretKey_frame in K as (dd & ->). reflexivity. }
  destruct m; [| |injection H as <- <-; apply newer_same; reflexivity]; match type of H with bind ?A _ = _ => destruct A end; cbn [bind] in H; try discriminate; exact (Q H).
Qed.
Definition born2 (o : out) (tp tq : template) (ob : obj) : Prop :=
  exists h1 h2, o = OutH2 CKR_OK h1 h2 /\ (o_handle ob = h1 /\ from tp ob \/ o_handle ob = h2 /\ from tq ob).
Lemma GenKeyPair_born rnd s x m tp tq g s' h1 h2 : inv s -> sess_get s (ss_h x) = Some x -> GenKeyPair w rnd s x m tp tq g = Ok (s', OutH2 CKR_OK h1 h2) ->
  newer (born2 (OutH2 CKR_OK h1 h2) tp tq) s s'.
Proof.
  intros V GS H. pose proof (proj1 (sess_get_in _ _ _ GS)) as I. unfold GenKeyPair in H. destruct (match m with KP_RSA => _ | _ => _ end) as [ty|]; [|discriminate H].
  destruct (NewObject _ _ (s_uid s) _ _ _) as [[rv [pub|]]| |] eqn:N1; cbn [bind] in H; try discriminate.
  destruct (NewObject _ _ (S (s_uid s)) _ _ _) as [[rv2 [priv|]]| |] eqn:N2; cbn [bind] in H; try discriminate.
  match type of H with bind ?A _ = _ => destruct A as [[[p q]|]| |] eqn:G end; cbn [bind] in H; try discriminate.
  destruct (AddObject _ _ (bump s 2) _ _ _) as [[[c k1] s1]| |] eqn:A1; cbn [bind] in H; try discriminate. destruct (addo_sess _ _ (bump s 2) _ _ _ _ _ _ (inv_uniq s V) GS A1) as (V1 & _).
  pose proof (addo_like _ (bump s 2) _ _ _ _ _ _ (inv_uniq s V) I A1) as L1. apply newer_bump in L1.
  apply pair_from in G as [Fp Fq]. apply NewObject_from in N1, N2.
  destruct (negb _); [discriminate H|]. destruct (sess_get s1 (ss_h x)) as [x2|] eqn:G2; [|discriminate H].
  destruct (AddObject _ _ s1 _ _ _) as [[[c4 k4] s3]| |] eqn:A2; cbn [bind] in H; try discriminate. destruct (c4 =? CKR_OK)%Z; [|discriminate]. injection H as <- -> ->.
  apply sess_get_in in G2 as (X2 & _). pose proof (addo_like _ s1 _ _ _ _ _ _ V1 X2 A2) as L2.
  intros y Y. destruct (L2 y Y) as [(z & Z & F)|[_ [K1 K2]]].
  - destruct (L1 z Z) as [(u & U & F2)|[_ [K1 K2]]]; [left; exists u; split; [exact U|congruence]|right]. exists h1, h2. split; [reflexivity|]. left. split; [rewrite (face_handle _ _ F); exact K1|].
    eapply from_field; [exact N1|]. intros ty'. rewrite (face_field _ _ _ F), K2. apply Fp.
  - right. exists h1, h2. split; [reflexivity|]. right. split; [exact K1|]. eapply from_field; [exact N2|]. intros ty'. rewrite K2. apply Fq.
Qed.
(** The calls that make one object from a template. *)
Lemma step_born rnd s c s' o h t : inv s -> makes c = Some (h, t) -> (forall ho, c <> OCopyObject h ho t) -> step w rnd s c = Ok (s', o) -> newer (born o t) s s'.
Proof.
  intros I M NC H. destruct c; try discriminate M; injection M as -> ->; cbn [step] in H; unfold with_sess, need_lib in H; (destruct (0 <? _)%Z; [|injection H as <- _; apply newer_same; reflexivity]);
      (destruct (sess_get s _) as [x|] eqn:G; [|injection H as <- _; apply newer_same; reflexivity]); pose proof (proj1 (sess_get_in _ _ _ G)) as X.
  - unfold need_rw in H. destruct (is_rw x); [|injection H as <- _; apply newer_same; reflexivity]. eapply Create_born; eauto.
  - exfalso. eapply NC. reflexivity.
  - destruct aes; [|injection H as <- _; apply newer_same; reflexivity]. eapply GenKey_born; eauto.
  - unfold need_rw in H. destruct (is_rw x); [|injection H as <- _; apply newer_same; reflexivity]. destruct (zlen wrapped =? 0)%Z; [injection H as <- _; apply newer_same; reflexivity|].
    unfold with_object in H. destruct (find_obj s x hu); [|injection H as <- _; apply newer_same; reflexivity]. eapply Unwrap_born; eauto.
  - unfold with_object in H. destruct (find_obj s x hb); [|injection H as <- _; apply newer_same; reflexivity]. eapply Derive_born; eauto.
Qed.
(** A copy: the new object has the handle answered. *)
Lemma copy_born rnd s h ho t s' o : inv s -> step w rnd s (OCopyObject h ho t) = Ok (s', o) -> newer (fun ob => o = OutH CKR_OK (o_handle ob)) s s'.
Proof.
  intros V H. cbn [step] in H. unfold with_sess, need_lib in H. destruct (0 <? _)%Z; [|injection H as <- _; apply newer_same; reflexivity].
  destruct (sess_get s _) as [x|] eqn:G; [|injection H as <- _; apply newer_same; reflexivity]. pose proof (proj1 (sess_get_in _ _ _ G)) as X.
  unfold need_rw in H. destruct (is_rw x); [|injection H as <- _; apply newer_same; reflexivity]. unfold with_object in H. destruct (find_obj s x ho) as [src|]; [|injection H as <- _; apply newer_same; reflexivity].
  unfold Copy in H. destruct (CopyObject _ _ _ _ _) as [[[rv t1] [[b ob]|]]| |] eqn:C; cbn [bind] in H; try discriminate.
  - destruct (AddToSession _ _ _ _ _ _) as [[[c h1] s1]| |] eqn:A; cbn [bind] in H; try discriminate. injection H as <- <-. apply (newer_bump _ s 1).
    intros y Y. destruct (add_like _ (bump s 1) _ _ _ _ _ _ (inv_uniq s V) X A y Y) as [K|[-> [K1 _]]]; [left; exact K|right]. rewrite K1. reflexivity.
  - unfold rv_ in H. injection H as <- <-. apply newer_same. reflexivity.
Qed.
End W.
