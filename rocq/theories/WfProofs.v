(** The values held by the library stay within what the C types allow. *)
From Verif Require Import Base Codec CodecProofs Ops Object ObjectProofs Store StoreSpec StoreProofs Sys SysProofs SysProofs2 SysProofs3 SysProofs4.

Definition u64r (z : Z) : Prop := (0 <= z < 2^64)%Z.
Definition u32r (z : Z) : Prop := (0 <= z < 2^32)%Z.
Definition oinv (o : obj) : Prop :=
  length (o_iv o) = 12%nat /\ length (o_start o) = 8%nat /\ length (o_end o) = 8%nat /\
  u64r (o_type o) /\ u64r (o_class o) /\ u64r (o_handle o) /\ u64r (o_kgm o) /\ u32r (o_flag o) /\ u32r (o_opFlag o).
Definition pinv (p : pin) : Prop :=
  length (p_hash p) = 32%nat /\ (0 <= p_len p <= 32)%Z /\ length (p_seed p) = 16%nat.

Lemma u64_r z : u64r (u64 z).
Proof. unfold u64r, u64. apply Z.mod_pos_bound. reflexivity. Qed.
Lemma land_low z n : (0 <= n)%Z -> (0 <= z < 2 ^ n)%Z -> Z.land z (Z.ones n) = z.
Proof. intros Hn H. rewrite Z.land_ones by exact Hn. apply Z.mod_small. exact H. Qed.
Lemma lor_u32 a b : u32r a -> u32r b -> u32r (Z.lor a b).
Proof.
  unfold u32r. intros A B. split; [apply Z.lor_nonneg; lia|].
  assert (E : Z.lor a b = Z.land (Z.lor a b) (Z.ones 32)).
  { rewrite Z.land_lor_distr_l, !land_low by lia. reflexivity. }
  rewrite E, Z.land_ones by lia. apply Z.mod_pos_bound. lia.
Qed.
Lemma ldiff_u32 a b : u32r a -> u32r (Z.ldiff a b).
Proof.
  unfold u32r. intros A. split; [apply Z.ldiff_nonneg; lia|].
  assert (E : Z.ldiff a b = Z.land (Z.ldiff a b) (Z.ones 32)).
  { rewrite !Z.ldiff_land. rewrite <- Z.land_assoc, (Z.land_comm _ (Z.ones 32)), Z.land_assoc, land_low by lia. reflexivity. }
  rewrite E, Z.land_ones by lia. apply Z.mod_pos_bound. lia.
Qed.
Lemma put_flag_u32 a f b : u32r a -> u32r f -> u32r (put_flag a f b).
Proof. unfold put_flag. destruct b; auto using lor_u32, ldiff_u32. Qed.
Lemma opflag_u32 ty f : set_opflag_of ty = Some f -> u32r f.
Proof. unfold set_opflag_of. repeat match goal with |- context [if ?b then _ else _] => destruct b end; intros [= <-]; vm_compute; split; congruence. Qed.
Lemma flag_u32 ty f : set_flag_of ty = Some f -> u32r f.
Proof. unfold set_flag_of. repeat match goal with |- context [if ?b then _ else _] => destruct b end; intros [= <-]; vm_compute; split; congruence. Qed.

(** ** Setting attributes *)
Lemma check_date a : (a_type a = CKA_START_DATE \/ a_type a = CKA_END_DATE) -> check_attr true a = CKR_OK -> length (v_bytes (a_val a)) = 8%nat.
Proof.
  intros T C. assert (K : kind_of (a_type a) = Some AK_date) by (destruct T as [-> | ->]; reflexivity).
  unfold check_attr in C. rewrite K in C. destruct (a_val a) as [b|n|b]; [|discriminate|].
  - cbn [v_len v_bytes] in *. destruct (zlen b =? 8)%Z eqn:E; [|discriminate]. apply Z.eqb_eq in E. unfold zlen in E. lia.
  - cbn [v_len] in C. discriminate.
Qed.
Lemma SetAttr_oinv o a c o' : check_attr true a = CKR_OK -> oinv o -> SetAttr o a = Ok (c, o') -> oinv o'.
Proof.
  intros C I H. unfold SetAttr in H. cbv zeta in H. destruct I as (I1 & I2 & I3 & I4 & I5 & I6 & I7 & I8 & I9).
  destruct (set_opflag_of (a_type a)) as [f|] eqn:F.
  { injection H as _ <-. apply opflag_u32 in F. unfold oinv. cbn. auto 20 using put_flag_u32. }
  destruct (set_flag_of (a_type a)) as [f|] eqn:F2.
  { injection H as _ <-. apply flag_u32 in F2. unfold oinv. cbn. auto 20 using put_flag_u32. }
  destruct (a_type a =? CKA_CLASS)%Z. { injection H as _ <-. unfold oinv. cbn. pose proof (u64_r (le (firstn 8 (v_bytes (a_val a))))). auto 20. }
  destruct (a_type a =? CKA_ID)%Z. { destruct (new_sval _ _) as [[c1 s1]| |]; cbn [bind] in H; try discriminate. injection H as _ <-. unfold oinv. cbn. auto 20. }
  destruct (a_type a =? CKA_LABEL)%Z. { destruct (new_sval _ _) as [[c1 s1]| |]; cbn [bind] in H; try discriminate. injection H as _ <-. unfold oinv. cbn. auto 20. }
  assert (I : oinv o) by (unfold oinv; auto 20).
  destruct (a_type a =? CKA_START_DATE)%Z eqn:T.
  { apply Z.eqb_eq in T. destruct (_ =? 8)%Z; injection H as _ <-; [|exact I]. pose proof (check_date a (or_introl T) C). unfold oinv. cbn. auto 20. }
  destruct (a_type a =? CKA_END_DATE)%Z eqn:T2.
  { apply Z.eqb_eq in T2. destruct (_ =? 8)%Z; injection H as _ <-; [|exact I]. pose proof (check_date a (or_intror T2) C). unfold oinv. cbn. auto 20. }
  repeat match type of H with (if ?b then _ else _) = _ => destruct b end; injection H as _ <-; exact I.
Qed.
Lemma set_loop_oinv t : forall o c o', check_attrs true t = CKR_OK -> oinv o -> set_loop o t = Ok (c, o') -> oinv o'.
Proof.
  induction t as [|a t IH]; intros o c o' C I H; cbn [set_loop check_attrs] in *; [injection H as _ <-; exact I|].
  destruct (check_attr true a =? CKR_OK)%Z eqn:E; [|rewrite C in E; discriminate]. apply Z.eqb_eq in E.
  destruct (SetAttr o a) as [[c1 o1]| |] eqn:S; cbn [bind] in H; try discriminate.
  pose proof (SetAttr_oinv _ _ _ _ E I S) as I1. destruct (_ =? _)%Z; [eapply IH; eauto|injection H as _ <-; exact I1].
Qed.
Lemma data_oinv o d : oinv o -> oinv (set_data o d).
Proof. intros I. exact I. Qed.
Lemma NoDup_app_disj (A : Type) (a b : list A) : NoDup (a ++ b) -> forall x, In x a -> In x b -> False.
Proof.
  induction a as [|y a IH]; cbn; intros N x I J; [contradiction|]. inversion N as [|? ? N1 N2]. subst. destruct I as [->|I].
  - apply N1, in_or_app. auto.
  - eapply IH; eauto.
Qed.
Section W.
Variable w : world.
Notation se := (w_se w).
Notation oe := (w_oe w).
Lemma SetKey_oinv o v c o' : oinv o -> SetKey oe o v = Ok (c, o') -> oinv o'.
Proof.
  intros I H. apply SetKey_frame in H as (d & n & ->). exact I.
Qed.
Lemma SetAV_oinv rw o t c o' : oinv o -> SetAttributeValue oe rw o t = Ok (c, o') -> oinv o'.
Proof.
  intros I H. unfold SetAttributeValue in H. destruct (negb rw); [injection H as _ <-; exact I|].
  cbv zeta in H. destruct (negb (_ =? CKR_OK)%Z) eqn:C; [injection H as _ <-; exact I|]. apply negb_false_iff, Z.eqb_eq in C.
  destruct (params_of o); [|injection H as _ <-; exact I]. destruct (param_vals t l); [|injection H as _ <-; exact I].
  destruct (SetKey _ _ _) as [[c1 o1]| |] eqn:K; cbn [bind] in H; try discriminate. apply (SetKey_oinv _ _ _ _ I) in K.
  destruct (_ =? _)%Z; [injection H as _ <-; exact K|]. destruct (negb _); [injection H as _ <-; exact K|].
  eapply set_loop_oinv; eauto.
Qed.
Lemma new_oinv u ty : u64r ty -> oinv (obj_new u ty).
Proof.
  intros T. unfold oinv. split; [reflexivity|]. split; [reflexivity|]. split; [reflexivity|]. split; [exact T|].
  change (o_class (obj_new u ty)) with 0%Z. change (o_handle (obj_new u ty)) with 0%Z. change (o_kgm (obj_new u ty)) with UNAVAILABLE.
  change (o_flag (obj_new u ty)) with 0%Z. change (o_opFlag (obj_new u ty)) with 0%Z. unfold u64r, u32r, UNAVAILABLE. lia.
Qed.
Lemma class_oinv o c : oinv o -> u64r c -> oinv (set_class o c).
Proof. unfold oinv. cbn. tauto. Qed.
Lemma NewObject_oinv rw u ty cl t rv o : u64r ty -> u64r cl -> NewObject oe rw u ty cl t = Ok (rv, Some o) -> oinv o.
Proof.
  intros T C H. unfold NewObject in H. destruct (SetAttributeValue _ _ _ _) as [[c o1]| |] eqn:S; cbn [bind] in H; try discriminate.
  destruct (_ =? _)%Z; [|discriminate]. injection H as _ <-. eapply SetAV_oinv; [|exact S]. apply class_oinv; [apply new_oinv|]; assumption.
Qed.
Lemma mem_In x l : mem x l = true -> In x l.
Proof. unfold mem. intros H. apply existsb_exists in H as (y & I & E). apply Z.eqb_eq in E. subst. exact I. Qed.
Lemma ulong_r a v : tmpl_ulong a = Some v -> u64r v.
Proof. unfold tmpl_ulong. destruct (a_val a); try discriminate. destruct (_ =? 8)%Z; [|discriminate]. intros [= <-]. apply u64_r. Qed.
Lemma CreateObject_oinv rw u t rv o : CreateObject oe rw u t = Ok (rv, Some o) -> oinv o.
Proof.
  unfold CreateObject. intros H.
  assert (G : forall cls, u64r cls ->
    (let '(ty, good) := if (cls =? CKO_CERTIFICATE)%Z then (CKA_CERTIFICATE_TYPE, [0; 1; 2]%Z)
      else (CKA_KEY_TYPE, [CKK_RSA; CKK_EC; CKK_DH; CKK_AES; CKK_GENERIC_SECRET]) in
    match find_last t ty with
    | None => Ok (CKR_TEMPLATE_INCOMPLETE, None)
    | Some a => match tmpl_ulong a with
                | None => Ok (CKR_ATTRIBUTE_VALUE_INVALID, None)
                | Some k => if mem k good then NewObject oe rw u k cls t
                            else Ok (CKR_ATTRIBUTE_VALUE_INVALID, None)
                end
    end) = Ok (rv, Some o) -> oinv o).
  { clear H. intros cls C G. destruct (cls =? CKO_CERTIFICATE)%Z; cbv beta iota in G; (destruct (find_last t _) as [a|]; [|discriminate]);
    (destruct (tmpl_ulong a) as [k|] eqn:K; [|discriminate]); (destruct (mem k _); [|discriminate]);
    apply ulong_r in K; exact (NewObject_oinv _ _ _ _ _ _ _ K C G). }
  cbv zeta in H. destruct (find_last t CKA_CLASS) as [a|]; [|apply (G UNAVAILABLE); [vm_compute; split; congruence|exact H]].
  destruct (tmpl_ulong a) as [k|] eqn:K; [|discriminate]. apply (G k); [apply (ulong_r _ _ K)|exact H].
Qed.
Lemma CopyObject_oinv rw u src t rv t1 b o : CopyObject oe rw u src t = Ok (rv, t1, Some (b, o)) -> oinv o.
Proof.
  unfold CopyObject. intros H. destruct (tmpl_token t); [|discriminate].
  destruct (GetAttributeValue _ _ _) as [[rv1 t2]| |]; cbn [bind] in H; try discriminate. destruct (negb _); [discriminate|].
  destruct (SetAttributeValue _ _ _ _) as [[c o1]| |] eqn:S; cbn [bind] in H; try discriminate.
  destruct (_ =? _)%Z eqn:C; [|discriminate]. apply Z.eqb_eq in C. injection H as _ _ _ <-.
  eapply SetAV_oinv; [|exact S]. apply new_oinv.
  unfold SetAttributeValue in S. destruct (negb rw); [injection S as <- _; discriminate|]. cbv zeta in S.
  destruct (negb (_ =? CKR_OK)%Z) eqn:C2; [rewrite <- C in C2; injection S as S _; rewrite S, Z.eqb_refl in C2; discriminate|].
  destruct (params_of (obj_new u (o_type src))) eqn:P; [|injection S as <- _; discriminate].
  unfold params_of in P. change (o_class (obj_new u (o_type src))) with 0%Z in P. change (0 =? CKO_CERTIFICATE)%Z with false in P. cbv iota in P.
  change (o_type (obj_new u (o_type src))) with (o_type src) in P.
  destruct (o_type src =? CKK_RSA)%Z eqn:E1. { apply Z.eqb_eq in E1. rewrite E1. vm_compute. split; congruence. }
  destruct (o_type src =? CKK_EC)%Z eqn:E2. { apply Z.eqb_eq in E2. rewrite E2. vm_compute. split; congruence. }
  destruct (o_type src =? CKK_DH)%Z eqn:E3. { apply Z.eqb_eq in E3. rewrite E3. vm_compute. split; congruence. }
  destruct (o_type src =? CKK_AES)%Z eqn:E4. { apply Z.eqb_eq in E4. rewrite E4. vm_compute. split; congruence. }
  destruct (o_type src =? CKK_GENERIC_SECRET)%Z eqn:E5. { apply Z.eqb_eq in E5. rewrite E5. vm_compute. split; congruence. }
  discriminate.
Qed.
Lemma made_oinv o : made w o -> oinv o.
Proof.
  induction 1 as [rw u t rv o E|rw u ty cl t rv o E I|rw u src t rv t1 b o E|o l b k M IH E|m p q g p' q' M1 I1 M2 I2 E|m p q g p' q' M1 I1 M2 I2 E|o r M IH|o sec c o' M IH E].
  - eapply CreateObject_oinv; eauto.
  - eapply NewObject_oinv; [| |exact E]; cbn in I; repeat (destruct I as [I|I]; [injection I as <- <-; vm_compute; split; congruence|]); contradiction.
  - eapply CopyObject_oinv; eauto.
  - apply data_oinv, IH.
  - destruct m; cbn in E; unfold RsaGen, EcGen, DhGen in E; sinv; unfold oinv in *; cbn -[u64r u32r] in *; intuition; unfold u64r; lia.
  - destruct m; cbn in E; unfold RsaGen, EcGen, DhGen in E; sinv; unfold oinv in *; cbn -[u64r u32r] in *; intuition; unfold u64r; lia.
  - apply data_oinv, IH.
  - apply SetSecretKey_frame in E as (d & ->). apply data_oinv, IH.
Qed.

(** ** Storing *)
Lemma oinv_ident o o' : ident o' = ident o -> oinv o -> oinv o'.
Proof. intros E I. change (oinv (ident o')). rewrite E. exact I. Qed.
Lemma oinv_idents l l' : map ident l' = map ident l -> Forall oinv l -> Forall oinv l'.
Proof.
  revert l'. induction l as [|o l IH]; intros [|o' l'] E F; try discriminate; constructor; inversion F as [|? ? Fo Fl]; subst;
    pose proof (f_equal (fun q => hd (ident o) q) E) as E1; pose proof (f_equal (@tl _) E) as E2; cbn [map hd tl] in E1, E2.
  - eapply oinv_ident; eauto.
  - apply IH; auto.
Qed.
Lemma rbytes_len n l : length (rbytes n l) = n.
Proof. unfold rbytes. rewrite firstn_length, app_length. unfold zeros. rewrite repeat_length. lia. Qed.
Lemma store_kd_iv key f o c o' ws : store_kd se key f o = Ok (c, o', ws) -> o_iv o' = o_iv o.
Proof.
  unfold store_kd. intros H. destruct (o_keyData o); cbn [bind] in H; [sinv; reflexivity|]. 
  destruct (EncodeKey _ _ _) as [[c1 o1]| |] eqn:E; cbn [bind] in H; try discriminate. apply EncodeKey_iv in E. sinv; exact E.
Qed.
Lemma store_key_iv key id o c o' ws : store_key se key id o = Ok (c, o', ws) -> o_iv o' = o_iv o.
Proof.
  unfold store_key. intros H. destruct (is_cert o); [sinv; reflexivity|]. destruct (key_kind o); [|sinv; reflexivity].
  destruct (_ =? _)%Z; [|eapply store_kd_iv; eauto].
  destruct (store_kd _ _ _ _) as [[[c1 o1] ws1]| |] eqn:E; cbn [bind] in H; try discriminate. apply store_kd_iv in E. sinv; exact E.
Qed.
Lemma store_obj_oinv key r id o c o' ws : oinv o -> store_obj se key r id o = Ok (c, o', ws) -> oinv o'.
Proof.
  intros I H. unfold store_obj in H. destruct (obj_header o); cbn [bind] in H; try discriminate. cbv zeta in H.
  match type of H with context [store_key se key id ?q] => set (o1 := q) in H end.
  assert (I1 : oinv o1).
  { unfold o1. destruct (o_keyData o); [exact I|]. destruct (orb _ _); [|exact I]. unfold oinv in *. cbn -[rbytes u64r u32r]. rewrite rbytes_len. tauto. }
  destruct (store_key _ _ _ _) as [[[c2 o2] ws2]| |] eqn:K; cbn [bind] in H; try discriminate. injection H as _ <- _.
  eapply oinv_ident; [|exact I1]. apply core_ident; [eapply store_key_core; eauto|eapply store_key_iv; eauto].
Qed.
Lemma store_objs_oinv key r l : forall c l' ws, Forall oinv l -> store_objs se key r l = Ok (c, l', ws) -> Forall oinv l' /\ length l' = length l.
Proof.
  induction l as [|o l IH]; cbn [store_objs]; intros c l' ws F H; [injection H as _ <- _; auto|]. inversion F as [|? ? Fo Fl]. subst.
  destruct (store_obj _ _ _ _ _) as [[[c1 o1] ws1]| |] eqn:S; cbn [bind] in H; try discriminate. apply (store_obj_oinv _ _ _ _ _ _ _ Fo) in S.
  destruct (negb _); [injection H as _ <- _; auto|].
  destruct (store_objs _ _ _ _) as [[[c2 r1] ws2]| |] eqn:R; cbn [bind] in H; try discriminate. injection H as _ <- _.
  edestruct IH as [A B]; [exact Fl|reflexivity|]. split; [constructor; auto|cbn; lia].
Qed.

(** ** The token *)
Definition ginv (t : token) : Prop :=
  length (t_label t) = 32%nat /\ pinv (t_so t) /\ pinv (t_user t) /\ length (t_seed t) = 16%nat /\
  (zlen (t_objs t) < 2^31)%Z /\ Forall oinv (t_objs t).
Lemma store_ginv rnd s c s' : ginv (s_tok s) -> store w rnd s = Ok (c, s') -> ginv (s_tok s').
Proof.
  unfold store, Token_Store. intros (G1 & G2 & G3 & G4 & G5 & G6) H. destruct (tok_header _); cbn [bind] in H; try discriminate.
  destruct (store_objs _ _ _ _) as [[[c2 r1] ws2]| |] eqn:R; cbn [bind] in H; try discriminate. injection H as _ <-.
  apply (store_objs_oinv _ _ _ _ _ _ G6) in R as [R1 R2]. unfold ginv, zlen in *. cbn. rewrite R2. auto 10.
Qed.
Lemma remove_Forall (P : obj -> Prop) u l : Forall P l -> Forall P (remove_uid u l) /\ (length (remove_uid u l) <= length l)%nat.
Proof.
  induction 1 as [|o l H F [IH1 IH2]]; cbn; [auto|]. destruct (_ =? _)%nat; split; auto; cbn; lia.
Qed.
Lemma ginv_objs t l : ginv t -> Forall oinv l -> (zlen l < 2^31)%Z -> ginv (set_objs t l).
Proof. unfold ginv. cbn. tauto. Qed.
Lemma ginv_idents t t' : ginv t -> t_label t' = t_label t -> t_so t' = t_so t -> t_user t' = t_user t -> t_seed t' = t_seed t ->
  map ident (t_objs t') = map ident (t_objs t) -> ginv t'.
Proof.
  intros (G1 & G2 & G3 & G4 & G5 & G6) E1 E2 E3 E4 E5. unfold ginv. rewrite E1, E2, E3, E4.
  assert (L : length (t_objs t') = length (t_objs t)) by (rewrite <- (map_length ident), E5, map_length; reflexivity).
  unfold zlen in *. rewrite L. pose proof (oinv_idents _ _ E5 G6). auto 10.
Qed.
Lemma upd_oinv l o : Forall oinv l -> oinv o -> Forall oinv (upd_objs l o) /\ length (upd_objs l o) = length l.
Proof.
  intros F I. unfold upd_objs. split; [|apply map_length]. apply Forall_map. eapply Forall_impl; [|exact F]. cbn. intros y Y. destruct (_ =? _)%nat; auto.
Qed.
Lemma upd_absent l o : ~ In (o_uid o) (uids l) -> upd_objs l o = l.
Proof.
  unfold upd_objs. induction l as [|y l IH]; cbn; intros N; [reflexivity|]. destruct (o_uid y =? o_uid o)%nat eqn:E.
  - apply Nat.eqb_eq in E. exfalso. apply N. auto.
  - rewrite IH; auto.
Qed.
Lemma prim_ginv cl h s s' : inv s -> ginv (s_tok s) -> prim w cl h s s' -> ginv (s_tok s').
Proof.
  intros I G P. destruct P as [s x x' X U Hx Hx' Us Ob|s n|s x rnd c s' X R Hx St|s x o X R Hx Q Ul Uf Ho Ot M|s x b o X R Hx Q Ul Uf Nb Ho Ot M|s x o X R Hx Io|s x o X R Hx Io Ot|s x o o' X R Hx Io Sid M].
  - exact G.
  - exact G.
  - eapply store_ginv; eauto.
  - exact G.
  - destruct M as (o1 & o2 & M & E & ->). apply made_oinv in M. apply Encode_ident in E.
    cbn [set_tok s_tok]. apply ginv_objs; [exact G| |unfold zlen, TOK_OBJ_MAX in *; cbn [length]; lia]. constructor; [|apply G].
    assert (I2 : oinv o2) by (eapply oinv_ident; [exact E|exact M]). unfold oinv in *. cbn.
    assert (u64r (next_handle (t_objs (s_tok s)) b)); [|tauto]. unfold next_handle, obj_handle. destruct (t_objs (s_tok s)); apply u64_r.
  - exact G.
  - cbn. destruct G as (G1 & G2 & G3 & G4 & G5 & G6). destruct (remove_Forall _ (o_uid o) _ G6) as [A B].
    unfold ginv, zlen in *. cbn. assert ((Z.of_nat (length (remove_uid (o_uid o) (t_objs (s_tok s)))) < 2^31)%Z) by lia. auto 10.
  - destruct M as (ho & t & rv & _ & _ & M). cbn [put_obj set_sess set_tok s_tok]. apply in_app_or in Io. destruct Io as [Io|Io].
    + assert (O : oinv o) by (destruct G as (_ & _ & _ & _ & _ & F); rewrite Forall_forall in F; auto).
      apply (SetAV_oinv _ _ _ _ _ O) in M. destruct (upd_oinv (t_objs (s_tok s)) o') as [A B]; [apply G|exact M|].
      apply ginv_objs; auto. unfold zlen. rewrite B. apply G.
    + rewrite upd_absent; [apply ginv_objs; [exact G|apply G|apply G]|].
      destruct Sid as (-> & _). intros J. destruct I as (_ & _ & [ND _] & _). unfold live in ND. rewrite uids_app in ND.
      apply (NoDup_app_disj _ _ _ ND (o_uid o) J). apply in_map. clear - X Io. induction (s_sess s) as [|y l IH]; [contradiction|].
      cbn. apply in_or_app. destruct X as [->|X]; auto.
Qed.
Lemma prims_ginv cl h s s' : inv s -> ginv (s_tok s) -> prims w cl h s s' -> ginv (s_tok s').
Proof.
  intros I G P. induction P as [s|s s1 s2 P Ps IH]; [exact G|]. apply IH; [eapply prim_inv; eauto|eapply prim_ginv; eauto].
Qed.

(** ** Loading *)
Lemma r_be_conv conv a b l : exists z, r_be conv (a :: b :: l) = conv z.
Proof.
  cbn [r_be fold_left]. generalize (conv (Z.of_N a * 256) + Z.of_N b)%Z. clear a b.
  induction l as [|x l IH]; intros z; cbn [fold_left]; [eauto|]. apply IH.
Qed.
Lemma ulong_range f v r : r_ulong f = Ok (v, r) -> u64r v.
Proof.
  unfold r_ulong. destruct (st_read 8 f) as [[n f']| |] eqn:E; cbn [bind]; try discriminate. apply st_read_ok in E as [_ L].
  intros [= <- _]. unfold zlen in L. destruct n as [|a [|b l]]; [cbn in L; lia|cbn in L; lia|]. destruct (r_be_conv u64 a b l) as [z ->]. apply u64_r.
Qed.
Lemma word32_range f v r : r_word32 f = Ok (v, r) -> u32r v.
Proof.
  unfold r_word32. destruct (st_read 4 f) as [[n f']| |] eqn:E; cbn [bind]; try discriminate.
  intros [= <- _]. unfold u32r, u32. apply Z.mod_pos_bound. reflexivity.
Qed.
Lemma i32_range z : (- 2^31 <= i32 z < 2^31)%Z.
Proof. unfold i32. pose proof (Z.mod_pos_bound z (2^32) eq_refl). cbv zeta. destruct (_ <? _)%Z eqn:E; lia. Qed.
Lemma i64_range z : (- 2^63 <= i64 z < 2^63)%Z.
Proof. unfold i64. pose proof (Z.mod_pos_bound z (2^64) eq_refl). cbv zeta. destruct (_ <? _)%Z eqn:E; lia. Qed.
Lemma int_range f v r : r_int f = Ok (v, r) -> (- 2^31 <= v < 2^31)%Z.
Proof.
  unfold r_int. destruct (st_read 4 f) as [[n f']| |] eqn:E; cbn [bind]; try discriminate. apply st_read_ok in E as [_ L].
  intros [= <- _]. unfold zlen in L. destruct n as [|a [|b l]]; [cbn in L; lia|cbn in L; lia|]. destruct (r_be_conv i32 a b l) as [z ->]. apply i32_range.
Qed.
Lemma time_range f v r : r_time f = Ok (v, r) -> (- 2^63 <= v < 2^63)%Z.
Proof.
  unfold r_time. destruct (st_read 8 f) as [[n f']| |] eqn:E; cbn [bind]; try discriminate. apply st_read_ok in E as [_ L].
  intros [= <- _]. unfold zlen in L. destruct n as [|a [|b l]]; [cbn in L; lia|cbn in L; lia|]. destruct (r_be_conv i64 a b l) as [z ->]. apply i64_range.
Qed.
Lemma fixed_len n f b r : r_fixed (Z.of_nat n) f = Ok (b, r) -> length b = n.
Proof. unfold r_fixed. intros H. apply st_read_ok in H as [_ L]. unfold zlen in L. lia. Qed.
Ltac rd H f :=
  match type of H with
  | bind ?r _ = _ => let E := fresh "E" in destruct r as [[? ?]| |] eqn:E; cbn [bind] in H; try discriminate
  end.
Lemma read_pin_pinv f p r : read_pin f = Ok (p, r) -> pinv p /\ (- 2^31 <= p_fail p < 2^31)%Z /\ (- 2^63 <= p_last p < 2^63)%Z /\ (- 2^63 <= p_tmo p < 2^63)%Z.
Proof.
  unfold read_pin. intros H. rd H f. rd H f. rd H f. rd H f. rd H f. injection H as <- _.
  unfold r_array in E. destruct (r_word32 f) as [[len f1]| |] eqn:W; cbn [bind] in E; try discriminate.
  apply word32_range in W. destruct (32 <? len)%Z eqn:L; [discriminate|]. unfold u32r in W.
  rewrite i32_id in E by lia. apply st_read_ok in E as [_ E].
  apply (fixed_len 16) in E0. apply int_range in E1. apply time_range in E2. apply time_range in E3.
  split; [|auto]. unfold pinv. cbn [p_hash p_len p_seed]. split; [|split; [lia|exact E0]].
  unfold overlay, zeros. rewrite app_length, skipn_length, repeat_length. unfold zlen in E. lia.
Qed.
Lemma read_types_u64 n : forall f l r, read_types n f = Ok (l, r) -> Forall u64r l /\ length l = n.
Proof.
  induction n as [|n IH]; intros f l r H; cbn [read_types] in H; [injection H as <- _; auto|].
  rd H f. rd H f. injection H as <- _. apply ulong_range in E. apply IH in E0 as [A B]. split; [constructor; auto|cbn; lia].
Qed.
Lemma load_obj_oinv d uid ty id o : u64r ty -> load_obj se d uid ty id = Ok o -> oinv o.
Proof.
  intros T H. unfold load_obj in H. destruct (open_read d _) as [f| |]; cbn [bind] in H; try discriminate.
  destruct (read_obj_file uid ty f) as [[o1 f1]| |] eqn:R; cbn [bind] in H; try discriminate.
  assert (I : oinv o1).
  { unfold read_obj_file in R. clear H. do 12 rd R f. injection R as <- _.
    repeat match goal with
    | E : r_fixed 12 _ = _ |- _ => apply (fixed_len 12) in E
    | E : r_fixed 8 _ = _ |- _ => apply (fixed_len 8) in E
    | E : r_ulong _ = _ |- _ => apply ulong_range in E
    | E : r_word32 _ = _ |- _ => apply word32_range in E
    end. unfold oinv. cbn [o_iv o_start o_end o_type o_class o_handle o_kgm o_flag o_opFlag]. auto 20. }
  destruct (key_kind o1); [|discriminate]. destruct (open_read d _) as [kf| |]; cbn [bind] in H; try discriminate.
  destruct (read_key_file _ _ _) as [[o2 f2]| |] eqn:K; cbn [bind] in H; try discriminate. injection H as <-.
  unfold read_key_file in K. destruct (r_alloc kf) as [[kd f3]| |]; cbn [bind] in K; try discriminate. destruct (andb _ _).
  - destruct (r_alloc f3) as [[der f4]| |]; cbn [bind] in K; try discriminate. destruct (se_dh_dec _ _) as [c [p g]]. destruct (negb _); [discriminate|].
    injection K as <- _. exact I.
  - injection K as <- _. exact I.
Qed.
Lemma load_objs_oinv d l : forall uid r, Forall u64r l -> load_objs se d uid l = Ok r -> Forall oinv r /\ length r = length l.
Proof.
  induction l as [|ty l IH]; cbn [load_objs]; intros uid r F H; [injection H as <-; auto|]. inversion F as [|? ? Ft Fl]. subst.
  destruct (load_obj _ _ _ _ _) as [o| |] eqn:O; cbn [bind] in H; try discriminate. destruct (load_objs _ _ _ _) as [r1| |] eqn:R; cbn [bind] in H; try discriminate.
  injection H as <-. apply load_obj_oinv in O; auto. apply IH in R as [A B]; auto. split; [constructor; auto|cbn; lia].
Qed.
Lemma pin0_pinv : pinv pin0.
Proof. unfold pinv. cbn. lia. Qed.
Lemma pin0_fits : fits_pin pin0.
Proof. unfold fits_pin. cbn. lia. Qed.
Lemma Token_Load_ginv d uid t : Token_Load se d uid = Ok t -> ginv t /\ fits_pin (t_so t) /\ fits_pin (t_user t).
Proof.
  assert (Z : forall b, let t := mkTok (zeros 32) b pin0 pin0 (zeros 16) (zeros 32) RW_PUBLIC [] in ginv t /\ fits_pin (t_so t) /\ fits_pin (t_user t)).
  { intros b. cbv zeta. split; [|split; apply pin0_fits]. split; [reflexivity|]. split; [apply pin0_pinv|]. split; [apply pin0_pinv|]. split; [reflexivity|]. split; [reflexivity|constructor]. }
  unfold Token_Load. destruct (d (F_TOKEN, 0%nat)) as [f|]; [|intros [= <-]; apply (Z false)].
  destruct (load_all se d uid f) as [t1|e|] eqn:L; [|intros [= <-]; apply (Z true)|discriminate]. intros [= <-].
  unfold load_all in L. destruct (read_tok_file f) as [[tf f1]| |] eqn:R; cbn [bind] in L; try discriminate.
  destruct (load_objs _ _ _ _) as [l| |] eqn:O; cbn [bind] in L; try discriminate. injection L as <-.
  unfold read_tok_file in R. do 6 rd R f. injection R as <- _. cbn [tf_types] in O.
  match goal with E : r_fixed 32 _ = _ |- _ => apply (fixed_len 32) in E end.
  match goal with E : r_fixed 16 _ = _ |- _ => apply (fixed_len 16) in E end.
  match goal with E : r_int _ = _ |- _ => apply int_range in E end.
  match goal with E : read_types _ _ = _ |- _ => apply read_types_u64 in E as [T1 T2] end.
  repeat match goal with E : read_pin _ = _ |- _ => apply read_pin_pinv in E as [? ?] end.
  apply load_objs_oinv in O as [O1 O2]; [|exact T1].
  unfold ginv, fits_pin. cbn [t_label t_so t_user t_seed t_objs tf_label tf_so tf_user tf_seed].
  assert (ZL : (zlen l < 2^31)%Z) by (unfold zlen; rewrite O2, T2; lia). auto 20.
Qed.

(** ** Every call *)
Variable h32 : forall p s, length (se_hash se p s) = 32%nat.
Lemma hash_pinv p sd n a b : length sd = 16%nat -> pinv (mkPin (se_hash se p sd) 32 sd n a b).
Proof. intros L. unfold pinv. cbn. rewrite h32. lia. Qed.
Lemma pinv_same p q : p_hash p = p_hash q -> p_len p = p_len q -> p_seed p = p_seed q -> pinv q -> pinv p.
Proof. unfold pinv. intros -> -> ->. auto. Qed.
Lemma lock_check_pin p n q : lock_check p n = Some q -> pinv p -> pinv q.
Proof.
  unfold lock_check. destruct (_ =? _)%Z; [|intros [= <-]; auto]. destruct (_ <? _)%Z; [|discriminate]. intros [= <-]. apply pinv_same; reflexivity.
Qed.
Lemma count_fail_pinv p n t : pinv p -> pinv (count_fail p n t).
Proof. unfold count_fail. cbv zeta. destruct (_ =? _)%Z; apply pinv_same; reflexivity. Qed.
Lemma reset_fail_pinv p : pinv p -> pinv (reset_fail p).
Proof. apply pinv_same; reflexivity. Qed.
Lemma ginv_so t p : ginv t -> pinv p -> ginv (set_so t p).
Proof. unfold ginv. cbn. tauto. Qed.
Lemma ginv_user t p : ginv t -> pinv p -> ginv (set_user t p).
Proof. unfold ginv. cbn. tauto. Qed.
Lemma ginv_key t k : ginv t -> ginv (set_key t k).
Proof. unfold ginv. cbn. tauto. Qed.
Lemma ginv_seed t k : ginv t -> length k = 16%nat -> ginv (set_seed t k).
Proof. unfold ginv. cbn. tauto. Qed.
Lemma ginv_login t k : ginv t -> ginv (set_login t k).
Proof. unfold ginv. cbn. tauto. Qed.
Lemma SOLogin_ginv l t a n c t' : ginv t -> SOLogin w l t a n = (c, t') -> ginv t'.
Proof.
  intros G H. unfold SOLogin in H. destruct n as [n|]; [|injection H as _ <-; exact G]. destruct (logged_in _); [injection H as _ <-; exact G|].
  destruct (lock_check (t_so t) n) as [p|] eqn:L; [|injection H as _ <-; exact G]. apply lock_check_pin in L; [|apply G]. cbv zeta in H.
  destruct (existsb _ _); [injection H as _ <-; auto using ginv_so|].
  destruct (_ =? _)%Z; [injection H as _ <-; auto using ginv_so, count_fail_pinv|].
  destruct (_ =? _)%Z; injection H as _ <-; auto using ginv_so, ginv_login, reset_fail_pinv.
Qed.
Lemma UserLogin_ginv t a n c t' : ginv t -> UserLogin w t a n = Ok (c, t') -> ginv t'.
Proof.
  intros G H. unfold UserLogin in H. destruct n as [n|]; [|injection H as _ <-; exact G]. destruct (logged_in _); [injection H as _ <-; exact G|].
  destruct (lock_check (t_user t) n) as [p|] eqn:L; [|injection H as _ <-; exact G]. apply lock_check_pin in L; [|apply G]. cbv zeta in H.
  destruct (_ =? _)%Z; [injection H as _ <-; auto using ginv_user, count_fail_pinv|].
  destruct (_ =? _)%Z; [|injection H as _ <-; auto using ginv_user].
  destruct (decode_all _ _ _) as [[c2 l]| |] eqn:D; cbn [bind] in H; try discriminate. apply decode_all_ident in D as [D _].
  match type of D with map ident l = map ident (t_objs ?q) => assert (G2 : ginv q) by auto using ginv_key, ginv_user, reset_fail_pinv end.
  match goal with G2 : ginv ?q |- _ => assert (G3 : ginv (set_objs q l)) by (apply (ginv_idents q); auto) end.
  destruct (_ =? _)%Z; injection H as _ <-; auto using ginv_login.
Qed.
Lemma Logout_ginv t t' : ginv t -> Logout w t = Ok t' -> ginv t'.
Proof.
  intros G H. unfold Logout in H. destruct (orb _ _); [|injection H as <-; auto using ginv_login].
  destruct (encode_all _ _ _) as [l| |] eqn:E; cbn [bind] in H; try discriminate. injection H as <-. apply encode_all_ident in E.
  apply ginv_login, (ginv_idents t); auto.
Qed.
Lemma fresh_ginv : ginv tok_fresh.
Proof. split; [reflexivity|]. split; [apply pin0_pinv|]. split; [apply pin0_pinv|]. split; [reflexivity|]. split; [reflexivity|constructor]. Qed.
Lemma SetSOPin_ginv rnd s new c s' : ginv (s_tok s) -> SetSOPin w rnd s new = Ok (c, s') -> ginv (s_tok s').
Proof. intros G H. unfold SetSOPin in H. eapply store_ginv; [|exact H]. cbn [set_tok s_tok]. apply ginv_so; [exact G|]. apply hash_pinv, rbytes_len. Qed.
Lemma SetUserPin_ginv rnd s new c s' : ginv (s_tok s) -> SetUserPin w rnd s new = Ok (c, s') -> ginv (s_tok s').
Proof.
  intros G H. unfold SetUserPin in H. eapply store_ginv; [|exact H]. cbn [set_tok s_tok].
  apply ginv_key, ginv_seed; [|apply rbytes_len]. apply ginv_user; [exact G|]. apply hash_pinv, rbytes_len.
Qed.
Lemma step_ginv rnd s c s' o : inv s -> ginv (s_tok s) -> step w rnd s c = Ok (s', o) -> ginv (s_tok s').
Proof.
  intros I G H. destruct (objop c) as [h|] eqn:O.
  { eapply prims_ginv; [exact I|exact G|]. eapply objop_prims; eauto. }
  destruct c; try discriminate O; cbn [step] in H; unfold with_slot, with_sess, need_lib in H.
  - unfold Initialize in H. destruct (_ =? 0)%Z; [|injection H as <- _; exact G].
    destruct (Token_Load _ _ _) as [t| |] eqn:L; cbn [bind] in H; try discriminate. injection H as <- _. apply Token_Load_ginv in L as [L _]. exact L.
  - unfold Finalize in H. destruct (_ =? 0)%Z; [|injection H as <- _; exact G]. sinv. apply fresh_ginv.
  - injection H as <- _. apply fresh_ginv.
  - destruct (0 <? _)%Z; [|sinv; exact G]. destruct (slot_ok slot); [|sinv; exact G]. unfold InitToken in H.
    repeat match type of H with (if ?b then rv_ _ _ else _) = _ => destruct b; [sinv; exact G|] end.
    destruct (TokenReset _ _ _ _ _) as [[c s1]| |] eqn:T; cbn [bind] in H; try discriminate. unfold rv_ in H. injection H as <- _.
    unfold TokenReset in T. destruct (free_all _); cbn [bind] in T; try discriminate. destruct (zlen label <? 32)%Z eqn:LL; [discriminate|].
    eapply SetSOPin_ginv; [|exact T]. cbn [set_tok s_tok]. split; [cbn [tok_init t_label]; rewrite firstn_length; unfold zlen in LL; lia|].
    split; [apply pin0_pinv|]. split; [apply pin0_pinv|]. split; [reflexivity|]. split; [reflexivity|constructor].
  - destruct (0 <? _)%Z; [|sinv; exact G]. destruct (sess_get s h); [|sinv; exact G]. unfold InitPIN in H.
    repeat match type of H with (if ?b then rv_ _ _ else _) = _ => destruct b; [sinv; exact G|] end.
    destruct (SetUserPin _ _ _ _) as [[c s1]| |] eqn:T; cbn [bind] in H; try discriminate. unfold rv_ in H. injection H as <- _.
    eapply SetUserPin_ginv; eauto.
  - destruct (0 <? _)%Z; [|sinv; exact G]. destruct (sess_get s h); [|sinv; exact G]. unfold SetPIN in H. cbv zeta in H.
    repeat match type of H with (if ?b then rv_ _ _ else _) = _ => destruct b; [sinv; exact G|] end.
    match type of H with bind ?r _ = _ => destruct r as [[c s1]| |] eqn:T end; cbn [bind] in H; try discriminate.
    unfold rv_ in H. injection H as <- _. destruct (_ =? _)%Z; [eapply SetSOPin_ginv; eauto|eapply SetUserPin_ginv; eauto].
  - destruct (0 <? s_count s)%Z eqn:Cn; [|sinv; exact G]. destruct (slot_ok slot); [|sinv; exact G]. 
    apply OpenSession_ok in H as [[-> _] | (l & x & P)]; [exact G| |exact I|lia]. cbv zeta in P. destruct P as (-> & _). exact G.
  - destruct (0 <? _)%Z; [|sinv; exact G]. destruct (sess_get s h) as [x|]; [|sinv; exact G]. unfold CloseSession in H.
    destruct (close_sess _ _) as [l| |]; cbn [bind] in H; try discriminate. destruct (existsb in_use l); [sinv; exact G|].
    destruct (Logout _ _) as [t| |] eqn:L; cbn [bind] in H; try discriminate. unfold rv_ in H. injection H as <- _. eapply Logout_ginv; eauto.
  - destruct (0 <? _)%Z; [|sinv; exact G]. destruct (slot_ok slot); [|sinv; exact G]. destruct (close_all _); cbn [bind] in H; try discriminate.
    unfold rv_ in H. injection H as <- _. exact G.
  - destruct (0 <? _)%Z; [|sinv; exact G]. destruct (sess_get s h) as [x|]; [|sinv; exact G]. unfold Login in H. destruct (negb _); [sinv; exact G|].
    destruct (ut =? CKU_SO)%Z; [|destruct (ut =? CKU_USER)%Z; [|destruct (ut =? CKU_CONTEXT_SPECIFIC)%Z; sinv; exact G]].
    + destruct (SOLogin _ _ _ _ _) as [c t] eqn:L. unfold rv_ in H. injection H as <- _. eapply SOLogin_ginv; eauto.
    + destruct (UserLogin _ _ _ _) as [[c t]| |] eqn:L; cbn [bind] in H; try discriminate. unfold rv_ in H. injection H as <- _. eapply UserLogin_ginv; eauto.
  - destruct (0 <? _)%Z; [|sinv; exact G]. destruct (sess_get s h) as [x|]; [|sinv; exact G].
    destruct (Logout _ _) as [t| |] eqn:L; cbn [bind] in H; try discriminate. unfold rv_ in H. injection H as <- _. eapply Logout_ginv; eauto.
  - destruct (0 <? _)%Z; [|sinv; exact G]. destruct (slot_ok slot); sinv; exact G.
Qed.
Theorem reach_ginv d s : reach w (sys0 d) s -> ginv (s_tok s).
Proof.
  intros R. assert (X : inv s /\ ginv (s_tok s)); [|apply X]. induction R as [|s rnd c s' o R IH H]; [split; [apply inv0|apply fresh_ginv]|].
  destruct IH as [I G]. split; [eapply step_inv; eauto|eapply step_ginv; eauto].
Qed.
End W.
