(** Which calls stay defined when the storage fails. *)
From Verif Require Import Base Codec Ops Object Store Sys SysProofs Fault FaultProofs FaultProofs2.
From Coq Require Import List Lia ZArith.
Import ListNotations.
Open Scope nat_scope.
Open Scope list_scope.

Section W.
Variable w : world.
Variable ft : faults.
Notation se := (w_se w).

(** Storing an object: the answer depends on the object without its IV, and on whether
    its key is encoded already. *)
Lemma core_is a b : core_obj a = core_obj b -> b = set_store a (o_iv b) (o_keyData b) (o_enc a).
Proof. destruct a, b. unfold core_obj, set_store. cbn. intros H. injection H; intros; subst. reflexivity. Qed.
Lemma enc_code key a iv kd c o : EncodeKey se key a = Ok (c, o) ->
  exists o', EncodeKey se key (set_store a iv kd (o_enc a)) = Ok (c, o') /\ core_obj o' = core_obj o /\
    ((c = 0)%Z -> o_keyData o <> None /\ o_keyData o' <> None).
Proof.
  intros E. set (b := set_store a iv kd (o_enc a)).
  assert (T : o_type b = o_type a) by reflexivity. assert (Sy : is_sym b = is_sym a) by reflexivity.
  assert (R : as_rsa b = as_rsa a) by reflexivity. assert (X : as_ec b = as_ec a) by reflexivity.
  assert (Y : as_dh b = as_dh a) by reflexivity. assert (Z : as_sym b = as_sym a) by reflexivity.
  assert (P : is_priv b = is_priv a) by reflexivity. assert (C : o_class b = o_class a) by reflexivity.
  unfold EncodeKey, enc_asym in *. rewrite T, Sy, R, X, Y, Z, P, C.
  destruct (o_type a =? CKK_RSA)%Z; [|destruct (o_type a =? CKK_EC)%Z; [|destruct (o_type a =? CKK_DH)%Z; [|destruct (is_sym a)]]].
  - destruct (as_rsa a) as [r| |]; cbn [bind] in *; try discriminate.
    destruct (if is_priv a then _ else _) as [k der]. destruct (k <? 0)%Z eqn:L.
    + injection E; intros; subst. eexists. split; [reflexivity|]. split; [reflexivity|]. intros ->. discriminate.
    + destruct (is_priv a); [|destruct (o_class a =? CKO_PUBLIC_KEY)%Z; [|discriminate]];
      injection E; intros; subst; eexists; (split; [reflexivity|]); (split; [reflexivity|]); split; discriminate.
  - destruct (as_ec a) as [r| |]; cbn [bind] in *; try discriminate.
    destruct (if is_priv a then _ else _) as [k der]. destruct (k <? 0)%Z eqn:L.
    + injection E; intros; subst. eexists. split; [reflexivity|]. split; [reflexivity|]. intros ->. discriminate.
    + destruct (is_priv a); [|destruct (o_class a =? CKO_PUBLIC_KEY)%Z; [|discriminate]];
      injection E; intros; subst; eexists; (split; [reflexivity|]); (split; [reflexivity|]); split; discriminate.
  - destruct (as_dh a) as [[[[p g] l] bb]| |]; cbn [bind] in *; try discriminate.
    destruct (take_buf l bb); cbn [bind] in *; try discriminate.
    injection E; intros; subst; eexists; (split; [reflexivity|]); (split; [reflexivity|]); split; discriminate.
  - destruct (as_sym a) as [[l bb]| |]; cbn [bind] in *; try discriminate.
    destruct (take_buf l bb); cbn [bind] in *; try discriminate.
    injection E; intros; subst; eexists; (split; [reflexivity|]); (split; [reflexivity|]); split; discriminate.
  - injection E; intros; subst. eexists. split; [reflexivity|]. split; [reflexivity|]. discriminate.
Qed.
Definition has (o : obj) : bool := match o_keyData o with Some _ => true | None => false end.
Definition defined {A} (r : res A) : Prop := match r with Undef _ => False | _ => True end.
Lemma zlen_u32 (b : list N) : (i32 (u32 (zlen b)) <= zlen b)%Z.
Proof.
  unfold i32, u32. assert (0 <= zlen b)%Z by (unfold zlen; lia).
  pose proof (Z.mod_le (zlen b) (2^32) H ltac:(lia)). destruct (_ <? _)%Z; lia.
Qed.
Lemma w_array_self b : defined (w_array b (zlen b)).
Proof.
  unfold w_array, st_write. destruct (_ <? 0)%Z; [exact I|].
  destruct (Z.ltb_spec (zlen b) (i32 (u32 (zlen b)))); [pose proof (zlen_u32 b); lia|]. exact I.
Qed.
(** [b] is [a] up to the IV; its key may have to be encoded when that of [a] has
    been. *)
Definition alike (key : list N) (b a : obj) : Prop :=
  core_obj b = core_obj a /\ (has b = true -> has a = true) /\
  (has b = false -> has a = true -> exists c o, EncodeKey se key a = Ok (c, o)) /\
  (forall h, obj_header a = Ok h -> defined (obj_header b)).
Lemma alike_refl key a : alike key a a.
Proof. repeat split; auto; [congruence|intros h ->; exact I]. Qed.

(** [r'] is defined if [r] is, and answers 0 only if [r] does. *)
Definition noless {A B C D} (r' : res (Z * A * B)) (r : res (Z * C * D)) : Prop :=
  forall c x y, r = Ok (c, x, y) -> match r' with Ok (c', _, _) => (c' = 0 -> c = 0)%Z | Err _ => True | Undef _ => False end.
Lemma has_iv o iv : has (set_store o iv (o_keyData o) (o_enc o)) = has o.
Proof. reflexivity. Qed.
Lemma store_kd_noless key f f' a b : core_obj b = core_obj a -> (has b = true -> has a = true) ->
  (has b = false -> has a = true -> exists c o, EncodeKey se key a = Ok (c, o)) ->
  noless (store_kd se key f' b) (store_kd se key f a) /\
  (forall c o ws c' o' ws', store_kd se key f a = Ok (c, o, ws) -> store_kd se key f' b = Ok (c', o', ws') ->
     core_obj o' = core_obj o).
Proof.
  intros C Hb He. split.
  - intros c x y H. unfold store_kd in *. unfold has in *. destruct (o_keyData b) as [kb|] eqn:Kb.
    + cbn [bind Z.eqb negb]. assert (W := w_array_self (kd_bytes b)). destruct (w_array (kd_bytes b) (zlen (kd_bytes b))); cbn [bind]; try exact I; [|destruct W].
      destruct (o_keyData a); [|discriminate (Hb eq_refl)]. cbn [bind Z.eqb negb] in H.
      destruct (w_array _ _); cbn [bind] in H; try discriminate. injection H; intros; subst. reflexivity.
    + assert (E : exists c1 o1, EncodeKey se key a = Ok (c1, o1) /\ (o_keyData a = None -> forall c x y,
          (if negb (c1 =? 0)%Z then Ok (c1, o1, [WOpen f]) else d <- w_array (kd_bytes o1) (zlen (kd_bytes o1)) ;; Ok (0%Z, o1, [WOpen f; WWrite f d])) = Ok (c, x, y) -> c = c1)).
      { destruct (o_keyData a) eqn:Ka.
        - destruct (He eq_refl eq_refl) as (c1 & o1 & E). exists c1, o1. split; [exact E|discriminate].
        - destruct (EncodeKey se key a) as [[c1 o1]| |]; try discriminate H. exists c1, o1. split; [reflexivity|].
          intros _ c0 x0 y0 Q. destruct (Z.eqb_spec c1 0); cbn [negb] in Q.
          + destruct (w_array _ _); cbn [bind] in Q; try discriminate. injection Q; intros; subst. reflexivity.
          + injection Q; intros; subst. reflexivity. }
      destruct E as (c1 & o1 & E & Q). destruct (enc_code key a (o_iv b) (o_keyData b) c1 o1 E) as (o2 & E2 & _).
      rewrite <- (core_is a b) in E2 by congruence. rewrite E2. cbn [bind].
      assert (K : (c1 = 0 -> c = 0)%Z).
      { destruct (o_keyData a) eqn:Ka.
        - intros _. cbn [bind Z.eqb negb] in H. destruct (w_array _ _); cbn [bind] in H; try discriminate.
          injection H; intros; subst. reflexivity.
        - rewrite E in H. cbn [bind] in H. intros Z1. rewrite (Q eq_refl _ _ _ H). exact Z1. }
      destruct (Z.eqb_spec c1 0); cbn [negb].
      * assert (W := w_array_self (kd_bytes o2)). destruct (w_array (kd_bytes o2) (zlen (kd_bytes o2))); cbn [bind]; try exact I; [|destruct W].
        intros _. apply K; assumption.
      * exact K.
  - intros c o ws c' o' ws' H H'. apply store_kd_core in H. apply store_kd_core in H'. congruence.
Qed.
Lemma core_dh a b : core_obj a = core_obj b -> as_dh a = as_dh b.
Proof. intros H. unfold as_dh. rewrite (f_equal o_data H : o_data a = o_data b). reflexivity. Qed.
Lemma store_key_noless key id id' a b : core_obj b = core_obj a -> (has b = true -> has a = true) ->
  (has b = false -> has a = true -> exists c o, EncodeKey se key a = Ok (c, o)) ->
  noless (store_key se key id' b) (store_key se key id a).
Proof.
  intros C Hb He. destruct (core_is a b (eq_sym C)) as []. intros c x y H. unfold store_key in *.
  assert (Ty : o_type b = o_type a) by exact (f_equal o_type C).
  assert (Cl : o_class b = o_class a) by exact (f_equal o_class C).
  assert (Ce : is_cert b = is_cert a) by (unfold is_cert; rewrite Cl; reflexivity).
  assert (Kk : key_kind b = key_kind a) by (unfold key_kind, is_cert, is_priv, is_sym; rewrite Ty, Cl; reflexivity).
  assert (Ac : as_cert b = as_cert a) by (unfold as_cert; rewrite (f_equal o_data C : o_data b = o_data a); reflexivity).
  rewrite Ce, Kk, Ty, Ac. destruct (is_cert a).
  - destruct (as_cert a) as [[l bb]| |]; cbn [bind] in *; try discriminate.
    destruct (l <=? 0)%Z; [injection H; intros; subst; discriminate|].
    destruct (w_array bb l); cbn [bind] in *; try discriminate. injection H; intros; subst. auto.
  - destruct (key_kind a) as [k|]; [|injection H; intros; subst; auto].
    destruct (store_kd_noless key (k, id) (k, id') a b C Hb He) as [Nl Co].
    destruct (o_type a =? CKK_DH)%Z; [|exact (Nl _ _ _ H)].
    destruct (store_kd se key (k, id) a) as [[[c1 o1] ws1]| |] eqn:A; cbn [bind] in H; try discriminate.
    specialize (Nl _ _ _ eq_refl).
    destruct (store_kd se key (k, id') b) as [[[c2 o2] ws2]| |] eqn:B; cbn [bind]; auto.
    specialize (Co _ _ _ _ _ _ eq_refl eq_refl). rewrite (core_dh _ _ Co).
    destruct (Z.eqb_spec c2 0) as [->|]; cbn [negb]; [|intros; contradiction].
    rewrite (Nl eq_refl) in H. cbn [Z.eqb negb] in H.
    destruct (as_dh o1) as [[[[p g] l] bb]| |]; cbn [bind] in *; try discriminate.
    destruct (se_dh_der se p g) as [c3 der]. destruct (c3 <? 0)%Z eqn:L.
    + intros ->. discriminate.
    + destruct (w_array der (zlen der)); cbn [bind] in *; try discriminate. injection H; intros; subst. auto.
Qed.
Lemma has_ived r o : has (ived r o) = has o.
Proof. unfold ived, has. destruct (o_keyData o) eqn:E; [rewrite E; reflexivity|]. destruct (orb _ _); [reflexivity|]. rewrite E. reflexivity. Qed.
Lemma store_obj_noless key r r' id id' a b : alike key b a ->
  noless (store_obj se key r' id' b) (store_obj se key r id a).
Proof.
  intros (C & Hb & He & Hh) c x y H. unfold store_obj in *.
  destruct (obj_header a) as [h| |]; cbn [bind] in H; try discriminate. specialize (Hh _ eq_refl).
  destruct (obj_header b) as [h'| |]; cbn [bind]; try exact I; [|destruct Hh].
  fold (ived r a) in H. fold (ived r' b).
  assert (N := store_key_noless key id id' (ived r a) (ived r' b)). rewrite !ived_core, !has_ived in N.
  assert (He' : has b = false -> has a = true -> exists c o, EncodeKey se key (ived r a) = Ok (c, o)).
  { intros A B. destruct (He A B) as (k & o & E).
    destruct (enc_code key a (o_iv (ived r a)) (o_keyData (ived r a)) k o E) as (o' & E' & _).
    rewrite <- (core_is a (ived r a)) in E' by (symmetry; apply ived_core). eauto. }
  specialize (N C Hb He'). destruct (store_key se key id (ived r a)) as [[[c1 o1] w1]| |]; cbn [bind] in H; try discriminate.
  injection H; intros; subst. assert (K := N _ _ _ eq_refl).
  destruct (store_key se key id' (ived r' b)) as [[[c2 o2] w2]| |]; cbn [bind]; exact K.
Qed.
(** What storing leaves of an object. *)
Lemma EncodeKey_has key o c o' : EncodeKey se key o = Ok (c, o') -> has o' = true -> has o = true \/ c = 0%Z.
Proof.
  unfold EncodeKey, enc_asym. intros H.
  destruct (o_type o =? CKK_RSA)%Z; [|destruct (o_type o =? CKK_EC)%Z; [|destruct (o_type o =? CKK_DH)%Z; [|destruct (is_sym o)]]];
  sinv; cbn; auto; discriminate.
Qed.
Lemma store_kd_has key f o c o' ws : store_kd se key f o = Ok (c, o', ws) ->
  (has o = true -> o' = o) /\ (has o = false -> exists k o2, EncodeKey se key o = Ok (k, o2)).
Proof.
  unfold store_kd, has. intros H. destruct (o_keyData o); cbn [bind Z.eqb negb] in H.
  - split; [|discriminate]. intros _. sinv. reflexivity.
  - split; [discriminate|]. intros _. destruct (EncodeKey se key o) as [[k o2]| |]; try discriminate. eauto.
Qed.
Lemma store_key_has key id o c o' ws : store_key se key id o = Ok (c, o', ws) ->
  (has o = true -> o' = o) /\ (has o = false -> has o' = true -> exists k o2, EncodeKey se key o = Ok (k, o2)).
Proof.
  unfold store_key. intros H. destruct (is_cert o).
  - assert (o' = o) as -> by (sinv; reflexivity). split; congruence.
  - destruct (key_kind o) as [k|]; [|injection H; intros; subst; split; congruence].
    assert (Q : exists c1 ws1, store_kd se key (k, id) o = Ok (c1, o', ws1)).
    { destruct (o_type o =? CKK_DH)%Z; [|eauto]. destruct (store_kd se key (k, id) o) as [[[c1 o1] w1]| |]; cbn [bind] in H; try discriminate.
      exists c1, w1. assert (o1 = o') as -> by (sinv; reflexivity). reflexivity. }
    destruct Q as (c1 & w1 & Q). apply store_kd_has in Q as [A B]. split; auto.
Qed.
Lemma header_iv o r iv h : obj_header o = Ok h -> length iv = 12 -> defined (obj_header (set_store o iv r (o_enc o))).
Proof.
  unfold obj_header. intros H L. cbn [o_iv o_start o_end o_keyId o_label set_store].
  assert (W : exists x, w_fixed iv 12 = Ok x).
  { unfold w_fixed, st_write, zlen. rewrite L. eexists. reflexivity. }
  destruct W as [x ->]. cbn [bind].
  destruct (w_fixed (o_iv o) 12); cbn [bind] in H; try discriminate.
  destruct (w_fixed (o_start o) 8); cbn [bind] in *; try discriminate.
  destruct (w_fixed (o_end o) 8); cbn [bind] in *; try discriminate.
  destruct (w_array (s_bytes (o_keyId o)) _); cbn [bind] in *; try discriminate.
  destruct (w_array (s_bytes (o_label o)) _); cbn [bind] in *; try discriminate. exact I.
Qed.
Lemma rbytes_length n l : length (rbytes n l) = n.
Proof. unfold rbytes, zeros. rewrite firstn_length, app_length, repeat_length. lia. Qed.
Lemma ived_header r o h : obj_header o = Ok h -> defined (obj_header (ived r o)).
Proof.
  intros H. unfold ived. destruct (o_keyData o) eqn:K; [rewrite H; exact I|]. destruct (orb _ _); [|rewrite H; exact I].
  apply (header_iv _ _ _ h H). apply rbytes_length.
Qed.
Lemma stored_alike key r id o c o2 ws : store_obj se key r id o = Ok (c, o2, ws) ->
  alike key o o2 /\ alike key (ived r o) o2.
Proof.
  intros H. assert (C := store_obj_core _ _ _ _ _ _ _ _ H). unfold store_obj in H.
  destruct (obj_header o) as [h| |] eqn:Hh; cbn [bind] in H; try discriminate.
  fold (ived r o) in H. destruct (store_key se key id (ived r o)) as [[[c1 o1] w1]| |] eqn:K; cbn [bind] in H; try discriminate.
  injection H; intros; subst. apply store_key_has in K as [A B]. rewrite has_ived in A, B.
  assert (E : has o = false -> has o2 = true -> exists c0 o0, EncodeKey se key o2 = Ok (c0, o0)).
  { intros X Y. destruct (B X Y) as (k & o3 & E).
    destruct (enc_code key (ived r o) (o_iv o2) (o_keyData o2) k o3 E) as (o4 & E4 & _).
    rewrite <- (core_is (ived r o) o2) in E4 by (rewrite ived_core; congruence). eauto. }
  assert (Hs : has o = true -> has o2 = true) by (intros X; rewrite (A X), has_ived; exact X).
  split; (split; [rewrite ?ived_core; congruence|]); rewrite ?has_ived; (split; [exact Hs|]); (split; [exact E|]); intros h' _.
  - rewrite Hh. exact I.
  - eapply ived_header; eassumption.
Qed.
Lemma fstore_obj_alike key r id o n d c o2 ws c' o' d' l : store_obj se key r id o = Ok (c, o2, ws) ->
  fstore_obj w ft key r id o n d = Ok (c', o', d', l) -> alike key o' o2 /\ (c' = 0%Z -> c = 0%Z /\ o' = o2).
Proof.
  intros H F. destruct (stored_alike _ _ _ _ _ _ _ H) as [A1 A2]. unfold store_obj, fstore_obj in *.
  destruct (obj_header o) as [h| |]; cbn [bind] in *; try discriminate.
  destruct (performs ft n d _) as [[c1 d1] l1]. destruct (negb (c1 =? 0)%Z) eqn:Nz.
  - injection F; intros; subst. split; [exact A1|]. intros ->. discriminate.
  - fold (ived r o) in *. destruct (store_key se key id (ived r o)) as [[[k o3] w3]| |]; cbn [bind] in *; try discriminate.
    injection H; intros; subst. destruct (performs ft (n + 2) d1 w3) as [[c2 d2] l2].
    destruct (c2 =? READ_ONLY_E)%Z eqn:R; injection F; intros; subst.
    + split; [exact A2|]. intros ->. discriminate.
    + split; [apply alike_refl|]. destruct (Z.eqb_spec c2 0); [auto|contradiction].
Qed.
Lemma refl_list key l : Forall2 (alike key) l l.
Proof. induction l; constructor; auto using alike_refl. Qed.
Lemma alike_list key r l : Forall2 (alike key) l l -> forall c l2 ws, store_objs se key r l = Ok (c, l2, ws) -> Forall2 (alike key) l l2.
Proof.
  induction l as [|o l IH]; intros R c l2 ws H; cbn [store_objs] in H.
  - injection H; intros; subst. constructor.
  - destruct (store_obj se key (r (length l)) (length l) o) as [[[c1 o1] w1]| |] eqn:E; cbn [bind] in H; try discriminate.
    destruct (stored_alike _ _ _ _ _ _ _ E) as [A _].
    destruct (negb _).
    + injection H; intros; subst. constructor; [exact A|apply refl_list].
    + destruct (store_objs se key r l) as [[[c2 r2] w2]| |] eqn:E2; cbn [bind] in H; try discriminate.
      injection H; intros; subst. constructor; [exact A|]. apply (IH (refl_list _ _) _ _ _ eq_refl).
Qed.
Lemma fstore_objs_alike key r l : forall n d c l2 ws c' l' d' ops, store_objs se key r l = Ok (c, l2, ws) ->
  fstore_objs w ft key r l n d = Ok (c', l', d', ops) -> Forall2 (alike key) l' l2.
Proof.
  induction l as [|o l IH]; intros n d c l2 ws c' l' d' ops H F; cbn [store_objs fstore_objs] in *.
  - injection H; injection F; intros; subst. constructor.
  - destruct (store_obj se key (r (length l)) (length l) o) as [[[c1 o1] w1]| |] eqn:E; cbn [bind] in H; try discriminate.
    destruct (fstore_obj w ft key (r (length l)) (length l) o n d) as [[[[c3 o3] d3] w3]| |] eqn:G; cbn [bind] in F; try discriminate.
    destruct (fstore_obj_alike _ _ _ _ _ _ _ _ _ _ _ _ _ E G) as [A Z].
    destruct (negb (c3 =? 0)%Z) eqn:Nz.
    + injection F; intros; subst. destruct (negb (c1 =? 0)%Z).
      * injection H; intros; subst. constructor; [exact A|apply refl_list].
      * destruct (store_objs se key r l) as [[[c2 r2] w2]| |] eqn:E2; cbn [bind] in H; try discriminate.
        injection H; intros; subst. constructor; [exact A|]. eapply alike_list; [apply refl_list|exact E2].
    + assert (c3 = 0%Z) by (destruct (Z.eqb_spec c3 0); [assumption|discriminate]).
      destruct (Z H0) as [-> ->]. cbn [Z.eqb negb] in H.
      destruct (store_objs se key r l) as [[[c2 r2] w2]| |] eqn:E2; cbn [bind] in H; try discriminate.
      destruct (fstore_objs w ft key r l _ _) as [[[[c4 r4] d4] w4]| |] eqn:G2; cbn [bind] in F; try discriminate.
      injection H; injection F; intros; subst. constructor; [apply alike_refl|]. eapply IH; [reflexivity|exact G2].
Qed.
(** Storing alike objects. *)
Lemma fstore_obj_noless key r r' id id' a b n d : alike key b a -> forall c x y, store_obj se key r id a = Ok (c, x, y) ->
  match fstore_obj w ft key r' id' b n d with Ok (c', _, _, _) => (c' = 0 -> c = 0)%Z | Err _ => True | Undef _ => False end.
Proof.
  intros A c x y H. assert (N := store_obj_noless key r r' id id' a b A _ _ _ H). unfold store_obj, fstore_obj in *.
  destruct (obj_header b) as [h| |]; cbn [bind] in *; try exact N.
  destruct (performs ft n d _) as [[c1 d1] l1]. destruct (Z.eqb_spec c1 0); cbn [negb]; [|intros; contradiction].
  fold (ived r' b) in *. destruct (store_key se key id' (ived r' b)) as [[[k o3] w3]| |]; cbn [bind] in *; try exact N.
  destruct (performs ft (n + 2) d1 w3) as [[c2 d2] l2].
  destruct (c2 =? READ_ONLY_E)%Z eqn:R; [intros ->; discriminate|].
  destruct (Z.eqb_spec c2 0); [exact N|]. intros; contradiction.
Qed.
Lemma fstore_objs_noless key r r' : forall a b, Forall2 (alike key) b a -> forall n d c x y, store_objs se key r a = Ok (c, x, y) ->
  defined (fstore_objs w ft key r' b n d).
Proof.
  induction a as [|o a IH]; intros b F; inversion F as [|o' ? b' ? Ho Fb]; subst; intros n d c x y H; cbn [store_objs fstore_objs] in *; [exact I|].
  destruct (store_obj se key (r (length a)) (length a) o) as [[[c1 o1] w1]| |] eqn:E; cbn [bind] in H; try discriminate.
  assert (N := fstore_obj_noless key _ (r' (length b')) _ (length b') _ _ n d Ho _ _ _ E).
  destruct (fstore_obj w ft key (r' (length b')) (length b') o' n d) as [[[[c3 o3] d3] w3]| |]; cbn [bind]; try exact N.
  destruct (Z.eqb_spec c3 0) as [->|]; cbn [negb]; [|exact I]. rewrite (N eq_refl) in H. cbn [Z.eqb negb] in H.
  destruct (store_objs se key r a) as [[[c2 r2] w2]| |] eqn:E2; cbn [bind] in H; try discriminate.
  assert (K := IH _ Fb (n + length w3) d3 _ _ _ eq_refl).
  destruct (fstore_objs w ft key r' b' (n + length w3) d3) as [[[[c4 r4] d4] w4]| |]; cbn [bind]; exact K.
Qed.
(** The token file: pins, label and number and types of objects. *)
Lemma tok_header_same t t' : tok0 t = tok0 t' -> map core_obj (t_objs t) = map core_obj (t_objs t') -> tok_header t = tok_header t'.
Proof.
  intros A B. destruct (tok0_eq _ _ A) as (L & _ & S1 & U & Sd & _). unfold tok_header. rewrite L, S1, U, Sd, (zlen_map_eq _ _ _ _ _ B).
  assert (M : forall a b, map core_obj a = map core_obj b -> flat_map (fun o => w_ulong (o_type o)) a = flat_map (fun o => w_ulong (o_type o)) b).
  { induction a as [|x a IH]; intros [|y b] H; cbn [map] in H; try discriminate; [reflexivity|].
    cbn [flat_map]. assert (T := f_equal (fun l => match l with o :: _ => o_type o | [] => 0%Z end) H). cbn in T. rewrite T.
    f_equal. apply IH. apply (f_equal (@tl obj)) in H. exact H. }
  rewrite (M _ _ B). reflexivity.
Qed.
Definition alikes (s s' : sys) : Prop := same_mem s s' /\ Forall2 (alike (t_key (s_tok s))) (t_objs (s_tok s')) (t_objs (s_tok s)).
Lemma fstore_noless r r' s s' c s1 : alikes s s' -> store w r s = Ok (c, s1) -> defined (fstore w ft r' s').
Proof.
  intros [(A & B & C & D & E) F] H. unfold store, Token_Store, fstore in *.
  rewrite (tok_header_same _ _ D E). destruct (tok_header (s_tok s)); cbn [bind] in *; try discriminate.
  destruct (performs ft _ _ _) as [[c1 d1] l1]. destruct (negb _); [exact I|].
  destruct (store_objs _ _ _ _) as [[[c2 l2] w2]| |] eqn:Q; cbn [bind] in *; try discriminate.
  rewrite (tok0_key _ _ D).
  assert (K := fstore_objs_noless _ _ (fun i => r' (2 + i)) _ _ F (length (s_log s') + 2) d1 _ _ _ Q).
  destruct (fstore_objs _ _ _ _ _ _ _) as [[[[c4 r4] d4] w4]| |]; cbn [bind]; exact K.
Qed.
Lemma fstore_alikes r s c s1 c' s' : store w r s = Ok (c, s1) -> fstore w ft r s = Ok (c', s') -> alikes s1 s'.
Proof.
  intros H F. split; [eapply fstore_same; eassumption|].
  assert (K : t_key (s_tok s1) = t_key (s_tok s)) by (apply store_mem in H; apply tok0_key, H). rewrite K.
  unfold store, Token_Store, fstore in *.
  destruct (tok_header (s_tok s)); cbn [bind] in *; try discriminate.
  destruct (store_objs _ _ _ _) as [[[c2 l2] w2]| |] eqn:Q; cbn [bind] in *; try discriminate.
  destruct (performs ft _ _ _) as [[c1 d1] l1]. injection H; intros; subst. cbn [s_tok do_ops set_tok t_objs set_objs].
  destruct (negb _).
  - injection F; intros; subst. cbn. eapply alike_list; [apply refl_list|exact Q].
  - destruct (fstore_objs _ _ _ _ _ _ _) as [[[[c4 r4] d4] w4]| |] eqn:G; cbn [bind] in F; try discriminate.
    injection F; intros; subst. cbn. eapply fstore_objs_alike; eassumption.
Qed.
End W.
