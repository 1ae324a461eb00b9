(** Storing a token and loading it again. *)
From Verif Require Import Base Codec CodecProofs Ops Object Store.

(** ** Values the C types allow *)
Definition wf_pin (p : pin) : Prop :=
  length (p_hash p) = 32%nat /\ (0 <= p_len p <= 32)%Z /\ length (p_seed p) = 16%nat /\
  (- 2^31 <= p_fail p < 2^31)%Z /\ (- 2^63 <= p_last p < 2^63)%Z /\ (- 2^63 <= p_tmo p < 2^63)%Z.
(** A pointer with its length: NULL only with length 0, sizes below 2^31. *)
Definition wf_sval (v : sval) : Prop := match v with SV b => (zlen b < 2^31)%Z | SNull n => n = 0%Z end.
Definition wf_obj (o : obj) : Prop :=
  length (o_iv o) = 12%nat /\ length (o_start o) = 8%nat /\ length (o_end o) = 8%nat /\
  (0 <= o_type o < 2^64)%Z /\ (0 <= o_class o < 2^64)%Z /\ (0 <= o_handle o < 2^64)%Z /\ (0 <= o_kgm o < 2^64)%Z /\
  (0 <= o_flag o < 2^32)%Z /\ (0 <= o_opFlag o < 2^32)%Z /\ wf_sval (o_keyId o) /\ wf_sval (o_label o).
Definition wf_tok (t : token) : Prop :=
  length (t_label t) = 32%nat /\ wf_pin (t_so t) /\ wf_pin (t_user t) /\ length (t_seed t) = 16%nat /\
  (zlen (t_objs t) < 2^31)%Z /\ Forall wf_obj (t_objs t).

(** ** The token file *)
Definition arr (d : list N) : list N := w_word32 (zlen d) ++ d.
(** What is left of a PIN record: only p_len bytes of the hash are stored. *)
Definition norm_pin (p : pin) : pin :=
  mkPin (overlay (zeros 32) (firstn (Z.to_nat (p_len p)) (p_hash p))) (p_len p) (p_seed p) (p_fail p) (p_last p) (p_tmo p).

Lemma write_firstn b n : (0 <= n <= zlen b)%Z -> st_write b n = Ok (firstn (Z.to_nat n) b).
Proof. intros B. unfold st_write. destruct (n <? 0)%Z eqn:E1; [lia|]. destruct (zlen b <? n)%Z eqn:E2; [lia|reflexivity]. Qed.
Lemma fixed_all b n : zlen b = n -> w_fixed b n = Ok b.
Proof. intros <-. apply st_write_all. Qed.
Lemma read_fixed b n r : zlen b = n -> r_fixed n (b ++ r) = Ok (b, r).
Proof. intros <-. apply st_read_app. Qed.
Lemma zlen_of (A : Type) (l : list A) n : length l = n -> zlen l = Z.of_nat n.
Proof. unfold zlen. intros ->. reflexivity. Qed.
Lemma w_array_firstn b n : (0 <= n <= zlen b)%Z -> (n < 2^31)%Z -> w_array b n = Ok (arr (firstn (Z.to_nat n) b)).
Proof.
  intros B S. unfold w_array. rewrite u32_id, i32_id by lia. rewrite write_firstn by lia. cbn [bind]. unfold arr.
  assert (L : zlen (firstn (Z.to_nat n) b) = n) by (unfold zlen in *; rewrite firstn_length; lia).
  rewrite L. reflexivity.
Qed.

Lemma pin_rt p : wf_pin p -> exists b, pin_bytes p = Ok b /\ forall r, read_pin (b ++ r) = Ok (norm_pin p, r).
Proof.
  intros (H1 & H2 & H3 & H4 & H5 & H6). unfold pin_bytes.
  assert (Z1 := zlen_of _ _ _ H1). assert (Z3 := zlen_of _ _ _ H3). change (Z.of_nat 32) with 32%Z in Z1; change (Z.of_nat 16) with 16%Z in Z3.
  rewrite w_array_firstn by lia. rewrite (fixed_all _ _ Z3). cbn [bind]. eexists. split; [reflexivity|]. intros r.
  unfold read_pin. rewrite <- !app_assoc.
  set (h := firstn (Z.to_nat (p_len p)) (p_hash p)).
  assert (L : zlen h = p_len p) by (unfold h, zlen in *; rewrite firstn_length; lia).
  pose proof (r_array_w 32 h (p_seed p ++ w_int (p_fail p) ++ w_time (p_last p) ++ w_time (p_tmo p) ++ r)) as R.
  fold (arr h) in R. rewrite R by lia. cbn [bind]. rewrite (read_fixed _ _ _ Z3). cbn [bind].
  rewrite r_int_w by lia. cbn [bind]. rewrite r_time_w by lia. cbn [bind]. rewrite r_time_w by lia. cbn [bind].
  unfold norm_pin. fold h. rewrite L. reflexivity.
Qed.
Lemma types_rt l r : Forall (fun o => (0 <= o_type o < 2^64)%Z) l ->
  read_types (length l) (flat_map (fun o => w_ulong (o_type o)) l ++ r) = Ok (map o_type l, r).
Proof.
  intros F. induction F as [|o l H F IH]; cbn [flat_map length read_types map app]; [reflexivity|].
  rewrite <- app_assoc. rewrite r_ulong_w by exact H. cbn [bind]. rewrite IH. reflexivity.
Qed.
Lemma tok_rt t : wf_tok t -> exists b, tok_header t = Ok b /\ forall r,
  read_tok_file (b ++ r) = Ok (mkTF (t_label t) (norm_pin (t_so t)) (norm_pin (t_user t)) (t_seed t) (map o_type (t_objs t)), r).
Proof.
  intros (H1 & H2 & H3 & H4 & H5 & H6). unfold tok_header.
  assert (Z1 := zlen_of _ _ _ H1). assert (Z4 := zlen_of _ _ _ H4). change (Z.of_nat 32) with 32%Z in Z1; change (Z.of_nat 16) with 16%Z in Z4.
  destruct (pin_rt _ H2) as (b2 & E2 & R2). destruct (pin_rt _ H3) as (b3 & E3 & R3).
  rewrite (fixed_all _ _ Z1), E2, E3, (fixed_all _ _ Z4). cbn [bind]. eexists. split; [reflexivity|]. intros r.
  unfold read_tok_file. rewrite <- !app_assoc. rewrite (read_fixed _ _ _ Z1). cbn [bind].
  rewrite R2. cbn [bind]. rewrite R3. cbn [bind]. rewrite (read_fixed _ _ _ Z4). cbn [bind].
  rewrite r_int_w by (unfold zlen in *; lia). cbn [bind]. unfold zlen. rewrite Nat2Z.id.
  rewrite types_rt; [reflexivity|]. eapply Forall_impl; [|exact H6]. intros o W. apply W.
Qed.

(** ** The object file *)
Definition blank (uid : nat) (o : obj) : obj :=
  mkObj uid (o_type o) (o_class o) (o_handle o) 0 (o_kgm o) (o_onTok o) (o_local o) (o_flag o) (o_opFlag o)
    (o_start o) (o_end o) (SV (s_bytes (o_keyId o))) (SV (s_bytes (o_label o))) KZero (o_iv o) None false.
Lemma sval_arr v : wf_sval v -> w_array (s_bytes v) (s_len v) = Ok (arr (s_bytes v)) /\ (zlen (s_bytes v) < 2^31)%Z.
Proof. destruct v as [b|n]; cbn [s_bytes s_len wf_sval]; [intros H; split; [apply w_array_all; exact H|exact H]|intros ->; split; [reflexivity|reflexivity]]. Qed.
Lemma b2n_nz b : negb (b2n b =? 0)%N = b.
Proof. destruct b; reflexivity. Qed.
Lemma obj_rt o : wf_obj o -> exists b, obj_header o = Ok b /\ forall uid r, read_obj_file uid (o_type o) (b ++ r) = Ok (blank uid o, r).
Proof.
  intros (H1 & H2 & H3 & H4 & H5 & H6 & H7 & H8 & H9 & H10 & H11). unfold obj_header.
  assert (Z1 := zlen_of _ _ _ H1). assert (Z2 := zlen_of _ _ _ H2). assert (Z3 := zlen_of _ _ _ H3). change (Z.of_nat 12) with 12%Z in Z1; change (Z.of_nat 8) with 8%Z in Z2, Z3.
  destruct (sval_arr _ H10) as [E10 L10]. destruct (sval_arr _ H11) as [E11 L11].
  rewrite (fixed_all _ _ Z1), (fixed_all _ _ Z2), (fixed_all _ _ Z3), E10, E11. cbn [bind]. eexists. split; [reflexivity|]. intros uid r.
  unfold read_obj_file. rewrite <- !app_assoc. rewrite (read_fixed _ _ _ Z1). cbn [bind].
  rewrite r_ulong_w by lia. cbn [bind]. rewrite r_ulong_w by lia. cbn [bind]. rewrite r_ulong_w by lia. cbn [bind].
  rewrite r_bool_w. cbn [bind]. rewrite r_bool_w. cbn [bind]. rewrite r_word32_w by lia. cbn [bind]. rewrite r_word32_w by lia. cbn [bind].
  rewrite (read_fixed _ _ _ Z2). cbn [bind]. rewrite (read_fixed _ _ _ Z3). cbn [bind].
  unfold arr. rewrite r_alloc_w by exact L10. cbn [bind]. rewrite r_alloc_w by exact L11. cbn [bind].
  rewrite !b2n_nz. reflexivity.
Qed.

(** ** Files *)
Lemma fkind_eqb_eq a b : fkind_eqb a b = true <-> a = b.
Proof. destruct a, b; cbn; split; intros H; try reflexivity; discriminate. Qed.
Lemma fname_eqb_eq a b : fname_eqb a b = true <-> a = b.
Proof.
  destruct a as [k i], b as [l j]. unfold fname_eqb. cbn [fst snd]. rewrite andb_true_iff, fkind_eqb_eq, Nat.eqb_eq.
  split; [intros [-> ->]; reflexivity|intros [= -> ->]; auto].
Qed.
Lemma fs_set_same d f v : fs_set d f v f = Some v.
Proof. unfold fs_set. rewrite (proj2 (fname_eqb_eq f f) eq_refl). reflexivity. Qed.
Lemma fs_set_other d f v g : g <> f -> fs_set d f v g = d g.
Proof. intros N. unfold fs_set. destruct (fname_eqb g f) eqn:E; [apply fname_eqb_eq in E; contradiction|reflexivity]. Qed.
Lemma apply_app d a b : apply d (a ++ b) = apply (apply d a) b.
Proof. apply fold_left_app. Qed.
Definition wname (w : wop) : fname := match w with WOpen f => f | WWrite f _ => f end.
Lemma apply_other d ws g : (forall w, In w ws -> wname w <> g) -> apply d ws g = d g.
Proof.
  revert d. induction ws as [|w ws IH]; intros d H; [reflexivity|]. change (apply d (w :: ws)) with (apply (apply1 d w) ws).
  rewrite IH by (intros; apply H; right; assumption).
  assert (N := H w (or_introl eq_refl)). destruct w; cbn in *; apply fs_set_other; congruence.
Qed.

Section E.
Variable se : senv.
(** ** Key files *)
Definition dh_der_ok (p g : N) : Prop := (0 <= fst (se_dh_der se p g))%Z /\ (zlen (snd (se_dh_der se p g)) < 2^31)%Z.
(** An object that can be stored: its key data is there (a certificate: its
    value). *)
Definition storable (o : obj) : Prop :=
  if is_cert o then exists l b, o_data o = KCert l b /\ (0 < l <= zlen b)%Z /\ (l < 2^31)%Z /\ is_sym o = false
  else key_kind o <> None /\ (exists kd, o_keyData o = Some kd /\ (zlen kd < 2^31)%Z) /\
       (o_type o = CKK_DH -> exists p g l b, as_dh o = Ok (p, g, l, b) /\ dh_der_ok p g).
Definition kfile (o : obj) : list N :=
  if is_cert o then match o_data o with KCert l b => arr (firstn (Z.to_nat l) b) | _ => [] end
  else if (o_type o =? CKK_DH)%Z then
    arr (kd_bytes o) ++ match as_dh o with Ok (p, g, _, _) => arr (snd (se_dh_der se p g)) | _ => [] end
  else arr (kd_bytes o).
Definition kkind (o : obj) : fkind := match key_kind o with Some k => k | None => F_TOKEN end.
Lemma key_kind_not o k : key_kind o = Some k -> k <> F_TOKEN /\ k <> F_OBJECT.
Proof.
  unfold key_kind. repeat match goal with |- context [if ?b then _ else _] => destruct b end; intros [= <-]; split; discriminate.
Qed.
Lemma key_kind_cert o : is_cert o = true -> key_kind o = Some F_CERT.
Proof. unfold key_kind. intros ->. reflexivity. Qed.
Lemma storable_kind o : storable o -> key_kind o = Some (kkind o).
Proof.
  unfold storable, kkind. destruct (is_cert o) eqn:C; [rewrite (key_kind_cert o C); reflexivity|].
  intros (K & _). destruct (key_kind o); [reflexivity|congruence].
Qed.

Lemma store_key_ok key id o : storable o -> exists ws, store_key se key id o = Ok (0%Z, o, ws) /\
  (forall w, In w ws -> wname w = (kkind o, id)) /\ (forall d, apply d ws (kkind o, id) = Some (kfile o)).
Proof.
  intros S. pose proof (storable_kind _ S) as K. unfold store_key, kfile. unfold storable in S. destruct (is_cert o) eqn:C.
  - destruct S as (l & b & E & L & B & _). unfold as_cert. rewrite E. cbn [bind]. destruct (l <=? 0)%Z eqn:E0; [lia|].
    rewrite w_array_firstn by lia. cbn [bind]. rewrite key_kind_cert in K by exact C. injection K as <-.
    eexists. split; [reflexivity|]. split; [intros w [<- | [<- | []]]; reflexivity|].
    intros d. cbn [apply fold_left apply1]. rewrite !fs_set_same. reflexivity.
  - destruct S as (_ & (kd & E & L) & D). rewrite K. set (k := kkind o) in *.
    assert (SK : store_kd se key (k, id) o = Ok (0%Z, o, [WOpen (k, id); WWrite (k, id) (arr (kd_bytes o))])).
    { unfold store_kd. rewrite E. cbn [bind]. change (negb (0 =? 0)%Z) with false. cbv iota.
      unfold kd_bytes. rewrite E. cbv iota beta. rewrite w_array_all by exact L. reflexivity. }
    rewrite SK. destruct (o_type o =? CKK_DH)%Z eqn:T.
    + apply Z.eqb_eq in T. destruct (D T) as (p & g & l & b & A & (G1 & G2)). cbn [bind].
      change (negb (0 =? 0)%Z) with false. cbv iota. rewrite A. cbn [bind].
      destruct (se_dh_der se p g) as [c der]. cbn [fst snd] in *. destruct (c <? 0)%Z eqn:Cn; [lia|].
      rewrite w_array_all by exact G2. cbn [bind]. eexists. split; [reflexivity|].
      split; [intros w [<- | [<- | [<- | []]]]; reflexivity|].
      intros d. cbn [apply fold_left apply1 app]. rewrite !fs_set_same. reflexivity.
    + eexists. split; [reflexivity|]. split; [intros w [<- | [<- | []]]; reflexivity|].
      intros d. cbn [apply fold_left apply1]. rewrite !fs_set_same. reflexivity.
Qed.
Lemma store_obj_ok key r id o : wf_obj o -> storable o -> exists h ws, obj_header o = Ok h /\
  store_obj se key r id o = Ok (0%Z, o, ws) /\
  (forall w, In w ws -> wname w = (F_OBJECT, id) \/ wname w = (kkind o, id)) /\
  (forall d, apply d ws (F_OBJECT, id) = Some h /\ apply d ws (kkind o, id) = Some (kfile o)).
Proof.
  intros W S. destruct (obj_rt _ W) as (h & H & _). unfold store_obj. rewrite H. cbn [bind].
  assert (E : (match o_keyData o with
               | None => if orb (is_priv o) (is_sym o) then set_store o (rbytes 12 r) None (o_enc o) else o
               | Some _ => o end) = o).
  { unfold storable in S. destruct (is_cert o) eqn:C.
    - destruct S as (_ & _ & _ & _ & _ & ->). destruct (o_keyData o); [reflexivity|].
      assert (P : is_priv o = false) by (unfold is_cert, is_priv in *; apply Z.eqb_eq in C; rewrite C; reflexivity).
      rewrite P. reflexivity.
    - destruct S as (_ & (kd & -> & _) & _). reflexivity. }
  rewrite E. destruct (store_key_ok key id o S) as (ws & K & N & F). rewrite K. cbn [bind].
  eexists _, _. split; [reflexivity|]. split; [reflexivity|].
  pose proof (storable_kind _ S) as KK. apply key_kind_not in KK. destruct KK as [_ KK].
  split.
  - intros w [<- | [<- | I]]; [left; reflexivity..|right; auto].
  - intros d. rewrite apply_app. split; [|apply F].
    rewrite apply_other by (intros w I; rewrite (N _ I); congruence).
    cbn [apply fold_left apply1]. rewrite !fs_set_same. reflexivity.
Qed.

(** ** What the disk holds for a token *)
Definition has_obj (d : fs) (id : nat) (o : obj) : Prop :=
  (exists h, obj_header o = Ok h /\ d (F_OBJECT, id) = Some h) /\ d (kkind o, id) = Some (kfile o).
Fixpoint has_objs (d : fs) (l : list obj) : Prop :=
  match l with [] => True | o :: r => has_obj d (length r) o /\ has_objs d r end.
Lemma has_objs_frame d d' l : (forall k i, (i < length l)%nat -> k <> F_TOKEN -> d' (k, i) = d (k, i)) -> Forall storable l ->
  has_objs d l -> has_objs d' l.
Proof.
  induction l as [|o l IH]; cbn [has_objs length]; [trivial|]. intros H F [((h & Hh & D1) & D2) R]. inversion F as [|? ? S F']. subst.
  pose proof (key_kind_not _ _ (storable_kind _ S)) as [K _].
  split; [|apply IH; [intros k i L NK; apply H; [lia|exact NK]|exact F'|exact R]].
  split; [exists h; split; [assumption|]|].
  - rewrite H; [assumption|lia|discriminate].
  - rewrite H; [assumption|lia|assumption].
Qed.
Lemma store_objs_ok key r l : Forall wf_obj l -> Forall storable l ->
  exists ws, store_objs se key r l = Ok (0%Z, l, ws) /\
  (forall w, In w ws -> fst (wname w) <> F_TOKEN /\ (snd (wname w) < length l)%nat) /\
  (forall d, has_objs (apply d ws) l).
Proof.
  intros W S. revert S. induction W as [|o l Wo W IH]; intros S; cbn [store_objs length has_objs].
  - exists []. split; [reflexivity|]. split; [intros w []|trivial].
  - inversion S as [|? ? So S']. subst. destruct (IH S') as (ws & E & N & H).
    destruct (store_obj_ok key (r (length l)) (length l) o Wo So) as (h & w1 & Hh & E1 & N1 & H1).
    pose proof (key_kind_not _ _ (storable_kind _ So)) as [KK _].
    rewrite E1. cbn [bind]. change (negb (0 =? 0)%Z) with false. cbv iota. rewrite E. cbn [bind].
    eexists. split; [reflexivity|]. split.
    + intros w I. apply in_app_or in I as [I|I].
      * destruct (N1 _ I) as [-> | ->]; cbn [fst snd]; split; try lia; congruence.
      * destruct (N _ I). split; [assumption|lia].
    + intros d. rewrite apply_app. split; [|apply H]. destruct (H1 d) as [A B].
      assert (O : forall k, apply (apply d w1) ws (k, length l) = apply d w1 (k, length l)).
      { intros k. apply apply_other. intros w I Eq. destruct (N _ I) as [_ L]. rewrite Eq in L. cbn in L. lia. }
      split; [exists h; split; [assumption|]|]; rewrite O; assumption.
Qed.

(** ** Reading it back *)
Variable dh_law : forall p g, dh_der_ok p g -> se_dh_dec se (snd (se_dh_der se p g)) = (0%Z, (p, g)).
(** The object as it is in memory after loading. *)
Definition reloaded (uid : nat) (o : obj) : obj :=
  let b := blank uid o in
  if is_cert o then
    set_store b (o_iv o) (Some (match o_data o with KCert l c => firstn (Z.to_nat l) c | _ => [] end)) false
  else
    let b1 := set_store b (o_iv o) (Some (kd_bytes o)) false in
    if (o_type o =? CKK_DH)%Z then
      match as_dh o with Ok (p, g, _, _) => set_data b1 (KDh p g 0 (zeros DH_BUF)) | _ => b1 end
    else b1.
Fixpoint reload_objs (uid : nat) (l : list obj) : list obj :=
  match l with [] => [] | o :: r => reloaded uid o :: reload_objs (S uid) r end.
Definition reload (uid : nat) (t : token) : token :=
  mkTok (t_label t) true (norm_pin (t_so t)) (norm_pin (t_user t)) (t_seed t) (zeros 32) RW_PUBLIC (reload_objs uid (t_objs t)).

Lemma read_arr b r : (zlen b < 2^31)%Z -> r_alloc (arr b ++ r) = Ok (b, r).
Proof. intros H. unfold arr. rewrite r_alloc_w by exact H. reflexivity. Qed.
Lemma read_arr0 b : (zlen b < 2^31)%Z -> r_alloc (arr b) = Ok (b, []).
Proof. intros H. rewrite <- (app_nil_r (arr b)). apply read_arr. exact H. Qed.
Lemma kfile_rt uid o : storable o -> read_key_file se (blank uid o) (kfile o) = Ok (reloaded uid o, []).
Proof.
  intros S. unfold read_key_file, kfile, reloaded. change (is_cert (blank uid o)) with (is_cert o). change (o_type (blank uid o)) with (o_type o).
  unfold storable in S. destruct (is_cert o) eqn:C.
  - destruct S as (l & b & E & L & B & _). rewrite E.
    rewrite read_arr0 by (unfold zlen in *; rewrite firstn_length; lia). cbn [bind]. reflexivity.
  - destruct S as (_ & (kd & E & L) & D). unfold kd_bytes. rewrite E. destruct (o_type o =? CKK_DH)%Z eqn:T.
    + apply Z.eqb_eq in T. destruct (D T) as (p & g & l & b & A & G). rewrite A.
      rewrite read_arr by exact L. cbn [bind]. change (andb (negb false) true) with true. cbv iota.
      rewrite read_arr0 by apply G. cbn [bind]. rewrite (dh_law p g G). reflexivity.
    + rewrite read_arr0 by exact L. cbn [bind]. reflexivity.
Qed.
Lemma load_obj_ok d uid id o : wf_obj o -> storable o -> has_obj d id o -> load_obj se d uid (o_type o) id = Ok (reloaded uid o).
Proof.
  intros W S [(h & Hh & D1) D2]. destruct (obj_rt _ W) as (h' & Hh' & R). rewrite Hh in Hh'. injection Hh' as <-.
  unfold load_obj, open_read. rewrite D1. cbn [bind]. rewrite <- (app_nil_r h), R. cbn [bind].
  change (key_kind (blank uid o)) with (key_kind o). rewrite (storable_kind _ S). rewrite D2. cbn [bind].
  rewrite (kfile_rt uid o S). reflexivity.
Qed.
Lemma load_objs_ok d l : Forall wf_obj l -> Forall storable l -> has_objs d l ->
  forall uid, load_objs se d uid (map o_type l) = Ok (reload_objs uid l).
Proof.
  intros W S. revert S. induction W as [|o l Wo W IH]; intros S H uid; cbn [load_objs map reload_objs]; [reflexivity|].
  inversion S as [|? ? So S']. subst. destruct H as [Ho Hr]. rewrite map_length. rewrite (load_obj_ok d uid (length l) o) by assumption. cbn [bind].
  rewrite IH by assumption. reflexivity.
Qed.

(** Storing a token and loading it. *)
Theorem store_load r t d : wf_tok t -> Forall storable (t_objs t) -> exists ws,
  Token_Store se r t = Ok (0%Z, t, ws) /\ forall uid, Token_Load se (apply d ws) uid = Ok (reload uid t).
Proof.
  intros W S. destruct (tok_rt _ W) as (h & Hh & R). destruct W as (_ & _ & _ & _ & _ & W).
  destruct (store_objs_ok (t_key t) r _ W S) as (ws & E & N & H).
  unfold Token_Store. rewrite Hh, E. cbn [bind]. eexists. split; [destruct t; reflexivity|]. intros uid.
  unfold Token_Load. rewrite apply_app.
  rewrite apply_other by (intros w I Eq; destruct (N _ I) as [X _]; rewrite Eq in X; apply X; reflexivity).
  cbn [apply fold_left apply1]. rewrite !fs_set_same. cbn [app].
  match goal with |- context [load_all se ?x uid h] => set (d' := x) end.
  unfold load_all. rewrite <- (app_nil_r h), R. cbn [bind tf_types].
  rewrite (load_objs_ok d' _ W S (H _)). reflexivity.
Qed.
End E.
