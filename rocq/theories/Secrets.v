(** Two histories that differ in nothing but the values of protected secret keys. *)
From Verif Require Import Base Codec Ops OpsSpec OpsProofs Object ObjectSpec ObjectProofs HistProofs Store Sys SysProofs SysProofs2 SysProofs3 SysProofs4 UseProofs Isolate IsolateProofs2 PropObject PropObject2.

(** ** Specification *)
(** The sealing of stored keys shows no more of a plain text than its length: a
    sealed text opens, or not, whatever was sealed. *)
Record sealing (se : senv) : Prop := {
  sl_len : forall k iv p q, length p = length q -> length (se_enc se k iv p) = length (se_enc se k iv q);
  sl_code : forall k iv p q k' iv', length p = length q ->
    fst (se_dec se k' iv' (se_enc se k iv p)) = fst (se_dec se k' iv' (se_enc se k iv q));
  sl_out : forall k iv p q k' iv', length p = length q ->
    length (snd (se_dec se k' iv' (se_enc se k iv p))) = length (snd (se_dec se k' iv' (se_enc se k iv q)))
}.
(** Templates of a secret key for symmetric algorithms whose value is not to be read. *)
Definition all_say (t : template) (ty : Z) (vs : list Z) : Prop :=
  forall a, In a t -> a_type a = ty -> exists v, In v vs /\ a_val a = ULONG v.
Definition hides (t : template) : Prop :=
  all_say t CKA_CLASS [CKO_SECRET_KEY] /\ all_say t CKA_KEY_TYPE [CKK_AES; CKK_GENERIC_SECRET] /\ protects t.
(** Equal but for the bytes of CKA_VALUE. *)
Definition but_value (a b : attr) : Prop :=
  a = b \/ (a_type a = CKA_VALUE /\ a_type b = CKA_VALUE /\ exists x y, a_val a = AV x /\ a_val b = AV y /\ length x = length y).
(** Two calls that make a protected key, of one length, with two values. *)
Inductive two_secrets : op -> op -> Prop :=
  | ts_create h t1 t2 : hides t1 -> (exists a, In a t1 /\ a_type a = CKA_CLASS) -> Forall2 but_value t1 t2 -> two_secrets (OCreateObject h t1) (OCreateObject h t2)
  | ts_generate h t k1 k2 : hides t -> two_secrets (OGenerateKey h true t k1) (OGenerateKey h true t k2).
(** The key a call computes with. *)
Definition computes_with (s : sys) (c : op) (u : nat) : Prop :=
  exists h hk x o, sess_get s h = Some x /\ find_obj s x hk = Some o /\ o_uid o = u /\
    ((exists k, c = OCrypto h k hk /\ with_key k 0 <> None) \/
     (exists m mp ho b, c = OWrapKey h m mp hk ho b) \/ (exists m mp wr t, c = OUnwrapKey h m mp hk wr t)).
(** A change of attributes that makes nothing readable. *)
Definition loosens_nothing (t : template) : Prop :=
  all_say t CKA_CLASS [CKO_PUBLIC_KEY; CKO_PRIVATE_KEY; CKO_SECRET_KEY] /\
  (forall a, In a t -> a_type a = CKA_SENSITIVE -> a_val a = TRUE) /\
  (forall a, In a t -> a_type a = CKA_EXTRACTABLE -> a_val a = FALSE).
(** The library is not loaded again, and no change of a token object makes anything readable. *)
Definition careful (s : sys) (c : op) : Prop :=
  match c with
  | OInitialize => s_count s <> 0%Z
  | OSetAttributeValue _ ho t => small ho \/ loosens_nothing t
  | _ => True
  end.
(** Two histories from [s]: the same calls, except that some make protected keys with
    other values; [T] are the keys made so, and no call computes with one of these. *)
Inductive two_histories (w : world) (P : sys -> op -> Prop) : sys -> list nat -> list (op * (nat -> list N)) -> list (op * (nat -> list N)) -> Prop :=
  | th_nil s T : two_histories w P s T [] []
  | th_same s T c rnd s1 o l1 l2 : P s c -> (forall u, computes_with s c u -> ~ In u T) -> step w rnd s c = Ok (s1, o) ->
      two_histories w P s1 T l1 l2 -> two_histories w P s T ((c, rnd) :: l1) ((c, rnd) :: l2)
  | th_secret s T c1 c2 rnd s1 o l1 l2 : two_secrets c1 c2 -> step w rnd s c1 = Ok (s1, o) ->
      two_histories w P s1 (s_uid s :: T) l1 l2 -> two_histories w P s T ((c1, rnd) :: l1) ((c2, rnd) :: l2).

(** ** Related results *)
Definition rel {A B} (P : A -> B -> Prop) (r1 : res A) (r2 : res B) : Prop :=
  match r1, r2 with Ok a, Ok b => P a b | Err x, Err y => x = y | Undef u, Undef v => u = v | _, _ => False end.
Lemma rel_bind {A B A' B'} (P : A -> A' -> Prop) (Q : B -> B' -> Prop) r1 r2 k1 k2 :
  rel P r1 r2 -> (forall a b, P a b -> rel Q (k1 a) (k2 b)) -> rel Q (bind r1 k1) (bind r2 k2).
Proof. destruct r1, r2; cbn; try contradiction; auto. Qed.
Lemma rel_refl {A} (P : A -> A -> Prop) r : (forall a, P a a) -> rel P r r.
Proof. destruct r; cbn; auto. Qed.
Lemma rel_eq {A} (r : res A) : rel eq r r.
Proof. apply rel_refl. reflexivity. Qed.
Lemma rel_same {A B} (Q : B -> B -> Prop) (r : res A) k1 k2 : (forall a, r = Ok a -> rel Q (k1 a) (k2 a)) -> rel Q (bind r k1) (bind r k2).
Proof. destruct r; cbn; auto. Qed.
Lemma rel_mono {A B} (P Q : A -> B -> Prop) r1 r2 : (forall a b, P a b -> Q a b) -> rel P r1 r2 -> rel Q r1 r2.
Proof. destruct r1, r2; cbn; auto. Qed.
Lemma Forall2_eq {A} (P : A -> A -> Prop) l : (forall a, P a a) -> Forall2 P l l.
Proof. intros H. induction l; constructor; auto. Qed.
Lemma Forall2_map2 {A B} (P : A -> A -> Prop) (Q : B -> B -> Prop) f g l1 l2 : (forall a b, P a b -> Q (f a) (g b)) -> Forall2 P l1 l2 -> Forall2 Q (map f l1) (map g l2).
Proof. intros H. induction 1; cbn; constructor; auto. Qed.
Lemma Forall2_find {A} (P : A -> A -> Prop) f l1 l2 : (forall a b, P a b -> f a = f b) -> Forall2 P l1 l2 ->
  match find f l1, find f l2 with Some a, Some b => P a b | None, None => True | _, _ => False end.
Proof. intros H. induction 1 as [|a b l1 l2 E F IH]; cbn; [exact I|]. rewrite <- (H _ _ E). destruct (f a); [exact E|exact IH]. Qed.
Lemma Forall2_zlen {A} (P : A -> A -> Prop) l1 l2 : Forall2 P l1 l2 -> zlen l1 = zlen l2.
Proof. intros F. unfold zlen. f_equal. induction F; cbn; congruence. Qed.
Lemma overlay_same b1 b2 d1 d2 : length b1 = length b2 -> length d1 = length d2 -> length (overlay b1 d1) = length (overlay b2 d2).
Proof. intros B D. unfold overlay. rewrite !app_length, !skipn_length. lia. Qed.

(** ** Related objects *)
Definition dataR (d1 d2 : kdata) : Prop := exists l b1 b2, d1 = KSym l b1 /\ d2 = KSym l b2 /\ length b1 = length b2.
Definition hid (o : obj) : Prop := is_sym o = true /\ is_cert o = false /\ noPriv o = true.
Section R.
Variable w : world.
Notation se := (w_se w).
Notation oe := (w_oe w).
Variable T : list nat.
Hypothesis Sl : sealing (w_se w).
Definition kdR (k1 k2 : option (list N)) : Prop :=
  k1 = k2 \/ exists k iv p q, length p = length q /\ k1 = Some (se_enc se k iv p) /\ k2 = Some (se_enc se k iv q).
Definition kin (o1 o2 : obj) : Prop :=
  hid o1 /\ exists d kd, o2 = set_store (set_data o1 d) (o_iv o1) kd (o_enc o1) /\ (d = o_data o1 \/ dataR (o_data o1) d) /\ kdR (o_keyData o1) kd.
Definition tobj (o1 o2 : obj) : Prop := o1 = o2 \/ (In (o_uid o1) T /\ kin o1 o2).
Definition sobj (o1 o2 : obj) : Prop := o1 = o2 \/ (In (o_uid o1) T /\ hid o1 /\ exists d, o2 = set_data o1 d /\ dataR (o_data o1) d).
Lemma tobj_refl o : tobj o o. Proof. left; reflexivity. Qed.
Lemma sobj_refl o : sobj o o. Proof. left; reflexivity. Qed.
Lemma sobj_tobj o1 o2 : sobj o1 o2 -> tobj o1 o2.
Proof.
  intros [->|(I & H & d & -> & D)]; [left; reflexivity|right]. split; [exact I|]. split; [exact H|]. exists d, (o_keyData o1). split; [destruct o1; reflexivity|]. split; [right; exact D|left; reflexivity].
Qed.
Lemma tobj_fields o1 o2 : tobj o1 o2 -> o_uid o2 = o_uid o1 /\ o_handle o2 = o_handle o1 /\ o_type o2 = o_type o1 /\ o_class o2 = o_class o1 /\
  o_opFlag o2 = o_opFlag o1 /\ o_enc o2 = o_enc o1 /\ o_onTok o2 = o_onTok o1.
Proof. intros [->|(_ & _ & d & kd & -> & _)]; repeat split. Qed.
Lemma tobj_clean o1 o2 : tobj o1 o2 -> ~ In (o_uid o1) T -> o1 = o2.
Proof. intros [E|[I _]] N; [exact E|contradiction]. Qed.
Lemma hid_types o : hid o -> (o_type o =? CKK_RSA)%Z = false /\ (o_type o =? CKK_EC)%Z = false /\ (o_type o =? CKK_DH)%Z = false /\ is_sym o = true /\ is_cert o = false.
Proof.
  intros (S & C & _). unfold is_sym in *. apply orb_true_iff in S as S'. repeat split; auto; destruct S' as [S'|S']; apply Z.eqb_eq in S'; rewrite S'; reflexivity.
Qed.
Lemma hid_hidden o d : hid o -> dataR (o_data o) d -> hidden o d.
Proof.
  intros H (l & b1 & b2 & E1 & E2 & _). pose proof (hid_types o H) as (_ & _ & D & _ & C). destruct H as (_ & _ & N). split; [exact N|]. split; [intros E; unfold is_cert in C; rewrite E in C; discriminate C|].
  split; [intros E; rewrite E in D; discriminate D|]. rewrite E1, E2. reflexivity.
Qed.
Lemma set_data_id o : set_data o (o_data o) = o.
Proof. destruct o; reflexivity. Qed.

Lemma GetAttr_tobj o1 o2 ty buf : tobj o1 o2 -> GetAttr oe o2 ty buf = GetAttr oe o1 ty buf.
Proof.
  intros [->|(_ & H & d & kd & -> & D & _)]; [reflexivity|]. rewrite GetAttr_store. destruct D as [->|D]; [rewrite set_data_id; reflexivity|]. apply GetAttr_hidden, hid_hidden; assumption.
Qed.
Lemma get_tobj o1 o2 t : tobj o1 o2 -> GetAttributeValue oe o2 t = GetAttributeValue oe o1 t.
Proof.
  intros K. unfold GetAttributeValue. destruct (_ =? _)%Z; [|reflexivity].
  induction t as [|a t IH]; [reflexivity|]. cbn [get_loop]. rewrite (GetAttr_tobj o1 o2) by exact K. destruct (GetAttr _ _ _ _) as [g|?|?]; cbn [bind]; [|reflexivity..].
  rewrite IH. reflexivity.
Qed.
Lemma match_tobj o1 o2 t : tobj o1 o2 -> Sys.match_all w o2 t = Sys.match_all w o1 t.
Proof.
  intros K. induction t as [|a t IH]; [reflexivity|]. cbn [Sys.match_all].
  assert (E : MatchAttr (w_oe w) o2 a = MatchAttr (w_oe w) o1 a) by (unfold MatchAttr; rewrite (GetAttr_tobj o1 o2) by exact K; reflexivity).
  rewrite E. destruct (MatchAttr _ o1 a) as [[|]|?|?]; cbn [bind]; auto.
Qed.
Lemma copy_tobj rw uid o1 o2 t : tobj o1 o2 -> CopyObject oe rw uid o2 t = CopyObject oe rw uid o1 t.
Proof.
  intros K. unfold CopyObject. rewrite (get_tobj o1 o2) by exact K. destruct (tobj_fields o1 o2 K) as (_ & _ & -> & _). reflexivity.
Qed.
(** Setting attributes of a session object. *)
Lemma set_sobj rw o1 o2 t : sobj o1 o2 ->
  rel (fun p q => fst p = fst q /\ sobj (snd p) (snd q)) (SetAttributeValue oe rw o1 t) (SetAttributeValue oe rw o2 t).
Proof.
  intros [->|(I & H & d & -> & D)]; [apply rel_refl; intros; split; [reflexivity|apply sobj_refl]|].
  destruct (SetAttributeValue_hidden oe rw o1 d t (hid_hidden _ _ H D)) as [(rv & E1 & E2)|E].
  - rewrite E1, E2. cbn. split; [reflexivity|]. right. split; [exact I|]. split; [exact H|]. exists d. auto.
  - rewrite E. apply rel_refl. intros; split; [reflexivity|apply sobj_refl].
Qed.
(** Setting attributes of a token object. *)
Lemma noPriv_protected o : noPriv o = true -> protected o.
Proof.
  unfold noPriv, protected. intros H. apply orb_true_iff in H as [H|H].
  - left. apply negb_true_iff, Z.eqb_neq in H. destruct (Z.testbit (o_flag o) 1) eqn:E; [reflexivity|]. exfalso. apply H. apply Z.bits_inj'. intros n Hn. rewrite Z.land_spec, Z.bits_0. change FL_SENSITIVE with (2^1)%Z. rewrite Z.pow2_bits_eqb by lia.
    destruct (Z.eqb_spec 1 n) as [<-|]; [rewrite E; reflexivity|apply andb_false_r].
  - right. apply Z.eqb_eq in H. apply (f_equal (fun x => Z.testbit x 2)) in H. rewrite Z.land_spec in H. change FL_EXTRACTABLE with (2^2)%Z in H. rewrite Z.pow2_bits_eqb in H by lia. rewrite Z.bits_0, andb_true_r in H. exact H.
Qed.
Lemma SetAttr_hid o a c p : (a_type a = CKA_CLASS -> exists v, In v [CKO_PUBLIC_KEY; CKO_PRIVATE_KEY; CKO_SECRET_KEY] /\ a_val a = ULONG v) ->
  (a_type a = CKA_SENSITIVE -> a_val a = TRUE) -> (a_type a = CKA_EXTRACTABLE -> a_val a = FALSE) -> SetAttr o a = Ok (c, p) -> hid o -> hid p /\ o_uid p = o_uid o.
Proof.
  intros Hc Hs He E (H1 & H2 & H3). apply noPriv_protected in H3. assert (P : protected p).
  { pose proof (SetAttr_prot _ _ _ _ CKA_SENSITIVE (or_introl eq_refl) E) as B1. pose proof (SetAttr_prot _ _ _ _ CKA_EXTRACTABLE (or_intror (or_introl eq_refl)) E) as B2. change (prot_bit CKA_SENSITIVE) with 1%Z in B1. change (prot_bit CKA_EXTRACTABLE) with 2%Z in B2.
    destruct H3 as [H3|H3]; [left; rewrite B1|right; rewrite B2].
    - destruct (Z.eqb_spec (a_type a) CKA_SENSITIVE) as [Q|]; [rewrite (Hs Q); reflexivity|exact H3].
    - destruct (Z.eqb_spec (a_type a) CKA_EXTRACTABLE) as [Q|]; [rewrite (He Q); reflexivity|exact H3]. }
  apply protected_noPriv in P. enough (o_type p = o_type o /\ o_uid p = o_uid o /\ is_cert p = false) as (A & B & C) by (split; [split; [unfold is_sym in *; rewrite A; exact H1|split; assumption]|exact B]).
  clear P H3 Hs He. revert E. unfold SetAttr. cbv zeta. destruct (set_opflag_of (a_type a)). { intros H. injection H as _ <-. auto. }
  destruct (set_flag_of (a_type a)). { intros H. injection H as _ <-. auto. }
  destruct (Z.eqb_spec (a_type a) CKA_CLASS) as [E|N]. { intros H. injection H as _ <-. split; [reflexivity|]. split; [reflexivity|]. destruct (Hc E) as (v & Iv & ->). destruct Iv as [<-|[<-|[<-|[]]]]; reflexivity. }
  intros H. destruct (_ =? CKA_ID)%Z; [destruct (new_sval _ _) as [[? ?]| |]; cbn [bind] in H; try discriminate H; injection H as _ <-; auto|]. destruct (_ =? CKA_LABEL)%Z; [destruct (new_sval _ _) as [[? ?]| |]; cbn [bind] in H; try discriminate H; injection H as _ <-; auto|].
  destruct (_ =? CKA_START_DATE)%Z; [destruct (_ =? 8)%Z; injection H as _ <-; auto|]. destruct (_ =? CKA_END_DATE)%Z; [destruct (_ =? 8)%Z; injection H as _ <-; auto|].
  repeat match type of H with (if ?b then _ else _) = _ => destruct b; [injection H as _ <-; auto|] end. injection H as _ <-. auto.
Qed.
Lemma loop_hid t : loosens_nothing t -> forall o c p, set_loop o t = Ok (c, p) -> hid o -> hid p /\ o_uid p = o_uid o.
Proof.
  induction t as [|a t IH]; intros (L1 & L2 & L3) o c p E H; cbn [set_loop] in E; [injection E as _ <-; auto|]. destruct (SetAttr o a) as [[c1 q]| |] eqn:Q; cbn [bind] in E; try discriminate E.
  destruct (SetAttr_hid o a c1 q (L1 a (or_introl eq_refl)) (L2 a (or_introl eq_refl)) (L3 a (or_introl eq_refl)) Q H) as [Hq Uq]. destruct (_ =? CKR_OK)%Z; [|injection E as _ <-; auto].
  destruct (IH (conj (fun b I => L1 b (or_intror I)) (conj (fun b I => L2 b (or_intror I)) (fun b I => L3 b (or_intror I)))) _ _ _ E Hq) as [Hp Up]. split; [exact Hp|congruence].
Qed.
Lemma sav_hid rw t o c p : loosens_nothing t -> SetAttributeValue oe rw o t = Ok (c, p) -> hid o -> hid p /\ o_uid p = o_uid o.
Proof.
  intros L E H. unfold SetAttributeValue in E. destruct (negb rw); [injection E as _ <-; auto|]. destruct (negb _); [injection E as _ <-; auto|]. destruct (params_of o) as [ps|]; [|injection E as _ <-; auto]. destruct (param_vals t ps) as [v|]; [|injection E as _ <-; auto].
  destruct (SetKey oe o v) as [[c1 q]| |] eqn:K; cbn [bind] in E; try discriminate E. apply SetKey_frame in K as (d & n & ->). assert (Hq : hid (set_size (set_data o d) n)) by exact H.
  destruct (_ =? MEMORY_E)%Z; [injection E as _ <-; auto|]. destruct (negb _); [injection E as _ <-; auto|]. exact (loop_hid _ L _ _ _ E Hq).
Qed.
Lemma sres_store iv kd en (r : res (Z * obj)) : HistProofs.sres iv kd en r = ('(c, p) <- r ;; Ok (c, set_store p iv kd en)).
Proof. destruct r as [[c p]| |]; reflexivity. Qed.
Lemma sav_kd rw o c p t : SetAttributeValue oe rw o t = Ok (c, p) -> o_iv p = o_iv o /\ o_keyData p = o_keyData o /\ o_enc p = o_enc o.
Proof.
  intros E. pose proof (SetAttributeValue_store oe (o_iv o) (o_keyData o) (o_enc o) rw o t) as S. rewrite sres_store, E in S. cbn [bind] in S.
  assert (Q : set_store o (o_iv o) (o_keyData o) (o_enc o) = o) by (destruct o; reflexivity). rewrite Q, E in S. injection S as S. rewrite S. auto.
Qed.
Lemma set_tobj rw o1 o2 t : loosens_nothing t -> tobj o1 o2 ->
  rel (fun p q => fst p = fst q /\ tobj (snd p) (snd q) /\ o_uid (snd p) = o_uid o1) (SetAttributeValue oe rw o1 t) (SetAttributeValue oe rw o2 t).
Proof.
  intros L [->|(I & H & d & kd & -> & D & K)].
  { destruct (SetAttributeValue oe rw o2 t) as [[c p]| |] eqn:E; [|reflexivity..]. split; [reflexivity|]. split; [apply tobj_refl|]. apply (SetAttributeValue_id w) in E as [E _]. apply E. }
  rewrite SetAttributeValue_store, sres_store.
  assert (R : (exists rv, SetAttributeValue oe rw (set_data o1 d) t = Ok (rv, set_data o1 d) /\ SetAttributeValue oe rw o1 t = Ok (rv, o1)) \/ SetAttributeValue oe rw (set_data o1 d) t = SetAttributeValue oe rw o1 t).
  { destruct D as [->|D]; [right; rewrite set_data_id; reflexivity|]. apply SetAttributeValue_hidden, hid_hidden; assumption. }
  destruct R as [(rv & E1 & E2)|E].
  - rewrite E1, E2. cbn. split; [reflexivity|]. split; [|reflexivity]. right. split; [exact I|]. split; [exact H|]. exists d, kd. auto.
  - rewrite E. destruct (SetAttributeValue oe rw o1 t) as [[c p]| |] eqn:Ep; cbn [bind rel]; [|reflexivity..]. destruct (sav_hid _ _ _ _ _ L Ep H) as [Hp Up]. destruct (sav_kd _ _ _ _ _ Ep) as (A & B & C). split; [reflexivity|]. split; [|exact Up].
    right. cbn [fst snd]. split; [rewrite Up; exact I|]. split; [exact Hp|]. exists (o_data p), kd. rewrite set_data_id, A, C, B. auto.
Qed.
Lemma dataR_sym o d : (d = o_data o \/ dataR (o_data o) d) -> rel (fun p q => fst p = fst q /\ length (snd p) = length (snd q)) (as_sym o) (as_sym (set_data o d)).
Proof.
  intros [->|(l & b1 & b2 & E1 & -> & L)]; [rewrite set_data_id; apply rel_refl; auto|]. unfold as_sym. cbn [set_data o_data]. rewrite E1. cbn. auto.
Qed.
Lemma as_sym_store o iv kd en : as_sym (set_store o iv kd en) = as_sym o.
Proof. reflexivity. Qed.
Lemma zlen_len {A B} (a : list A) (b : list B) : length a = length b -> zlen a = zlen b.
Proof. unfold zlen. congruence. Qed.
Lemma free_tobj o1 o2 : tobj o1 o2 -> obj_free o2 = obj_free o1.
Proof.
  intros [->|(_ & H & d & kd & -> & D & _)]; [reflexivity|]. destruct (hid_types _ H) as (E1 & E2 & E3 & E4 & E5). unfold obj_free.
  change (is_cert (set_store (set_data o1 d) (o_iv o1) kd (o_enc o1))) with (is_cert o1). change (is_sym (set_store (set_data o1 d) (o_iv o1) kd (o_enc o1))) with (is_sym o1). cbn [set_store set_data o_type].
  rewrite E1, E2, E3, E4, E5, as_sym_store. pose proof (dataR_sym _ _ D) as R. destruct (as_sym o1) as [[l b]| |], (as_sym (set_data o1 d)) as [[l' b']| |]; cbn in R; try contradiction; try congruence. destruct R as [-> R]. cbn [bind]. rewrite (zlen_len _ _ R). reflexivity.
Qed.
Lemma free_list l1 l2 : Forall2 tobj l1 l2 -> free_all l2 = free_all l1.
Proof. induction 1 as [|a b l1 l2 E F IH]; [reflexivity|]. cbn [free_all]. rewrite (free_tobj a b E), IH. reflexivity. Qed.

(** *** Sealing and opening *)
Definition coR (p q : Z * obj) : Prop := fst p = fst q /\ tobj (snd p) (snd q).
Lemma take_same l b1 b2 : length b1 = length b2 -> rel (fun p q : list N => length p = length q) (take_buf l b1) (take_buf l b2).
Proof. intros L. unfold take_buf. rewrite (zlen_len _ _ L). destruct (orb _ _); [reflexivity|]. cbn. rewrite !firstn_length. lia. Qed.
Lemma EncodeKey_kin key o1 o2 : In (o_uid o1) T -> kin o1 o2 -> rel coR (EncodeKey se key o1) (EncodeKey se key o2).
Proof.
  intros I (H & d & kd & -> & D & K). destruct (hid_types _ H) as (E1 & E2 & E3 & E4 & E5). unfold EncodeKey.
  change (is_sym (set_store (set_data o1 d) (o_iv o1) kd (o_enc o1))) with (is_sym o1). cbn [set_store set_data o_type o_iv o_enc].
  rewrite E1, E2, E3, E4. eapply rel_bind; [exact (dataR_sym _ _ D)|]. intros [l b1] [l' b2] [El Lb]. cbn in El, Lb. subst l'.
  eapply rel_bind; [apply take_same; exact Lb|]. intros p q L. cbn. split; [reflexivity|]. right. split; [exact I|]. split; [exact H|]. exists d, (Some (se_enc se key (o_iv o1) q)). split; [reflexivity|]. split; [exact D|]. right. exists key, (o_iv o1), p, q. auto.
Qed.
Lemma EncodeKey_tobj key o1 o2 : tobj o1 o2 -> rel coR (EncodeKey se key o1) (EncodeKey se key o2).
Proof. intros [->|[I K]]; [apply rel_refl; intros; split; [reflexivity|apply tobj_refl]|apply EncodeKey_kin; assumption]. Qed.
Lemma protect_tobj o1 o2 : tobj o1 o2 -> tobj (protect_key o1) (protect_key o2).
Proof.
  intros [->|(I & H & d & kd & -> & D & K)]; [apply tobj_refl|]. destruct (hid_types _ H) as (E1 & E2 & E3 & E4 & E5). unfold protect_key.
  change (is_sym (set_store (set_data o1 d) (o_iv o1) kd (o_enc o1))) with (is_sym o1). cbn [set_store set_data o_type o_iv o_enc o_data o_keyData]. rewrite E1, E2, E3, E4.
  right. split; [exact I|]. split; [exact H|]. destruct D as [->|(l & b1 & b2 & Eb & -> & Lb)].
  - eexists _, kd. split; [reflexivity|]. split; [left; reflexivity|exact K].
  - rewrite Eb. eexists (KSym l (overlay b2 (zeros (Z.to_nat l)))), kd. split; [reflexivity|]. split; [|exact K]. right. exists l, (overlay b1 (zeros (Z.to_nat l))), (overlay b2 (zeros (Z.to_nat l))). split; [reflexivity|]. split; [reflexivity|]. apply overlay_same; auto.
Qed.
Lemma cert_tobj o1 o2 : tobj o1 o2 -> is_cert o2 = is_cert o1.
Proof. intros K. unfold is_cert. destruct (tobj_fields _ _ K) as (_ & _ & _ & -> & _). reflexivity. Qed.
Lemma Encode_tobj key b o1 o2 : tobj o1 o2 -> rel coR (Encode se key b o1) (Encode se key b o2).
Proof.
  intros K. unfold Encode. rewrite (cert_tobj _ _ K). destruct (is_cert o1); [split; [reflexivity|exact K]|].
  eapply rel_bind; [apply EncodeKey_tobj; exact K|]. intros [c p] [c' q] [E R]. cbn in E, R. subst c'. split; [reflexivity|]. cbn [snd]. destruct (andb _ _); [apply protect_tobj|]; exact R.
Qed.
Lemma dec_kin key o1 o2 : kin o1 o2 -> rel (fun p q : Z * list N => fst p = fst q /\ length (snd p) = length (snd q)) (dec_into se key o1) (dec_into se key o2).
Proof.
  intros (H & d & kd & -> & D & K). unfold dec_into, dec_kd, kd_bytes. cbn [set_store set_data o_keyData o_iv]. destruct K as [<-|(k & iv & p & q & L & -> & ->)].
  - destruct (o_keyData o1); [|reflexivity]. destruct (_ <? _)%Z; [reflexivity|]. destruct (_ <? _)%Z; [reflexivity|]. split; reflexivity.
  - rewrite (zlen_len _ _ (sl_len _ Sl k iv p q L)). destruct (_ <? _)%Z; [reflexivity|]. destruct (_ <? _)%Z; [reflexivity|]. split; [apply (sl_code _ Sl); exact L|apply (sl_out _ Sl); exact L].
Qed.
Lemma DecodeKey_tobj key o1 o2 : tobj o1 o2 -> rel coR (DecodeKey se key o1) (DecodeKey se key o2).
Proof.
  intros [->|[I Kn]]; [apply rel_refl; intros; split; [reflexivity|apply tobj_refl]|]. pose proof (dec_kin key _ _ Kn) as Dk.
  destruct Kn as (H & d & kd & -> & D & K). destruct (hid_types _ H) as (E1 & E2 & E3 & E4 & E5). unfold DecodeKey.
  change (is_sym (set_store (set_data o1 d) (o_iv o1) kd (o_enc o1))) with (is_sym o1). cbn [set_store set_data o_type]. rewrite E1, E2, E3, E4.
  eapply rel_bind; [exact (dataR_sym _ _ D)|]. intros [l b1] [l' b2] [El Lb]. cbn in El, Lb. subst l'.
  eapply rel_bind; [exact Dk|]. intros [c p] [c' q] [E L]. cbn in E, L. subst c'. cbn. unfold fin. destruct (c =? 0)%Z; (split; [reflexivity|]); right; (split; [exact I|]); (split; [exact H|]); cbn [snd].
  - exists (KSym (zlen q) (overlay b2 q)), kd. split; [reflexivity|]. split; [|exact K]. right. exists (zlen p), (overlay b1 p), (overlay b2 q). split; [reflexivity|]. rewrite (zlen_len _ _ L). split; [reflexivity|]. apply overlay_same; assumption.
  - exists d, kd. split; [reflexivity|]. split; [exact D|exact K].
Qed.
Lemma Decode_tobj key o1 o2 : tobj o1 o2 -> rel coR (Decode se key o1) (Decode se key o2).
Proof.
  intros K. unfold Decode. rewrite (cert_tobj _ _ K). destruct (is_cert o1) eqn:C.
  { split; [reflexivity|]. destruct K as [->|(_ & (_ & C2 & _) & _)]; [apply tobj_refl|congruence]. }
  eapply rel_bind; [apply DecodeKey_tobj; exact K|]. intros [c p] [c' q] [E R]. cbn in E, R. subst c'. split; [reflexivity|exact R].
Qed.

(** *** Storing *)
Definition coR3 {A} (p q : Z * obj * A) : Prop := fst (fst p) = fst (fst q) /\ tobj (snd (fst p)) (snd (fst q)).
Lemma w_array_same (b1 b2 : list N) l : length b1 = length b2 -> rel (fun _ _ => True) (w_array b1 l) (w_array b2 l).
Proof.
  intros L. unfold w_array, st_write. rewrite (zlen_len _ _ L). destruct (_ <? 0)%Z; [reflexivity|]. destruct (_ <? _)%Z; reflexivity || exact I.
Qed.
Lemma header_tobj o1 o2 : tobj o1 o2 -> obj_header o2 = obj_header o1.
Proof. intros [->|(_ & _ & d & kd & -> & _)]; reflexivity. Qed.
Lemma kdR_len k1 k2 : kdR k1 k2 -> length (match k1 with Some b => b | None => [] end) = length (match k2 with Some b => b | None => [] end).
Proof. intros [->|(k & iv & p & q & L & -> & ->)]; [reflexivity|]. apply (sl_len _ Sl). exact L. Qed.
Lemma kdR_none k1 k2 : kdR k1 k2 -> (k1 = None <-> k2 = None).
Proof. intros [->|(k & iv & p & q & L & -> & ->)]; split; auto; discriminate. Qed.
Lemma tobj_kd o1 o2 : tobj o1 o2 -> kdR (o_keyData o1) (o_keyData o2).
Proof. intros [->|(_ & _ & d & kd & -> & _ & K)]; [left; reflexivity|exact K]. Qed.
Lemma store_kd_tobj key f o1 o2 : tobj o1 o2 -> rel coR3 (store_kd se key f o1) (store_kd se key f o2).
Proof.
  intros K. unfold store_kd.
  eapply (rel_bind coR).
  { pose proof (kdR_none _ _ (tobj_kd _ _ K)) as N. destruct (o_keyData o1), (o_keyData o2).
    - split; [reflexivity|exact K].
    - destruct N as [_ N]. discriminate (N eq_refl).
    - destruct N as [N _]. discriminate (N eq_refl).
    - apply EncodeKey_tobj; exact K. }
  intros [c p] [c' q] [E R]. cbn in E, R. subst c'. destruct (negb _); [split; [reflexivity|exact R]|].
  pose proof (kdR_len _ _ (tobj_kd _ _ R)) as L. unfold kd_bytes. rewrite <- (zlen_len _ _ L).
  eapply rel_bind; [apply w_array_same; exact L|]. intros d1 d2 _. split; [reflexivity|exact R].
Qed.
Lemma store_key_tobj key id o1 o2 : tobj o1 o2 -> rel coR3 (store_key se key id o1) (store_key se key id o2).
Proof.
  intros K. destruct K as [->|[I Kn]]; [apply rel_refl; intros; split; [reflexivity|apply tobj_refl]|]. assert (K : tobj o1 o2) by (right; auto).
  destruct Kn as (H & _). destruct (hid_types _ H) as (E1 & E2 & E3 & E4 & E5). destruct (tobj_fields _ _ K) as (_ & _ & Ft & Fc & _).
  unfold store_key, key_kind, is_sym, is_priv. rewrite (cert_tobj _ _ K), Ft, Fc, E1, E2, E3, E5. unfold is_sym in E4. rewrite E4. apply store_kd_tobj; exact K.
Qed.
Lemma iv_tobj o1 o2 iv : tobj o1 o2 -> o_keyData o1 = None -> tobj (set_store o1 iv None (o_enc o1)) (set_store o2 iv None (o_enc o2)).
Proof.
  intros [->|(I & H & d & kd & -> & D & K)] N; [apply tobj_refl|]. right. split; [exact I|]. split; [exact H|]. exists d, None. split; [reflexivity|]. split; [exact D|left; reflexivity].
Qed.
Lemma store_obj_tobj key rnd id o1 o2 : tobj o1 o2 -> rel coR3 (store_obj se key rnd id o1) (store_obj se key rnd id o2).
Proof.
  intros K. unfold store_obj. rewrite (header_tobj _ _ K). apply rel_same. intros h _. cbv zeta. destruct (tobj_fields _ _ K) as (_ & _ & Ft & Fc & _).
  eapply (rel_bind coR3).
  - apply store_key_tobj. pose proof (kdR_none _ _ (tobj_kd _ _ K)) as N. destruct (o_keyData o1) eqn:N1, (o_keyData o2) eqn:N2.
    + exact K.
    + destruct N as [_ N]. discriminate (N eq_refl).
    + destruct N as [N _]. discriminate (N eq_refl).
    + unfold is_priv, is_sym. rewrite Ft, Fc. destruct (orb _ _); [apply iv_tobj; assumption|exact K].
  - intros [[c p] ws] [[c' q] ws'] [E R]. cbn in E, R. subst c'. split; [reflexivity|exact R].
Qed.
Definition csR {A} (p q : Z * list obj * A) : Prop := fst (fst p) = fst (fst q) /\ Forall2 tobj (snd (fst p)) (snd (fst q)).
Lemma store_objs_tobj key rnd l1 l2 : Forall2 tobj l1 l2 -> rel csR (store_objs se key rnd l1) (store_objs se key rnd l2).
Proof.
  induction 1 as [|a b l1 l2 E F IH]; [split; [reflexivity|constructor]|]. cbn [store_objs].
  assert (L : length l2 = length l1) by (apply Forall2_zlen in F; unfold zlen in F; lia). rewrite L. eapply rel_bind; [apply store_obj_tobj; exact E|].
  intros [[c p] ws] [[c' q] ws'] [Ec R]. cbn in Ec, R. subst c'. destruct (negb _); [split; [reflexivity|constructor; assumption]|].
  eapply rel_bind; [exact IH|]. intros [[c2 r1] ws2] [[c2' r2] ws2'] [Ec2 R2]. cbn in Ec2, R2. subst c2'. split; [reflexivity|constructor; assumption].
Qed.

(** ** Related tokens, sessions and states *)
Definition tokR (t1 t2 : token) : Prop := exists l, t2 = set_objs t1 l /\ Forall2 tobj (t_objs t1) l.
Definition sessR (x1 x2 : session) : Prop :=
  (exists l, x2 = set_sobjs x1 l /\ Forall2 sobj (ss_objs x1) l) /\ (forall u, cur x1 = Some u -> ~ In u T).
Definition sysR (s1 s2 : sys) : Prop :=
  s_count s1 = s_count s2 /\ s_uid s1 = s_uid s2 /\ Forall2 sessR (s_sess s1) (s_sess s2) /\ tokR (s_tok s1) (s_tok s2).
Definition outR (p q : sys * out) : Prop := sysR (fst p) (fst q) /\ snd p = snd q.
Lemma tokR_refl t : tokR t t.
Proof. exists (t_objs t). split; [destruct t; reflexivity|apply Forall2_eq, tobj_refl]. Qed.
Lemma tokR_objs t1 t2 l1 l2 : tokR t1 t2 -> Forall2 tobj l1 l2 -> tokR (set_objs t1 l1) (set_objs t2 l2).
Proof. intros (l & -> & _) F. exists l2. split; [reflexivity|exact F]. Qed.
Lemma tok_fields t1 t2 : tokR t1 t2 -> t_label t2 = t_label t1 /\ t_init t2 = t_init t1 /\ t_so t2 = t_so t1 /\ t_user t2 = t_user t1 /\ t_seed t2 = t_seed t1 /\ t_key t2 = t_key t1 /\ t_login t2 = t_login t1 /\ Forall2 tobj (t_objs t1) (t_objs t2).
Proof. intros (l & -> & F). repeat split. exact F. Qed.
Lemma zlen_tok t1 t2 : tokR t1 t2 -> zlen (t_objs t2) = zlen (t_objs t1).
Proof. intros (l & -> & F). symmetry. exact (Forall2_zlen _ _ _ F). Qed.
Lemma sysR_tok s1 s2 t1 t2 : sysR s1 s2 -> tokR t1 t2 -> sysR (set_tok s1 t1) (set_tok s2 t2).
Proof. intros (A & B & C & _) K. repeat split; auto. Qed.
Lemma sysR_sess s1 s2 l1 l2 : sysR s1 s2 -> Forall2 sessR l1 l2 -> sysR (set_sess s1 l1) (set_sess s2 l2).
Proof. intros (A & B & _ & C) K. repeat split; auto. Qed.
Lemma sysR_ops s1 s2 ws1 ws2 : sysR s1 s2 -> sysR (do_ops s1 ws1) (do_ops s2 ws2).
Proof. intros (A & B & C & D). repeat split; auto. Qed.
Lemma sysR_bump s1 s2 n : sysR s1 s2 -> sysR (bump s1 n) (bump s2 n).
Proof. intros (A & B & C & D). repeat split; auto. cbn. congruence. Qed.
Lemma header_tok t1 t2 : tokR t1 t2 -> tok_header t2 = tok_header t1.
Proof.
  intros K. pose proof (zlen_tok _ _ K) as Z. destruct K as (l & -> & F). unfold tok_header. cbn [set_objs t_label t_so t_user t_seed t_objs] in *. rewrite Z.
  assert (E : flat_map (fun o => w_ulong (o_type o)) l = flat_map (fun o => w_ulong (o_type o)) (t_objs t1)).
  { clear - F. revert F. generalize (t_objs t1). intros l0 F. induction F as [|a b l1 l2 E F IH]; [reflexivity|]. cbn [flat_map]. rewrite IH. destruct (tobj_fields _ _ E) as (_ & _ & -> & _). reflexivity. }
  rewrite E. reflexivity.
Qed.
Definition zsR (p q : Z * sys) : Prop := fst p = fst q /\ sysR (snd p) (snd q).
Lemma store_R rnd s1 s2 : sysR s1 s2 -> rel zsR (store w rnd s1) (store w rnd s2).
Proof.
  intros K. pose proof K as (_ & _ & _ & Kt). destruct (tok_fields _ _ Kt) as (_ & _ & _ & _ & _ & Ek & _ & F). unfold store, Token_Store. rewrite (header_tok _ _ Kt), Ek.
  destruct (tok_header _) as [h| |]; cbn [bind]; [|reflexivity..].
  pose proof (store_objs_tobj (t_key (s_tok s1)) (fun i => rnd (2 + i)%nat) _ _ F) as R.
  destruct (store_objs _ _ _ (t_objs (s_tok s1))) as [[[c l] ws]| |], (store_objs _ _ _ (t_objs (s_tok s2))) as [[[c' l'] ws']| |]; cbn in R; try contradiction; cbn [bind rel]; try exact R.
  destruct R as [Ec R]. cbn in Ec, R. subst c'. split; [reflexivity|]. apply sysR_ops, sysR_tok; [exact K|]. apply tokR_objs; assumption.
Qed.
Lemma decode_list key l1 l2 : Forall2 tobj l1 l2 -> rel (fun p q => fst p = fst q /\ Forall2 tobj (snd p) (snd q)) (decode_all w key l1) (decode_all w key l2).
Proof.
  induction 1 as [|a b l1 l2 E F IH]; [split; [reflexivity|constructor]|]. cbn [decode_all]. eapply rel_bind; [apply Decode_tobj; exact E|]. intros [c p] [c' q] [Ec R]. cbn in Ec, R. subst c'.
  destruct (negb _); [split; [reflexivity|constructor; assumption]|]. eapply rel_bind; [exact IH|]. intros [c2 r1] [c2' r2] [Ec2 R2]. cbn in Ec2, R2. subst c2'. split; [reflexivity|constructor; assumption].
Qed.
Lemma encode_list key l1 l2 : Forall2 tobj l1 l2 -> rel (Forall2 tobj) (encode_all w key l1) (encode_all w key l2).
Proof.
  induction 1 as [|a b l1 l2 E F IH]; [constructor|]. cbn [encode_all]. eapply rel_bind; [apply Encode_tobj; exact E|]. intros [c p] [c' q] [Ec R]. cbn in Ec, R. subst c'.
  destruct (negb _); [constructor; assumption|]. eapply rel_bind; [exact IH|]. intros r1 r2 R2. constructor; assumption.
Qed.
Lemma SOLogin_R l1 l2 t1 t2 pin now : map ss_use l1 = map ss_use l2 -> tokR t1 t2 -> fst (SOLogin w l1 t1 pin now) = fst (SOLogin w l2 t2 pin now) /\ tokR (snd (SOLogin w l1 t1 pin now)) (snd (SOLogin w l2 t2 pin now)).
Proof.
  intros U K. assert (Ex : existsb (fun x => ss_use x =? SESSION_RO)%Z l2 = existsb (fun x => ss_use x =? SESSION_RO)%Z l1).
  { revert l2 U. induction l1 as [|x l1 IH]; intros [|y l2] U; try discriminate; [reflexivity|]. injection U as U1 U2. cbn. rewrite U1, (IH _ U2). reflexivity. }
  destruct K as (l & -> & F). unfold SOLogin. destruct now as [n|]; [|split; [reflexivity|exists l; auto]]. cbn [set_objs t_login t_so]. destruct (logged_in _); [split; [reflexivity|exists l; auto]|].
  destruct (lock_check _ _) as [p|]; [|split; [reflexivity|exists l; auto]]. cbv zeta. rewrite Ex. destruct (existsb _ l1); [split; [reflexivity|exists l; auto]|].
  change (CheckPin w (set_so (set_objs t1 l) p) p pin) with (CheckPin w (set_so t1 p) p pin). destruct (_ =? _)%Z; [split; [reflexivity|exists l; auto]|]. destruct (_ =? _)%Z; (split; [reflexivity|exists l; auto]).
Qed.
Definition ztR (p q : Z * token) : Prop := fst p = fst q /\ tokR (snd p) (snd q).
Lemma UserLogin_R t1 t2 pin now : tokR t1 t2 -> rel ztR (UserLogin w t1 pin now) (UserLogin w t2 pin now).
Proof.
  intros K. pose proof K as (l & -> & F). unfold UserLogin. destruct now as [n|]; [|split; [reflexivity|exact K]]. cbn [set_objs t_login t_user t_seed]. destruct (logged_in _); [split; [reflexivity|exact K]|].
  destruct (lock_check _ _) as [p|]; [|split; [reflexivity|exact K]]. cbv zeta. change (CheckPin w (set_user (set_objs t1 l) p) p pin) with (CheckPin w (set_user t1 p) p pin).
  destruct (_ =? _)%Z; [split; [reflexivity|exists l; auto]|]. destruct (_ =? _)%Z; [|split; [reflexivity|exists l; auto]].
  cbn [set_key set_user set_objs t_key t_objs]. eapply rel_bind; [apply decode_list; exact F|]. intros [c r1] [c' r2] [Ec R]. cbn in Ec, R. subst c'. destruct (_ =? _)%Z; (split; [reflexivity|exists r2; auto]).
Qed.
Lemma Logout_R t1 t2 : tokR t1 t2 -> rel tokR (Logout w t1) (Logout w t2).
Proof.
  intros K. pose proof K as (l & -> & F). unfold Logout. cbn [set_objs t_login t_key t_objs]. destruct (orb _ _); [|exists l; auto].
  eapply rel_bind; [apply encode_list; exact F|]. intros r1 r2 R. exists r2. auto.
Qed.

(** *** Sessions *)
Lemma sess_fields x1 x2 : sessR x1 x2 -> ss_h x2 = ss_h x1 /\ ss_use x2 = ss_use x1 /\ ss_find x2 = ss_find x1 /\ ss_found x2 = ss_found x1 /\ ss_cur x2 = ss_cur x1 /\ ss_op x2 = ss_op x1 /\ Forall2 sobj (ss_objs x1) (ss_objs x2).
Proof. intros [(l & -> & F) _]. repeat split. exact F. Qed.
Lemma sessR_in_use x1 x2 : sessR x1 x2 -> in_use x2 = in_use x1.
Proof. intros K. unfold in_use. destruct (sess_fields _ _ K) as (_ & -> & _). reflexivity. Qed.
Lemma sessR_rw x1 x2 : sessR x1 x2 -> is_rw x2 = is_rw x1.
Proof. intros K. unfold is_rw. destruct (sess_fields _ _ K) as (_ & -> & _). reflexivity. Qed.
Lemma sessR_id x1 x2 : sessR x1 x2 -> sess_id x2 = sess_id x1.
Proof. intros K. unfold sess_id. destruct (sess_fields _ _ K) as (-> & _). reflexivity. Qed.
Lemma sobj_list l1 l2 : Forall2 sobj l1 l2 -> Forall2 tobj l1 l2.
Proof. induction 1; constructor; auto using sobj_tobj. Qed.
Lemma final_R x1 x2 : sessR x1 x2 -> rel sessR (sess_final x1) (sess_final x2).
Proof.
  intros K. pose proof (sessR_in_use _ _ K) as U. destruct (sess_fields _ _ K) as (E1 & _ & _ & E3 & E4 & E5 & F). destruct K as [_ N]. unfold sess_final. rewrite U, E1, E3, E4, E5.
  assert (E : free_all (if in_use x1 then ss_objs x2 else []) = free_all (if in_use x1 then ss_objs x1 else [])) by (destruct (in_use x1); [apply free_list, sobj_list; exact F|reflexivity]).
  rewrite E. apply rel_same. intros _ _. apply rel_same. intros p P. split; [|intros u C; apply session_final_curr in P; unfold cur in C; cbn in C; congruence].
  exists (if in_use x1 then [] else ss_objs x2). split; [reflexivity|]. cbn. destruct (in_use x1); [constructor|exact F].
Qed.
Lemma drop_R l1 l2 : Forall2 sessR l1 l2 -> rel (Forall2 sessR) (drop_unused l1) (drop_unused l2).
Proof.
  induction 1 as [|a b l1 l2 E F IH]; [constructor|]. cbn [drop_unused]. rewrite (sessR_in_use _ _ E), (sessR_id _ _ E). destruct (andb _ _); [|constructor; assumption].
  eapply rel_bind; [apply final_R; exact E|]. intros _ _ _. exact IH.
Qed.
Lemma upd_R l1 l2 x1 x2 : Forall2 sessR l1 l2 -> sessR x1 x2 -> Forall2 sessR (upd_sess l1 x1) (upd_sess l2 x2).
Proof.
  intros F K. unfold upd_sess. eapply Forall2_map2; [|exact F]. intros a b E. destruct (sess_fields _ _ E) as (-> & _), (sess_fields _ _ K) as (-> & _). destruct (_ =? _)%Z; assumption.
Qed.
Lemma close_R l1 l2 x1 x2 : Forall2 sessR l1 l2 -> sessR x1 x2 -> rel (Forall2 sessR) (close_sess l1 x1) (close_sess l2 x2).
Proof.
  intros F K. unfold close_sess. eapply rel_bind; [apply final_R; exact K|]. intros y1 y2 Y. destruct F as [|a b l1 l2 E F]; [constructor|].
  destruct (sess_fields _ _ E) as (Ea & _), (sess_fields _ _ K) as (Ex & _). rewrite Ea, Ex, (sessR_id _ _ K). destruct (andb _ _); [apply drop_R; exact F|]. apply upd_R; [constructor; assumption|exact Y].
Qed.
Lemma dyn_R l1 l2 : Forall2 sessR l1 l2 -> rel (Forall2 sessR) (drop_dyn l1) (drop_dyn l2).
Proof.
  induction 1 as [|a b l1 l2 E F IH]; [constructor|]. cbn [drop_dyn]. rewrite (sessR_id _ _ E). destruct (_ <? _)%Z; [|constructor; assumption].
  eapply rel_bind; [apply final_R; exact E|]. intros _ _ _. exact IH.
Qed.
Lemma head_R n : forall l1 l2, Forall2 sessR l1 l2 -> rel (Forall2 sessR) (final_head n l1) (final_head n l2).
Proof.
  induction n as [|n IH]; intros l1 l2 F; [exact F|]. destruct F as [|a b l1 l2 E F]; [constructor|]. cbn [final_head]. eapply rel_bind; [apply final_R; exact E|]. intros y1 y2 Y. apply IH. constructor; assumption.
Qed.
Lemma close_all_R l1 l2 : Forall2 sessR l1 l2 -> rel (Forall2 sessR) (close_all l1) (close_all l2).
Proof.
  intros F. unfold close_all. eapply rel_bind; [apply dyn_R; exact F|]. intros m1 m2 M. assert (L : length m2 = length m1) by (apply Forall2_zlen in M; unfold zlen in M; lia). rewrite L. apply head_R; exact M.
Qed.
Lemma final_all_R l1 l2 : Forall2 sessR l1 l2 -> rel (fun _ _ => True) (final_all l1) (final_all l2).
Proof. induction 1 as [|a b l1 l2 E F IH]; [exact I|]. cbn [final_all]. eapply rel_bind; [apply final_R; exact E|]. intros _ _ _. exact IH. Qed.
Lemma existsb_R f l1 l2 : (forall a b, sessR a b -> f b = f a) -> Forall2 sessR l1 l2 -> existsb f l2 = existsb f l1.
Proof. intros H. induction 1 as [|a b l1 l2 E F IH]; [reflexivity|]. cbn. rewrite (H _ _ E), IH. reflexivity. Qed.
Lemma uses_R l1 l2 : Forall2 sessR l1 l2 -> map ss_use l1 = map ss_use l2.
Proof. induction 1 as [|a b l1 l2 E F IH]; [reflexivity|]. cbn. destruct (sess_fields _ _ E) as (_ & -> & _). rewrite IH. reflexivity. Qed.
Lemma get_R s1 s2 h : sysR s1 s2 -> match sess_get s1 h, sess_get s2 h with Some x1, Some x2 => sessR x1 x2 | None, None => True | _, _ => False end.
Proof.
  intros (_ & _ & F & _). unfold sess_get. destruct (slot_ok _); [|exact I]. unfold find_sess. 
  pose proof (Forall2_find sessR (fun x => ss_h x =? h)%Z _ _ (fun a b E => f_equal (fun z => (z =? h)%Z) (eq_sym (proj1 (sess_fields _ _ E)))) F) as R.
  destruct (find _ (s_sess s1)) as [x|], (find _ (s_sess s2)) as [y|]; try contradiction; [|exact I]. rewrite (sessR_in_use _ _ R). destruct (in_use x); [exact R|exact I].
Qed.
Lemma put_R s1 s2 x1 x2 : sysR s1 s2 -> sessR x1 x2 -> sysR (put_sess s1 x1) (put_sess s2 x2).
Proof. intros K X. apply sysR_sess; [exact K|]. apply upd_R; [apply K|exact X]. Qed.
Lemma find_R s1 s2 x1 x2 ho : sysR s1 s2 -> sessR x1 x2 -> match find_obj s1 x1 ho, find_obj s2 x2 ho with Some a, Some b => tobj a b | None, None => True | _, _ => False end.
Proof.
  intros (_ & _ & _ & K) X. unfold find_obj. apply Forall2_find.
  - intros a b E. destruct (tobj_fields _ _ E) as (_ & -> & _). reflexivity.
  - destruct (on_token ho); [apply (tok_fields _ _ K)|apply sobj_list; apply (sess_fields _ _ X)].
Qed.
End R.
