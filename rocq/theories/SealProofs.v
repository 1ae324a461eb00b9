(** What is in the files of private and secret keys. *)
From Verif Require Import Base Codec CodecProofs Ops Object ObjectProofs Store StoreSpec StoreProofs Sys SysProofs SysProofs2 SysProofs3 SysProofs4 LoginProofs WfProofs CrashProofs DiskProofs.

Definition secret_kind (k : fkind) : bool :=
  match k with F_SYMMKEY | F_RSA_PRIV | F_ECC_PRIV | F_DH_PRIV => true | _ => false end.
(** The kind of file of the object's key is that of a private or secret key. *)
Definition secret (o : obj) : bool := match key_kind o with Some k => secret_kind k | None => false end.

Lemma Ok_eq {A} (a b : A) : Ok a = Ok b -> a = b.
Proof. intros H. injection H as H. exact H. Qed.
Lemma nodup_inj (l : list obj) a b : NoDup (uids l) -> In a l -> In b l -> o_uid a = o_uid b -> a = b.
Proof.
  induction l as [|x l IH]; [contradiction|]. cbn. intros N A B E. inversion N as [|? ? N1 N2]; subst.
  destruct A as [-> | A], B as [-> | B]; auto; exfalso; apply N1; [rewrite E|rewrite <- E]; apply in_map; assumption.
Qed.

Section W.
Variable w : world.
Hypothesis tag16 : forall k iv p, zlen (se_enc (w_se w) k iv p) = (zlen p + 16)%Z.
Hypothesis small : small_der (w_se w).
Notation se := (w_se w).
(** The keys that count as derived from the user's PIN. *)
Variable U : list N -> Prop.

(** An encryption under such a key. *)
Definition sealed (x : list N) : Prop := exists k iv p, U k /\ x = se_enc se k iv p /\ (zlen x < 2^31)%Z.
Lemma sealed_enc k iv p : U k -> (zlen p < 2^30)%Z -> sealed (se_enc se k iv p).
Proof. intros H L. exists k, iv, p. rewrite tag16. split; [exact H|]. split; [reflexivity|lia]. Qed.
Lemma take_small l b d : take_buf l b = Ok d -> (zlen d < 2^30)%Z.
Proof.
  unfold take_buf. change (Z.of_nat SYM_BUF) with 512%Z. destruct (orb _ _) eqn:E; [discriminate|]. intros H. apply Ok_eq in H. subst d. unfold zlen. rewrite firstn_length. lia.
Qed.

Definition osealed (o : obj) : Prop := secret o = true -> forall kd, o_keyData o = Some kd -> sealed kd.
Definition full (o : obj) : Prop := secret o = true -> o_keyData o <> None.
(** One write to the file of a private or secret key: sealed data, or the
    parameters of a DH key. *)
Definition wr_ok (x : wop) : Prop :=
  match x with
  | WOpen _ => True
  | WWrite f b => secret_kind (fst f) = true ->
      exists d, b = arr d /\ (sealed d \/ (fst f = F_DH_PRIV /\ exists p g, d = snd (se_dh_der se p g)))
  end.
Definition disk_ok (d : fs) : Prop := forall f b, secret_kind (fst f) = true -> d f = Some b ->
  b = [] \/ exists x r, b = arr x ++ r /\ sealed x.
(** The same for a list of operations. *)
Definition ops_ok (ws : list wop) : Prop := Forall wr_ok ws /\ forall d, disk_ok d -> disk_ok (apply d ws).
Lemma ops_nil : ops_ok [].
Proof. split; [constructor|auto]. Qed.
Lemma ops_app a b : ops_ok a -> ops_ok b -> ops_ok (a ++ b).
Proof.
  intros [A1 A2] [B1 B2]. split; [apply Forall_app; auto|]. intros d D. unfold apply. rewrite fold_left_app. apply B2, A2, D.
Qed.
Lemma disk_set d f v : disk_ok d -> (secret_kind (fst f) = true -> v = [] \/ exists x r, v = arr x ++ r /\ sealed x) -> disk_ok (fs_set d f v).
Proof.
  intros D V g b K E. unfold fs_set in E. destruct (fname_eqb g f) eqn:Q; [|eapply D; eauto]. apply fname_eqb_eq in Q. subst g. injection E as <-. auto.
Qed.
Lemma ops_open f : ops_ok [WOpen f].
Proof. split; [repeat constructor|]. intros d D. cbn [apply fold_left apply1]. apply disk_set; auto. Qed.
Lemma ops_plain f b : secret_kind (fst f) = false -> ops_ok [WWrite f b].
Proof.
  intros K. split; [constructor; [cbn; congruence|constructor]|]. intros d D. cbn [apply fold_left apply1]. apply disk_set; [exact D|congruence].
Qed.
Lemma fs_same d f v : fs_set d f v f = Some v.
Proof. unfold fs_set. rewrite (proj2 (fname_eqb_eq f f) eq_refl). reflexivity. Qed.
Lemma ops_key f x : sealed x -> ops_ok [WOpen f; WWrite f (arr x)].
Proof.
  intros X. split; [constructor; [constructor|]; constructor; [|constructor]; cbn; eauto|].
  intros d D. cbn [apply fold_left apply1]. rewrite fs_same. apply disk_set; [apply disk_set; auto|]. right. exists x, []. rewrite app_nil_r. auto.
Qed.
Lemma ops_dh id x p g : sealed x ->
  ops_ok ([WOpen (F_DH_PRIV, id); WWrite (F_DH_PRIV, id) (arr x)] ++ [WWrite (F_DH_PRIV, id) (arr (snd (se_dh_der se p g)))]).
Proof.
  intros X. split; [repeat constructor; cbn; intros _; eexists; (split; [reflexivity|]); eauto 8|].
  intros d D. cbn [apply fold_left apply1 app]. rewrite !fs_same. apply disk_set; [apply disk_set; [apply disk_set|]; auto|].
  - right. exists x, []. rewrite app_nil_r. auto.
  - right. exists x, (arr (snd (se_dh_der se p g))). auto.
Qed.

(** ** Encoding *)
Lemma secret_kd o iv kd en : secret (set_store o iv kd en) = secret o.
Proof. reflexivity. Qed.
Lemma secret_asym o : is_cert o = false -> o_type o = CKK_RSA \/ o_type o = CKK_EC \/ o_type o = CKK_DH -> secret o = is_priv o.
Proof. intros C T. unfold secret, key_kind. rewrite C. destruct T as [-> | [-> | ->]]; cbn; destruct (is_priv o); reflexivity. Qed.
Lemma EncodeKey_seal key o c o' : is_cert o = false -> U key -> EncodeKey se key o = Ok (c, o') -> osealed o' /\ secret o' = secret o /\ (c = 0%Z -> full o').
Proof.
  intros C K H. unfold EncodeKey in H.
  assert (A : forall pr pu, ((0 <= fst pr)%Z -> (zlen (snd pr) < 2^30)%Z) -> o_type o = CKK_RSA \/ o_type o = CKK_EC \/ o_type o = CKK_DH -> enc_asym se key o pr pu = Ok (c, o') -> osealed o' /\ secret o' = secret o /\ (c = 0%Z -> full o')).
  { intros pr pu Sm T E. pose proof (secret_asym o C T) as S. unfold enc_asym in E. destruct (is_priv o) eqn:P; [destruct pr as [c1 der]|destruct pu as [c1 der]]; cbn [fst snd] in Sm;
    (destruct (c1 <? 0)%Z eqn:Q; [injection E as <- <-; split; [intros _ kd X; discriminate X|]; split; [reflexivity|lia]|]).
    - injection E as <- <-. split; [intros _ kd X; injection X as <-; apply sealed_enc; [exact K|apply Sm; lia]|]. split; [reflexivity|]. intros _ _. discriminate.
    - destruct (o_class o =? CKO_PUBLIC_KEY)%Z; [|discriminate E]. injection E as <- <-. split; [intros X; exfalso; revert X; rewrite secret_kd, S; congruence|]. split; [reflexivity|].
      intros _ _. discriminate. }
  destruct (Z.eqb_spec (o_type o) CKK_RSA) as [T1|T1]; [destruct (as_rsa o) as [r| |]; cbn [bind] in H; try discriminate; eapply A; eauto; apply (sm_rsa _ small)|].
  destruct (Z.eqb_spec (o_type o) CKK_EC) as [T2|T2]; [destruct (as_ec o) as [r| |]; cbn [bind] in H; try discriminate; eapply A; eauto; apply (sm_ec _ small)|].
  destruct (Z.eqb_spec (o_type o) CKK_DH) as [T3|T3].
  { destruct (as_dh o) as [[[[p g] l] b]| |]; cbn [bind] in H; try discriminate. destruct (take_buf l b) as [d| |] eqn:Tb; cbn [bind] in H; try discriminate. apply take_small in Tb. injection H as <- <-.
    pose proof (secret_asym o C (or_intror (or_intror T3))) as S. split; [|split; [reflexivity|intros _ _; discriminate]].
    intros X kd Y. cbn [set_store o_keyData] in Y. rewrite secret_kd, S in X. rewrite X in Y. injection Y as <-. apply sealed_enc; assumption. }
  destruct (is_sym o) eqn:Sy.
  { destruct (as_sym o) as [[l b]| |]; cbn [bind] in H; try discriminate. destruct (take_buf l b) as [d| |] eqn:Tb; cbn [bind] in H; try discriminate. apply take_small in Tb. injection H as <- <-.
    split; [intros _ kd X; injection X as <-; apply sealed_enc; assumption|]. split; [reflexivity|intros _ _; discriminate]. }
  injection H as <- <-. assert (S : secret o = false).
  { unfold secret, key_kind. rewrite C, Sy. destruct (Z.eqb_spec (o_type o) CKK_RSA); [contradiction|]. destruct (Z.eqb_spec (o_type o) CKK_EC); [contradiction|].
    destruct (Z.eqb_spec (o_type o) CKK_DH); [contradiction|]. reflexivity. }
  split; [intros X; congruence|]. split; [reflexivity|intros _ X; congruence].
Qed.
Lemma protect_same o : o_keyData (protect_key o) = o_keyData o /\ secret (protect_key o) = secret o.
Proof. unfold protect_key. repeat (match goal with |- context [if ?b then _ else _] => destruct b end); split; reflexivity. Qed.
Lemma cert_secret o : is_cert o = true -> secret o = false.
Proof. intros C. unfold secret, key_kind. rewrite C. reflexivity. Qed.
Lemma Encode_seal key pr o c o' : U key -> Encode se key pr o = Ok (c, o') -> osealed o' /\ secret o' = secret o /\ (c = 0%Z -> full o').
Proof.
  intros K H. unfold Encode in H. destruct (is_cert o) eqn:C.
  - injection H as <- <-. pose proof (cert_secret o C) as S. split; [intros X; congruence|]. split; [reflexivity|intros _ X; congruence].
  - destruct (EncodeKey se key o) as [[c1 o1]| |] eqn:E; cbn [bind] in H; try discriminate. injection H as <- <-.
    apply EncodeKey_seal in E as (A & B & D); try assumption. destruct (andb _ _); [|auto].
    destruct (protect_same o1) as [P1 P2]. split; [intros X kd Y; rewrite P1 in Y; rewrite P2 in X; eapply A; eauto|]. split; [congruence|].
    intros Z X. rewrite P1. rewrite P2 in X. apply D; assumption.
Qed.
Lemma encode_all_seal key l l' : U key -> Forall osealed l -> encode_all w key l = Ok l' -> Forall osealed l'.
Proof.
  intros K. revert l'. induction l as [|o r IH]; intros l' F H; cbn [encode_all] in H; [injection H as <-; constructor|].
  inversion F as [|? ? F1 F2]; subst. destruct (Encode _ _ _ _) as [[c o1]| |] eqn:E; cbn [bind] in H; try discriminate.
  apply Encode_seal in E as (E & _); [|exact K]. destruct (negb _); [injection H as <-; constructor; assumption|].
  destruct (encode_all w key r) as [r1| |]; cbn [bind] in H; try discriminate. injection H as <-. constructor; auto.
Qed.

(** ** Storing *)
Lemma store_kd_seal key f o c o' ws : is_cert o = false -> key_kind o = Some (fst f) -> osealed o -> (U key \/ full o) -> store_kd se key f o = Ok (c, o', ws) ->
  osealed o' /\ secret o' = secret o /\ (full o -> full o') /\
  ((ws = [WOpen f] /\ c <> 0%Z) \/ exists b, ws = [WOpen f; WWrite f b] /\ (secret o = true -> exists d, b = arr d /\ sealed d)).
Proof.
  intros C Kd S K H. unfold store_kd in H.
  destruct (match o_keyData o with None => EncodeKey se key o | Some _ => Ok (0%Z, o) end) as [[c1 o1]| |] eqn:E; cbn [bind] in H; try discriminate.
  assert (A : osealed o1 /\ secret o1 = secret o /\ (full o -> full o1)).
  { destruct (o_keyData o) as [kd|] eqn:D; [injection E as <- <-; auto|]. destruct (secret o) eqn:So.
    - destruct K as [K|K]; [|exfalso; apply K; [exact So|exact D]]. apply EncodeKey_seal in E as (A1 & A2 & A3); [|exact C|exact K].
      split; [exact A1|]. split; [congruence|]. intros X. exfalso. apply X; assumption.
    - assert (S1 : secret o1 = false).
      { rewrite <- So. clear -E. unfold EncodeKey, enc_asym in E. sinv; reflexivity. }
      split; [intros X; congruence|]. split; [exact S1|]. intros _ X. congruence. }
  destruct A as (A1 & A2 & A3). destruct (negb (c1 =? 0)%Z) eqn:Nc; [injection H as <- <- <-; split; [exact A1|]; split; [exact A2|]; split; [exact A3|]; left; split; [reflexivity|lia]|].
  destruct (w_array _ _) as [d| |] eqn:W; cbn [bind] in H; try discriminate. injection H as <- <- <-.
  split; [exact A1|]. split; [exact A2|]. split; [exact A3|]. right. exists d. split; [reflexivity|].
  intros X. unfold kd_bytes in W. destruct (o_keyData o1) as [kd|] eqn:D.
  { assert (Q : sealed kd) by (apply A1; [congruence|exact D]). exists kd. split; [|exact Q]. destruct Q as (_ & _ & _ & _ & _ & Q). rewrite w_array_all in W by exact Q. apply Ok_eq in W. symmetry. exact W. }
  (* keyData NULL after a successful encode does not happen *)
  exfalso. destruct (o_keyData o) as [kd0|] eqn:D0; [injection E as <- <-; congruence|].
  destruct K as [K|K]; [|apply K; assumption]. apply EncodeKey_seal in E as (_ & _ & B3); [|exact C|exact K]. apply B3; [lia|congruence|exact D].
Qed.

Lemma two_ops (a b : wop) : [a; b] = [a] ++ [b].
Proof. reflexivity. Qed.
Lemma store_key_seal key id o c o' ws : osealed o -> (U key \/ full o) -> store_key se key id o = Ok (c, o', ws) ->
  osealed o' /\ (full o -> full o') /\ ops_ok ws.
Proof.
  intros S K H. unfold store_key in H. destruct (is_cert o) eqn:C.
  { destruct (as_cert o) as [[l b]| |]; cbn [bind] in H; try discriminate. destruct (_ <=? _)%Z; [injection H as <- <- <-; split; [exact S|]; split; [auto|apply ops_nil]|].
    destruct (w_array b l); cbn [bind] in H; try discriminate. injection H as <- <- <-. split; [exact S|]. split; [auto|].
    rewrite two_ops. apply ops_app; [apply ops_open|apply ops_plain; reflexivity]. }
  destruct (key_kind o) as [k|] eqn:Kk; [|injection H as <- <- <-; split; [exact S|]; split; [auto|apply ops_nil]].
  assert (Sk : secret o = secret_kind k) by (unfold secret; rewrite Kk; reflexivity).
  assert (P : forall b, (secret o = true -> exists d, b = arr d /\ sealed d) -> ops_ok [WOpen (k, id); WWrite (k, id) b]).
  { intros b D. destruct (secret o) eqn:So; [destruct (D eq_refl) as (d & -> & D'); apply ops_key; exact D'|]. rewrite two_ops. apply ops_app; [apply ops_open|apply ops_plain; cbn; congruence]. }
  destruct (Z.eqb_spec (o_type o) CKK_DH) as [T|T].
  - destruct (store_kd _ _ _ _) as [[[c1 o1] ws1]| |] eqn:E; cbn [bind] in H; try discriminate.
    apply store_kd_seal in E as (E1 & E2 & E3 & E4); try assumption.
    assert (Pw : ops_ok ws1) by (destruct E4 as [[-> _] | (d & -> & D)]; [apply ops_open|apply P; assumption]).
    destruct (negb _) eqn:Nc; [injection H as <- <- <-; auto|]. destruct (as_dh o1) as [[[[p g] l] b]| |]; cbn [bind] in H; try discriminate.
    destruct (se_dh_der se p g) as [c2 der] eqn:Dd. destruct (c2 <? 0)%Z eqn:C2; [injection H as <- <- <-; auto|].
    destruct (w_array der (zlen der)) as [x| |] eqn:W; cbn [bind] in H; try discriminate. injection H as <- <- <-. split; [exact E1|]. split; [exact E3|].
    destruct (secret o) eqn:So.
    + assert (Kd : k = F_DH_PRIV).
      { unfold key_kind in Kk. rewrite C, T in Kk. cbn in Kk. injection Kk as <-. destruct (is_priv o); [reflexivity|discriminate Sk]. }
      subst k. destruct E4 as [[_ Q] | (d & -> & D)].
      * exfalso. lia.
      * destruct (D eq_refl) as (d' & -> & D'). pose proof (sm_dh _ small p g) as Sd. rewrite Dd in Sd. cbn [fst snd] in Sd.
        rewrite w_array_all in W by (cut (zlen der < 2^30)%Z; [lia|apply Sd; lia]). apply Ok_eq in W. subst x.
        change (w_word32 (zlen der) ++ der) with (arr der). replace der with (snd (se_dh_der se p g)) by (rewrite Dd; reflexivity). apply ops_dh; exact D'.
    + apply ops_app; [exact Pw|]. apply ops_plain. cbn. congruence.
  - apply store_kd_seal in H as (E1 & E2 & E3 & E4); try assumption. split; [exact E1|]. split; [exact E3|].
    destruct E4 as [[-> _] | (d & -> & D)]; [apply ops_open|apply P; assumption].
Qed.
Lemma store_obj_seal key rnd id o c o' ws : osealed o -> (U key \/ full o) -> store_obj se key rnd id o = Ok (c, o', ws) ->
  osealed o' /\ (full o -> full o') /\ ops_ok ws.
Proof.
  intros S K H. unfold store_obj in H. destruct (obj_header o) as [h| |]; cbn [bind] in H; try discriminate. cbv zeta in H.
  set (o1 := match o_keyData o with None => _ | Some _ => o end) in H.
  assert (E : osealed o1 /\ (full o -> full o1)).
  { unfold o1. destruct (o_keyData o) as [kd|] eqn:D; [auto|]. destruct (orb _ _); [|auto]. split; [intros _ kd X; discriminate X|]. intros F X. exfalso. apply F; assumption. }
  destruct E as [E1 E2]. destruct (store_key _ _ _ _) as [[[c1 o2] ws1]| |] eqn:Q; cbn [bind] in H; try discriminate. injection H as <- <- <-.
  apply store_key_seal in Q as (Q1 & Q2 & Q3); [|exact E1|tauto]. split; [exact Q1|]. split; [auto|].
  change (?a :: ?b :: ws1) with ([a] ++ [b] ++ ws1). apply ops_app; [apply ops_open|]. apply ops_app; [apply ops_plain; reflexivity|exact Q3].
Qed.
Lemma store_objs_seal key rnd l : forall c l' ws, Forall osealed l -> (U key \/ Forall full l) -> store_objs se key rnd l = Ok (c, l', ws) ->
  Forall osealed l' /\ (Forall full l -> Forall full l') /\ ops_ok ws.
Proof.
  induction l as [|o r IH]; intros c l' ws F K H; cbn [store_objs] in H; [injection H as <- <- <-; split; [constructor|]; split; [auto|apply ops_nil]|].
  inversion F as [|? ? F1 F2]; subst. destruct (store_obj _ _ _ _ _) as [[[c1 o1] ws1]| |] eqn:E; cbn [bind] in H; try discriminate.
  apply store_obj_seal in E as (E1 & E2 & E3); [|exact F1|destruct K as [K|K]; [auto|right; inversion K; assumption]].
  destruct (negb _).
  { injection H as <- <- <-. split; [constructor; assumption|]. split; [|exact E3]. intros X. inversion X; subst. constructor; auto. }
  destruct (store_objs se key rnd r) as [[[c2 r1] ws2]| |] eqn:E'; cbn [bind] in H; try discriminate. injection H as <- <- <-.
  assert (K' : U key \/ Forall full r) by (destruct K as [K|K]; [auto|right; inversion K; assumption]). destruct (IH _ _ _ F2 K' eq_refl) as (G1 & G2 & G3).
  split; [constructor; assumption|]. split; [|apply ops_app; assumption]. intros X. inversion X; subst. constructor; auto.
Qed.
(** ** Loading *)
Lemma load_obj_seal d uid ty id o : disk_ok d -> load_obj se d uid ty id = Ok o -> osealed o /\ full o.
Proof.
  intros D H. unfold load_obj in H. destruct (open_read d _) as [f| |]; cbn [bind] in H; try discriminate.
  destruct (read_obj_file uid ty f) as [[o1 r]| |]; cbn [bind] in H; try discriminate.
  destruct (key_kind o1) as [k|] eqn:K; [|discriminate]. destruct (open_read d (k, id)) as [kf| |] eqn:O; cbn [bind] in H; try discriminate.
  destruct (read_key_file se o1 kf) as [[o2 r2]| |] eqn:R; cbn [bind] in H; try discriminate. injection H as <-.
  unfold open_read in O. destruct (d (k, id)) as [b|] eqn:E; [|discriminate]. injection O as ->.
  unfold read_key_file in R. destruct (r_alloc kf) as [[kd f1]| |] eqn:A; cbn [bind] in R; try discriminate.
  assert (X : o_keyData o2 = Some kd /\ secret o2 = secret o1).
  { destruct (andb _ _); [|injection R as <- _; split; reflexivity].
    destruct (r_alloc f1) as [[der f2]| |]; cbn [bind] in R; try discriminate. destruct (se_dh_dec se der) as [c [p g]]. destruct (negb _); [discriminate|]. injection R as <- _. split; reflexivity. }
  destruct X as [X1 X2]. split; [|intros _; congruence]. intros Y kd' Z. rewrite X1 in Z. injection Z as <-. rewrite X2 in Y. unfold secret in Y. rewrite K in Y.
  destruct (D (k, id) _ Y E) as [-> | (x & r' & -> & Sx)].
  - vm_compute in A. discriminate.
  - rewrite read_arr in A by (destruct Sx as (? & ? & ? & _ & _ & Q); exact Q). injection A as <- _. exact Sx.
Qed.
Lemma load_objs_seal d tys : forall uid l, disk_ok d -> load_objs se d uid tys = Ok l -> Forall osealed l /\ Forall full l.
Proof.
  induction tys as [|ty r IH]; intros uid l D H; cbn [load_objs] in H; [injection H as <-; split; constructor|].
  destruct (load_obj _ _ _ _ _) as [o| |] eqn:E; cbn [bind] in H; try discriminate. destruct (load_objs _ _ _ _) as [l1| |] eqn:F; cbn [bind] in H; try discriminate. injection H as <-.
  apply load_obj_seal in E as [E1 E2]; [|exact D]. apply IH in F as [F1 F2]; [|exact D]. split; constructor; assumption.
Qed.
Lemma Load_seal d uid t : disk_ok d -> Token_Load se d uid = Ok t -> Forall osealed (t_objs t) /\ Forall full (t_objs t) /\ t_login t = RW_PUBLIC.
Proof.
  intros D H. unfold Token_Load in H. destruct (d _) as [f|]; [|injection H as <-; repeat constructor].
  destruct (load_all se d uid f) as [t1| |] eqn:L; [injection H as <-|injection H as <-; repeat constructor|discriminate].
  unfold load_all in L. destruct (read_tok_file f) as [[tf r]| |]; cbn [bind] in L; try discriminate.
  destruct (load_objs _ _ _ _) as [l| |] eqn:E; cbn [bind] in L; try discriminate. injection L as <-. apply load_objs_seal in E as [E1 E2]; [|exact D]. auto.
Qed.

(** ** The state *)
Definition tseal (t : token) : Prop := Forall osealed (t_objs t) /\ (U (t_key t) \/ Forall full (t_objs t)).
Definition sseal (s : sys) : Prop := tseal (s_tok s) /\ disk_ok (s_fs s) /\ Forall wr_ok (s_log s).
Lemma sseal_ops s s' ws : sseal s -> tseal (s_tok s') -> s_fs s' = apply (s_fs s) ws -> s_log s' = s_log s ++ ws -> ops_ok ws -> sseal s'.
Proof. intros (_ & D & L) T F G [O1 O2]. split; [exact T|]. rewrite F, G. split; [auto|apply Forall_app; auto]. Qed.
Lemma sseal_tok s s' : sseal s -> s_fs s' = s_fs s -> s_log s' = s_log s -> tseal (s_tok s') -> sseal s'.
Proof. intros (T & D & L) F G E. split; [exact E|]. rewrite F, G. auto. Qed.
Lemma sseal_same s s' : sseal s -> s_fs s' = s_fs s -> s_log s' = s_log s -> s_tok s' = s_tok s -> sseal s'.
Proof. intros S F G E. apply (sseal_tok s); try assumption. rewrite E. apply S. Qed.
Lemma store_seal rnd s c s' : sseal s -> store w rnd s = Ok (c, s') -> sseal s'.
Proof.
  intros S H. unfold store in H. destruct (Token_Store _ _ _) as [[[c1 t] ws]| |] eqn:T; cbn [bind] in H; try discriminate. injection H as _ <-.
  unfold Token_Store in T. destruct (tok_header _) as [h| |]; cbn [bind] in T; try discriminate.
  destruct (store_objs _ _ _ _) as [[[c2 l] ws1]| |] eqn:O; cbn [bind] in T; try discriminate. injection T as _ <- <-.
  destruct S as ((S1 & S2) & S3 & S4). apply store_objs_seal in O as (O1 & O2 & O3); try assumption.
  eapply sseal_ops; [split; [split; [exact S1|exact S2]|split; [exact S3|exact S4]]| |reflexivity|reflexivity|].
  - split; [exact O1|]. cbn. tauto.
  - change (?a :: ?b :: ws1) with ([a] ++ [b] ++ ws1). apply ops_app; [apply ops_open|]. apply ops_app; [apply ops_plain; reflexivity|exact O3].
Qed.
Lemma remove_Forall (P : obj -> Prop) u l : Forall P l -> Forall P (remove_uid u l).
Proof. induction 1 as [|o r H F IH]; cbn [remove_uid]; [constructor|]. destruct (_ =? _)%nat; [exact F|constructor; assumption]. Qed.
Lemma ops_unstore id o : ops_ok (Unstore id o).
Proof.
  unfold Unstore. change (?a :: ?b) with ([a] ++ b). apply ops_app; [apply ops_open|]. destruct (key_kind o); [apply ops_open|apply ops_nil].
Qed.

(** ** The calls *)
(** Objects are created only while the user is logged in, and the class of an
    object is not changed. *)
Definition careful (s : sys) (c : op) : Prop :=
  (creates c = true -> t_login (s_tok s) = RW_USER) /\
  (forall h ho t, c = OSetAttributeValue h ho t -> Forall (fun a => a_type a <> CKA_CLASS) t).
Definition linv (s : sys) : Prop :=
  (t_login (s_tok s) = RW_USER -> U (t_key (s_tok s))) /\ (t_login (s_tok s) <> RW_PUBLIC -> t_init (s_tok s) = true).
Lemma SetAttr_class o a c o' : a_type a <> CKA_CLASS -> SetAttr o a = Ok (c, o') -> o_class o' = o_class o.
Proof.
  unfold SetAttr. intros N H.
  destruct (set_opflag_of (a_type a)); [injection H as _ <-; reflexivity|].
  destruct (set_flag_of (a_type a)); [injection H as _ <-; reflexivity|].
  destruct (Z.eqb_spec (a_type a) CKA_CLASS); [contradiction|].
  repeat (match type of H with context [if ?b then _ else _] => destruct b; [try (injection H as _ <-; reflexivity)|] end); try (destruct (new_sval _ _) as [[? ?]|?|?]; cbn in H; try discriminate); injection H as _ <-; reflexivity.
Qed.
Lemma SetAV_class o t rv o' : Forall (fun a => a_type a <> CKA_CLASS) t -> SetAttributeValue (w_oe w) true o t = Ok (rv, o') -> o_class o' = o_class o.
Proof.
  intros F H. unfold SetAttributeValue in H. cbn [negb] in H. cbv iota zeta in H. destruct (negb _); [injection H as _ <-; reflexivity|].
  destruct (params_of o); [|injection H as _ <-; reflexivity]. destruct (param_vals _ _); [|injection H as _ <-; reflexivity].
  destruct (SetKey _ _ _) as [[c o1]| |] eqn:S; cbn [bind] in H; try discriminate. 
  assert (C : o_class o1 = o_class o) by (apply SetKey_frame in S; destruct S as (d & n & ->); reflexivity).
  destruct (_ =? _)%Z; [injection H as _ <-; exact C|]. destruct (negb _); [injection H as _ <-; exact C|]. rewrite <- C.
  refine (set_loop_keep (fun x => o_class x = o_class o1) (fun a => a_type a <> CKA_CLASS) t _ F o1 rv o' H eq_refl).
  intros x a c1 x' Na E Q. rewrite <- Q. eapply SetAttr_class; eauto.
Qed.
Lemma secret_class o o' : o_class o' = o_class o -> o_type o' = o_type o -> secret o' = secret o.
Proof. intros A B. unfold secret, key_kind, is_cert, is_priv, is_sym. rewrite A, B. reflexivity. Qed.

Lemma prim_seal cl h s s' : inv s -> careful s cl -> linv s -> sseal s -> prim w cl h s s' -> sseal s'.
Proof.
  intros I [C1 C2] [L _] S P. destruct P as [s x x' X Us Hx Hx' Us' Ob|s n|s x rnd c s' X R Hx St Cr|s x o X R Hx Q Ul Uf Ho Ot M Cr|s x b o X R Hx Q Ul Uf Nb Ho Ot M Cr|s x o X R Hx Io Cr|s x o X R Hx Io Ot Cr|s x o o' X R Hx Io Sid M].
  - apply (sseal_same s); auto.
  - apply (sseal_same s); auto.
  - eapply store_seal; eauto.
  - apply (sseal_same s); auto.
  - specialize (L (C1 Cr)). apply (sseal_tok s); auto. destruct M as (o1 & o2 & _ & E & ->). apply Encode_seal in E as (E1 & E2 & _); [|exact L].
    split; [constructor; [exact E1|apply S]|left; exact L].
  - apply (sseal_same s); auto.
  - eapply sseal_ops; [exact S| |reflexivity|reflexivity|apply ops_unstore]. destruct S as ((S1 & S2) & _).
    split; cbn [do_ops set_tok s_tok set_objs t_objs t_key]; [apply remove_Forall; exact S1|]. destruct S2 as [S2|S2]; [auto|right; apply remove_Forall; exact S2].
  - apply (sseal_tok s); auto. destruct M as (ho & t & rv & -> & Fo & E). specialize (C2 _ _ _ eq_refl). apply SetAV_class in E; [|exact C2].
    destruct Sid as (D1 & D2 & _ & _ & _ & D6 & _). assert (Sec : secret o' = secret o) by (apply secret_class; assumption).
    assert (G : forall (Q : obj -> Prop), (Q o -> Q o') -> Forall Q (t_objs (s_tok s)) -> Forall Q (upd_objs (t_objs (s_tok s)) o')).
    { intros Q Qo F. unfold upd_objs. apply Forall_map. apply Forall_forall. intros y Y. rewrite Forall_forall in F.
      destruct (Nat.eqb_spec (o_uid y) (o_uid o')) as [E1|E1]; [|auto]. apply Qo.
      assert (y = o) as <-; [|auto]. apply in_app_or in Io. destruct I as (_ & _ & (Nd & _) & _).
      assert (Lo : In o (live s)).
      { unfold live. apply in_or_app. destruct Io as [Io|Io]; [auto|right]. apply in_flat_map. eauto. }
      eapply nodup_inj; [exact Nd|unfold live; apply in_or_app; left; exact Y|exact Lo|congruence]. }
    destruct S as ((S1 & S2) & _). split; cbn [put_obj set_sess set_tok s_tok set_objs t_objs t_key].
    + apply G; [|exact S1]. intros Z Y kd K. rewrite D6 in K. rewrite Sec in Y. eapply Z; eauto.
    + destruct S2 as [S2|S2]; [auto|right]. apply G; [|exact S2]. intros Z Y. rewrite D6. rewrite Sec in Y. auto.
Qed.
Lemma careful_tok0 s s' c : tok0 (s_tok s') = tok0 (s_tok s) -> careful s c -> careful s' c.
Proof. intros T [A B]. split; [|exact B]. apply tok0_eq in T as (_ & _ & _ & _ & _ & _ & ->). exact A. Qed.
Lemma linv_tok0 s s' : tok0 (s_tok s') = tok0 (s_tok s) -> linv s -> linv s'.
Proof. intros T. apply tok0_eq in T as (_ & T2 & _ & _ & _ & T6 & T7). unfold linv. rewrite T2, T6, T7. auto. Qed.
Lemma prims_seal cl h s s' : inv s -> careful s cl -> linv s -> sseal s -> prims w cl h s s' -> sseal s' /\ linv s'.
Proof.
  intros I C L S P. induction P as [s|s s1 s2 P Ps IH]; [auto|].
  assert (Q : quiet s s1) by (eapply prim_quiet; [exact P|apply inv_uniq; exact I]). destruct Q as (_ & _ & Q).
  apply IH; [exact (prim_inv _ _ _ _ _ P I)|eapply careful_tok0; eauto|eapply linv_tok0; eauto|eapply prim_seal; eauto].
Qed.
(** The key derived from the user's PIN. *)
Definition pin_key (t : token) : Prop := exists p, right w t User p /\ t_key t = se_hash se p (t_seed t).
Lemma SetSOPin_seal rnd s new c s' : sseal s -> linv s -> SetSOPin w rnd s new = Ok (c, s') -> sseal s' /\ linv s'.
Proof.
  unfold SetSOPin. intros S L H. pose proof (store_frame _ _ _ _ _ H) as (_ & _ & _ & T & _).
  split; [eapply store_seal; [|exact H]; apply (sseal_tok s); auto; exact (proj1 S)|]. eapply linv_tok0; [exact T|]. exact L.
Qed.
Lemma SetUserPin_seal rnd s new c s' : sseal s -> linv s -> t_init (s_tok s) = true -> (pin_key (s_tok s') -> U (t_key (s_tok s'))) -> SetUserPin w rnd s new = Ok (c, s') -> sseal s' /\ linv s'.
Proof.
  unfold SetUserPin. intros S L In Pk H. pose proof (store_frame _ _ _ _ _ H) as (_ & _ & _ & T & _).
  apply tok0_eq in T. destruct T as (_ & T2 & _ & T4 & T5 & T6 & T7). cbn [set_tok s_tok set_key set_seed set_user t_init t_user t_seed t_key t_login] in T2, T4, T5, T6, T7.
  assert (K : U (t_key (s_tok s'))).
  { apply Pk. exists new. split; [|rewrite T6, T5; reflexivity]. unfold right, pin_of. rewrite T2, T4. cbn [p_len p_seed p_hash]. split; [exact In|]. split; [discriminate|reflexivity]. }
  split.
  - eapply store_seal; [|exact H]. apply (sseal_tok s); auto. split; cbn [set_tok s_tok set_key set_seed set_user t_objs t_key]; [apply S|]. left. rewrite <- T6. exact K.
  - split; [auto|]. rewrite T2, T7. apply L.
Qed.
Lemma Logout_seal t t' : tseal t -> (t_login t = RW_USER -> U (t_key t)) -> t_login t <> RO_USER -> Logout w t = Ok t' -> tseal t' /\ t_login t' = RW_PUBLIC.
Proof.
  unfold Logout. intros [S1 S2] L No H. destruct (orb _ _) eqn:O; [|injection H as <-; split; [split; assumption|reflexivity]].
  assert (K : U (t_key t)) by (apply L; lia). destruct (encode_all _ _ _) as [l| |] eqn:E; cbn [bind] in H; try discriminate. injection H as <-.
  apply encode_all_seal in E; [|exact K|exact S1]. split; [split; [exact E|left; exact K]|reflexivity].
Qed.
Lemma decode_all_seal key l c l' : Forall osealed l -> decode_all w key l = Ok (c, l') -> Forall osealed l'.
Proof.
  revert c l'. induction l as [|o r IH]; intros c l' F H; cbn [decode_all] in H; [injection H as <- <-; constructor|].
  inversion F as [|? ? F1 F2]; subst. destruct (Decode _ _ _) as [[c1 o1]| |] eqn:E; cbn [bind] in H; try discriminate.
  assert (D : osealed o1).
  { apply Decode_ident in E as [E1 E2]. assert (Sc : secret o1 = secret o).
    { apply secret_class; [exact (f_equal o_class E1)|exact (f_equal o_type E1)]. }
    intros X kd Y. rewrite Sc in X. rewrite E2 in Y. eapply F1; eauto. }
  destruct (negb _); [injection H as <- <-; constructor; assumption|].
  destruct (decode_all w key r) as [[c2 r1]| |]; cbn [bind] in H; try discriminate. injection H as <- <-. constructor; eauto.
Qed.
Lemma UserLogin_seal t a n c t' : tseal t -> (t_login t = RW_USER -> U (t_key t)) -> (t_login t <> RW_PUBLIC -> t_init t = true) ->
  (pin_key t' -> U (t_key t')) -> UserLogin w t a n = Ok (c, t') ->
  tseal t' /\ (t_login t' = RW_USER -> U (t_key t')) /\ (t_login t' <> RW_PUBLIC -> t_init t' = true).
Proof.
  unfold UserLogin. intros S L1 L2 Pk H. destruct n as [n|]; [|injection H as _ <-; auto]. destruct (logged_in _); [injection H as _ <-; auto|].
  destruct (lock_check _ _) as [p|] eqn:Lk; [|injection H as _ <-; auto]. cbv zeta in H.
  destruct (CheckPin _ _ _ _ =? PIN_INVALID_E)%Z; [injection H as _ <-; auto|]. destruct (CheckPin _ _ _ _ =? 0)%Z eqn:Ch; [|injection H as _ <-; auto].
  apply Z.eqb_eq in Ch. apply check_0 in Ch. cbn [set_user t_init] in Ch.
  destruct (decode_all _ _ _) as [[c2 l]| |] eqn:D; cbn [bind] in H; try discriminate. cbn [set_user set_key t_objs t_key] in D. apply decode_all_seal in D; [|apply S].
  assert (Kx : pin_key t' /\ t_key t' = se_hash se a (t_seed t) /\ t_objs t' = l /\ t_init t' = t_init t).
  { destruct (c2 =? 0)%Z; injection H as _ <-; (split; [exists a; split; [|reflexivity]|auto]); unfold right, pin_of; cbn; unfold reset_fail; cbn; exact Ch. }
  destruct Kx as (K1 & _ & K3 & K4). specialize (Pk K1). split; [split; [rewrite K3; exact D|auto]|]. split; [auto|]. intros _. rewrite K4. apply Ch.
Qed.
Theorem step_seal rnd s c s' o : inv s -> careful s c -> linv s -> sseal s -> (pin_key (s_tok s') -> U (t_key (s_tok s'))) ->
  step w rnd s c = Ok (s', o) -> sseal s' /\ linv s'.
Proof.
  intros I C L S Pk H. destruct (objop c) as [h|] eqn:O; [eapply prims_seal; eauto; eapply objop_prims; eauto|]. clear C.
  assert (N : sseal s /\ linv s) by auto.
  assert (Nr : t_login (s_tok s) <> RO_USER) by (destruct I as (_ & _ & _ & (Q & _)); cbn in Q; unfold RO_USER; intros E; rewrite E in Q; cbv in Q; intuition discriminate).
  destruct c; try discriminate O; cbn [step] in H; unfold with_slot, with_sess, need_lib in H.
  - unfold Initialize in H. destruct (_ =? 0)%Z; [|injection H as <- _; split; [apply (sseal_same s); auto|exact L]].
    destruct (Token_Load _ _ _) as [t| |] eqn:T; cbn [bind] in H; try discriminate. injection H as <- _. apply Load_seal in T as (T1 & T2 & T3); [|apply S].
    split; [apply (sseal_tok s); auto; split; auto|]. unfold linv. cbn [s_tok]. rewrite T3. split; [discriminate|intros Q; exfalso; apply Q; reflexivity].
  - unfold Finalize in H. destruct (_ =? 0)%Z; [|injection H as <- _; split; [apply (sseal_same s); auto|exact L]].
    destruct (store w rnd s) as [[c1 s1]| |] eqn:St; cbn [bind] in H; try discriminate. apply store_seal in St; [|exact S].
    destruct (final_all _); cbn [bind] in H; try discriminate. destruct (free_all _); cbn [bind] in H; try discriminate. injection H as <- _.
    split; [|split; [discriminate|intros Q; exfalso; apply Q; reflexivity]]. apply (sseal_tok s1); auto. split; [constructor|right; constructor].
  - injection H as <- _. split; [apply (sseal_tok s); auto; split; [constructor|right; constructor]|split; [discriminate|intros Q; exfalso; apply Q; reflexivity]].
  - destruct (0 <? _)%Z; [|sinv; apply N]. destruct (slot_ok slot); [|sinv; apply N]. unfold InitToken in H.
    repeat match type of H with (if ?b then rv_ _ _ else _) = _ => destruct b; [sinv; apply N|] end.
    destruct (TokenReset _ _ _ _ _) as [[c s1]| |] eqn:T; cbn [bind] in H; try discriminate. unfold rv_ in H. injection H as <- _.
    unfold TokenReset in T. destruct (free_all _); cbn [bind] in T; try discriminate. destruct (zlen label <? 32)%Z eqn:LL; [discriminate|].
    eapply SetSOPin_seal; [| |exact T]; [|split; [discriminate|reflexivity]]. apply (sseal_tok s); auto. split; [constructor|right; constructor].
  - destruct (0 <? _)%Z; [|sinv; apply N]. destruct (sess_get s h) as [x|]; [|sinv; apply N]. unfold InitPIN in H.
    destruct (negb (GetState (s_tok s) x =? RW_SO)%Z) eqn:G; [sinv; apply N|].
    repeat match type of H with (if ?b then rv_ _ _ else _) = _ => destruct b; [sinv; apply N|] end.
    destruct (SetUserPin _ _ _ _) as [[c s1]| |] eqn:T; cbn [bind] in H; try discriminate. unfold rv_ in H. injection H as <- _.
    eapply SetUserPin_seal; eauto. apply L. unfold GetState in G. intros E. rewrite E in G. cbn in G. destruct (ss_use x =? SESSION_RW)%Z; discriminate G.
  - destruct (0 <? _)%Z; [|sinv; apply N]. destruct (sess_get s h) as [x|]; [|sinv; apply N]. unfold SetPIN in H. cbv zeta in H.
    destruct (negb (pin_len_ok old)); [sinv; apply N|]. destruct (negb (pin_len_ok new)); [sinv; apply N|]. destruct (negb (orb _ _)); [sinv; apply N|].
    destruct (CheckPin w _ _ _ =? PIN_NOT_SET_E)%Z; [sinv; apply N|]. destruct (negb (CheckPin w _ _ _ =? 0)%Z) eqn:Ch; [sinv; apply N|].
    apply negb_false_iff, Z.eqb_eq, check_0 in Ch. destruct Ch as (Ti & _).
    match type of H with bind ?r _ = _ => destruct r as [[c s1]| |] eqn:T end; cbn [bind] in H; try discriminate.
    unfold rv_ in H. injection H as <- _. destruct (GetState _ _ =? _)%Z; [eapply SetSOPin_seal; eauto|eapply SetUserPin_seal; eauto].
  - destruct (0 <? s_count s)%Z eqn:Cn; [|sinv; apply N]. destruct (slot_ok slot); [|sinv; apply N]. 
    apply OpenSession_ok in H as [[-> _] | (l & x & P)]; [apply N| |exact I|lia]. cbv zeta in P. destruct P as (-> & _). split; [apply (sseal_same s); auto|exact L].
  - destruct (0 <? _)%Z; [|sinv; apply N]. destruct (sess_get s h) as [x|]; [|sinv; apply N]. unfold CloseSession in H.
    destruct (close_sess _ _) as [l| |]; cbn [bind] in H; try discriminate. destruct (existsb in_use l); [unfold rv_ in H; injection H as <- _; split; [apply (sseal_same s); auto|exact L]|].
    destruct (Logout _ _) as [t| |] eqn:Lo; cbn [bind] in H; try discriminate. unfold rv_ in H. injection H as <- _.
    apply Logout_seal in Lo as (A & B); [|apply S|apply L|exact Nr]. split; [apply (sseal_tok s); auto|]. unfold linv. cbn [set_tok s_tok]. rewrite B. split; [discriminate|intros Q; exfalso; apply Q; reflexivity].
  - destruct (0 <? _)%Z; [|sinv; apply N]. destruct (slot_ok slot); [|sinv; apply N]. destruct (close_all _); cbn [bind] in H; try discriminate.
    unfold rv_ in H. injection H as <- _. split; [apply (sseal_same s); auto|exact L].
  - destruct (0 <? _)%Z; [|sinv; apply N]. destruct (sess_get s h) as [x|]; [|sinv; apply N]. unfold Login in H. destruct (negb _); [sinv; apply N|].
    destruct (ut =? CKU_SO)%Z; [|destruct (ut =? CKU_USER)%Z; [|destruct (ut =? CKU_CONTEXT_SPECIFIC)%Z; sinv; apply N]].
    + destruct (SOLogin _ _ _ _ _) as [c t] eqn:Lo. unfold rv_ in H. injection H as <- _.
      assert (Q : t_objs t = t_objs (s_tok s) /\ t_key t = t_key (s_tok s) /\ t_init t = t_init (s_tok s) /\ (t_login t = t_login (s_tok s) \/ (t_login t = RW_SO /\ t_init t = true))).
      { unfold SOLogin in Lo. destruct now as [n|]; [|injection Lo as _ <-; auto]. destruct (logged_in _); [injection Lo as _ <-; auto|].
        destruct (lock_check _ _) as [p|]; [|injection Lo as _ <-; auto]. cbv zeta in Lo. destruct (existsb _ _); [injection Lo as _ <-; auto|].
        destruct (CheckPin _ _ _ _ =? PIN_INVALID_E)%Z; [injection Lo as _ <-; auto|]. destruct (CheckPin _ _ _ _ =? 0)%Z eqn:Ch; [|injection Lo as _ <-; auto].
        apply Z.eqb_eq, check_0 in Ch. destruct Ch as (Ti & _). injection Lo as _ <-. split; [reflexivity|]. split; [reflexivity|]. split; [reflexivity|]. right. split; [reflexivity|exact Ti]. }
      destruct Q as (Q1 & Q2 & Q3 & Q4). split; [apply (sseal_tok s); auto; unfold tseal; cbn [set_tok s_tok]; rewrite Q1, Q2; apply S|].
      unfold linv. cbn [set_tok s_tok]. destruct Q4 as [Q4|[Q4 Q5]]; rewrite Q4, Q2; [rewrite Q3; exact L|split; [discriminate|auto]].
    + destruct (UserLogin _ _ _ _) as [[c t]| |] eqn:Lo; cbn [bind] in H; try discriminate. unfold rv_ in H. injection H as <- _.
      destruct L as [L1 L2]. apply UserLogin_seal in Lo as (A & B & D); [|apply S|exact L1|exact L2|exact Pk]. split; [apply (sseal_tok s); auto|split; assumption].
  - destruct (0 <? _)%Z; [|sinv; apply N]. destruct (sess_get s h) as [x|]; [|sinv; apply N].
    destruct (Logout _ _) as [t| |] eqn:Lo; cbn [bind] in H; try discriminate. unfold rv_ in H. injection H as <- _.
    apply Logout_seal in Lo as (A & B); [|apply S|apply L|exact Nr]. split; [apply (sseal_tok s); auto|]. unfold linv. cbn [set_tok s_tok]. rewrite B. split; [discriminate|intros Q; exfalso; apply Q; reflexivity].
  - destruct (0 <? _)%Z; [|sinv; apply N]. destruct (slot_ok slot); sinv; apply N.
Qed.
End W.
